(** * CertProps: theorems about attribute certificates (C34-C42, C58-C61) *)

From Coq Require Import NArith ZArith List Bool Lia Permutation String.
From Verif Require Import PyBase Struct BytesProofs AttCert CertSpec CertProofs CertProofs2 CertProofs3.
Import ListNotations.
Open Scope Z_scope.

(** ** A certificate and a toy signature scheme for the examples *)

(** Keys are one byte, the hash is the text itself, a signature is the key and the length. *)
Definition toy : crypto := {|
  pub := N; prv := N;
  k_import := fun b => match b with [x] => Ok x | _ => Err EValue end;
  k_hash := fun b => b;
  k_sign := fun k h => Ok [k; N.of_nat (List.length h) mod 256]%N;
  k_verify := fun k h s => bytes_eqb s [k; N.of_nat (List.length h) mod 256]%N |}.
Definition ex_cert : cert :=
  Cert (Issuer [7]%N (lit "RSA") (lit "/aauth/1") (Some (lit "Authority")) None)
       (Holder [9]%N (lit "RSA") (lit "alice") None)
       (Info 0 1234567 1000)
       (Some [Att (lit "/attribute/user/age") AInt (Some (lit "42")) (Some (lit "age")) None;
              Att (lit "/attribute/user/role") AString None None (Some [1; 2; 3]%N)])
       (Rev 1000 87400 (Some (lit "http://x")) None)
       (Some (Del (Some [5]%N)))
       (Some [Ext (lit "e1") (Some [0]%N)])
       None.
Definition set_name (c : cert) (n : option str) : cert :=
  Cert (c_issuer c) (Holder (ho_key (c_holder c)) (ho_algo (c_holder c)) (ho_uid (c_holder c)) n)
       (c_info c) (c_atts c) (c_rev c) (c_del c) (c_exts c) (c_sig c).
Ltac allkept := repeat (constructor || discriminate || (eexists; split; [reflexivity|])).
Example ex_kept : body_kept ex_cert.
Proof.
  unfold body_kept, issuer_kept, holder_kept, rev_kept. cbn.
  repeat split; allkept.
Qed.
Example ex_octets : cert_octets ex_cert.
Proof. unfold cert_octets. cbn. repeat split; allkept; lia. Qed.

(** ** C34: sections *)

Theorem C34_information : forall i b r, info_encode i = Ok b -> info_decode (b ++ r) = Ok (i, r).
Proof. exact info_app. Qed.
Print Assumptions C34_information.

Lemma section_iff : forall {A} (dec : bytes -> res (A * bytes)) (rcv : A -> res A) (P : A -> Prop) x b r,
  dec (b ++ r) = (y <- rcv x ;; Ok (y, r)) -> (rcv x = Ok x <-> P x) -> (dec (b ++ r) = Ok (x, r) <-> P x).
Proof.
  intros A dec rcv P x b r H K. rewrite H, <- K. destruct (rcv x) as [y|e]; cbn [bind]; split; intros E; congruence.
Qed.

Theorem C34_issuer : forall i b r, issuer_encode i = Ok b -> (issuer_decode (b ++ r) = Ok (i, r) <-> issuer_kept i).
Proof. intros i b r H. exact (section_iff _ _ _ _ _ _ (issuer_app i b r H) (issuer_recv_same i)). Qed.
Print Assumptions C34_issuer.
Theorem C34_holder : forall i b r, holder_encode i = Ok b -> (holder_decode (b ++ r) = Ok (i, r) <-> holder_kept i).
Proof. intros i b r H. exact (section_iff _ _ _ _ _ _ (holder_app i b r H) (holder_recv_same i)). Qed.
Print Assumptions C34_holder.
Theorem C34_attribute : forall i b r, att_encode i = Ok b -> (att_decode (b ++ r) = Ok (i, r) <-> att_kept i).
Proof. intros i b r H. exact (section_iff _ _ _ _ _ _ (att_app i b r H) (att_recv_same i)). Qed.
Print Assumptions C34_attribute.
Theorem C34_revocation : forall i b r, rev_encode i = Ok b -> (rev_decode (b ++ r) = Ok (i, r) <-> rev_kept i).
Proof. intros i b r H. exact (section_iff _ _ _ _ _ _ (rev_app i b r H) (rev_recv_same i)). Qed.
Print Assumptions C34_revocation.
Theorem C34_delegation : forall i b r, del_encode i = Ok b -> (del_decode (b ++ r) = Ok (i, r) <-> del_kept i).
Proof.
  intros i b r H. rewrite (del_app i b r H), <- del_recv_same. split; intros E; congruence.
Qed.
Print Assumptions C34_delegation.
Theorem C34_extension : forall i b r, ext_encode i = Ok b -> (ext_decode (b ++ r) = Ok (i, r) <-> ext_kept i).
Proof. intros i b r H. exact (section_iff _ _ _ _ _ _ (ext_app i b r H) (ext_recv_same i)). Qed.
Print Assumptions C34_extension.
Theorem C34_signature : forall i b r, sig_encode i = Ok b -> (sig_decode (b ++ r) = Ok (i, r) <-> sig_kept i).
Proof. intros i b r H. exact (section_iff _ _ _ _ _ _ (sig_app i b r H) (sig_recv_same i)). Qed.
Print Assumptions C34_signature.

Example ex_section : exists b, issuer_encode (c_issuer ex_cert) = Ok b /\
  issuer_decode (b ++ [1; 2]%N) = Ok (c_issuer ex_cert, [1; 2]%N).
Proof. eexists. split; [vm_compute; reflexivity|vm_compute; reflexivity]. Qed.
(** An empty name comes back as None, a name outside ASCII does not come back. *)
Example ex_section_lost :
  (exists b, holder_encode (Holder [9]%N [] [] (Some [])) = Ok b /\ holder_decode b = Ok (Holder [9]%N [] [] None, [])) /\
  (exists b, holder_encode (Holder [9]%N [] [] (Some [233; 97]%N)) = Ok b /\ holder_decode b = Ok (Holder [9]%N [] [] (Some [233]%N), [])).
Proof. split; eexists; (split; [vm_compute; reflexivity|vm_compute; reflexivity]). Qed.

(** ** C58: when encoding fails *)

Theorem C58_body : forall c, (exists b, encode_body c = Ok b) <-> body_fits c.
Proof. exact body_ok. Qed.
Print Assumptions C58_body.
Theorem C58_errors : forall c e, encode_body c = Err e -> e = EStruct \/ e = EUnicodeEncode \/ e = EOverflow.
Proof. exact body_err. Qed.
Print Assumptions C58_errors.
(** With the signature; a signature with a missing part is a TypeError. *)
Theorem C58_encode : forall K c k algo,
  (exists b, ac_encode K c false k algo = (c, Ok b)) <-> body_fits c /\ if_some sig_fits (c_sig c).
Proof.
  intros K c k algo. rewrite <- (body_ok c). unfold ac_encode, ok.
  destruct (encode_body c) as [b|e].
  - assert (G : (exists s, (match c_sig c with Some s => sig_encode s | None => Ok [0; 0; 0; 0]%N end) = Ok s) <->
                if_some sig_fits (c_sig c)).
    { destruct (c_sig c) as [s|]; cbn [if_some]; [apply sig_ok|]. split; [trivial|]. intros _. eexists; reflexivity. }
    rewrite <- G. destruct (match c_sig c with Some s => sig_encode s | None => Ok [0; 0; 0; 0]%N end) as [s|e]; cbn [bind].
    + split; [|intros _; eexists; reflexivity]. intros _. split; [exists b; reflexivity|exists s; reflexivity].
    + split; [intros [x X]; congruence|intros [_ [x X]]; congruence].
  - split; [intros [x X]; congruence|intros [[x X] _]; congruence].
Qed.
Print Assumptions C58_encode.
Example ex_fits : body_fits ex_cert /\ ~ body_fits (set_name ex_cert (Some [55296]%N)).
Proof.
  split; [apply body_ok; eexists; vm_compute; reflexivity|].
  intros H. apply body_ok in H as [b H]. vm_compute in H. discriminate.
Qed.

(** ** C35: whole certificates *)

(** What is handed to import_ac from what export_ac returned. *)
Definition reads (f : xformat) (o : pyout) (i : pyin) : Prop :=
  match f, o with
  | FBytes, OutBytes b => i = InArray b
  | FBase64, OutBytes b => i = InArray b \/ i = InBytes b \/ i = InStr b
  | FBase64Full, OutStr s => i = InStr s
  | _, _ => False
  end.
Definition kept (c : cert) : Prop := body_kept c /\ if_some sig_kept (c_sig c).

Definition sig_bytes (c : cert) : res bytes := match c_sig c with Some s => sig_encode s | None => Ok [0; 0; 0; 0]%N end.
Definition sig_wire (o : option ac_sig) : res (option ac_sig) :=
  match o with
  | None => Ok None
  | Some s => t <- sig_recv s ;; Ok (match t with Sig None None => None | _ => Some t end)
  end.
Definition check (K : crypto) (c : cert) (v : bool) : res cert :=
  if v then ok <- verify_signature K c ;; if ok then Ok c else Err EGeneric else Ok c.

Lemma decode_wire : forall K c b s v, (forall r, decode_body (b ++ r) = (x <- body_recv c ;; Ok (x, r))) -> sig_bytes c = Ok s ->
  ac_decode K (b ++ s) v = (x <- body_recv c ;; g <- sig_wire (c_sig c) ;; check K (with_sig x g) v).
Proof.
  intros K c b s v B S. unfold ac_decode. rewrite B. destruct (body_recv c) as [x|e]; cbn [bind]; [|reflexivity].
  unfold sig_bytes in S. destruct (c_sig c) as [g|]; cbn [sig_wire].
  - pose proof (sig_app g s [] S) as D. rewrite app_nil_r in D. rewrite D.
    destruct (sig_recv g) as [t|e]; reflexivity.
  - apply Ok_inj in S. subst s. reflexivity.
Qed.

Lemma sig_wire_same : forall c s, sig_bytes c = Ok s -> (sig_wire (c_sig c) = Ok (c_sig c) <-> if_some sig_kept (c_sig c)).
Proof.
  intros c s S. unfold sig_bytes in S. destruct (c_sig c) as [g|]; cbn [sig_wire if_some]; [|split; trivial].
  rewrite <- sig_recv_same. destruct (sig_recv g) as [t|e]; cbn [bind]; [|split; discriminate].
  destruct t as [[a|] [w|]]; split; intros H; try congruence.
  - injection H as H. subst g. discriminate.
Qed.

Lemma split4 : forall c w1 w2 w3 w3' w4 w5, ~ In c w1 -> ~ In c w2 -> ~ In c (w3 ++ w3') -> ~ In c w4 ->
  nth_error (split_on c ((w1 ++ c :: w2 ++ c :: w3 ++ w3' ++ [c]) ++ w4 ++ c :: w5)) 3 = Some w4.
Proof.
  intros c w1 w2 w3 w3' w4 w5 H1 H2 H3 H4.
  replace ((w1 ++ c :: w2 ++ c :: w3 ++ w3' ++ [c]) ++ w4 ++ c :: w5)
    with (w1 ++ c :: w2 ++ c :: (w3 ++ w3') ++ c :: w4 ++ c :: w5).
  - rewrite split_app by exact H1. rewrite split_app by exact H2. rewrite split_app by exact H3.
    rewrite split_app by exact H4. reflexivity.
  - repeat (rewrite <- app_assoc || rewrite <- app_comm_cons); reflexivity.
Qed.

Lemma out_inj : forall A B (a b : A) (x y : B), (a, Ok x) = (b, Ok y) -> a = b /\ x = y.
Proof. intros A B a b x y H. injection H as H1 H2. now split. Qed.

Lemma import_out : forall K c f k algo c' o i v, cert_octets c ->
  ac_export K c f false k algo = (c', Ok o) -> reads f o i ->
  c' = c /\ exists b s, encode_body c = Ok b /\ sig_bytes c = Ok s /\ octets (b ++ s) /\ ac_import K i f v = ac_decode K (b ++ s) v.
Proof.
  intros K c f k algo c' o i v O E R. unfold ac_export, ac_encode in E.
  assert (G : forall b s, encode_body c = Ok b -> sig_bytes c = Ok s -> octets (b ++ s)).
  { intros b s B S. apply octets_app; [exact (body_octets c b B O)|]. unfold sig_bytes in S.
    destruct O as (_ & _ & _ & _ & _ & _ & O). destruct (c_sig c) as [g|]; [exact (sig_octets g s S O)|].
    apply Ok_inj in S. subst s. repeat constructor. }
  fold (sig_bytes c) in E.
  destruct f; try discriminate; try (destruct o; contradiction);
    (destruct (encode_body c) as [b|] eqn:B; [|discriminate]); cbv beta iota zeta in E; fold (sig_bytes c) in E;
    (destruct (sig_bytes c) as [s|] eqn:S; cbn [bind] in E; [|discriminate]);
    pose proof (G b s eq_refl eq_refl) as Oct; apply out_inj in E as [<- <-]; (split; [reflexivity|]); exists b, s;
    (split; [reflexivity|]); (split; [reflexivity|]); (split; [exact Oct|]).
  - cbn in R. subst i. reflexivity.
  - cbn in R. destruct (b64_text _ Oct) as [A _].
    destruct R as [->|[->| ->]]; unfold ac_import, b64decode_str; rewrite ?A, (b64_round_trip _ Oct); reflexivity.
  - cbv beta iota delta [reads] in R. subst i. unfold ac_import. destruct (b64_text _ Oct) as [A N].
    cbv beta iota. rewrite split4; [|vm_compute; intuition discriminate|vm_compute; intuition discriminate| |exact N].
    + unfold b64decode_str. now rewrite A, (b64_round_trip _ Oct).
    + intros H. apply in_app_or in H as [H|H]; [revert H; vm_compute; intuition discriminate|].
      exact (str_of_Z_no_nl _ H).
Qed.

Theorem C35_round_trip : forall K c f k algo o i,
  cert_octets c -> ac_export K c f false k algo = (c, Ok o) -> reads f o i ->
  (ac_import K i f false = Ok c <-> kept c).
Proof.
  intros K c f k algo o i O E R.
  destruct (import_out K c f k algo c o i false O E R) as (_ & b & s & B & S & _ & ->).
  rewrite (decode_wire K c b s false (fun r => body_app c b r B) S).
  unfold kept. rewrite <- body_recv_same, <- (sig_wire_same c s S). unfold check, no_sig.
  destruct (body_recv c) as [x|e] eqn:X; cbn [bind].
  2:{ split; [discriminate|intros [H _]; discriminate]. }
  assert (XS : c_sig x = None).
  { unfold body_recv in X. unbind X. apply Ok_inj in X. now subst x. }
  destruct (sig_wire (c_sig c)) as [g|e]; cbn [bind].
  - split.
    + intros H. apply Ok_inj in H. subst c. destruct x; cbn in *. subst. split; reflexivity.
    + intros [H1 H2]. apply Ok_inj in H1. apply Ok_inj in H2. subst x g. destruct c; reflexivity.
  - split; [discriminate|intros [_ H]; discriminate].
Qed.
Print Assumptions C35_round_trip.

Definition ex_signed : cert := with_sig ex_cert (Some (Sig (Some default_algo) (Some [7; 200]%N))).
Example ex_export : forall f, f = FBytes \/ f = FBase64 \/ f = FBase64Full ->
  exists o, ac_export toy ex_signed f false None default_algo = (ex_signed, Ok o).
Proof. intros f [->|[->| ->]]; eexists; vm_compute; reflexivity. Qed.
Example ex_round_trip : exists b, ac_export toy ex_signed FBytes false None default_algo = (ex_signed, Ok (OutBytes b)) /\
  ac_import toy (InArray b) FBytes false = Ok ex_signed.
Proof. eexists. split; [vm_compute; reflexivity|vm_compute; reflexivity]. Qed.

(** ** C36: the signed bytes determine the content *)

Theorem C36_exact : forall a b w, body_ascii a -> encode_body a = Ok w ->
  (encode_body b = Ok w <-> normal b = normal a).
Proof.
  intros a b w A E. split.
  - intros F. pose proof (body_app a w [] E) as Da. rewrite (body_app b w [] F) in Da.
    rewrite (recv_normal a A) in Da. cbn [bind] in Da.
    destruct (body_recv b) as [x|e] eqn:X; cbn [bind] in Da; [|discriminate]. apply Ok_inj in Da. injection Da as ->.
    assert (N : body_ascii b).
    { apply (body_recv_ascii b (normal a) X). apply (body_recv_ascii a (normal a) (recv_normal a A)). exact A. }
    rewrite (recv_normal b N) in X. now apply Ok_inj in X.
  - intros N. now rewrite <- (encode_normal b), N, encode_normal.
Qed.
Print Assumptions C36_exact.

Theorem C36_content : forall a b w, body_kept a -> body_kept b ->
  encode_body a = Ok w -> encode_body b = Ok w -> same_content a b.
Proof.
  intros a b w A B E F. apply (C36_exact a b w (kept_ascii a A) E) in F.
  rewrite (kept_normal a A), (kept_normal b B) in F. unfold no_sig in F. injection F as F1 F2 F3 F4 F5 F6 F7.
  unfold same_content. auto 10.
Qed.
Print Assumptions C36_content.

(** ** C37, C59: text outside ASCII *)

(** The holder names é and è give the same signed bytes, in every certificate. *)
Theorem C37_collision : forall K c,
  let a := set_name c (Some [233]%N) in
  let b := set_name c (Some [232]%N) in
  a <> b /\ encode_body a = encode_body b /\ verify_signature K a = verify_signature K b.
Proof.
  intros K c a b. split; [intros H; apply (f_equal (fun x => ho_name (c_holder x))) in H; discriminate|].
  assert (E : encode_body a = encode_body b).
  { unfold encode_body, a, b, set_name. cbn [c_issuer c_holder c_info c_atts c_rev c_del c_exts].
    f_equal. }
  split; [exact E|]. unfold verify_signature. rewrite E. reflexivity.
Qed.
Print Assumptions C37_collision.

(** A field survives exactly if it is ASCII (for the optional ones: and not empty). *)
Theorem C37_fields : forall c b r c' ,
  encode_body c = Ok b -> decode_body (b ++ r) = Ok (c', r) ->
  (is_algo (c_issuer c') = is_algo (c_issuer c) <-> ascii (is_algo (c_issuer c))) /\
  (is_uid (c_issuer c') = is_uid (c_issuer c) <-> ascii (is_uid (c_issuer c))) /\
  (is_name (c_issuer c') = is_name (c_issuer c) <-> if_some text_kept (is_name (c_issuer c))) /\
  (is_url (c_issuer c') = is_url (c_issuer c) <-> if_some text_kept (is_url (c_issuer c))) /\
  (ho_algo (c_holder c') = ho_algo (c_holder c) <-> ascii (ho_algo (c_holder c))) /\
  (ho_uid (c_holder c') = ho_uid (c_holder c) <-> ascii (ho_uid (c_holder c))) /\
  (ho_name (c_holder c') = ho_name (c_holder c) <-> if_some text_kept (ho_name (c_holder c))) /\
  (rv_url (c_rev c') = rv_url (c_rev c) <-> if_some text_kept (rv_url (c_rev c))).
Proof.
  intros c b r c' E D. rewrite (body_app c b r E) in D.
  destruct (body_recv c) as [x|] eqn:X; cbn [bind] in D; [|discriminate]. apply Ok_inj in D. injection D as ->.
  unfold body_recv in X.
  destruct (issuer_recv (c_issuer c)) as [is|] eqn:E1; cbn [bind] in X; [|discriminate].
  destruct (holder_recv (c_holder c)) as [ho|] eqn:E2; cbn [bind] in X; [|discriminate].
  destruct (mapM att_recv (or_nil (c_atts c))) as [atts|] eqn:E3; cbn [bind] in X; [|discriminate].
  destruct (rev_recv (c_rev c)) as [rv|] eqn:E4; cbn [bind] in X; [|discriminate].
  destruct (mapM ext_recv (or_nil (c_exts c))) as [exts|] eqn:E5; cbn [bind] in X; [|discriminate].
  apply Ok_inj in X. subst c'. cbn [c_issuer c_holder c_rev].
  unfold issuer_recv in E1. unbind E1. apply Ok_inj in E1. subst is.
  unfold holder_recv in E2. unbind E2. apply Ok_inj in E2. subst ho.
  unfold rev_recv in E4. unbind E4. apply Ok_inj in E4. subst rv.
  cbn [is_algo is_uid is_name is_url ho_algo ho_uid ho_name rv_url].
  rewrite <- !recv_opt_same, <- !recv_text_same.
  repeat match goal with H : recv_text ?s = Ok _ |- _ => rewrite H; clear H
                       | H : recv_opt ?s = Ok _ |- _ => rewrite H; clear H end.
  repeat (split; [split; intros; congruence|]). split; intros; congruence.
Qed.
Print Assumptions C37_fields.

(** What is verified after transport is not what was signed. *)
Theorem C59_verifies_other_bytes : forall c b r c',
  ~ body_ascii c -> encode_body c = Ok b -> decode_body (b ++ r) = Ok (c', r) -> encode_body c' <> Ok b.
Proof.
  intros c b r c' N E D F. rewrite (body_app c b r E) in D.
  destruct (body_recv c) as [x|] eqn:X; cbn [bind] in D; [|discriminate]. apply Ok_inj in D. injection D as ->.
  pose proof (body_app c b [] E) as D1. rewrite (body_app c' b [] F) in D1. rewrite X in D1. cbn [bind] in D1.
  destruct (body_recv c') as [y|] eqn:Y; cbn [bind] in D1; [|discriminate]. apply Ok_inj in D1. injection D1 as ->.
  assert (S : c' = no_sig c').
  { unfold body_recv in X. unbind X. apply Ok_inj in X. now subst c'. }
  rewrite S in Y at 2. apply body_recv_same in Y. apply kept_ascii in Y. apply N.
  now apply (body_recv_ascii c c' X).
Qed.
Print Assumptions C59_verifies_other_bytes.

(** So a signed export of such a certificate is never accepted, unless the signature scheme
    accepts the signature of other bytes. *)
Theorem C59_rejected : forall K c sk algo c' b,
  ~ body_ascii c -> ac_encode K c true (Some sk) algo = (c', Ok b) ->
  (forall pk w w' s, w <> w' -> k_sign K sk (k_hash K w) = Ok s -> k_verify K pk (k_hash K w') s = false) ->
  forall x, ac_decode K b true <> Ok x.
Proof.
  intros K c sk algo c' b N E U x D. unfold ac_encode in E.
  destruct (encode_body c) as [w|] eqn:B; [|discriminate]. unfold sign in E. rewrite B in E. cbn [bind] in E.
  destruct (k_sign K sk (k_hash K w)) as [s|] eqn:Sg; cbn [bind] in E; [|discriminate].
  set (c1 := with_sig c (Some (Sig (Some algo) (Some s)))) in *.
  destruct (sig_bytes c1) as [t|] eqn:T; cbn [sig_bytes] in T; unfold sig_bytes in T; cbn in E, T;
    rewrite T in E; cbn [bind] in E; [|discriminate].
  injection E as _ <-.
  assert (B1 : encode_body c1 = Ok w) by exact B.
  assert (R1 : body_recv c1 = body_recv c) by reflexivity.
  rewrite (decode_wire K c1 w t true (fun r => body_app c1 w r B1) T), R1 in D.
  destruct (body_recv c) as [y|] eqn:Y; cbn [bind] in D; [|discriminate].
  assert (Dy : decode_body (w ++ []) = Ok (y, [])) by (rewrite (body_app c w [] B), Y; reflexivity).
  pose proof (C59_verifies_other_bytes c w [] y N B Dy) as W.
  cbn [c_sig c1 with_sig sig_wire] in D. unfold sig_recv in D. cbn [sg_algo sg_value] in D.
  destruct (recv_opt (Some algo)) as [al|]; cbn [bind] in D; [|discriminate].
  unfold check, verify_signature in D. cbn [with_sig c_sig c_issuer] in D.
  assert (V : recv_bytes (Some s) = None \/ recv_bytes (Some s) = Some s) by (destruct s; [left|right]; reflexivity).
  destruct al as [al|], V as [V|V]; rewrite V in D; try discriminate.
  cbn [with_sig c_sig] in D.
  destruct (k_import K (is_key (c_issuer y))) as [pk|]; cbn [bind] in D; [|discriminate].
  change (encode_body (with_sig y (Some (Sig (Some al) (Some s))))) with (encode_body y) in D.
  destruct (encode_body y) as [w'|] eqn:W'; cbn [bind] in D; [|discriminate].
  rewrite (U pk w w' s) in D; [discriminate| |exact Sg]. intros ->. now apply W.
Qed.
Print Assumptions C59_rejected.
Example ex_non_ascii : ~ body_ascii (set_name ex_cert (Some [233; 97]%N)) /\
  exists b c', encode_body (set_name ex_cert (Some [233; 97]%N)) = Ok b /\ decode_body (b ++ []) = Ok (c', []).
Proof.
  split.
  - intros (_ & _ & _ & _ & _ & _ & A & _). cbn in A. inversion_clear A. lia.
  - eexists. eexists. split; [vm_compute; reflexivity|vm_compute; reflexivity].
Qed.
