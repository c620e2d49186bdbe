(** * CertProps2: theorems about signatures, validity and equality of certificates (C38-C42, C60) *)

From Coq Require Import NArith ZArith List Bool Lia Permutation String.
From Verif Require Import PyBase LexProofs Struct BytesProofs AttCert CertSpec CertProofs CertProofs2 CertProofs3 CertProps.
Import ListNotations.
Open Scope Z_scope.

(** ** C38: verified import *)

(** What must hold of a certificate for its signature to count. *)
Definition verified (K : crypto) (c : cert) : Prop :=
  exists a v pk w, c_sig c = Some (Sig (Some a) (Some v)) /\ k_import K (is_key (c_issuer c)) = Ok pk /\
    encode_body c = Ok w /\ k_verify K pk (k_hash K w) v = true.

Lemma verify_true : forall K c, verify_signature K c = Ok true <-> verified K c.
Proof.
  intros K c. unfold verify_signature, verified. split.
  - destruct (c_sig c) as [[[a|] [v|]]|]; try discriminate. intros H.
    destruct (k_import K (is_key (c_issuer c))) as [pk|]; cbn [bind] in H; [|discriminate].
    destruct (encode_body c) as [w|]; cbn [bind] in H; [|discriminate].
    apply Ok_inj in H. exists a, v, pk, w. auto.
  - intros (a & v & pk & w & -> & -> & -> & V). cbn [bind]. now rewrite V.
Qed.

Lemma decode_verify : forall K b c, ac_decode K b true = Ok c <-> ac_decode K b false = Ok c /\ verified K c.
Proof.
  intros K b c. unfold ac_decode. destruct (decode_body b) as [[x r]|]; cbn [bind]; [|split; [discriminate|intros []; discriminate]].
  destruct (sig_decode r) as [[s r']|]; cbn [bind]; [|split; [discriminate|intros []; discriminate]].
  destruct r' as [|y t]; [|split; [discriminate|intros []; discriminate]]. split.
  - intros H. destruct (verify_signature K _) as [[|]|] eqn:V; cbn [bind] in H; try discriminate.
    apply Ok_inj in H. split; [now f_equal|]. apply verify_true. now subst c.
  - intros [H V]. apply Ok_inj in H. subst c. apply verify_true in V. rewrite V. reflexivity.
Qed.

(** Import with verification returns exactly the certificates that import without it returns
    and whose signature verifies under the key they carry. *)
Theorem C38_verified : forall K i f c,
  ac_import K i f true = Ok c <-> ac_import K i f false = Ok c /\ verified K c.
Proof.
  intros K i f c.
  assert (G : forall r, (b <- r ;; ac_decode K b true) = Ok c <-> (b <- r ;; ac_decode K b false) = Ok c /\ verified K c).
  { intros [b|e]; cbn [bind]; [apply decode_verify|]. split; [discriminate|intros []; discriminate]. }
  destruct f; cbn [ac_import].
  - destruct i as [b|b|s]; [apply decode_verify| |].
    + destruct (issuer_decode b); cbn [bind]; split; try discriminate; intros []; discriminate.
    + split; [discriminate|intros []; discriminate].
  - split; [discriminate|intros []; discriminate].
  - split; [discriminate|intros []; discriminate].
  - apply G.
  - destruct i as [b|b|s]; try (split; [discriminate|intros []; discriminate]).
    destruct (nth_error (split_on nl s) 3); [apply G|]. split; [discriminate|intros []; discriminate].
Qed.
Print Assumptions C38_verified.

(** A missing or a bad signature is an Exception. *)
Theorem C38_rejected : forall K b c, ac_decode K b false = Ok c -> verify_signature K c = Ok false ->
  ac_decode K b true = Err EGeneric.
Proof.
  intros K b c D V. unfold ac_decode in *. destruct (decode_body b) as [[x r]|]; cbn [bind] in *; [|discriminate].
  destruct (sig_decode r) as [[s r']|]; cbn [bind] in *; [|discriminate].
  destruct r' as [|y t]; [|discriminate]. apply Ok_inj in D. rewrite D, V. reflexivity.
Qed.
Print Assumptions C38_rejected.
Theorem C38_unsigned : forall K b c, ac_decode K b false = Ok c -> c_sig c = None -> ac_decode K b true = Err EGeneric.
Proof.
  intros K b c D S. apply (C38_rejected K b c D). unfold verify_signature. now rewrite S.
Qed.
Print Assumptions C38_unsigned.

(** Bytes after an encoded certificate are an Exception, with and without verification. *)
Theorem C38_trailing : forall K c k algo b c' v x t,
  ac_encode K c false k algo = (c, Ok b) -> ac_decode K b false = Ok c' ->
  ac_decode K (b ++ x :: t) v = Err EGeneric.
Proof.
  intros K c k algo b c' v x t E D. unfold ac_encode in E.
  destruct (encode_body c) as [w|] eqn:B; [|discriminate]. cbv beta iota zeta in E. fold (sig_bytes c) in E.
  destruct (sig_bytes c) as [s|] eqn:S; cbn [bind] in E; [|discriminate]. apply out_inj in E as [_ <-].
  rewrite (decode_wire K c w s false (fun r => body_app c w r B) S) in D.
  unfold ac_decode. rewrite <- app_assoc, (body_app c w _ B).
  destruct (body_recv c) as [y|]; cbn [bind] in *; [|discriminate].
  unfold sig_bytes in S. destruct (c_sig c) as [g|]; cbn [sig_wire] in D.
  - rewrite (sig_app g s (x :: t) S). destruct (sig_recv g) as [g'|]; cbn [bind] in *; [reflexivity|discriminate].
  - apply Ok_inj in S. subst s. reflexivity.
Qed.
Print Assumptions C38_trailing.

(** But not after an arbitrary one: a signature may be shorter than announced. *)
Theorem C38_trailing_refuted : exists K b x c c',
  ac_decode K b false = Ok c /\ ac_decode K (b ++ [x]) false = Ok c' /\ c <> c'.
Proof.
  assert (E : exists w, encode_body ex_cert = Ok w) by (eexists; vm_compute; reflexivity). destruct E as [w W].
  exists toy, (w ++ [1; 0; 2; 0; 65; 66]%N), 67%N,
    (with_sig ex_cert (Some (Sig (Some [65]%N) (Some [66]%N)))), (with_sig ex_cert (Some (Sig (Some [65]%N) (Some [66; 67]%N)))).
  vm_compute in W. apply Ok_inj in W. subst w.
  split; [vm_compute; reflexivity|]. split; [vm_compute; reflexivity|]. discriminate.
Qed.
Print Assumptions C38_trailing_refuted.

(** ** C39: signed export *)

(** A working key pair: what the private key signs, the public key accepts; signatures are
    not empty. *)
Definition key_pair (K : crypto) (sk : prv K) (pk : pub K) : Prop :=
  forall h s, k_sign K sk h = Ok s -> k_verify K pk h s = true /\ s <> [] /\ octets s.

Lemma sign_export : forall K c f sk algo c' o, f <> FText ->
  ac_export K c f true (Some sk) algo = (c', Ok o) ->
  exists w s, encode_body c = Ok w /\ k_sign K sk (k_hash K w) = Ok s /\
    c' = with_sig c (Some (Sig (Some algo) (Some s))) /\ ac_export K c' f false None algo = (c', Ok o).
Proof.
  intros K c f sk algo c' o F E. unfold ac_export, ac_encode, sign in *.
  destruct (encode_body c) as [w|] eqn:B.
  2:{ destruct f; try congruence; discriminate. }
  cbn [bind] in E. exists w. destruct (k_sign K sk (k_hash K w)) as [s|] eqn:S; cbn [bind] in E.
  2:{ destruct f; try congruence; discriminate. }
  exists s. split; [reflexivity|]. split; [reflexivity|].
  assert (B1 : encode_body (with_sig c (Some (Sig (Some algo) (Some s)))) = Ok w) by exact B.
  assert (C : c' = with_sig c (Some (Sig (Some algo) (Some s)))).
  { destruct f; try congruence; cbv beta iota zeta in E; try discriminate; now apply (f_equal fst) in E. }
  split; [exact C|]. rewrite C in E |- *. rewrite B1.
  destruct f; try congruence; exact E.
Qed.

(** For ASCII text, the import returns the certificate with empty parts replaced by absent
    ones and the signature. *)
Theorem C39_ascii : forall K c f sk pk algo c' o i,
  f <> FText -> body_ascii c -> cert_octets c -> text_kept algo ->
  key_pair K sk pk -> k_import K (is_key (c_issuer c)) = Ok pk ->
  ac_export K c f true (Some sk) algo = (c', Ok o) -> reads f o i ->
  exists s, c' = with_sig c (Some s) /\ sg_algo s = Some algo /\
    ac_import K i f true = Ok (with_sig (normal c) (Some s)).
Proof.
  intros K c f sk pk algo c' o i F A O T P I E R.
  destruct (sign_export K c f sk algo c' o F E) as (w & s & B & S & -> & E').
  destruct (P _ _ S) as (V & N & Os). exists (Sig (Some algo) (Some s)). split; [reflexivity|]. split; [reflexivity|].
  set (c1 := with_sig c (Some (Sig (Some algo) (Some s)))) in *.
  assert (O1 : cert_octets c1).
  { destruct O as (O1 & O2 & O3 & O4 & O5 & O6 & _). unfold cert_octets. cbn [c1 with_sig c_issuer c_holder c_rev c_del c_atts c_exts c_sig if_some sg_value].
    auto 10. }
  destruct (import_out K c1 f None algo c1 o i true O1 E' R) as (_ & w1 & t & B1 & Sb & _ & ->).
  assert (w1 = w) by (change (encode_body c = Ok w1) in B1; congruence). subst w1.
  rewrite (decode_wire K c1 w t true (fun r => body_app c1 w r B1) Sb).
  change (body_recv c1) with (body_recv c). rewrite (recv_normal c A). cbn [bind c1 with_sig c_sig].
  assert (W : sig_wire (Some (Sig (Some algo) (Some s))) = Ok (Some (Sig (Some algo) (Some s)))).
  { apply (proj2 (sig_wire_same c1 t Sb)). cbn. split; [exact T|]. exact N. }
  rewrite W. cbn [bind]. unfold check, verify_signature. cbn [with_sig c_sig c_issuer].
  assert (Ki : is_key (c_issuer (normal c)) = is_key (c_issuer c)) by (destruct c; reflexivity).
  rewrite Ki, I. cbn [bind].
  assert (Bn : encode_body (with_sig (normal c) (Some (Sig (Some algo) (Some s)))) = Ok w).
  { transitivity (encode_body (normal c)); [reflexivity|]. now rewrite encode_normal. }
  rewrite Bn. cbn [bind]. rewrite V. reflexivity.
Qed.
Print Assumptions C39_ascii.

Theorem C39_signed : forall K c f sk pk algo c' o i,
  f <> FText -> body_kept c -> cert_octets c -> text_kept algo ->
  key_pair K sk pk -> k_import K (is_key (c_issuer c)) = Ok pk ->
  ac_export K c f true (Some sk) algo = (c', Ok o) -> reads f o i ->
  same_content c' c /\ ac_import K i f true = Ok c'.
Proof.
  intros K c f sk pk algo c' o i F A O T P I E R.
  destruct (C39_ascii K c f sk pk algo c' o i F (kept_ascii c A) O T P I E R) as (s & -> & _ & M).
  rewrite (kept_normal c A) in M. split; [unfold same_content; cbn; auto 10|]. exact M.
Qed.
Print Assumptions C39_signed.

(** The signed export succeeds for every certificate that can be encoded. *)
Theorem C39_exported : forall K c f sk algo s,
  f = FBytes \/ f = FBase64 \/ f = FBase64Full -> body_fits c -> text_fits algo ->
  (forall w, encode_body c = Ok w -> k_sign K sk (k_hash K w) = Ok s) -> small s ->
  exists o, ac_export K c f true (Some sk) algo = (with_sig c (Some (Sig (Some algo) (Some s))), Ok o).
Proof.
  intros K c f sk algo s F B T S L. apply body_ok in B as [w W]. specialize (S w W).
  assert (G : exists t, sig_encode (Sig (Some algo) (Some s)) = Ok t).
  { apply sig_ok. exists algo, s. auto. }
  destruct G as [t Gt].
  assert (X : ac_encode K c true (Some sk) algo = (with_sig c (Some (Sig (Some algo) (Some s))), Ok (w ++ t))).
  { unfold ac_encode, sign. rewrite W. cbn [bind]. rewrite S. cbn [bind with_sig c_sig]. rewrite Gt. reflexivity. }
  destruct F as [->|[->| ->]]; unfold ac_export; rewrite X; eexists; reflexivity.
Qed.
Print Assumptions C39_exported.

Example toy_pair : key_pair toy (7%N : prv toy) (7%N : pub toy).
Proof.
  intros h s H. cbn in H. apply Ok_inj in H. subst s.
  split; [cbn [toy k_verify]; now apply str_eqb_eq|].
  split; [discriminate|]. repeat constructor; apply N.mod_lt; discriminate.
Qed.
Example ex_signed_export : exists c' o, ac_export toy ex_cert FBase64Full true (Some (7%N : prv toy)) default_algo = (c', Ok (OutStr o)) /\
  ac_import toy (InStr o) FBase64Full true = Ok c'.
Proof. eexists. eexists. split; [vm_compute; reflexivity|vm_compute; reflexivity]. Qed.

(** ** C40: what an accepted certificate says about the signer *)

Lemma sig_decode_nonempty : forall b x, sig_decode b = Ok x -> b <> [].
Proof. intros b x H ->. discriminate. Qed.

(** [signed] are the certificates that the holder of the key signed.  If the key accepts only
    signatures of those, then an accepted certificate is one of them (up to absent and empty
    parts). *)
Theorem C40_content : forall K (signed : cert -> Prop) b c pk,
  (forall c0, signed c0 -> body_ascii c0) ->
  (forall w v, k_verify K pk (k_hash K w) v = true -> exists c0, signed c0 /\ encode_body c0 = Ok w) ->
  ac_decode K b true = Ok c -> k_import K (is_key (c_issuer c)) = Ok pk ->
  exists c0, signed c0 /\ same_content c (normal c0).
Proof.
  intros K signed b c pk A U D I. apply decode_verify in D as [D (a & v & pk' & w & S & I' & B & V)].
  assert (pk' = pk) by congruence. subst pk'.
  destruct (U w v V) as (c0 & L & B0). exists c0. split; [exact L|].
  pose proof (body_app c w [] B) as D1. rewrite (body_app c0 w [] B0), (recv_normal c0 (A c0 L)) in D1. cbn [bind] in D1.
  destruct (body_recv c) as [x|] eqn:X; cbn [bind] in D1; [|discriminate]. apply Ok_inj in D1. injection D1 as <-.
  assert (An : body_ascii (normal c0)) by (apply (body_recv_ascii c0 (normal c0) (recv_normal c0 (A c0 L))); exact (A c0 L)).
  assert (Ac : body_ascii c) by (apply (body_recv_ascii c _ X); exact An).
  unfold ac_decode in D. destruct (decode_body b) as [[y r]|] eqn:Db; cbn [bind] in D; [|discriminate].
  destruct (sig_decode r) as [[g r']|] eqn:Dr; cbn [bind] in D; [|discriminate].
  destruct r'; [|discriminate]. apply Ok_inj in D. subst c.
  assert (Ky : body_kept (with_sig y (match g with Sig None None => None | _ => Some g end))).
  { apply (decode_body_kept b y r Db (sig_decode_nonempty _ _ Dr)). exact Ac. }
  rewrite (recv_normal _ Ac) in X. apply Ok_inj in X. rewrite <- X, (kept_normal _ Ky).
  unfold same_content, no_sig. cbn. auto 10.
Qed.
Print Assumptions C40_content.

Lemma info_long : forall i b, info_encode i = Ok b ->
  exists b', List.length b' = S (List.length b) /\ forall r, info_decode (b' ++ r) = Ok (i, r).
Proof.
  intros i b H. unfold info_encode in H.
  destruct (pack_u 1 (i_version i)) as [v|] eqn:V; cbn [bind] in H; [|discriminate].
  destruct (pack_u 1 (Z.of_nat serial_bytes)) as [l|] eqn:L; cbn [bind] in H; [|discriminate].
  destruct ((0 <=? i_serial i) && (i_serial i <? 256 ^ Z.of_nat serial_bytes)) eqn:S; cbn [bind] in H; [|discriminate].
  destruct (pack_u 4 (i_issued i)) as [t|] eqn:T; cbn [bind] in H; [|discriminate]. apply Ok_inj in H. subst b.
  apply andb_prop in S as [S1 S2]. apply Z.leb_le in S1. apply Z.ltb_lt in S2.
  destruct (pack_u 1 21) as [l'|] eqn:L'; [|discriminate].
  set (s' := le_bytes 21 (Z.to_N (i_serial i))).
  exists (v ++ l' ++ s' ++ t). split.
  - rewrite !app_length, (pack1 _ _ L'), (pack1 _ _ L). unfold s'. rewrite !le_bytes_length. unfold serial_bytes. lia.
  - intros r. unfold info_decode. rewrite <- !app_assoc. rewrite (app_assoc v l'). header (v ++ l') (s' ++ t ++ r).
    rewrite (cut_app 21 s') by (unfold s'; rewrite le_bytes_length; reflexivity).
    rewrite (get_u_pack 4 _ t r T). cbn [bind]. unfold s'. rewrite le_val_bytes.
    + rewrite Z2N.id by lia. destruct i; reflexivity.
    + unfold serial_bytes in S2. change (256 ^ Z.of_nat 20) with (2 ^ 160) in S2.
      apply N2Z.inj_lt. rewrite Z2N.id by lia. change (Z.of_N (256 ^ N.of_nat 21)) with (2 ^ 168). 
      assert (2 ^ 160 < 2 ^ 168) by reflexivity. lia.
Qed.

(** Every certificate has other encodings, which decode and verify just as well. *)
Theorem C40_malleable : forall K c k algo b, ac_encode K c false k algo = (c, Ok b) ->
  exists b', b' <> b /\ forall v, ac_decode K b' v = ac_decode K b v.
Proof.
  intros K c k algo b E. unfold ac_encode in E.
  destruct (encode_body c) as [w|] eqn:B; [|discriminate]. cbv beta iota zeta in E. fold (sig_bytes c) in E.
  destruct (sig_bytes c) as [s|] eqn:S; cbn [bind] in E; [|discriminate]. apply out_inj in E as [_ <-].
  destruct (encode_body_parts c w B) as (is & ho & inf & at_ & rv & de & ex & P & Ei & W).
  destruct (info_long _ _ Ei) as (inf' & L & Di).
  exists ((is ++ ho ++ inf' ++ at_ ++ rv ++ de ++ ex) ++ s). split.
  - subst w. intros X. apply (f_equal (@List.length N)) in X. rewrite !app_length in X. lia.
  - intros v. rewrite (decode_wire K c w s v (fun r => body_app c w r B) S).
    rewrite (decode_wire K c (is ++ ho ++ inf' ++ at_ ++ rv ++ de ++ ex) s v); [reflexivity| |exact S].
    intros r. apply parts_app. destruct P. constructor; assumption.
Qed.
Print Assumptions C40_malleable.

(** ** C41: the validity period *)

Theorem C41_open : forall c now, verify_time c now = true <-> rv_after (c_rev c) < now < rv_before (c_rev c).
Proof. intros c now. unfold verify_time. rewrite andb_true_iff, !Z.ltb_lt. reflexivity. Qed.
Print Assumptions C41_open.
(** With the default rules made at [now]: valid from the next second to the end of the day. *)
Theorem C41_default : forall c now url x, c_rev c = make_rev now None None url x ->
  verify_time c now = false /\ forall t, verify_time c t = true <-> now + 1 <= t <= now + 86399.
Proof.
  intros c now url x H. unfold verify_time. rewrite H. cbn [make_rev rv_after rv_before]. unfold default_length. split.
  - now rewrite Z.ltb_irrefl.
  - intros t. rewrite andb_true_iff, !Z.ltb_lt. lia.
Qed.
Print Assumptions C41_default.
(** Once over, over for good; and the valid times have no gap. *)
Theorem C41_interval : forall c t1 t2 t3, t1 <= t2 <= t3 ->
  verify_time c t1 = true -> (verify_time c t3 = true -> verify_time c t2 = true) /\
  (verify_time c t2 = false -> verify_time c t3 = false).
Proof.
  intros c t1 t2 t3 L V1. rewrite C41_open in V1. split.
  - rewrite !C41_open. lia.
  - intros V2. destruct (verify_time c t3) eqn:V3; [|reflexivity]. rewrite C41_open in V3.
    rewrite <- V2. symmetry. rewrite C41_open. lia.
Qed.
Print Assumptions C41_interval.
Example ex_time : verify_time ex_cert 1000 = false /\ verify_time ex_cert 1001 = true /\
  verify_time ex_cert 87399 = true /\ verify_time ex_cert 87400 = false.
Proof. vm_compute. auto. Qed.

(** ** C42: equality *)

Lemma bytes_eqb_eq : forall a b, bytes_eqb a b = true <-> a = b.
Proof. exact str_eqb_eq. Qed.
Lemma opt_eqb_eq : forall A (e : A -> A -> bool), (forall a b, e a b = true <-> a = b) ->
  forall a b, opt_eqb e a b = true <-> a = b.
Proof.
  intros A e H [a|] [b|]; cbn [opt_eqb]; split; intros X; try discriminate; try reflexivity.
  - apply H in X. now subst.
  - injection X as ->. now apply H.
Qed.
Ltac eqs := rewrite ?andb_true_iff, ?bytes_eqb_eq, ?str_eqb_eq, ?Z.eqb_eq,
  ?(opt_eqb_eq _ _ str_eqb_eq), ?(opt_eqb_eq _ _ bytes_eqb_eq).
Lemma atype_eqb_eq : forall a b, atype_eqb a b = true <-> a = b.
Proof. intros [] []; cbv; split; congruence. Qed.
Lemma att_eqb_eq : forall a b, att_eqb a b = true <-> a = b.
Proof.
  intros a b. unfold att_eqb. eqs. rewrite atype_eqb_eq. destruct a, b; cbn. split; [intros [[[[-> ->] ->] ->] ->]; reflexivity|].
  intros H; injection H as -> -> -> -> ->. auto.
Qed.
Lemma ext_eqb_eq : forall a b, ext_eqb a b = true <-> a = b.
Proof.
  intros a b. unfold ext_eqb. eqs. destruct a, b; cbn. split; [intros [-> ->]; reflexivity|].
  intros H; injection H as -> ->. auto.
Qed.

Section Sets.
Context {A : Type} (id : A -> str) (eqb : A -> A -> bool).
Hypothesis eqb_ok : forall a b, eqb a b = true <-> a = b.

Lemma match_first_in : forall x m, match_first id eqb x m = true -> In x m.
Proof.
  intros x. induction m as [|y m IH]; cbn; [discriminate|]. destruct (str_eqb (id x) (id y)).
  - intros H. apply eqb_ok in H. auto.
  - auto.
Qed.
Lemma match_first_one : forall x m, In x m -> (forall y, In y m -> id x = id y -> x = y) -> match_first id eqb x m = true.
Proof.
  intros x. induction m as [|y m IH]; cbn; [contradiction|]. intros I U. destruct (str_eqb (id x) (id y)) eqn:E.
  - apply str_eqb_eq in E. apply eqb_ok. apply U; auto.
  - apply IH; [|intros z Z; apply U; auto]. destruct I as [->|I]; [|exact I].
    rewrite (proj2 (str_eqb_eq (id x) (id x)) eq_refl) in E. discriminate.
Qed.
Lemma match_first_unique : forall m, forallb (fun x => match_first id eqb x m) m = true <->
  (forall x y, In x m -> In y m -> id x = id y -> x = y).
Proof.
  intros m. rewrite forallb_forall. split.
  - intros H. assert (F : forall x y l, match_first id eqb x l = true -> match_first id eqb y l = true -> id x = id y -> x = y).
    { intros x y. induction l as [|z l IH]; cbn; [discriminate|]. intros X Y E. rewrite E in X.
      destruct (str_eqb (id y) (id z)); [|auto]. apply eqb_ok in X. apply eqb_ok in Y. congruence. }
    intros x y X Y E. exact (F x y m (H x X) (H y Y) E).
  - intros U x X. apply match_first_one; [exact X|]. intros y Y. now apply U.
Qed.
Lemma nodup_inj : forall l, NoDup (map id l) -> forall x y, In x l -> In y l -> id x = id y -> x = y.
Proof.
  induction l as [|z l IH]; cbn; [contradiction|]. intros N x y X Y E. inversion_clear N as [|? ? N1 N2].
  destruct X as [->|X], Y as [->|Y]; auto.
  - exfalso. apply N1. rewrite E. now apply in_map.
  - exfalso. apply N1. rewrite <- E. now apply in_map.
Qed.
Lemma sets_meaning : forall a b, if_some (fun l => NoDup (map id l)) a ->
  (sets_eq id eqb a b = Ok true <-> same_set a b).
Proof.
  intros [l|] [m|] N; cbn in *; try (split; [discriminate|contradiction]).
  2:{ split; reflexivity. }
  split.
  - intros H. apply Ok_inj in H. apply andb_prop in H as [L F]. apply Nat.eqb_eq in L.
    apply NoDup_Permutation_bis; [exact (NoDup_map_inv _ _ N)|lia|].
    intros x X. apply match_first_in. rewrite forallb_forall in F. now apply F.
  - intros P. f_equal. apply andb_true_intro. split; [apply Nat.eqb_eq; now apply Permutation_length|].
    rewrite forallb_forall. intros x X. apply match_first_one; [exact (Permutation_in _ P X)|].
    intros y Y. apply (nodup_inj l N); [exact X|exact (Permutation_in _ (Permutation_sym P) Y)].
Qed.
Lemma sets_error : forall a b e, sets_eq id eqb a b = Err e <->
  e = EType /\ (a = None <-> b <> None).
Proof.
  intros [l|] [m|] e; cbn; split; intros H; try discriminate.
  - exfalso. destruct H as [_ H]. assert (X : Some l = None) by (apply H; discriminate). discriminate.
  - injection H as <-. split; [reflexivity|]. split; [discriminate|congruence].
  - now destruct H as [-> _].
  - injection H as <-. split; [reflexivity|]. split; [discriminate|reflexivity].
  - now destruct H as [-> _].
  - exfalso. destruct H as [_ [H _]]. now apply H.
Qed.
End Sets.

(** Everything but the sets. *)
Definition same_scalars (a b : cert) : Prop :=
  is_key (c_issuer a) = is_key (c_issuer b) /\ is_algo (c_issuer a) = is_algo (c_issuer b) /\
  is_uid (c_issuer a) = is_uid (c_issuer b) /\ is_url (c_issuer a) = is_url (c_issuer b) /\
  ho_key (c_holder a) = ho_key (c_holder b) /\ ho_algo (c_holder a) = ho_algo (c_holder b) /\
  ho_uid (c_holder a) = ho_uid (c_holder b) /\
  c_info a = c_info b /\ c_rev a = c_rev b /\
  del_content (c_del a) = del_content (c_del b) /\ sig_content (c_sig a) = sig_content (c_sig b).

Lemma del_same_eq : forall a b, del_same a b = true <-> del_content a = del_content b.
Proof.
  intros [[x]|] [[y]|]; cbn; unfold del_eqb; cbn [de_extra].
  - apply (opt_eqb_eq _ _ bytes_eqb_eq).
  - destruct x; split; congruence.
  - destruct y; split; congruence.
  - split; reflexivity.
Qed.
Lemma sig_same_eq : forall a b, sig_same a b = true <-> sig_content a = sig_content b.
Proof.
  intros [[x1 x2]|] [[y1 y2]|]; cbn; unfold sig_eqb; cbn [sg_algo sg_value].
  - eqs. split; [intros [-> ->]; reflexivity|]. intros H; injection H as -> ->. auto.
  - destruct x1, x2; split; congruence.
  - destruct y1, y2; split; congruence.
  - split; reflexivity.
Qed.

Lemma cert_eq_steps : forall a b,
  (same_scalars a b /\ cert_eq a b = (r <- sets_eq at_id att_eqb (c_atts a) (c_atts b) ;;
     if negb r then Ok false else sets_eq ex_id ext_eqb (c_exts a) (c_exts b))) \/
  (~ same_scalars a b /\ cert_eq a b = Ok false).
Proof.
  intros a b. unfold cert_eq.
  destruct (issuer_eqb (c_issuer a) (c_issuer b) && holder_eqb (c_holder a) (c_holder b) &&
     info_eqb (c_info a) (c_info b) && rev_eqb (c_rev a) (c_rev b)) eqn:E.
  - revert E. unfold issuer_eqb, holder_eqb, info_eqb, rev_eqb. eqs. intros E.
    destruct (del_same (c_del a) (c_del b)) eqn:D; cbn [negb].
    + apply del_same_eq in D. destruct (sig_same (c_sig a) (c_sig b)) eqn:S; cbn [negb].
      * apply sig_same_eq in S. left. split; [|reflexivity]. unfold same_scalars.
        destruct E as [[[E1 E2] E3] E4]. 
        destruct (c_info a), (c_info b), (c_rev a), (c_rev b); cbn in *.
        destruct E3 as [[-> ->] ->], E4 as [[[-> ->] ->] ->]. tauto.
      * right. split; [|reflexivity]. intros H. unfold same_scalars in H.
        assert (X : sig_same (c_sig a) (c_sig b) = true) by (apply sig_same_eq; tauto). congruence.
    + right. split; [|reflexivity]. intros H. unfold same_scalars in H.
      assert (X : del_same (c_del a) (c_del b) = true) by (apply del_same_eq; tauto). congruence.
  - right. split; [|reflexivity]. intros H. unfold same_scalars in H.
    destruct H as (H1 & H2 & H3 & H4 & H5 & H6 & H7 & H8 & H9 & _).
    assert (Y : true = false); [|discriminate Y]. rewrite <- E.
    symmetry. unfold issuer_eqb, holder_eqb, info_eqb, rev_eqb. eqs. rewrite H8, H9. tauto.
Qed.

(** For distinct ids, == compares everything but the names of issuer and holder, the sets in
    any order. *)
Theorem C42_meaning : forall a b, distinct_ids a -> (cert_eq a b = Ok true <-> equivalent a b).
Proof.
  intros a b [D1 D2].
  assert (Q : equivalent a b <-> same_scalars a b /\ same_set (c_atts a) (c_atts b) /\ same_set (c_exts a) (c_exts b)).
  { unfold equivalent, same_scalars. tauto. }
  rewrite Q. clear Q.
  rewrite <- (sets_meaning at_id att_eqb att_eqb_eq _ _ D1), <- (sets_meaning ex_id ext_eqb ext_eqb_eq _ _ D2).
  destruct (cert_eq_steps a b) as [[S ->]|[S ->]].
  - destruct (sets_eq at_id att_eqb (c_atts a) (c_atts b)) as [[|]|e]; cbn [bind negb].
    + tauto.
    + split; [discriminate|]. intros (_ & H & _). discriminate.
    + split; [discriminate|]. intros (_ & H & _). discriminate.
  - split; [discriminate|]. tauto.
Qed.
Print Assumptions C42_meaning.

(** So it is an equivalence on such certificates. *)
Lemma same_set_sym : forall A (a b : option (list A)), same_set a b -> same_set b a.
Proof. intros A [l|] [m|]; cbn; auto using Permutation_sym. Qed.
Lemma equivalent_refl : forall a, equivalent a a.
Proof.
  intros a. unfold equivalent, same_set. repeat (split; [reflexivity|]). split.
  - destruct (c_atts a); [apply Permutation_refl|trivial].
  - destruct (c_exts a); [apply Permutation_refl|trivial].
Qed.
Lemma equivalent_sym : forall a b, equivalent a b -> equivalent b a.
Proof.
  intros a b H. unfold equivalent in *. destruct H as (H1 & H2 & H3 & H4 & H5 & H6 & H7 & H8 & H9 & H10 & H11 & H12 & H13).
  repeat (split; [now symmetry|]). split; now apply same_set_sym.
Qed.
Lemma equivalent_trans : forall a b c, equivalent a b -> equivalent b c -> equivalent a c.
Proof.
  intros a b c H K. unfold equivalent in *. destruct H as (H1 & H2 & H3 & H4 & H5 & H6 & H7 & H8 & H9 & H10 & H11 & H12 & H13).
  destruct K as (K1 & K2 & K3 & K4 & K5 & K6 & K7 & K8 & K9 & K10 & K11 & K12 & K13).
  assert (T : forall A (x y z : option (list A)), same_set x y -> same_set y z -> same_set x z).
  { intros A [l|] [m|] [n|]; cbn; try tauto. apply Permutation_trans. }
  repeat (split; [congruence|]). split; eapply T; eassumption.
Qed.
Theorem C42_equivalence :
  (forall a, distinct_ids a -> cert_eq a a = Ok true) /\
  (forall a b, distinct_ids a -> distinct_ids b -> cert_eq a b = Ok true -> cert_eq b a = Ok true) /\
  (forall a b c, distinct_ids a -> distinct_ids b -> cert_eq a b = Ok true -> cert_eq b c = Ok true -> cert_eq a c = Ok true).
Proof.
  split; [|split].
  - intros a D. apply (C42_meaning a a D). apply equivalent_refl.
  - intros a b Da Db H. apply (C42_meaning b a Db). apply equivalent_sym. now apply (C42_meaning a b Da).
  - intros a b c Da Db H K. apply (C42_meaning a c Da). apply (C42_meaning a b Da) in H. apply (C42_meaning b c Db) in K.
    exact (equivalent_trans a b c H K).
Qed.
Print Assumptions C42_equivalence.

(** In general a certificate equals itself exactly if entries with the same id are the same. *)
Theorem C42_reflexive : forall c, cert_eq c c = Ok true <->
  if_some (fun l => forall x y, In x l -> In y l -> at_id x = at_id y -> x = y) (c_atts c) /\
  if_some (fun l => forall x y, In x l -> In y l -> ex_id x = ex_id y -> x = y) (c_exts c).
Proof.
  intros c. destruct (cert_eq_steps c c) as [[_ ->]|[S _]].
  2:{ exfalso. apply S. unfold same_scalars. auto 15. }
  destruct (c_atts c) as [l|], (c_exts c) as [m|]; cbn [sets_eq if_some bind negb]; rewrite ?Nat.eqb_refl; cbn [andb].
  - rewrite <- (match_first_unique at_id att_eqb att_eqb_eq l), <- (match_first_unique ex_id ext_eqb ext_eqb_eq m).
    destruct (forallb (fun x => match_first at_id att_eqb x l) l); cbn [negb].
    + split; [intros H; split; [reflexivity|]; now apply Ok_inj in H|intros [_ ->]; reflexivity].
    + split; [discriminate|intros [H _]; discriminate].
  - rewrite <- (match_first_unique at_id att_eqb att_eqb_eq l).
    destruct (forallb (fun x => match_first at_id att_eqb x l) l); cbn [negb]; split; try tauto; try discriminate.
    intros [H _]. discriminate.
  - rewrite <- (match_first_unique ex_id ext_eqb ext_eqb_eq m).
    split; [intros H; split; [trivial|]; now apply Ok_inj in H|intros [_ ->]; reflexivity].
  - tauto.
Qed.
Print Assumptions C42_reflexive.

(** An exception is always the TypeError of comparing an absent set with a list. *)
Theorem C42_error : forall a b e, distinct_ids a ->
  (cert_eq a b = Err e <-> e = EType /\ same_scalars a b /\
     ((c_atts a = None <-> c_atts b <> None) \/
      (same_set (c_atts a) (c_atts b) /\ (c_exts a = None <-> c_exts b <> None)))).
Proof.
  intros a b e [D _]. rewrite <- (sets_meaning at_id att_eqb att_eqb_eq _ _ D).
  destruct (cert_eq_steps a b) as [[S ->]|[S ->]].
  2:{ split; [discriminate|]. tauto. }
  pose proof (fun e => sets_error at_id att_eqb (c_atts a) (c_atts b) e) as A.
  pose proof (fun e => sets_error ex_id ext_eqb (c_exts a) (c_exts b) e) as X.
  destruct (sets_eq at_id att_eqb (c_atts a) (c_atts b)) as [r|e'] eqn:R; cbn [bind].
  - assert (NA : ~ (c_atts a = None <-> c_atts b <> None)).
    { intros H. assert (Y : Ok r = Err EType) by (apply A; tauto). discriminate. }
    destruct r; cbn [negb].
    + rewrite X. tauto.
    + split; [discriminate|]. intros (_ & _ & [H|[H _]]); [tauto|discriminate].
  - assert (Y : e' = EType /\ (c_atts a = None <-> c_atts b <> None)) by now apply A.
    destruct Y as [-> Y]. split; [intros H; injection H as <-; tauto|]. intros [-> _]. reflexivity.
Qed.
Print Assumptions C42_error.

(** Repeated ids: not reflexive, and not symmetric. *)
Definition att_x (t : atype) : ac_att := Att (lit "x") t (Some (lit "1")) None None.
Definition set_atts (c : cert) (l : option (list ac_att)) : cert :=
  Cert (c_issuer c) (c_holder c) (c_info c) l (c_rev c) (c_del c) (c_exts c) (c_sig c).
Theorem C42_refuted :
  (exists c, cert_eq c c = Ok false) /\
  (exists a b, cert_eq a b = Ok true /\ cert_eq b a = Ok false) /\
  (exists a b, cert_eq a b = Err EType).
Proof.
  split; [|split].
  - exists (set_atts ex_cert (Some [att_x AInt; att_x AString])). vm_compute. reflexivity.
  - exists (set_atts ex_cert (Some [att_x AInt; att_x AInt])), (set_atts ex_cert (Some [att_x AInt; att_x AString])).
    vm_compute. split; reflexivity.
  - exists ex_cert, (set_atts ex_cert None). vm_compute. reflexivity.
Qed.
Print Assumptions C42_refuted.
Example ex_distinct : distinct_ids ex_cert /\
  cert_eq ex_cert (set_atts ex_cert (option_map (@rev _) (c_atts ex_cert))) = Ok true /\
  cert_eq ex_cert (set_name ex_cert (Some (lit "Bob"))) = Ok true.
Proof.
  split; [|vm_compute; split; reflexivity]. split; cbn; repeat constructor; cbn; try tauto.
  intros [H|[]]. discriminate.
Qed.

(** ** C60: the text format *)

Definition set_issuer (c : cert) (name url : option str) : cert :=
  Cert (Issuer (is_key (c_issuer c)) (is_algo (c_issuer c)) (is_uid (c_issuer c)) name url)
       (c_holder c) (c_info c) (c_atts c) (c_rev c) (c_del c) (c_exts c) (c_sig c).

(** A line break in the name writes further fields: both certificates have the same text. *)
Theorem C60_text : forall K c n u algo k,
  snd (ac_export K (set_issuer c (Some n) (Some u)) FText false k algo) =
  snd (ac_export K (set_issuer c (Some (n ++ nl :: lit "URL: " ++ u)) None) FText false k algo).
Proof.
  intros K c n u algo k. unfold ac_export. cbn [snd]. f_equal. unfold to_text.
  cbn [set_issuer c_issuer c_holder c_info c_atts c_rev c_del c_exts c_sig].
  assert (E : issuer_str (Issuer (is_key (c_issuer c)) (is_algo (c_issuer c)) (is_uid (c_issuer c)) (Some n) (Some u)) =
              issuer_str (Issuer (is_key (c_issuer c)) (is_algo (c_issuer c)) (is_uid (c_issuer c))
                                 (Some (n ++ nl :: lit "URL: " ++ u)) None)).
  { unfold issuer_str. cbn [is_key is_algo is_uid is_name is_url opt_field]. do 4 f_equal.
    unfold field, line. rewrite <- !app_assoc. reflexivity. }
  now rewrite E.
Qed.
Print Assumptions C60_text.
(** And no text can be imported. *)
Theorem C60_no_import : forall K i v, ac_import K i FText v = Err EGeneric /\ ac_import K i FXml v = Err EGeneric.
Proof. intros K i v. split; reflexivity. Qed.
Print Assumptions C60_no_import.
(** Exporting an unsigned or signed certificate as text never fails, whatever its sizes. *)
Theorem C60_total : forall K c k algo, if_some (fun s => sg_value s <> None) (c_sig c) ->
  exists s, ac_export K c FText false k algo = (c, Ok (OutStr s)).
Proof.
  intros K c k algo S. unfold ac_export, to_text. destruct (c_sig c) as [s|]; [|cbn [bind]; eexists; reflexivity].
  cbn [if_some] in S. unfold sig_str. destruct (sg_value s) as [v|]; [|congruence]. cbn [bind]. eexists; reflexivity.
Qed.
Print Assumptions C60_total.
