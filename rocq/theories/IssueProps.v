(** * IssueProps: exactly when the attribute authority issues a certificate (C124) *)

From Coq Require Import NArith ZArith List Bool Permutation Lia String.
From Verif Require Import PyBase LexProofs Struct BytesProofs AttCert CertSpec CertProofs CertProofs2 CertProofs3 CertProps CertProps2
  PAuth PAuthSpec AAuth AAuthSpec AAuthProofs AAuthProps Issue.
Import ListNotations.
Open Scope Z_scope.

(** ** The information of a new certificate *)

(** getrandbits gives a number of 160 bits. *)
Definition random_ok (r : Z) : Prop := 0 <= r < 2 ^ 160.

Theorem C124_info (version random now : Z) (serial issued : option Z) : random_ok random ->
  (exists b, info_encode (info_new version serial issued random now) = Ok b) <->
  0 <= version <= 255 /\ if_some (fun s => 0 <= s < 2 ^ 160) serial /\
  0 <= match issued with Some t => t | None => now end < 2 ^ 32.
Proof.
  intros R. pose proof (info_ok (info_new version serial issued random now)) as I. unfold ok in I. rewrite I.
  unfold info_fits, time_fits, info_new. cbn [i_version i_serial i_issued]. unfold random_ok in R.
  destruct serial as [s|]; cbn [if_some]; tauto.
Qed.

(** ** Sizes of texts *)

Lemma dec_length : forall f n acc, (List.length (dec_digits f n acc) <= f + List.length acc)%nat.
Proof.
  induction f as [|f IH]; intros n acc; cbn [dec_digits]; [lia|]. destruct (n <? 10)%N; [cbn [List.length]; lia|].
  specialize (IH (n / 10)%N ((48 + n mod 10)%N :: acc)). cbn [List.length] in IH. lia.
Qed.
Lemma Z_length : forall z, Z.of_nat (List.length (str_of_Z z)) <= Z.log2 (Z.abs z) + 2.
Proof.
  intros z. unfold str_of_Z. pose proof (dec_length (S (N.to_nat (N.log2 (Z.abs_N z)))) (Z.abs_N z) []) as D.
  cbn [List.length] in D. assert (L : Z.of_nat (N.to_nat (N.log2 (Z.abs_N z))) = Z.log2 (Z.abs z)).
  { rewrite N_nat_Z. destruct z as [|[]|[]]; reflexivity. }
  destruct (z <? 0); cbn [List.length]; lia.
Qed.
Lemma ascii_encodable : forall s, ascii s -> Forall encodable s.
Proof. intros s H. eapply Forall_impl; [|exact H]. intros c C. unfold encodable. cbv beta in C. lia. Qed.
Lemma Z_fits : forall z, Z.log2 (Z.abs z) <= 60000 -> text_fits (str_of_Z z).
Proof.
  intros z H. split; [|apply ascii_encodable, Z_ascii]. unfold small. pose proof (Z_length z) as L. lia.
Qed.
Lemma b64_length : forall b, (List.length (b64encode b) <= 2 * List.length b + 2)%nat.
Proof.
  assert (G : forall n b, (List.length b <= n)%nat -> (List.length (b64encode b) <= 2 * List.length b + 2)%nat).
  { induction n as [|n IH]; intros b H.
    - destruct b; [cbn; lia|cbn in H; lia].
    - destruct b as [|x [|y [|z r]]]; cbn [b64encode List.length] in *; try lia. specialize (IH r ltac:(lia)). lia. }
  intros b. now apply (G (List.length b)).
Qed.
Lemma lit_fits : forall s, is_ascii s = true -> Z.of_nat (List.length s) <= 65535 -> text_fits s.
Proof. intros s A L. split; [exact L|]. apply ascii_encodable, ascii_lit, A. Qed.

Lemma numeral_bound : forall U base s n, decimals_ok U -> (2 <= base <= 16)%N -> numeral U base s n ->
  (n < 16 ^ N.of_nat (List.length s))%N.
Proof.
  intros U base s n DO B H.
  assert (D : forall c d, digit_char U base c d -> (d < 16)%N).
  { intros c d X. inversion X; subst; lia. }
  induction H as [c d X|s n c d H IH X|s n c d H IH X]; specialize (D _ _ X).
  - cbn [List.length]. change (16 ^ N.of_nat 1)%N with 16%N. exact D.
  - rewrite app_length. cbn [List.length]. replace (N.of_nat (List.length s + 1)) with (N.succ (N.of_nat (List.length s))) by lia.
    rewrite N.pow_succ_r'. nia.
  - rewrite app_length. cbn [List.length]. replace (N.of_nat (List.length s + 2)) with (N.succ (N.succ (N.of_nat (List.length s)))) by lia.
    rewrite !N.pow_succ_r'. nia.
Qed.
Lemma literal_bound : forall U base s z, decimals_ok U -> (2 <= base <= 16)%N -> int_literal U base s z ->
  Z.abs z < 16 ^ Z.of_nat (List.length s).
Proof.
  intros U base s z DO B (lead & sg & neg & px & ds & n & trail & -> & _ & _ & _ & _ & N & E).
  apply numeral_bound in N; auto. assert (A : Z.abs z = Z.of_N n) by (destruct neg; lia). rewrite A.
  apply Z.lt_le_trans with (16 ^ Z.of_nat (List.length ds)).
  - apply N2Z.inj_lt in N. rewrite N2Z.inj_pow in N. rewrite nat_N_Z in N. exact N.
  - apply Z.pow_le_mono_r; [lia|]. rewrite !app_length. lia.
Qed.

Section Issued.
Variable K : crypto.
Variable U : unicode.
Variable au : authority K.
Variable checkpw : bytes -> bytes -> res bool.
Variable order : list valued -> list valued.
Hypothesis ordered : forall l, Permutation (order l) l.
Hypothesis DO : decimals_ok U.

Notation ask := (attribute_request K U au checkpw order).

(** The certificate to be signed for a user name, a choice of assigned attributes and connection attributes. *)
Definition draft (name : str) (q : request) (h : chance) (us cons : list ac_att) : cert :=
  Cert (Issuer (au_pub au) (lit "RSA[" ++ str_of_Z (au_bits au) ++ lit "]") (au_uri au) (Some (au_name au)) (Some (au_url au)))
       (Holder (rq_key q) (rq_cipher q ++ lit "[" ++ str_of_Z (rq_size q) ++ lit "]") (au_uri au ++ lit "/user/" ++ name) (Some name))
       (Info 1 (ch_serial h) (ch_issued h)) (Some (us ++ cons))
       (Rev (ch_issued h) (ch_issued h + au_length au) (Some (au_rev_url au)) None) (Some (Del None)) None None.

(** The key signs the draft, and the signature has at most 65535 bytes. *)
Definition signable (c : cert) : Prop :=
  exists w s, encode_body c = Ok w /\ k_sign K (au_key au) (k_hash K w) = Ok s /\ small s.

Lemma export_signed : forall c, body_fits c ->
  (exists c' b, ac_export K c FBytes true (Some (au_key au)) (lit "RSASSA-PKCS1-v1_5:SHA256") = (c', Ok (OutBytes b))) <-> signable c.
Proof.
  intros c F. apply C58_body in F as [w W]. unfold ac_export, ac_encode, sign, signable. rewrite W. cbn [bind].
  destruct (k_sign K (au_key au) (k_hash K w)) as [s|e] eqn:S; cbn [bind].
  - cbn [with_sig c_sig]. pose proof (sig_ok (Sig (Some (lit "RSASSA-PKCS1-v1_5:SHA256")) (Some s))) as G. unfold ok in G.
    destruct (sig_encode (Sig (Some (lit "RSASSA-PKCS1-v1_5:SHA256")) (Some s))) as [x|e]; cbn [bind].
    + split; [|intros _; eauto]. intros _. destruct (proj1 G (ex_intro _ x eq_refl)) as (a & v & [= <- <-] & _ & SM). exists w, s. auto.
    + split; [intros (c' & b & X); discriminate|]. intros (w' & s' & [= <-] & S' & SM). rewrite S in S'. apply Ok_inj in S'. subst s'. exfalso.
      destruct (proj2 G) as [x X]; [|discriminate]. exists (lit "RSASSA-PKCS1-v1_5:SHA256"), s. split; [reflexivity|].
      split; [apply lit_fits; [reflexivity|vm_compute; discriminate]|exact SM].
  - split; [intros (c' & b & X); discriminate|]. intros (w' & s' & [= <-] & S' & _). congruence.
Qed.

(** A request gets a certificate if and only if: the client address is given and can be split up; the user
    is authenticated; both lists are given and ask only for what is assigned; every attribute chosen has a
    type; the certificate can be encoded; and the key signs it. *)
Theorem C124_exact (dir : list (str * bytes)) (d : adb) (q : request) (h : chance) :
  tables_ok d -> NoDup (map us_name (d_users d)) ->
  (exists dir' r, ask dir d q h = (dir', Ok r)) <->
  exists addr user name sel us cons,
    export (lit "REMOTE_ADDR") (rq_exports q) = Some addr /\ address_ok U addr /\
    authenticated K U checkpw au d q user name /\ rq_ids q <> None /\ rq_names q <> None /\
    all_assigned (order (user_atts d (us_id user))) q /\
    select (order (user_atts d (us_id user)))
           (wanted (match rq_ids q with Some l => l | None => [] end)) (wanted (match rq_names q with Some l => l | None => [] end)) = Ok sel /\
    Forall2 (fun p a => exists t, ar_type (fst p) = Some t /\ a = stands_for p t) sel us /\
    connection_atts K U au q h = Ok cons /\
    body_fits (draft name q h us cons) /\ signable (draft name q h us cons).
Proof.
  intros T ND. split.
  - intros (dir' & r & H). apply answer_inv in H as [H _].
    apply request_inv in H as (addr & user & name & ids & names & sel & c & c' & b & E & A & I & N & S & C & X & ->).
    pose proof (select_spec _ q ids names (rows_unique order ordered d (us_id user) T) I N) as P. rewrite S in P. destruct P as [P1 P2].
    apply cert_inv in C as (cons & us & C1 & C2 & ->). exists addr, user, name, sel, us, cons.
    change (issuer_of K au) with (Issuer (au_pub au) (lit "RSA[" ++ str_of_Z (au_bits au) ++ lit "]") (au_uri au) (Some (au_name au)) (Some (au_url au))) in X.
    fold (draft name q h us cons) in X. split; [exact E|]. split; [apply (proj1 (C54_exact K U au checkpw DO q h addr E)); eauto|].
    split; [now apply authenticate_sound|]. split; [congruence|]. split; [congruence|]. split; [exact P2|]. split; [now rewrite I, N|].
    split; [exact C2|]. split; [exact C1|].
    assert (F : body_fits (draft name q h us cons)).
    { pose proof X as X'. apply sign_export in X' as (w & s & W & _); [|discriminate]. apply C58_body. eauto. }
    split; [exact F|]. apply (export_signed _ F). eauto.
  - intros (addr & user & name & sel & us & cons & E & AO & A & I & N & P & S & C2 & C1 & F & SG).
    destruct (rq_ids q) as [ids|] eqn:EI; [|congruence]. destruct (rq_names q) as [names|] eqn:EN; [|congruence].
    apply (export_signed _ F) in SG as (c' & b & X).
    eexists. exists (Issued c' b 1 0 (file_name (ch_serial h))). apply answer_inv. split; [|reflexivity]. apply request_inv.
    exists addr, user, name, ids, names, sel, (draft name q h us cons), c', b. repeat (split; [first [exact E|exact EI|exact EN|exact S|now apply authenticate_complete]|]).
    split; [|split; [exact X|reflexivity]]. unfold make_cert. rewrite C1. cbn [bind].
    replace (mapM user_att sel) with (@Ok (list ac_att) us); [reflexivity|]. symmetry. apply mapM_spec. clear - C2.
    induction C2 as [|x y l m Y _ IH]; constructor; auto. now apply user_att_spec.
Qed.

(** ** The end of time *)

(** Once the issue time and the configured length together reach 2^32 (7 February 2106), or the issue time or
    the end lies before 1970, nobody gets a certificate. *)
Theorem C124_time (dir : list (str * bytes)) (d : adb) (q : request) (h : chance) :
  ~ (0 <= ch_issued h < 2 ^ 32 /\ 0 <= ch_issued h + au_length au < 2 ^ 32) ->
  exists e, ask dir d q h = (dir, Err e).
Proof.
  intros H. destruct (ask dir d q h) as [dir' [r|e]] eqn:E.
  - exfalso. apply H. apply answer_inv in E as [E _].
    apply request_inv in E as (addr & user & name & ids & names & sel & c & c' & b & _ & A & I & N & S & C & X & ->).
    apply cert_inv in C as (cons & us & C1 & C2 & ->).
    apply sign_export in X as (w & s & W & _); [|discriminate].
    assert (F : body_fits (draft name q h us cons)) by (apply C58_body; eauto).
    destruct F as (_ & _ & _ & (F1 & F2 & _) & _). cbn [draft c_rev rv_after rv_before] in F1, F2. unfold time_fits in *. auto.
  - exists e. now rewrite (C50_nothing_written K U au checkpw order _ _ _ _ _ _ E).
Qed.

(** An attribute without a type that a request would include stops it. *)
Theorem C124_untyped (dir : list (str * bytes)) (d : adb) (q : request) (h : chance) (user : user_row) (name : str) (a : att_row) (v : option str) :
  tables_ok d -> NoDup (map us_name (d_users d)) -> authenticated K U checkpw au d q user name ->
  assigned d (us_id user) a v -> ar_type a = None -> asks_all q \/ asks (rq_ids q) (ar_id a) ->
  exists e, ask dir d q h = (dir, Err e).
Proof.
  intros T ND A AS NT W. destruct (ask dir d q h) as [dir' [r|e]] eqn:E.
  - exfalso. apply answer_inv in E as [E _].
    apply request_inv in E as (addr & user' & name' & ids & names & sel & c & c' & b & _ & A' & I & N & S & C & X & ->).
    rewrite (authenticate_complete K U au checkpw d q user name ND A) in A'. apply Ok_inj in A'. injection A' as <- <-.
    pose proof (select_spec _ q ids names (rows_unique order ordered d (us_id user) T) I N) as P. rewrite S in P. destruct P as [[_ P1] _].
    apply cert_inv in C as (cons & us & _ & C2 & _).
    assert (J : In (a, v) sel). { apply P1. split; [now apply rows_assigned|]. cbn [fst]. tauto. }
    clear - C2 J NT. induction C2 as [|x y l m (t & Y & _) _ IH]; [destruct J|]. destruct J as [->|J]; [|auto]. cbn [fst] in Y. congruence.
  - exists e. now rewrite (C50_nothing_written K U au checkpw order _ _ _ _ _ _ E).
Qed.

(** ** Requests of usual size are always answered *)

Definition short (s : str) : Prop := Z.of_nat (List.length s) <= 10000 /\ Forall encodable s.
(** Numbers of at most 1000 binary digits. *)
Definition modest (z : Z) : Prop := Z.log2 (Z.abs z) < 1000.

Record usual_authority : Prop := {
  us_name_ok : short (au_name au); us_uri_ok : short (au_uri au); us_rev_ok : short (au_rev_url au); us_url_ok : short (au_url au);
  us_pub_ok : Z.of_nat (List.length (au_pub au)) <= 10000 /\ octets (au_pub au); us_bits_ok : modest (au_bits au); us_length_ok : modest (au_length au);
  us_signs : forall w, exists s, k_sign K (au_key au) (k_hash K w) = Ok s /\ small s
}.
Record usual_database (d : adb) : Prop := {
  us_tables : tables_ok d; us_users : NoDup (map us_name (d_users d)); us_count : Z.of_nat (List.length (d_atts d)) <= 40000;
  us_typed : forall a, In a (d_atts d) -> ar_type a <> None /\ short (ar_id a) /\ short (ar_name a);
  us_values : forall s, In s (d_assigns d) -> if_some short (as_value s)
}.
Record usual_request (q : request) : Prop := {
  us_key_ok : Z.of_nat (List.length (rq_key q)) <= 10000 /\ octets (rq_key q); us_cipher_ok : short (rq_cipher q);
  us_size_ok : modest (rq_size q);
  us_username_ok : if_some short (rq_username q); us_exports_ok : forall k v, In (k, v) (rq_exports q) -> short v;
  us_ids_ok : rq_ids q <> None; us_names_ok : rq_names q <> None
}.
(** What clock, random numbers and strftime may give. *)
Record usual_chance (h : chance) : Prop := {
  us_serial : random_ok (ch_serial h); us_issued : 0 <= ch_issued h < 2 ^ 32; us_end : 0 <= ch_issued h + au_length au < 2 ^ 32;
  us_time : modest (ch_time h); us_weekday : short (ch_weekday h); us_month : short (ch_month h);
  us_tm : Forall modest [tm_year (ch_tm h); tm_mon (ch_tm h); tm_mday (ch_tm h); tm_hour (ch_tm h); tm_min (ch_tm h);
                         tm_sec (ch_tm h); tm_wday (ch_tm h); tm_yday (ch_tm h)]
}.

Lemma short_fits : forall s, short s -> text_fits s.
Proof. intros s [L E]. split; [unfold small; lia|exact E]. Qed.
Lemma modest_short : forall z, modest z -> short (str_of_Z z).
Proof.
  intros z H. split; [|apply ascii_encodable, Z_ascii]. unfold modest in H. pose proof (Z_length z) as L.
  lia.
Qed.
Lemma join_fits : forall a b, Z.of_nat (List.length a) + Z.of_nat (List.length b) <= 65535 -> Forall encodable a -> Forall encodable b -> text_fits (a ++ b).
Proof. intros a b L A B. split; [unfold small; rewrite app_length; lia|apply Forall_app; auto]. Qed.
Lemma b64_fits : forall b, Z.of_nat (List.length b) <= 10000 /\ octets b -> text_fits (b64encode b).
Proof.
  intros b [L O]. split; [unfold small; pose proof (b64_length b); lia|]. now apply ascii_encodable, b64_ascii.
Qed.
Lemma lit_short : forall s, is_ascii s = true -> Z.of_nat (List.length s) <= 10000 -> short s.
Proof. intros s A L. split; [exact L|]. apply ascii_encodable, ascii_lit, A. Qed.
Lemma con_fits : forall n t v, short n -> text_fits v -> att_fits (con n t v).
Proof.
  intros n t v [L E] V. unfold att_fits, con, make_att. cbn [at_id at_value at_name at_extra if_some]. split; [|split; [|split; [|exact I]]].
  - apply join_fits; [|now apply ascii_encodable, ascii_lit|exact E]. change (Z.of_nat (List.length (lit "/attribute/connection/"))) with 22. lia.
  - destruct v; [exact I|exact V].
  - destruct n; [exact I|]. apply short_fits. split; auto.
Qed.

Lemma split_length : forall c s, (List.length (split_on c s) <= S (List.length s))%nat /\
  forall p, In p (split_on c s) -> (List.length p <= List.length s)%nat.
Proof.
  intros c. induction s as [|x s [L P]]; cbn [split_on].
  - split; [cbn; lia|]. intros p [<-|[]]. cbn; lia.
  - destruct (x =? c)%N; [cbn [List.length]; split; [lia|]|].
    + intros p [<-|H]; [cbn; lia|]. specialize (P p H). lia.
    + destruct (split_on c s) as [|w l]; cbn [List.length] in *.
      * split; [lia|]. intros p [<-|[]]. cbn; lia.
      * split; [lia|]. intros p [<-|H]; [cbn [List.length]; specialize (P w (or_introl eq_refl)); lia|].
        specialize (P p (or_intror H)). lia.
Qed.
Lemma numbered_fits : forall base prefix ps i l, (2 <= base <= 16)%N ->
  short prefix -> Z.of_nat (List.length prefix) <= 100 -> Forall (fun p => Z.of_nat (List.length p) <= 10000) ps ->
  0 <= i -> i + Z.of_nat (List.length ps) < 1000000 -> numbered U base prefix i ps = Ok l ->
  Forall att_fits l /\ List.length l = List.length ps.
Proof.
  intros base prefix. induction ps as [|p ps IH]; intros i l B S LP F I0 I1 H; cbn [numbered] in H; [apply Ok_inj in H; subst; auto|].
  destruct (int_base U base p) as [n|] eqn:E; cbn [bind] in H; [|discriminate].
  destruct (numbered _ _ _ _ ps) as [l'|] eqn:E'; cbn [bind] in H; [|discriminate]. apply Ok_inj in H. subst l.
  inversion F as [|? ? F1 F2]; subst. cbn [List.length] in I1.
  destruct (IH (i + 1) l') as [A1 A2]; auto; [lia|lia|]. cbn [List.length]. split; [|lia]. constructor; [|exact A1].
  apply con_fits.
  - assert (M : Z.log2 (Z.abs i) <= 20).
    { change 20 with (Z.log2 (2 ^ 20)). apply Z.log2_le_mono. lia. }
    pose proof (Z_length i) as L. destruct S as [_ S]. split; [rewrite app_length; lia|]. apply Forall_app. split; [exact S|apply ascii_encodable, Z_ascii].
  - apply Z_fits. apply int_base_spec in E; [|exact DO]. apply literal_bound in E; auto.
    destruct (Z.eq_dec (Z.abs n) 0) as [->|NZ]; [cbn; lia|].
    change 16 with (2 ^ 4) in E. rewrite <- Z.pow_mul_r in E by lia. apply Z.log2_lt_pow2 in E; lia.
Qed.

Lemma connection_fits : forall q h addr l, usual_authority -> usual_request q -> usual_chance h -> rq_type q = 0 ->
  export (lit "REMOTE_ADDR") (rq_exports q) = Some addr ->
  connection_atts K U au q h = Ok l -> Forall att_fits l /\ Z.of_nat (List.length l) <= 20000.
Proof.
  intros q h addr l [] [] [] TY E H. unfold connection_atts in H. rewrite E in H.
  assert (X : forall n v, export n (rq_exports q) = Some v -> short v).
  { intros n v Q. unfold export in Q. destruct (find _ (rq_exports q)) as [[k w]|] eqn:F; [|discriminate]. injection Q as <-.
    apply find_some in F as [F _]. eauto. }
  destruct (address_atts U addr) as [a|] eqn:A; cbn [bind] in H; [|discriminate]. apply Ok_inj in H. subst l.
  assert (LA : short addr) by eauto. destruct LA as [LA _].
  assert (SB : forall b, text_fits (str_of_bool b)) by (intros [|]; apply lit_fits; [reflexivity|vm_compute; discriminate|reflexivity|vm_compute; discriminate]).
  assert (FA : Forall att_fits a /\ Z.of_nat (List.length a) <= 10010).
  { unfold address_atts in A.
    assert (G : forall c base prefix m b1 b2, (2 <= base <= 16)%N -> short prefix -> Z.of_nat (List.length prefix) <= 100 ->
      numbered U base prefix 0 (split_on c addr) = Ok m ->
      let x := con (lit "ip_v4") ABool (str_of_bool b1) :: con (lit "ip_v6") ABool (str_of_bool b2) :: m in
      Forall att_fits x /\ Z.of_nat (List.length x) <= 10010).
    { intros c base prefix m b1 b2 B1 SP LP M. destruct (split_length c addr) as [S1 S2].
      destruct (numbered_fits base prefix (split_on c addr) 0 m B1 SP LP) as [N1 N2]; auto; try lia.
      - apply Forall_forall. intros p J. specialize (S2 p J). unfold str in *. lia.
      - unfold str in *. lia.
      - cbn zeta. cbn [List.length]. split; [|unfold str in *; lia]. repeat (constructor; [apply con_fits; [apply lit_short; [reflexivity|vm_compute; discriminate]|apply SB]|]). exact N1. }
    destruct (has_char 46 addr); [|destruct (has_char 58 addr)].
    - destruct (numbered _ _ _ _ _) as [m|] eqn:M; cbn [bind] in A; [|discriminate]. apply Ok_inj in A. subst a.
      apply (G 46%N 10%N (lit "remote_addr_v4_oct") m true false); [lia|apply lit_short; [reflexivity|vm_compute; discriminate]|vm_compute; discriminate|exact M].
    - destruct (numbered _ _ _ _ _) as [m|] eqn:M; cbn [bind] in A; [|discriminate]. apply Ok_inj in A. subst a.
      apply (G 58%N 16%N (lit "remote_addr_v6_hex") m false true); [lia|apply lit_short; [reflexivity|vm_compute; discriminate]|vm_compute; discriminate|exact M].
    - apply Ok_inj in A. subst a. split; [constructor|cbn; lia]. }
  destruct FA as [FA CA].
  assert (FE : Forall att_fits (export_atts (rq_exports q)) /\ Z.of_nat (List.length (export_atts (rq_exports q))) <= 4).
  { unfold export_atts. cbn [flat_map].
    assert (one : forall v n, short (lit n) ->
      Forall att_fits (match export (lit v) (rq_exports q) with Some v => [con (lit n) AString v] | None => [] end) /\
      Z.of_nat (List.length (match export (lit v) (rq_exports q) with Some v => [con (lit n) AString v] | None => [] end)) <= 1).
    { intros v n S. destruct (export (lit v) (rq_exports q)) as [w|] eqn:Q; [|split; [constructor|cbn; lia]].
      split; [|cbn; lia]. constructor; [|constructor]. apply con_fits; [exact S|]. apply short_fits. eauto. }
    destruct (one "REMOTE_ADDR" "remote_addr")%string as [O1 P1]; [apply lit_short; [reflexivity|vm_compute; discriminate]|].
    destruct (one "REMOTE_HOST" "remote_host")%string as [O2 P2]; [apply lit_short; [reflexivity|vm_compute; discriminate]|].
    destruct (one "REMOTE_IDENT" "remote_ident")%string as [O3 P3]; [apply lit_short; [reflexivity|vm_compute; discriminate]|].
    destruct (one "REMOTE_USER" "remote_user")%string as [O4 P4]; [apply lit_short; [reflexivity|vm_compute; discriminate]|].
    rewrite !app_length. cbn [List.length]. split; [|lia]. repeat (apply Forall_app; split; auto). }
  destruct FE as [FE CE].
  assert (MS : forall z, modest z -> text_fits (str_of_Z z)) by (intros; now apply short_fits, modest_short).
  assert (SR : modest (ch_serial h)).
  { unfold modest. destruct us_serial0 as [S1 S2]. rewrite Z.abs_eq by lia.
    apply Z.le_lt_trans with 160; [|lia]. destruct (Z.eq_dec (ch_serial h) 0) as [->|NZ]; [cbn; lia|]. apply Z.log2_lt_pow2 in S2; lia. }
  assert (FO : Forall att_fits (other_atts K au q h) /\ Z.of_nat (List.length (other_atts K au q h)) <= 100).
  { rewrite Forall_forall in us_tm0. cbn [In] in us_tm0.
    unfold other_atts. rewrite TY. split.
    - apply Forall_app. split; [|apply Forall_app; split].
      + repeat (constructor; [apply con_fits; [apply lit_short; [reflexivity|vm_compute; discriminate]|]|]); [..|constructor].
        all: first [ apply b64_fits; assumption | (apply short_fits; assumption) | (apply MS; first [assumption | (apply us_tm0; tauto)])
                   | (apply lit_fits; [reflexivity|vm_compute; discriminate]) | idtac ].
      + destruct (0 <=? _); [|constructor]. constructor; [|constructor]. apply con_fits; [|apply SB]. apply lit_short; [reflexivity|vm_compute; discriminate].
      + repeat (constructor; [apply con_fits; [apply lit_short; [reflexivity|vm_compute; discriminate]|]|]); [..|constructor].
        all: first [ apply b64_fits; assumption | (apply short_fits; assumption) | (apply MS; assumption)
                   | (apply lit_fits; [reflexivity|vm_compute; discriminate]) | idtac ].
    - rewrite !app_length. destruct (0 <=? _); cbn [List.length]; lia. }
  destruct FO as [FO CO].
  rewrite !app_length. split; [|lia]. repeat (apply Forall_app; split; auto).
Qed.

(** Whoever is authenticated, asks only for assigned attributes and has an address that can be split up gets a
    certificate, with any clock before the end and any random number. *)
Theorem C124_answered (dir : list (str * bytes)) (d : adb) (q : request) (h : chance) (addr : str) (user : user_row) (name : str) :
  usual_authority -> usual_database d -> usual_request q -> usual_chance h ->
  export (lit "REMOTE_ADDR") (rq_exports q) = Some addr -> address_ok U addr ->
  authenticated K U checkpw au d q user name ->
  (forall i, asks (rq_ids q) i -> exists a v, assigned d (us_id user) a v /\ ar_id a = i) ->
  (forall n, asks (rq_names q) n -> exists a v, assigned d (us_id user) a v /\ ar_name a = n) ->
  exists dir' r, ask dir d q h = (dir', Ok r).
Proof.
  intros UA UD UR UC E AO A AI AN. pose proof UD as [T ND CN TY VA]. apply (C124_exact dir d q h T ND).
  destruct (proj2 (proj1 (C54_exact K U au checkpw DO q h addr E)) AO) as [cons CO].
  pose proof UR as [KO CI SZ UN EX IO NO]. destruct (rq_ids q) as [ids|] eqn:EI; [|congruence]. destruct (rq_names q) as [names|] eqn:EN; [|congruence].
  set (rows := order (user_atts d (us_id user))).
  assert (AA : all_assigned rows q).
  { unfold all_assigned. rewrite EI, EN. split.
    - intros i Q. destruct (AI i Q) as (a & v & Q1 & Q2). exists (a, v). split; [now apply rows_assigned|exact Q2].
    - intros n Q. destruct (AN n Q) as (a & v & Q1 & Q2). exists (a, v). split; [now apply rows_assigned|exact Q2]. }
  pose proof (select_spec rows q ids names (rows_unique order ordered d (us_id user) T) EI EN) as P.
  destruct (select rows (wanted ids) (wanted names)) as [sel|e] eqn:S; [|destruct P; contradiction]. destruct P as [[PN PS] _].
  assert (RA : forall a v, In (a, v) sel -> assigned d (us_id user) a v).
  { intros a v J. apply (rows_assigned order ordered). apply PS in J. tauto. }
  assert (US : exists us, Forall2 (fun p a => exists t, ar_type (fst p) = Some t /\ a = stands_for p t) sel us /\ Forall att_fits us /\
    List.length us = List.length sel).
  { clear PN PS S. induction sel as [|[a v] l IH]; [exists []; auto|].
    destruct IH as (us & F2 & FF & FL); [intros; apply RA; now right|].
    destruct (RA a v (or_introl eq_refl)) as [R1 R2]. destruct (TY a R1) as (NT & S1 & S2). specialize (VA _ R2). cbn [as_value] in VA.
    destruct (ar_type a) as [t|] eqn:ET; [|congruence]. exists (stands_for (a, v) t :: us). split; [constructor; [exists t; auto|exact F2]|].
    split; [|cbn [List.length]; lia]. constructor; [|exact FF]. unfold att_fits, stands_for. cbn [at_id at_value at_name at_extra fst snd].
    split; [now apply short_fits|]. split; [|split; [|exact I]].
    - destruct v as [[|y v]|]; cbn [if_some] in *; [exact I|now apply short_fits|]. apply lit_fits; [reflexivity|vm_compute; discriminate].
    - destruct (ar_name a) eqn:EA; [exact I|]. now apply short_fits. }
  destruct US as (us & F2 & FF & FL).
  assert (LS : (List.length sel <= List.length (d_atts d))%nat).
  { pose proof (NoDup_incl_length PN (l' := map ar_id (d_atts d))) as L. rewrite !map_length in L. apply L.
    intros i J. apply in_map_iff in J as ([a v] & <- & J). destruct (RA a v J) as [R1 _]. cbn [fst]. now apply in_map. }
  destruct A as (AT & AU & AX). destruct (connection_fits q h addr cons UA UR UC AT E CO) as [CF CL].
  assert (BF : body_fits (draft name q h us cons)).
  { destruct UA, UC. rewrite AU in UN. cbn [if_some] in UN. pose proof (modest_short _ us_bits_ok0) as [B1 B2]. pose proof (modest_short _ SZ) as [Z1 Z2].
    destruct CI as [CI1 CI2], us_uri_ok0 as [U1 U2]. pose proof UN as [N1 N2].
    assert (EL : forall s, is_ascii s = true -> Forall encodable s) by (intros; now apply ascii_encodable, ascii_lit).
    unfold body_fits, issuer_fits, holder_fits, info_fits, rev_fits, del_fits, draft.
    cbn [c_issuer c_holder c_info c_rev c_del c_atts c_exts is_key is_algo is_uid is_name is_url ho_key ho_algo ho_uid ho_name
         i_version i_serial i_issued rv_after rv_before rv_url rv_extra de_extra if_some].
    repeat match goal with |- _ /\ _ => split end; try exact I; try lia; try (now apply short_fits); try exact us_serial0; try exact us_issued0; try exact us_end0.
    - unfold small. destruct us_pub_ok0. lia.
    - split; [unfold small; rewrite !app_length; change (List.length (lit "RSA[")) with 4%nat; change (List.length (lit "]")) with 1%nat; lia|].
      repeat (apply Forall_app; split; auto).
    - unfold small. destruct KO. lia.
    - split; [unfold small; rewrite !app_length; change (List.length (lit "[")) with 1%nat; change (List.length (lit "]")) with 1%nat; lia|].
      repeat (apply Forall_app; split; auto).
    - split; [unfold small; rewrite !app_length; change (List.length (lit "/user/")) with 6%nat; lia|].
      repeat (apply Forall_app; split; auto).
    - apply us_serial0.
    - apply us_serial0.
    - unfold small. rewrite app_length. lia.
    - apply Forall_app. auto. }
  exists addr, user, name, sel, us, cons. split; [exact E|]. split; [exact AO|]. split; [split; [exact AT|split; [exact AU|exact AX]]|].
  split; [discriminate|]. split; [discriminate|]. split; [exact AA|]. split; [exact S|]. split; [exact F2|]. split; [exact CO|].
  split; [exact BF|]. apply C58_body in BF as [w W]. destruct UA. destruct (us_signs0 w) as (s & S1 & S2). exists w, s. auto.
Qed.
End Issued.

(** ** Concrete cases *)

Definition issue_q : request := ex_request (lit "Alice") (lit "secret") [Some (lit "/a/age")] [Some (lit "role")] (lit "10.0.0.1").
Example ex_issue_usual : usual_database ex_users /\ usual_request issue_q /\ usual_chance toy ex_au ex_chance /\ address_ok ascii_only (lit "10.0.0.1").
Proof.
  assert (S : forall s, is_ascii s = true -> Z.of_nat (List.length s) <= 10000 -> short s) by exact lit_short.
  split; [|split; [|split]].
  - split.
    + split; repeat constructor; cbn; intuition discriminate.
    + repeat constructor; cbn; intuition discriminate.
    + cbn; lia.
    + intros a [<-|[<-|[<-|[]]]]; (split; [discriminate|split; (apply S; [reflexivity|vm_compute; discriminate])]).
    + intros a [<-|[<-|[<-|[<-|[]]]]]; cbn [as_value if_some]; try exact I; (apply S; [reflexivity|vm_compute; discriminate]).
  - split; try discriminate.
    + split; [cbn; lia|repeat constructor].
    + apply S; [reflexivity|vm_compute; discriminate].
    + reflexivity.
    + apply S; [reflexivity|vm_compute; discriminate].
    + intros k v [[= <- <-]|[]]. apply S; [reflexivity|vm_compute; discriminate].
  - split; try (apply S; [reflexivity|vm_compute; discriminate]); try reflexivity.
    + split; [discriminate|reflexivity].
    + split; [discriminate|reflexivity].
    + split; [discriminate|reflexivity].
    + repeat constructor.
  - apply (C54_dotted ascii_only _ _ (proj1 ex_parts) (proj2 ex_parts)). vm_compute. tauto.
Qed.
Example ex_issue_authority : usual_authority toy ex_au /\ decimals_ok ascii_only /\
  authenticated toy ascii_only ex_checkpw ex_au ex_users issue_q (UserRow 1 (lit "alice") (lit "secretpepper")) (lit "Alice").
Proof.
  split; [|split].
  - split; try (apply lit_short; [reflexivity|vm_compute; discriminate]); try reflexivity.
    + split; [cbn; lia|repeat constructor].
    + intros w. eexists. split; [reflexivity|]. unfold small. cbn. lia.
  - intros c d H. discriminate.
  - split; [reflexivity|]. split; [reflexivity|]. split; [now left|]. split; [reflexivity|].
    exists (lit "secretpepper"), (lit "secretpepper"). split; [reflexivity|]. split; [reflexivity|vm_compute; reflexivity].
Qed.
(** The request of the example is answered; with the clock at the end of time it is not. *)
Example ex_issue_end :
  (exists r, snd (attribute_request toy ascii_only ex_au ex_checkpw (fun l => l) [] ex_users issue_q ex_chance) = Ok r) /\
  snd (attribute_request toy ascii_only ex_au ex_checkpw (fun l => l) [] ex_users issue_q
         (Chance 300 (2 ^ 32 - 3600) 1001 (ch_tm ex_chance) (lit "Sunday") (lit "February"))) = Err EStruct.
Proof. split; [eexists; vm_compute; reflexivity|vm_compute; reflexivity]. Qed.

Print Assumptions C124_info.
Print Assumptions C124_exact.
Print Assumptions C124_time.
Print Assumptions C124_untyped.
Print Assumptions C124_answered.
