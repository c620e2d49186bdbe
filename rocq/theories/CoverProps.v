(** * CoverProps: which certificates can arrive and which a signature covers (C121) *)

From Coq Require Import NArith ZArith List Bool Lia Permutation String.
From Verif Require Import PyBase LexProofs Struct BytesProofs AttCert CertSpec CertProofs CertProofs2 CertProofs3 CertProps CertProps2 CertProps3
  PAuth PAuthSpec PAuthProofs PAuthProps AAuth AAuthSpec AAuthProofs AAuthProps System SystemProps CoverSpec CoverProofs.
Import ListNotations.
Open Scope Z_scope.

(** ** C121 *)

(** Exactly these certificates can be the outcome of reading bytes. *)
Theorem C121_arrives : forall K c, (exists b, octets b /\ ac_decode K b false = Ok c) <-> cert_sendable c.
Proof. intros K c. split; [intros (b & O & D); exact (cert_read K b c O D)|apply cert_send]. Qed.
Print Assumptions C121_arrives.

(** Exactly these certificates have the same signed bytes. *)
Theorem C121_covered : forall a b w, encode_body a = Ok w -> (encode_body b = Ok w <-> alike a b).
Proof. exact body_alike. Qed.
Print Assumptions C121_covered.

(** So with a signature of the certificate [c] exactly these can be presented and are accepted. *)
Theorem C121_presented : forall K c c', verified K c -> c_sig c' = c_sig c -> is_key (c_issuer c') = is_key (c_issuer c) ->
  ((exists b, octets b /\ ac_decode K b true = Ok c') /\ encode_body c' = encode_body c <-> alike c c' /\ cert_sendable c').
Proof.
  intros K c c' V S KE. destruct V as (a & v & pk & w & V1 & V2 & V3 & V4). split.
  - intros ((b & O & D) & E). rewrite V3 in E. split; [now apply (body_alike c c' w V3)|]. apply decode_verify in D as [D _]. exact (cert_read K b c' O D).
  - intros (A & W). apply (body_alike c c' w V3) in A. split; [|congruence]. destruct (cert_send K c' W) as (b & O & D). exists b. split; [exact O|].
    apply decode_verify. split; [exact D|]. exists a, v, pk, w. rewrite S, KE. auto.
Qed.
Print Assumptions C121_presented.

(** The end of a text that is not ASCII is free: as many characters as the UTF-8 of what comes before has
    bytes beyond its characters. *)
Theorem C121_free : forall p q q' b, utf8_encode p = Ok b -> Forall encodable q -> Forall encodable q' -> List.length q' = List.length q ->
  (List.length p + List.length q <= List.length b)%nat -> text_alike (p ++ q) (p ++ q').
Proof.
  assert (APP : forall p q b x, utf8_encode p = Ok b -> utf8_encode q = Ok x -> utf8_encode (p ++ q) = Ok (b ++ x)).
  { induction p as [|c p IH]; intros q b x P Q; cbn [utf8_encode app] in *; [apply Ok_inj in P; now subst b|].
    unbind P. apply Ok_inj in P. subst b. rewrite (IH q _ x eq_refl Q). cbn [bind]. now rewrite app_assoc. }
  intros p q q' b P Q Q' L H. apply utf8_fits in Q as (x & Q). apply utf8_fits in Q' as (x' & Q').
  split; [rewrite !app_length; lia|]. exists (b ++ x), (b ++ x'). split; [now apply APP|]. split; [now apply APP|].
  rewrite app_length, !firstn_app. replace (List.length p + List.length q - List.length b)%nat with 0%nat by lia. reflexivity.
Qed.
Print Assumptions C121_free.

(** An attribute in an accepted certificate whose value ends in such characters: the certificate with any
    others in their place is accepted as well. *)
Definition with_atts (c : cert) (l : list ac_att) : cert :=
  Cert (c_issuer c) (c_holder c) (c_info c) (Some l) (c_rev c) (c_del c) (c_exts c) (c_sig c).
Lemma alike_refl_text : forall s b, utf8_encode s = Ok b -> text_alike s s.
Proof. intros s b E. split; [reflexivity|]. exists b, b. auto. Qed.
Lemma opt_utf8 : forall o, opt_sendable o -> exists b, utf8_encode (content o) = Ok b.
Proof. intros [s|] H; [destruct H as (_ & b & E & _); exists b; exact E|exists []; reflexivity]. Qed.
Lemma att_refl : forall a, att_sendable a -> att_alike a a.
Proof.
  intros a ((b & E & _) & H2 & H3 & _). destruct (opt_utf8 _ H2) as (b2 & E2). destruct (opt_utf8 _ H3) as (b3 & E3).
  unfold att_alike. repeat split; try (eapply alike_refl_text; eassumption).
  all: match goal with |- exists b b' : bytes, _ => eexists; eexists; repeat split; eassumption end.
Qed.
Lemma list_refl : forall l, Forall att_sendable l -> Forall2 att_alike l l.
Proof. intros l F. induction F; constructor; auto using att_refl. Qed.
Theorem C121_value : forall K b c l1 l2 i t p q q' n x u, octets b -> ac_decode K b true = Ok c ->
  c_atts c = Some (l1 ++ Att i t (Some (p ++ q)) n x :: l2) -> utf8_encode p = Ok u -> (List.length p + List.length q <= List.length u)%nat ->
  List.length q' = List.length q -> Forall encodable q' -> sendable (p ++ q') ->
  exists b', octets b' /\ ac_decode K b' true = Ok (with_atts c (l1 ++ Att i t (Some (p ++ q')) n x :: l2)).
Proof.
  intros K b c l1 l2 i t p q q' n x u O D A P H L EQ SE. apply decode_verify in D as [D V]. pose proof (cert_read K b c O D) as S.
  destruct S as (S1 & S2 & S3 & (l & EL & SL & FL) & S5 & S6 & S7 & S8). rewrite A in EL. injection EL as <-.
  apply Forall_app in FL as [F1 F2]. inversion F2 as [|? ? FA F3]; subst. destruct FA as (A1 & A2 & A3 & A4). cbn [at_id at_value at_name at_extra] in *.
  assert (EQ0 : Forall encodable q).
  { destruct A2 as (_ & w & E & _). assert (Q : ok (utf8_encode (p ++ q))) by now exists w. apply utf8_fits in Q. now apply Forall_app in Q as [_ Q]. }
  set (c' := with_atts c (l1 ++ Att i t (Some (p ++ q')) n x :: l2)).
  assert (G : alike c c' /\ cert_sendable c').
  { split.
    - pose proof V as (? & ? & ? & w & _ & _ & W & _). pose proof (proj1 (body_alike c c w W) W) as (R1 & R2 & R3 & R4 & R5 & R6 & R7).
      unfold alike, c', with_atts. cbn [c_issuer c_holder c_info c_atts c_rev c_del c_exts]. rewrite A. cbn [content].
      repeat (split; [assumption|]). split; [|auto]. apply Forall2_app; [now apply list_refl|]. constructor; [|now apply list_refl].
      destruct A1 as (b1 & E1 & _). destruct (opt_utf8 _ A3) as (b3 & E3).
      split; [exact (alike_refl_text _ _ E1)|]. split; [reflexivity|]. split; [exact (C121_free p q q' u P EQ0 EQ L H)|]. split; [exact (alike_refl_text _ _ E3)|reflexivity].
    - unfold cert_sendable, c', with_atts. cbn [c_issuer c_holder c_info c_atts c_rev c_del c_exts c_sig].
      repeat (split; [assumption|]). split; [|auto]. eexists. split; [reflexivity|]. split; [unfold small in *; rewrite app_length in *; cbn [List.length] in *; exact SL|].
      apply Forall_app. split; [exact F1|]. constructor; [|exact F3]. split; [exact A1|]. split; [|auto]. split; [|exact SE].
      destruct A2 as [NE _]. destruct p as [|c0 p]; [|discriminate]. destruct q' as [|c0 q']; [|discriminate]. destruct q; [contradiction|discriminate L]. }
  apply (C121_presented K c c' V eq_refl eq_refl) in G as [G _]. exact G.
Qed.
Print Assumptions C121_value.

(** The certificates the policy authority stores with the key of the attribute authority, whatever their texts: each
    has the signed bytes of one that was issued. *)
Theorem C121_stored : forall K U au checkpw order pk s0 s row, begins s0 -> run K U au checkpw order pk s0 s -> In row (d_certs (sy_pdb s)) ->
  exists f c, good_format (cr_format row) f /\ ac_import K (InArray (cr_cert row)) f true = Ok c /\
    (k_import K (is_key (c_issuer c)) = Ok pk -> exists g, In g (sy_grants s) /\ alike (is_cert (gr_issued g)) c).
Proof.
  intros K U au checkpw order pk s0 s row B R I. pose proof (run_history K U au checkpw order pk s0 s R) as H.
  destruct (C62_vouched K _ _ row (proj1 (proj2 B)) H I) as (c & f & G & M & _). exists f, c. split; [exact G|]. split; [exact M|]. intros KI.
  apply C38_verified in M as [M V]. destruct (run_rows K U au checkpw order pk s0 s B R row f c I G M V KI) as (g & J & Q). exists g. split; [exact J|].
  destruct V as (_ & _ & _ & w & _ & _ & W & _). apply (body_alike _ _ w); congruence.
Qed.
Print Assumptions C121_stored.

(** ** Examples *)

(** The holder name é can become è, and Müller7 can become Müller9. *)
Example ex_free : text_alike [233]%N [232]%N /\ text_alike (lit "M" ++ [252]%N ++ lit "ller7") (lit "M" ++ [252]%N ++ lit "ller9") /\
  ~ text_alike (lit "Muller7") (lit "Muller9").
Proof.
  split; [split; [reflexivity|]; eexists; eexists; repeat split; vm_compute; reflexivity|].
  split; [split; [reflexivity|]; eexists; eexists; repeat split; vm_compute; reflexivity|].
  intros (_ & b & b' & E & E' & Q). vm_compute in E, E'. apply Ok_inj in E. apply Ok_inj in E'. subst b b'. discriminate Q.
Qed.
(** Of the changed certificate of C120 the value é9 can be changed again. *)
Definition ex_changed_cert : cert := match ac_decode strict ex_changed true with Ok c => c | Err _ => ex_own end.
Example ex_value : octets ex_changed /\ ac_decode strict ex_changed true = Ok ex_changed_cert /\
  c_atts ex_changed_cert = Some ([] ++ Att (lit "/a/level") AString (Some ([233]%N ++ lit "9")) (Some (lit "level")) None :: tl (content (c_atts ex_changed_cert))) /\
  utf8_encode [233]%N = Ok [195; 169]%N /\ sendable ([233]%N ++ lit "5").
Proof.
  assert (OC : forallb (fun x => (x <? 256)%N) ex_changed = true) by (vm_compute; reflexivity).
  split; [apply Forall_forall; intros x I; rewrite forallb_forall in OC; apply N.ltb_lt, (OC x I)|].
  split; [vm_compute; reflexivity|]. split; [vm_compute; reflexivity|]. split; [reflexivity|].
  exists [195; 169; 53]%N. split; [reflexivity|]. unfold small. cbn. lia.
Qed.
Definition ex_signed_bytes : bytes := out_bytes (ac_export toy ex_signed FBytes false None default_algo).
Example ex_sendable : cert_sendable ex_signed.
Proof.
  apply (C121_arrives toy). exists ex_signed_bytes.
  assert (OC : forallb (fun x => (x <? 256)%N) ex_signed_bytes = true) by (vm_compute; reflexivity).
  split; [apply Forall_forall; intros x I; rewrite forallb_forall in OC; apply N.ltb_lt, (OC x I)|]. vm_compute. reflexivity.
Qed.
