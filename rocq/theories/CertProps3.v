(** * CertProps3: which exceptions reading a certificate can raise (C61) *)

From Coq Require Import NArith ZArith List Bool Lia String.
From Verif Require Import PyBase LexProofs Struct BytesProofs AttCert CertSpec CertProofs CertProofs2 CertProofs3 CertProps CertProps2.
Import ListNotations.
Open Scope Z_scope.

(** ** Exceptions of the decoders *)

Definition dec_exc (e : exc) : Prop := e = EStruct \/ e = EUnicodeDecode \/ e = EValue.
Lemma take_err : forall k b e, take k b = Err e -> dec_exc e.
Proof. intros k b e H. unfold take in H. destruct (_ <? _)%nat; [|discriminate]. injection H as <-. now left. Qed.
Lemma get_u_err : forall k b e, get_u k b = Err e -> dec_exc e.
Proof. intros k b e H. unfold get_u in H. destruct (take k b) as [[x r]|] eqn:T; [discriminate|]. cbn [bind] in H. injection H as <-. exact (take_err _ _ _ T). Qed.
Lemma utf8_err : forall b e, utf8_decode b = Err e -> dec_exc e.
Proof. intros b e H. right. left. exact (utf8_decode_err _ b e (le_n _) H). Qed.
Lemma opt_text_err : forall b e, opt_text b = Err e -> dec_exc e.
Proof.
  intros [|x b] e H; [discriminate|]. unfold opt_text in H. destruct (utf8_decode (x :: b)) eqn:U; [discriminate|].
  cbn [bind] in H. injection H as <-. exact (utf8_err _ _ U).
Qed.
Lemma atype_err : forall t e, atype_of t = Err e -> dec_exc e.
Proof. intros t e H. unfold atype_of in H. destruct (find _ _); [discriminate|]. injection H as <-. right. now right. Qed.

Lemma bind_assoc : forall A B C (m : res A) (f : A -> res B) (g : B -> res C),
  bind (bind m f) g = bind m (fun x => bind (f x) g).
Proof. intros A B C [a|e] f g; reflexivity. Qed.
(** One step of a decoder that raised. *)
Ltac derr H :=
  match type of H with
  | bind (take ?k ?b) _ = Err _ =>
      let x := fresh "h" in let r := fresh "b" in let E := fresh "E" in
      destruct (take k b) as [[x r]|] eqn:E; cbn [bind] in H; [|injection H as <-; exact (take_err _ _ _ E)]
  | bind (get_u ?k ?b) _ = Err _ =>
      let x := fresh "n" in let r := fresh "b" in let E := fresh "E" in
      destruct (get_u k b) as [[x r]|] eqn:E; cbn [bind] in H; [|injection H as <-; exact (get_u_err _ _ _ E)]
  | (let '(_, _) := cut ?n ?b in _) = Err _ => destruct (cut n b)
  | (let '(_, _) := opt_cut ?n ?b in _) = Err _ => destruct (opt_cut n b)
  | bind (utf8_decode ?b) _ = Err _ =>
      let E := fresh "E" in destruct (utf8_decode b) eqn:E; cbn [bind] in H; [|injection H as <-; exact (utf8_err _ _ E)]
  | bind (opt_text ?b) _ = Err _ =>
      let E := fresh "E" in destruct (opt_text b) eqn:E; cbn [bind] in H; [|injection H as <-; exact (opt_text_err _ _ E)]
  | bind (atype_of ?b) _ = Err _ =>
      let E := fresh "E" in destruct (atype_of b) eqn:E; cbn [bind] in H; [|injection H as <-; exact (atype_err _ _ E)]
  | bind (if ?c then _ else _) _ = Err _ => destruct c; cbn [bind] in H
  | bind (bind _ _) _ = Err _ => rewrite bind_assoc in H
  | Ok _ = Err _ => discriminate H
  end.

Lemma issuer_derr : forall b e, issuer_decode b = Err e -> dec_exc e.
Proof. intros b e H. unfold issuer_decode in H. repeat derr H. Qed.
Lemma holder_derr : forall b e, holder_decode b = Err e -> dec_exc e.
Proof. intros b e H. unfold holder_decode in H. repeat derr H. Qed.
Lemma info_derr : forall b e, info_decode b = Err e -> dec_exc e.
Proof. intros b e H. unfold info_decode in H. repeat derr H. Qed.
Lemma att_derr : forall b e, att_decode b = Err e -> dec_exc e.
Proof. intros b e H. unfold att_decode in H. repeat derr H. Qed.
Lemma rev_derr : forall b e, rev_decode b = Err e -> dec_exc e.
Proof. intros b e H. unfold rev_decode in H. repeat derr H. Qed.
Lemma del_derr : forall b e, decode_del b = Err e -> dec_exc e.
Proof.
  intros b e H. unfold decode_del, del_decode in H. derr H. destruct (n =? 0); [discriminate|].
  cbn [bind] in H. destruct (opt_cut n b0). discriminate.
Qed.
Lemma ext_derr : forall b e, ext_decode b = Err e -> dec_exc e.
Proof. intros b e H. unfold ext_decode in H. repeat derr H. Qed.
Lemma sig_derr : forall b e, sig_decode b = Err e -> dec_exc e.
Proof. intros b e H. unfold sig_decode in H. repeat derr H. Qed.
Lemma list_derr : forall A (dec : bytes -> res (A * bytes)), (forall b e, dec b = Err e -> dec_exc e) ->
  forall k b e, decode_list dec k b = Err e -> dec_exc e.
Proof.
  intros A dec D. induction k as [|k IH]; intros b e H; cbn [decode_list] in H; [discriminate|].
  destruct (dec b) as [[x b1]|] eqn:E; cbn [bind] in H; [|injection H as <-; exact (D _ _ E)].
  destruct (decode_list dec k b1) as [[l b2]|] eqn:E2; cbn [bind] in H; [discriminate|injection H as <-; exact (IH _ _ E2)].
Qed.
Lemma body_derr : forall b e, decode_body b = Err e -> dec_exc e.
Proof.
  intros b e H. unfold decode_body in H.
  destruct (issuer_decode b) as [[is b1]|] eqn:E1; cbn [bind] in H; [|injection H as <-; exact (issuer_derr _ _ E1)].
  destruct (holder_decode b1) as [[ho b2]|] eqn:E2; cbn [bind] in H; [|injection H as <-; exact (holder_derr _ _ E2)].
  destruct (info_decode b2) as [[inf b3]|] eqn:E3; cbn [bind] in H; [|injection H as <-; exact (info_derr _ _ E3)].
  destruct (get_u 2 b3) as [[n b4]|] eqn:E4; cbn [bind] in H; [|injection H as <-; exact (get_u_err _ _ _ E4)].
  destruct (decode_list att_decode (Z.to_nat n) b4) as [[atts b5]|] eqn:E5; cbn [bind] in H;
    [|injection H as <-; exact (list_derr _ _ att_derr _ _ _ E5)].
  destruct (rev_decode b5) as [[rv b6]|] eqn:E6; cbn [bind] in H; [|injection H as <-; exact (rev_derr _ _ E6)].
  destruct (decode_del b6) as [[de b7]|] eqn:E7; cbn [bind] in H; [|injection H as <-; exact (del_derr _ _ E7)].
  destruct (get_u 2 b7) as [[m b8]|] eqn:E8; cbn [bind] in H; [|injection H as <-; exact (get_u_err _ _ _ E8)].
  destruct (decode_list ext_decode (Z.to_nat m) b8) as [[exts b9]|] eqn:E9; cbn [bind] in H; [discriminate|].
  injection H as <-; exact (list_derr _ _ ext_derr _ _ _ E9).
Qed.

(** ** What was decoded can be encoded again, but for the serial number *)

Lemma octets_split : forall n b, octets b -> octets (firstn n b) /\ octets (skipn n b).
Proof. intros n b O. apply Forall_app. now rewrite firstn_skipn. Qed.
Lemma take_octets : forall k b x r, octets b -> take k b = Ok (x, r) -> octets x /\ octets r /\ List.length x = k.
Proof.
  intros k b x r O H. unfold take in H. destruct (Nat.ltb_spec (List.length b) k) as [L|L]; [discriminate|].
  apply Ok_inj in H. injection H as <- <-. destruct (octets_split k b O). rewrite firstn_length. repeat split; auto. lia.
Qed.
Lemma get_octets : forall k b z r, octets b -> get_u k b = Ok (z, r) -> octets r /\ 0 <= z < 256 ^ Z.of_nat k.
Proof.
  intros k b z r O H. unfold get_u in H. destruct (take k b) as [[x t]|] eqn:T; cbn [bind] in H; [|discriminate].
  apply Ok_inj in H. injection H as <- <-. destruct (take_octets k b x t O T) as (Ox & Ot & L). split; [exact Ot|].
  pose proof (le_val_bound x Ox) as B. rewrite L in B. split; [lia|].
  apply N2Z.inj_lt in B. rewrite N2Z.inj_pow, nat_N_Z in B. exact B.
Qed.
Lemma cut_octets : forall n b x r, octets b -> cut n b = (x, r) -> octets x /\ octets r /\ Z.of_nat (List.length x) <= Z.max n 0.
Proof.
  intros n b x r O H. unfold cut in H. injection H as <- <-. destruct (octets_split (Z.to_nat n) b O).
  rewrite firstn_length. repeat split; auto. lia.
Qed.
Lemma text_decoded : forall b s, Z.of_nat (List.length b) <= 65535 -> utf8_decode b = Ok s -> text_fits s.
Proof.
  intros b s L H. pose proof (utf8_decode_sound _ b s (le_n _) H) as E. split.
  - apply utf8_length in E as [E _]. unfold small. lia.
  - apply utf8_fits. exists b. exact E.
Qed.
Lemma opt_decoded : forall b o, Z.of_nat (List.length b) <= 65535 -> opt_text b = Ok o -> if_some text_fits o.
Proof.
  intros [|x b] o L H; cbn [opt_text] in H; [apply Ok_inj in H; subst o; exact I|].
  destruct (utf8_decode (x :: b)) as [s|] eqn:U; cbn [bind] in H; [|discriminate]. apply Ok_inj in H. subst o.
  exact (text_decoded _ s L U).
Qed.
Lemma opt_cut_octets : forall n b o r, 0 <= n <= 65535 -> octets b -> opt_cut n b = (o, r) -> octets r /\ if_some small o.
Proof.
  intros n b o r N O H. unfold opt_cut in H. destruct (cut n b) as [x t] eqn:C. injection H as <- <-.
  destruct (cut_octets _ _ _ _ O C) as (_ & Ot & L). split; [exact Ot|]. destruct (n =? 0); [exact I|]. unfold if_some, small. lia.
Qed.

(** Everything read so far consists of bytes and was as long as announced. *)
Ltac known :=
  repeat match goal with
  | O : octets ?b, E : take ?k ?b = Ok (?x, ?r) |- _ =>
      let A := fresh "O" in let B := fresh "O" in let L := fresh "L" in
      destruct (take_octets k b x r O E) as (A & B & L); clear E
  | O : octets ?b, E : get_u ?k ?b = Ok (?z, ?r) |- _ =>
      let A := fresh "O" in let L := fresh "L" in destruct (get_octets k b z r O E) as (A & L); clear E
  | O : octets ?b, E : cut ?n ?b = (?x, ?r) |- _ =>
      let A := fresh "O" in let B := fresh "O" in let L := fresh "L" in
      destruct (cut_octets n b x r O E) as (A & B & L); clear E
  | O : octets ?b, E : opt_cut ?n ?b = (?x, ?r) |- _ =>
      let A := fresh "O" in let L := fresh "F" in
      destruct (opt_cut_octets n b x r ltac:(change (256 ^ Z.of_nat 2) with 65536 in *; lia) O E) as (A & L); clear E
  end;
  change (256 ^ Z.of_nat 2) with 65536 in *; change (256 ^ Z.of_nat 1) with 256 in *;
  change (256 ^ Z.of_nat 4) with (2 ^ 32) in *.
Ltac fit :=
  first [ assumption
        | eapply text_decoded; [|eassumption]; lia
        | eapply opt_decoded; [|eassumption]; lia
        | unfold small, time_fits; lia ].

Lemma issuer_dfits : forall b i r, octets b -> issuer_decode b = Ok (i, r) -> octets r /\ issuer_fits i.
Proof.
  intros b i r O H. unfold issuer_decode in H. repeat undo H. apply Ok_inj in H. injection H as <- <-. known.
  split; [assumption|]. unfold issuer_fits. cbn [is_key is_algo is_uid is_name is_url]. repeat (split; [fit|]). fit.
Qed.
Lemma holder_dfits : forall b i r, octets b -> holder_decode b = Ok (i, r) -> octets r /\ holder_fits i.
Proof.
  intros b i r O H. unfold holder_decode in H. repeat undo H. apply Ok_inj in H. injection H as <- <-. known.
  split; [assumption|]. unfold holder_fits. cbn [ho_key ho_algo ho_uid ho_name]. repeat (split; [fit|]). fit.
Qed.
Lemma att_dfits : forall b i r, octets b -> att_decode b = Ok (i, r) -> octets r /\ att_fits i.
Proof.
  intros b i r O H. unfold att_decode in H. repeat undo H. apply Ok_inj in H. injection H as <- <-. known.
  split; [assumption|]. unfold att_fits. cbn [at_id at_value at_name at_extra]. repeat (split; [fit|]). fit.
Qed.
Lemma rev_dfits : forall b i r, octets b -> rev_decode b = Ok (i, r) -> octets r /\ rev_fits i.
Proof.
  intros b i r O H. unfold rev_decode in H. repeat undo H. apply Ok_inj in H. injection H as <- <-. known.
  split; [assumption|]. unfold rev_fits. cbn [rv_after rv_before rv_url rv_extra]. repeat (split; [solve [fit]|]). split; [|fit].
  destruct (n =? 0); [apply Ok_inj in E5; subst x; exact I|]. unbind E5. apply Ok_inj in E5. subst x.
  cbn [if_some]. fit.
Qed.
Lemma ext_dfits : forall b i r, octets b -> ext_decode b = Ok (i, r) -> octets r /\ ext_fits i.
Proof.
  intros b i r O H. unfold ext_decode in H. repeat undo H. apply Ok_inj in H. injection H as <- <-. known.
  split; [assumption|]. unfold ext_fits. cbn [ex_id ex_extra]. split; fit.
Qed.
Lemma del_dfits : forall b o r, octets b -> decode_del b = Ok (o, r) -> octets r /\ if_some del_fits o.
Proof.
  intros b o r O H. unfold decode_del in H. undo H. destruct (n =? 0).
  - apply Ok_inj in H. injection H as <- <-. known. split; [assumption|exact I].
  - unfold del_decode in H. rewrite E in H. cbn [bind] in H. destruct (opt_cut n b0) as [x r'] eqn:C. cbn [bind] in H.
    apply Ok_inj in H. injection H as <- <-. known. split; assumption.
Qed.
Lemma info_dfits : forall b i r, octets b -> info_decode b = Ok (i, r) ->
  octets r /\ (info_fits i <-> i_serial i < 2 ^ 160).
Proof.
  intros b i r O H. unfold info_decode in H. repeat undo H. apply Ok_inj in H. injection H as <- <-. known.
  split; [assumption|]. unfold info_fits, time_fits. cbn [i_version i_serial i_issued]. lia.
Qed.
Lemma list_dfits : forall A (dec : bytes -> res (A * bytes)) (P : A -> Prop),
  (forall b x r, octets b -> dec b = Ok (x, r) -> octets r /\ P x) ->
  forall k b l r, octets b -> decode_list dec k b = Ok (l, r) -> octets r /\ List.length l = k /\ Forall P l.
Proof.
  intros A dec P D. induction k as [|k IH]; intros b l r O H; cbn [decode_list] in H.
  - apply Ok_inj in H. injection H as <- <-. auto.
  - destruct (dec b) as [[x b1]|] eqn:E; cbn [bind] in H; [|discriminate]. destruct (D _ _ _ O E) as [O1 Px].
    destruct (decode_list dec k b1) as [[m b2]|] eqn:E2; cbn [bind] in H; [|discriminate].
    destruct (IH _ _ _ O1 E2) as (O2 & L & F). apply Ok_inj in H. injection H as <- <-. cbn [List.length]. auto.
Qed.
Lemma body_dfits : forall b c r, octets b -> decode_body b = Ok (c, r) ->
  octets r /\ (body_fits c <-> i_serial (c_info c) < 2 ^ 160).
Proof.
  intros b c r O H. unfold decode_body in H.
  destruct (issuer_decode b) as [[is b1]|] eqn:E1; cbn [bind] in H; [|discriminate].
  destruct (issuer_dfits _ _ _ O E1) as [O1 F1].
  destruct (holder_decode b1) as [[ho b2]|] eqn:E2; cbn [bind] in H; [|discriminate].
  destruct (holder_dfits _ _ _ O1 E2) as [O2 F2].
  destruct (info_decode b2) as [[inf b3]|] eqn:E3; cbn [bind] in H; [|discriminate].
  destruct (info_dfits _ _ _ O2 E3) as [O3 F3].
  destruct (get_u 2 b3) as [[n b4]|] eqn:E4; cbn [bind] in H; [|discriminate].
  destruct (get_octets _ _ _ _ O3 E4) as [O4 F4]. change (256 ^ Z.of_nat 2) with 65536 in F4.
  destruct (decode_list att_decode (Z.to_nat n) b4) as [[atts b5]|] eqn:E5; cbn [bind] in H; [|discriminate].
  destruct (list_dfits _ _ _ att_dfits _ _ _ _ O4 E5) as (O5 & L5 & F5).
  destruct (rev_decode b5) as [[rv b6]|] eqn:E6; cbn [bind] in H; [|discriminate].
  destruct (rev_dfits _ _ _ O5 E6) as [O6 F6].
  destruct (decode_del b6) as [[de b7]|] eqn:E7; cbn [bind] in H; [|discriminate].
  destruct (del_dfits _ _ _ O6 E7) as [O7 F7].
  destruct (get_u 2 b7) as [[m b8]|] eqn:E8; cbn [bind] in H; [|discriminate].
  destruct (get_octets _ _ _ _ O7 E8) as [O8 F8]. change (256 ^ Z.of_nat 2) with 65536 in F8.
  destruct (decode_list ext_decode (Z.to_nat m) b8) as [[exts b9]|] eqn:E9; cbn [bind] in H; [|discriminate].
  destruct (list_dfits _ _ _ ext_dfits _ _ _ _ O8 E9) as (O9 & L9 & F9).
  apply Ok_inj in H. injection H as <- <-. split; [exact O9|].
  rewrite <- F3. unfold body_fits. cbn [c_issuer c_holder c_info c_rev c_del c_atts c_exts].
  split; [tauto|]. intros F. repeat (split; [assumption|]). cbn [if_some]. split.
  - split; [unfold small; lia|exact F5].
  - destruct exts; [exact I|]. split; [unfold small; lia|exact F9].
Qed.

(** The outcome of reading any bytes whatsoever without verification: a certificate, a
    struct.error, a UnicodeDecodeError, a ValueError (unknown attribute type) or the
    Exception for trailing bytes. *)
Theorem C61_decode : forall K b e, ac_decode K b false = Err e ->
  e = EStruct \/ e = EUnicodeDecode \/ e = EValue \/ e = EGeneric.
Proof.
  intros K b e H. unfold ac_decode in H.
  assert (G : dec_exc e -> e = EStruct \/ e = EUnicodeDecode \/ e = EValue \/ e = EGeneric) by (unfold dec_exc; tauto).
  destruct (decode_body b) as [[c r]|] eqn:E1; cbn [bind] in H; [|injection H as <-; exact (G (body_derr _ _ E1))].
  destruct (sig_decode r) as [[s t]|] eqn:E2; cbn [bind] in H; [|injection H as <-; exact (G (sig_derr _ _ E2))].
  destruct t; [discriminate|]. injection H as <-. auto.
Qed.
Print Assumptions C61_decode.

(** What was read can be written again unless its serial number has more than 160 bits. *)
Theorem C61_rewrite : forall K b c, octets b -> ac_decode K b false = Ok c ->
  ((exists w, encode_body c = Ok w) <-> i_serial (c_info c) < 2 ^ 160).
Proof.
  intros K b c O H. unfold ac_decode in H.
  destruct (decode_body b) as [[x r]|] eqn:E1; cbn [bind] in H; [|discriminate].
  destruct (sig_decode r) as [[s t]|] eqn:E2; cbn [bind] in H; [|discriminate].
  destruct t; [|discriminate]. apply Ok_inj in H. subst c.
  destruct (body_dfits b x r O E1) as [_ F]. rewrite <- (body_ok x) in F. exact F.
Qed.
Print Assumptions C61_rewrite.

Lemma big_serial : forall c e, encode_body c = Err e -> issuer_fits (c_issuer c) -> holder_fits (c_holder c) ->
  0 <= i_version (c_info c) <= 255 -> ~ (0 <= i_serial (c_info c) < 2 ^ 160) -> e = EOverflow.
Proof.
  intros c e H I Ho V S. unfold encode_body in H. apply issuer_ok in I as [x I]. apply holder_ok in Ho as [y Ho].
  rewrite I, Ho in H. cbn [bind] in H. unfold info_encode in H.
  apply pack1_fits in V as [v V]. rewrite V in H. cbn [bind] in H.
  destruct (pack_u 1 (Z.of_nat serial_bytes)) as [l|] eqn:L; [|discriminate]. cbn [bind] in H.
  destruct ((0 <=? i_serial (c_info c)) && (i_serial (c_info c) <? 256 ^ Z.of_nat serial_bytes)) eqn:Q.
  - exfalso. apply S. apply andb_prop in Q as [Q1 Q2]. apply Z.leb_le in Q1. apply Z.ltb_lt in Q2.
    unfold serial_bytes in Q2. change (256 ^ Z.of_nat 20) with (2 ^ 160) in Q2. lia.
  - cbn [bind] in H. now injection H as <-.
Qed.

(** Verification adds: what importing the key raises, the Exception for a bad signature, and
    OverflowError exactly for the serial numbers that cannot be written. *)
Theorem C61_verify : forall K b e, octets b -> ac_decode K b true = Err e ->
  ac_decode K b false = Err e \/
  exists c, ac_decode K b false = Ok c /\
    (e = EGeneric /\ verify_signature K c = Ok false \/
     k_import K (is_key (c_issuer c)) = Err e \/
     e = EOverflow /\ 2 ^ 160 <= i_serial (c_info c)).
Proof.
  intros K b e O H. destruct (ac_decode K b false) as [c|e'] eqn:D.
  - right. exists c. split; [reflexivity|]. pose proof (C61_rewrite K b c O D) as W.
    unfold ac_decode in D, H.
    destruct (decode_body b) as [[x r]|] eqn:E1; cbn [bind] in *; [|discriminate].
    destruct (sig_decode r) as [[s t]|] eqn:E2; cbn [bind] in *; [|discriminate].
    destruct t; [|discriminate]. apply Ok_inj in D. rewrite D in H.
    destruct (verify_signature K c) as [[|]|e'] eqn:V; cbn [bind] in H; [discriminate| |].
    + left. split; [congruence|reflexivity].
    + right. assert (e' = e) by congruence. subst e'. unfold verify_signature in V.
      destruct (c_sig c) as [[[a|] [v|]]|]; try discriminate.
      destruct (k_import K (is_key (c_issuer c))) as [pk|] eqn:I; cbn [bind] in V; [|left; congruence].
      destruct (encode_body c) as [w|] eqn:B; cbn [bind] in V; [discriminate|]. injection V as ->. right.
      assert (G : ~ i_serial (c_info c) < 2 ^ 160). { intros G. apply W in G as [w G]. congruence. }
      split; [|lia]. 
      assert (F : issuer_fits (c_issuer c) /\ holder_fits (c_holder c) /\ 0 <= i_version (c_info c) <= 255).
      { subst c. cbn [with_sig c_issuer c_holder c_info]. clear - O E1. unfold decode_body in E1.
        destruct (issuer_decode b) as [[is b1]|] eqn:E2; cbn [bind] in E1; [|discriminate].
        destruct (issuer_dfits _ _ _ O E2) as [O1 F1].
        destruct (holder_decode b1) as [[ho b2]|] eqn:E3; cbn [bind] in E1; [|discriminate].
        destruct (holder_dfits _ _ _ O1 E3) as [O2 F2].
        destruct (info_decode b2) as [[inf b3]|] eqn:E4; cbn [bind] in E1; [|discriminate].
        repeat (match type of E1 with (let '(_, _) := ?p in _) = _ => destruct p end || undo E1).
        apply Ok_inj in E1. injection E1 as <- _. cbn [c_issuer c_holder c_info].
        split; [exact F1|]. split; [exact F2|].
        unfold info_decode in E4. repeat undo E4. apply Ok_inj in E4. injection E4 as <- <-. known. cbn [i_version]. lia. }
      destruct F as (F1 & F2 & F3). apply (big_serial c e B F1 F2 F3). lia.
  - left. f_equal. unfold ac_decode in D, H.
    destruct (decode_body b) as [[x r]|] eqn:E1; cbn [bind] in *; [|congruence].
    destruct (sig_decode r) as [[s t]|] eqn:E2; cbn [bind] in *; [|congruence].
    destruct t; [discriminate|congruence].
Qed.
Print Assumptions C61_verify.

(** Bytes that decode to a certificate with a serial number of 161 bits. *)
Definition head_of (c : cert) : res bytes := is <- issuer_encode (c_issuer c) ;; ho <- holder_encode (c_holder c) ;; Ok (is ++ ho).
Definition big_bytes : bytes :=
  match head_of ex_cert with
  | Ok h => h ++ [0; 21]%N ++ repeat 0%N 20 ++ [1]%N ++ [0; 0; 0; 0]%N ++ [0; 0]%N ++ repeat 0%N 12 ++ [0; 0]%N ++ [0; 0]%N ++
            [1; 0; 1; 0; 65; 66]%N
  | Err _ => []
  end.
Example ex_big_serial : (exists c, ac_decode toy big_bytes false = Ok c) /\ ac_decode toy big_bytes true = Err EOverflow.
Proof. split; [eexists; vm_compute; reflexivity|vm_compute; reflexivity]. Qed.
Example ex_decode_errors :
  ac_decode toy [] false = Err EStruct /\ ac_decode toy big_bytes false <> Err EStruct.
Proof. split; [reflexivity|]. vm_compute. discriminate. Qed.

(** Wrapped in a format: base64 adds binascii.Error; a str argument ValueError for characters
    outside ASCII, BASE64FULL IndexError for fewer than four lines; TypeError for an argument
    that cannot be consumed or split; TEXT and XML always raise. *)
Theorem C61_import : forall K i f e, ac_import K i f false = Err e ->
  e = EStruct \/ e = EUnicodeDecode \/ e = EValue \/ e = EGeneric \/ e = EBinascii \/ e = EIndex \/ e = EType.
Proof.
  intros K i f e H.
  assert (G : forall b, ac_decode K b false = Err e -> e = EStruct \/ e = EUnicodeDecode \/ e = EValue \/ e = EGeneric \/ e = EBinascii \/ e = EIndex \/ e = EType).
  { intros b D. apply C61_decode in D. tauto. }
  assert (B : forall b q l p x, b64_loop b q l p = Err x -> x = EBinascii).
  { induction b as [|c b IH]; intros q l p x; cbn [b64_loop].
    - destruct (q =? 0)%N; congruence.
    - repeat match goal with
      | |- (if ?t then _ else _) = Err _ -> _ => destruct t
      | |- match b64_digit c with _ => _ end = Err _ -> _ => destruct (b64_digit c)
      | |- bind ?m _ = Err _ -> _ => destruct m eqn:?; cbn [bind]
      end; intros X; try discriminate; eauto.
      all: injection X as ->; eauto. }
  assert (N : forall b, (x <- b64decode b ;; ac_decode K x false) = Err e ->
    e = EStruct \/ e = EUnicodeDecode \/ e = EValue \/ e = EGeneric \/ e = EBinascii \/ e = EIndex \/ e = EType).
  { intros b D. destruct (b64decode b) as [x|x] eqn:Q; cbn [bind] in D; [exact (G x D)|]. injection D as ->.
    apply B in Q. tauto. }
  assert (M : forall s, (x <- b64decode_str s ;; ac_decode K x false) = Err e ->
    e = EStruct \/ e = EUnicodeDecode \/ e = EValue \/ e = EGeneric \/ e = EBinascii \/ e = EIndex \/ e = EType).
  { intros s D. unfold b64decode_str in D. destruct (is_ascii s); [exact (N s D)|]. cbn [bind] in D. injection D as <-. tauto. }
  destruct f; cbn [ac_import] in H.
  - destruct i as [b|b|s]; [exact (G b H)| |injection H as <-; tauto].
    destruct (issuer_decode b) eqn:Q; cbn [bind] in H; injection H as <-; [tauto|].
    apply issuer_derr in Q. unfold dec_exc in Q. tauto.
  - injection H as <-. tauto.
  - injection H as <-. tauto.
  - destruct i as [b|b|s]; [exact (N b H)|exact (N b H)|exact (M s H)].
  - destruct i as [b|b|s]; try (injection H as <-; tauto).
    destruct (nth_error (split_on nl s) 3); [exact (M _ H)|]. injection H as <-. tauto.
Qed.
Print Assumptions C61_import.
