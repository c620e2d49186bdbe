(** * CoverProofs: writing any certificate that can arrive; reading the signed bytes back *)

From Coq Require Import NArith ZArith List Bool Lia.
From Verif Require Import PyBase Struct BytesProofs AttCert CertSpec CertProofs CertProofs2 CertProofs3 CertProps3 CoverSpec.
Import ListNotations.
Open Scope Z_scope.

(** ** Writing *)

Lemma take_len : forall (b r : bytes), take (Z.to_nat (len b)) (b ++ r) = Ok (b, r).
Proof. intros b r. apply take_app. now rewrite len_nat. Qed.
Lemma cut_len : forall (b r : bytes), cut (len b) (b ++ r) = (b, r).
Proof. intros b r. apply cut_app. apply len_nat. Qed.
Lemma small_pack : forall (b : bytes), small b -> exists h, pack_u 2 (len b) = Ok h.
Proof. intros b S. now apply pack2_fits. Qed.
(** The bytes of an optional text, read back. *)
Lemma opt_send : forall o, opt_sendable o -> exists b, octets b /\ small b /\ opt_text b = Ok o /\
  (if len b =? 0 then Ok None else s <- utf8_decode b ;; Ok (Some s)) = Ok o.
Proof.
  intros [s|] H; cbn [opt_sendable if_some] in H.
  - destruct H as (N & b & E & S). exists b. split; [exact (utf8_byte _ _ E)|]. split; [exact S|]. pose proof (utf8_round_trip _ _ E) as R.
    rewrite len_zero. destruct b as [|x b]; [apply utf8_encode_nil in E; contradiction|]. cbn [opt_text]. rewrite R. split; reflexivity.
  - exists []. split; [constructor|]. split; [unfold small; cbn; lia|]. split; reflexivity.
Qed.
Lemma text_send : forall s, sendable s -> exists b, octets b /\ small b /\ utf8_decode b = Ok s.
Proof. intros s (b & E & S). exists b. split; [exact (utf8_byte _ _ E)|]. split; [exact S|]. exact (utf8_round_trip _ _ E). Qed.
Lemma piece_send : forall o, opt_piece o -> exists b, octets b /\ small b /\ forall r, opt_cut (len b) (b ++ r) = (o, r).
Proof.
  intros [b|] H; cbn [opt_piece if_some] in H.
  - destruct H as (N & O & S). exists b. split; [exact O|]. split; [exact S|]. intros r. unfold opt_cut. rewrite cut_len, len_zero. destruct b; [contradiction|reflexivity].
  - exists []. split; [constructor|]. split; [unfold small; cbn; lia|]. intros r. reflexivity.
Qed.

Ltac octs := repeat apply octets_app; first [assumption | eapply octets_pack; eassumption].

Lemma issuer_send : forall i, issuer_sendable i -> exists b, octets b /\ forall r, issuer_decode (b ++ r) = Ok (i, r).
Proof.
  intros [k a u n l] (H1 & H2 & H3 & H4 & H5). cbn [is_key is_algo is_uid is_name is_url] in *.
  destruct H1 as [O1 S1]. destruct (text_send _ H2) as (ba & O2 & S2 & D2). destruct (text_send _ H3) as (bu & O3 & S3 & D3).
  destruct (opt_send _ H4) as (bn & O4 & S4 & D4 & _). destruct (opt_send _ H5) as (bl & O5 & S5 & D5 & _).
  destruct (small_pack _ S1) as (h1 & P1). destruct (small_pack _ S2) as (h2 & P2). destruct (small_pack _ S3) as (h3 & P3).
  destruct (small_pack _ S4) as (h4 & P4). destruct (small_pack _ S5) as (h5 & P5).
  exists ((h1 ++ h2 ++ h3 ++ h4 ++ h5) ++ k ++ ba ++ bu ++ bn ++ bl). split; [octs|]. intros r. unfold issuer_decode.
  rewrite <- (app_assoc (h1 ++ h2 ++ h3 ++ h4 ++ h5)). header (h1 ++ h2 ++ h3 ++ h4 ++ h5) ((k ++ ba ++ bu ++ bn ++ bl) ++ r).
  rewrite <- !app_assoc. rewrite cut_len. rewrite !take_len. cbn [bind]. rewrite !take_len. cbn [bind]. rewrite !take_len. cbn [bind]. rewrite !take_len. cbn [bind].
  rewrite D2, D3, D4, D5. reflexivity.
Qed.
Lemma holder_send : forall i, holder_sendable i -> exists b, octets b /\ forall r, holder_decode (b ++ r) = Ok (i, r).
Proof.
  intros [k a u n] (H1 & H2 & H3 & H4). cbn [ho_key ho_algo ho_uid ho_name] in *.
  destruct H1 as [O1 S1]. destruct (text_send _ H2) as (ba & O2 & S2 & D2). destruct (text_send _ H3) as (bu & O3 & S3 & D3).
  destruct (opt_send _ H4) as (bn & O4 & S4 & D4 & _).
  destruct (small_pack _ S1) as (h1 & P1). destruct (small_pack _ S2) as (h2 & P2). destruct (small_pack _ S3) as (h3 & P3). destruct (small_pack _ S4) as (h4 & P4).
  exists ((h1 ++ h2 ++ h3 ++ h4) ++ k ++ ba ++ bu ++ bn). split; [octs|]. intros r. unfold holder_decode.
  rewrite <- (app_assoc (h1 ++ h2 ++ h3 ++ h4)). header (h1 ++ h2 ++ h3 ++ h4) ((k ++ ba ++ bu ++ bn) ++ r).
  rewrite <- !app_assoc. rewrite cut_len. rewrite !take_len. cbn [bind]. rewrite !take_len. cbn [bind]. rewrite !take_len. cbn [bind].
  rewrite D2, D3, D4. reflexivity.
Qed.
Lemma att_send : forall i, att_sendable i -> exists b, octets b /\ forall r, att_decode (b ++ r) = Ok (i, r).
Proof.
  intros [i t v n x] (H1 & H2 & H3 & H4). cbn [at_id at_type at_value at_name at_extra] in *.
  destruct (text_send _ H1) as (bi & O1 & S1 & D1). destruct (opt_send _ H2) as (bv & O2 & S2 & D2 & _).
  destruct (opt_send _ H3) as (bn & O3 & S3 & D3 & _). destruct (piece_send _ H4) as (bx & O4 & S4 & D4).
  destruct (small_pack _ S1) as (h1 & P1). destruct (small_pack _ S2) as (h2 & P2). destruct (small_pack _ S3) as (h3 & P3). destruct (small_pack _ S4) as (h4 & P4).
  assert (T : 0 <= atype_val t <= 255) by (destruct t; cbn; lia). apply pack1_fits in T as (h5 & P5).
  exists ((h1 ++ h2 ++ h3 ++ h4 ++ h5) ++ bi ++ bv ++ bn ++ bx). split; [octs|]. intros r. unfold att_decode.
  rewrite <- (app_assoc (h1 ++ h2 ++ h3 ++ h4 ++ h5)). header (h1 ++ h2 ++ h3 ++ h4 ++ h5) ((bi ++ bv ++ bn ++ bx) ++ r).
  rewrite atype_of_val. cbn [bind]. rewrite <- !app_assoc. rewrite !take_len. cbn [bind]. rewrite !take_len. cbn [bind]. rewrite !take_len. cbn [bind].
  rewrite D1, D2, D3. cbn [bind]. rewrite D4. reflexivity.
Qed.
Lemma rev_send : forall i, rev_sendable i -> exists b, octets b /\ forall r, rev_decode (b ++ r) = Ok (i, r).
Proof.
  intros [va vb u x] (H1 & H2 & H3 & H4). cbn [rv_after rv_before rv_url rv_extra] in *.
  destruct (opt_send _ H3) as (bu & O3 & S3 & _ & D3). destruct (piece_send _ H4) as (bx & O4 & S4 & D4).
  destruct (small_pack _ S3) as (h1 & P1). destruct (small_pack _ S4) as (h2 & P2).
  apply pack4_fits in H1 as (h3 & P3). apply pack4_fits in H2 as (h4 & P4).
  exists ((h1 ++ h2 ++ h3 ++ h4) ++ bu ++ bx). split; [octs|]. intros r. unfold rev_decode.
  rewrite <- (app_assoc (h1 ++ h2 ++ h3 ++ h4)). header (h1 ++ h2 ++ h3 ++ h4) ((bu ++ bx) ++ r).
  rewrite <- !app_assoc. rewrite cut_len. rewrite D3. cbn [bind]. rewrite D4. reflexivity.
Qed.
Lemma ext_send : forall i, ext_sendable i -> exists b, octets b /\ forall r, ext_decode (b ++ r) = Ok (i, r).
Proof.
  intros [i x] (H1 & H2). cbn [ex_id ex_extra] in *.
  destruct (text_send _ H1) as (bi & O1 & S1 & D1). destruct (piece_send _ H2) as (bx & O2 & S2 & D2).
  destruct (small_pack _ S1) as (h1 & P1). destruct (small_pack _ S2) as (h2 & P2).
  exists ((h1 ++ h2) ++ bi ++ bx). split; [octs|]. intros r. unfold ext_decode.
  rewrite <- (app_assoc (h1 ++ h2)). header (h1 ++ h2) ((bi ++ bx) ++ r).
  rewrite <- !app_assoc. rewrite cut_len. rewrite D1. cbn [bind]. rewrite D2. reflexivity.
Qed.
Lemma del_send : forall o, if_some (fun d => exists x, de_extra d = Some x /\ x <> [] /\ piece x) o ->
  exists b, octets b /\ forall r, decode_del (b ++ r) = Ok (o, r).
Proof.
  intros [[x]|] H; cbn [if_some de_extra] in H.
  - destruct H as (y & -> & N & O & S). destruct (small_pack _ S) as (h & P). exists (h ++ y). split; [octs|]. intros r.
    unfold decode_del, del_decode. rewrite <- app_assoc, (get_u_pack _ _ _ _ P). cbn [bind]. rewrite len_zero. destruct y as [|z y]; [contradiction|].
    unfold opt_cut. rewrite cut_len, len_zero. reflexivity.
  - exists [0; 0]%N. split; [repeat constructor|]. intros r. reflexivity.
Qed.
Lemma info_send : forall i, info_sendable i -> exists b, octets b /\ forall r, info_decode (b ++ r) = Ok (i, r).
Proof.
  intros [v s t] (H1 & H2 & H3). cbn [i_version i_serial i_issued] in *.
  apply pack1_fits in H1 as (h1 & P1). assert (L : 0 <= 255 <= 255) by lia. apply pack1_fits in L as (h2 & P2). apply pack4_fits in H3 as (h3 & P3).
  exists ((h1 ++ h2) ++ le_bytes 255 (Z.to_N s) ++ h3). split.
  - repeat apply octets_app; try (eapply octets_pack; eassumption). apply (octets_pack 255 s). apply pack_u_ok. split; [|reflexivity]. change (256 ^ Z.of_nat 255) with (2 ^ 2040). exact H2.
  - intros r. unfold info_decode. rewrite <- (app_assoc (h1 ++ h2)). header (h1 ++ h2) ((le_bytes 255 (Z.to_N s) ++ h3) ++ r).
    rewrite <- !app_assoc. rewrite (cut_app 255) by (rewrite le_bytes_length; reflexivity). rewrite (get_u_pack _ _ _ _ P3). cbn [bind].
    rewrite le_val_bytes; [rewrite Z2N.id by lia; reflexivity|].
    apply N2Z.inj_lt. rewrite Z2N.id by lia. rewrite N2Z.inj_pow, nat_N_Z. change (Z.of_N 256 ^ Z.of_nat 255) with (2 ^ 2040). lia.
Qed.
Lemma list_send : forall A (P : A -> Prop) (dec : bytes -> res (A * bytes)),
  (forall x, P x -> exists b, octets b /\ forall r, dec (b ++ r) = Ok (x, r)) ->
  forall l, Forall P l -> exists b, octets b /\ forall r, decode_list dec (List.length l) (b ++ r) = Ok (l, r).
Proof.
  intros A P dec H l F. induction F as [|x l Px F IH]; [exists []; split; [constructor|reflexivity]|].
  destruct (H x Px) as (b & O & D). destruct IH as (b' & O' & D'). exists (b ++ b'). split; [now apply octets_app|].
  intros r. cbn [List.length decode_list]. rewrite <- app_assoc, D. cbn [bind]. rewrite D'. reflexivity.
Qed.
Lemma sig_send : forall s, sig_sendable s -> exists b, octets b /\ sig_decode b = Ok (s, []).
Proof.
  intros [a v] (H1 & H2 & H3 & H4). cbn [sg_algo sg_value] in *.
  assert (C : (exists z, (a = None /\ z = 0 \/ a = Some [] /\ z = 1) /\ (v = None \/ v = Some [])) \/
              (exists ba, octets ba /\ small ba /\ (if 0 <? len ba then s <- utf8_decode ba ;; Ok (Some s) else Ok None) = Ok a /\ (a = None \/ ba <> []))).
  { destruct a as [[|x s]|].
    - left. exists 1. split; [right; auto|]. exact (H3 eq_refl).
    - right. destruct (text_send _ H1) as (ba & O & S & D). exists ba. split; [exact O|]. split; [exact S|]. rewrite len_pos.
      destruct ba as [|y ba]; [discriminate D|]. rewrite D. split; [reflexivity|]. right. discriminate.
    - right. exists []. split; [constructor|]. split; [unfold small; cbn; lia|]. split; [reflexivity|now left]. }
  destruct C as [(z & C & V)|(ba & O & S & D & NE)].
  - assert (Z1 : 0 <= z < 65536) by (destruct C as [[_ ->]|[_ ->]]; lia).
    pose (y := match v with None => 0 | Some _ => 1 end). assert (Z2 : 0 <= y < 65536) by (unfold y; destruct v; lia).
    destruct (pack_u 2 z) as [h1|] eqn:P1; [|exfalso; unfold pack_u in P1; change (256 ^ Z.of_nat 2) with 65536 in P1; destruct (Z.leb_spec 0 z), (Z.ltb_spec z 65536); cbn in P1; try discriminate; lia].
    destruct (pack_u 2 y) as [h2|] eqn:P2; [|exfalso; unfold pack_u in P2; change (256 ^ Z.of_nat 2) with 65536 in P2; destruct (Z.leb_spec 0 y), (Z.ltb_spec y 65536); cbn in P2; try discriminate; lia].
    exists ((h1 ++ h2) ++ []). split; [repeat apply octets_app; try (eapply octets_pack; eassumption); constructor|]. unfold sig_decode.
    header (h1 ++ h2) ([] : bytes). unfold cut, opt_cut, cut. rewrite !firstn_nil, !skipn_nil.
    destruct C as [[-> ->]|[-> ->]]; destruct V as [-> | ->]; reflexivity.
  - destruct (small_pack _ S) as (h1 & P1).
    assert (V : exists h2 bv z, pack_u 2 z = Ok h2 /\ octets bv /\ opt_cut z bv = (v, [])).
    { destruct v as [[|x w]|].
      - exists [1; 0]%N, [], 1. split; [reflexivity|]. split; [constructor|]. reflexivity.
      - destruct H2 as [O2 S2]. destruct (small_pack _ S2) as (h & P). exists h, (x :: w), (len (x :: w)). split; [exact P|]. split; [exact O2|].
        unfold opt_cut. rewrite <- (app_nil_r (x :: w)) at 2. rewrite cut_len, len_zero. reflexivity.
      - exists [0; 0]%N, [], 0. split; [reflexivity|]. split; [constructor|]. reflexivity. }
    destruct V as (h2 & bv & z & P2 & O2 & D2).
    exists ((h1 ++ h2) ++ ba ++ bv). split; [octs|]. unfold sig_decode. header (h1 ++ h2) (ba ++ bv).
    rewrite cut_len. rewrite D. cbn [bind]. rewrite D2. reflexivity.
Qed.

Theorem cert_send : forall K c, cert_sendable c -> exists b, octets b /\ ac_decode K b false = Ok c.
Proof.
  intros K [is ho inf atts rv de exts sg] (H1 & H2 & H3 & (l & EL & SL & FL) & H5 & H6 & H7 & H8).
  cbn [c_issuer c_holder c_info c_atts c_rev c_del c_exts c_sig] in *. subst atts.
  destruct (issuer_send _ H1) as (b1 & O1 & D1). destruct (holder_send _ H2) as (b2 & O2 & D2). destruct (info_send _ H3) as (b3 & O3 & D3).
  destruct (list_send _ _ _ att_send _ FL) as (b4 & O4 & D4). apply pack2_fits in SL as (h4 & P4).
  destruct (rev_send _ H5) as (b5 & O5 & D5). destruct (del_send _ H6) as (b6 & O6 & D6).
  assert (X : exists h7 b7 m, octets b7 /\ pack_u 2 m = Ok h7 /\ exists l', (forall r, decode_list ext_decode (Z.to_nat m) (b7 ++ r) = Ok (l', r)) /\ match l' with [] => None | _ => Some l' end = exts).
  { destruct exts as [m|]; cbn [if_some] in H7.
    - destruct H7 as (N7 & S7 & F7). destruct (list_send _ _ _ ext_send _ F7) as (b7 & O7 & D7). apply pack2_fits in S7 as (h7 & P7).
      exists h7, b7, (len m). split; [exact O7|]. split; [exact P7|]. exists m. rewrite len_nat. split; [exact D7|]. destruct m; [contradiction|reflexivity].
    - exists [0; 0]%N, [], 0. split; [constructor|]. split; [reflexivity|]. exists []. split; reflexivity. }
  destruct X as (h7 & b7 & m & O7 & P7 & l' & D7 & <-).
  assert (G : exists b8 g, octets b8 /\ sig_decode b8 = Ok (g, []) /\ match g with Sig None None => None | _ => Some g end = sg).
  { destruct sg as [g|]; cbn [if_some] in H8.
    - destruct (sig_send g H8) as (b8 & O8 & D8). exists b8, g. split; [exact O8|]. split; [exact D8|]. destruct H8 as (_ & _ & _ & H8).
      destruct g as [[a|] [v|]]; try reflexivity. cbn [sg_algo sg_value] in H8. destruct H8 as [H8|H8]; contradiction.
    - exists [0; 0; 0; 0]%N, (Sig None None). split; [repeat constructor|]. split; reflexivity. }
  destruct G as (b8 & g & O8 & D8 & <-).
  exists ((b1 ++ b2 ++ b3 ++ h4 ++ b4 ++ b5 ++ b6 ++ h7 ++ b7) ++ b8). split; [octs|].
  unfold ac_decode, decode_body. rewrite <- !app_assoc. rewrite D1. cbn [bind]. rewrite D2. cbn [bind]. rewrite D3. cbn [bind].
  rewrite (get_u_pack _ _ _ _ P4). cbn [bind]. rewrite len_nat, D4. cbn [bind]. rewrite D5. cbn [bind]. rewrite D6. cbn [bind].
  rewrite (get_u_pack _ _ _ _ P7). cbn [bind]. rewrite D7. cbn [bind]. rewrite D8. reflexivity.
Qed.

(** ** Reading *)

Lemma text_read : forall b s, Z.of_nat (List.length b) <= 65535 -> utf8_decode b = Ok s -> sendable s.
Proof. intros b s L H. exists b. split; [exact (utf8_decode_sound _ _ _ (le_n _) H)|exact L]. Qed.
Lemma opt_read : forall b o, Z.of_nat (List.length b) <= 65535 -> opt_text b = Ok o -> opt_sendable o.
Proof.
  intros [|x b] o L H; cbn [opt_text] in H; [apply Ok_inj in H; subst o; exact I|].
  destruct (utf8_decode (x :: b)) as [s|] eqn:U; cbn [bind] in H; [|discriminate]. apply Ok_inj in H. subst o.
  split; [apply (utf8_decode_nonempty _ _ U); discriminate|exact (text_read _ s L U)].
Qed.
Lemma piece_read : forall n b o r, 0 <= n <= 65535 -> octets b -> opt_cut n b = (o, r) -> octets r /\ (r <> [] -> opt_piece o).
Proof.
  intros n b o r N O H. unfold opt_cut in H. destruct (cut n b) as [x t] eqn:C. injection H as <- <-.
  destruct (cut_octets _ _ _ _ O C) as (Ox & Ot & L). split; [exact Ot|]. intros R. destruct (Z.eqb_spec n 0) as [->|Z]; [exact I|].
  cbn [opt_piece if_some]. split; [|split; [exact Ox|unfold small; lia]]. unfold cut in C. injection C as <- <-. intros E.
  destruct b as [|y b]; [rewrite skipn_nil in R; contradiction|]. destruct (Z.to_nat n) eqn:Q; [lia|]. discriminate E.
Qed.
Ltac known2 :=
  repeat match goal with
  | O : octets ?b, E : opt_cut ?n ?b = (?x, ?r) |- _ =>
      let A := fresh "O" in let L := fresh "F" in
      destruct (piece_read n b x r ltac:(change (256 ^ Z.of_nat 2) with 65536 in *; lia) O E) as (A & L); clear E
  | O : octets ?b, E : take ?k ?b = Ok (?x, ?r) |- _ =>
      let A := fresh "O" in let B := fresh "O" in let L := fresh "L" in
      destruct (take_octets k b x r O E) as (A & B & L); clear E
  | O : octets ?b, E : get_u ?k ?b = Ok (?z, ?r) |- _ =>
      let A := fresh "O" in let L := fresh "L" in destruct (get_octets k b z r O E) as (A & L); clear E
  | O : octets ?b, E : cut ?n ?b = (?x, ?r) |- _ =>
      let A := fresh "O" in let B := fresh "O" in let L := fresh "L" in
      destruct (cut_octets n b x r O E) as (A & B & L); clear E
  end;
  change (256 ^ Z.of_nat 2) with 65536 in *; change (256 ^ Z.of_nat 1) with 256 in *;
  change (256 ^ Z.of_nat 4) with (2 ^ 32) in *.
Ltac fit2 :=
  first [ assumption
        | eapply text_read; [|eassumption]; lia
        | eapply opt_read; [|eassumption]; lia
        | split; [assumption|unfold small; lia]
        | unfold small, time_fits; lia
        | auto ].

Lemma issuer_read : forall b i r, octets b -> issuer_decode b = Ok (i, r) -> octets r /\ issuer_sendable i.
Proof.
  intros b i r O H. unfold issuer_decode in H. repeat undo H. apply Ok_inj in H. injection H as <- <-. known2.
  split; [assumption|]. unfold issuer_sendable. cbn [is_key is_algo is_uid is_name is_url]. repeat (split; [fit2|]). fit2.
Qed.
Lemma holder_read : forall b i r, octets b -> holder_decode b = Ok (i, r) -> octets r /\ holder_sendable i.
Proof.
  intros b i r O H. unfold holder_decode in H. repeat undo H. apply Ok_inj in H. injection H as <- <-. known2.
  split; [assumption|]. unfold holder_sendable. cbn [ho_key ho_algo ho_uid ho_name]. repeat (split; [fit2|]). fit2.
Qed.
Lemma att_read : forall b i r, octets b -> att_decode b = Ok (i, r) -> octets r /\ (r <> [] -> att_sendable i).
Proof.
  intros b i r O H. unfold att_decode in H. repeat undo H. apply Ok_inj in H. injection H as <- <-. known2.
  split; [assumption|]. intros R. unfold att_sendable. cbn [at_id at_value at_name at_extra]. repeat (split; [fit2|]). fit2.
Qed.
Lemma cut_rest : forall n b k r, cut n b = (k, r) -> 0 < n -> r <> [] -> k <> [].
Proof.
  intros n b k r C N R. unfold cut in C. injection C as <- <-. destruct b as [|y b]; [rewrite skipn_nil in R; contradiction|].
  destruct (Z.to_nat n) eqn:Q; [lia|discriminate].
Qed.
Lemma opt_cut_rest : forall n b o r, opt_cut n b = (o, r) -> r <> [] -> b <> [].
Proof. intros n b o r C R ->. unfold opt_cut, cut in C. rewrite skipn_nil in C. injection C as _ <-. contradiction. Qed.
Lemma rev_read : forall b i r, octets b -> rev_decode b = Ok (i, r) -> octets r /\ (r <> [] -> rev_sendable i).
Proof.
  intros b i r O H. unfold rev_decode in H. repeat undo H. apply Ok_inj in H. injection H as <- <-.
  assert (SH : 0 < n -> b6 <> [] -> k <> []) by (intros N R; eapply cut_rest; [eassumption|exact N|]; eapply opt_cut_rest; eassumption).
  known2.
  split; [assumption|]. intros R. unfold rev_sendable. cbn [rv_after rv_before rv_url rv_extra]. repeat (split; [solve [fit2]|]). split; [|fit2].
  destruct (Z.eqb_spec n 0); [apply Ok_inj in E5; subst x; exact I|]. unbind E5. apply Ok_inj in E5. subst x.
  cbn [opt_sendable if_some]. split; [|fit2]. apply (utf8_decode_nonempty k); [assumption|]. apply SH; [lia|exact R].
Qed.
Lemma ext_read : forall b i r, octets b -> ext_decode b = Ok (i, r) -> octets r /\ (r <> [] -> ext_sendable i).
Proof.
  intros b i r O H. unfold ext_decode in H. repeat undo H. apply Ok_inj in H. injection H as <- <-. known2.
  split; [assumption|]. intros R. unfold ext_sendable. cbn [ex_id ex_extra]. split; fit2.
Qed.
Lemma del_read : forall b o r, octets b -> decode_del b = Ok (o, r) -> octets r /\
  (r <> [] -> if_some (fun d => exists x, de_extra d = Some x /\ x <> [] /\ piece x) o).
Proof.
  intros b o r O H. unfold decode_del in H. undo H. destruct (n =? 0) eqn:Z.
  - apply Ok_inj in H. injection H as <- <-. known2. split; [assumption|]. intros _. exact I.
  - unfold del_decode in H. rewrite E in H. cbn [bind] in H. destruct (opt_cut n b0) as [x r'] eqn:C. cbn [bind] in H.
    apply Ok_inj in H. injection H as <- <-. assert (S : exists y, x = Some y). { unfold opt_cut in C. rewrite Z in C. destruct (cut n b0). injection C as <- _. eauto. }
    destruct S as (y & ->). known2. split; [assumption|]. intros R. cbn [if_some de_extra]. exists y. split; [reflexivity|]. exact (F R).
Qed.
Lemma info_read : forall b i r, octets b -> info_decode b = Ok (i, r) -> octets r /\ info_sendable i.
Proof.
  intros b i r O H. unfold info_decode in H. repeat undo H. apply Ok_inj in H. injection H as <- <-. known2.
  split; [assumption|]. unfold info_sendable, time_fits. cbn [i_version i_serial i_issued]. split; [lia|]. split; [|lia].
  match goal with Q : octets ?k |- context [le_val ?k] => pose proof (le_val_bound k Q) as B end.
  split; [lia|]. apply N2Z.inj_lt in B. rewrite N2Z.inj_pow, nat_N_Z in B.
  eapply Z.lt_le_trans; [exact B|]. change (2 ^ 2040) with (256 ^ 255). apply Z.pow_le_mono_r; lia.
Qed.
Lemma att_rest : forall b x r, att_decode b = Ok (x, r) -> b <> [].
Proof. intros b x r H ->. discriminate. Qed.
Lemma ext_rest : forall b x r, ext_decode b = Ok (x, r) -> b <> [].
Proof. intros b x r H ->. discriminate. Qed.
Lemma list_read : forall A (dec : bytes -> res (A * bytes)) (P : A -> Prop),
  (forall b x r, dec b = Ok (x, r) -> b <> []) ->
  (forall b x r, octets b -> dec b = Ok (x, r) -> octets r /\ (r <> [] -> P x)) ->
  forall k b l r, octets b -> decode_list dec k b = Ok (l, r) -> octets r /\ List.length l = k /\ (r <> [] -> b <> [] /\ Forall P l).
Proof.
  intros A dec P NE D. induction k as [|k IH]; intros b l r O H; cbn [decode_list] in H.
  - apply Ok_inj in H. injection H as <- <-. auto.
  - destruct (dec b) as [[x b1]|] eqn:E; cbn [bind] in H; [|discriminate]. destruct (D _ _ _ O E) as [O1 Px].
    destruct (decode_list dec k b1) as [[m b2]|] eqn:E2; cbn [bind] in H; [|discriminate].
    destruct (IH _ _ _ O1 E2) as (O2 & L & F). apply Ok_inj in H. injection H as <- <-. cbn [List.length]. split; [exact O2|]. split; [now rewrite L|].
    intros R. destruct (F R) as [B FM]. split; [exact (NE _ _ _ E)|]. constructor; auto.
Qed.
Lemma sig_read : forall b g, octets b -> sig_decode b = Ok (g, []) -> g = Sig None None \/ sig_sendable g.
Proof.
  intros b g O H. unfold sig_decode in H. repeat undo H. apply Ok_inj in H. injection H as <- ->.
  assert (Q : x = None \/ exists s, x = Some s /\ utf8_decode k = Ok s).
  { destruct (0 <? n); [|apply Ok_inj in E3; subst x; now left]. unbind E3. apply Ok_inj in E3. subst x. right. eauto. }
  assert (Z : x = Some [] -> b3 = []).
  { intros ->. destruct Q as [Q|(s & [= <-] & Q)]; [discriminate|]. destruct (0 <? n) eqn:P; [|discriminate]. apply Z.ltb_lt in P.
    destruct b3 as [|y b3]; [reflexivity|]. exfalso. assert (N : k <> []) by (eapply cut_rest; [eassumption|exact P|discriminate]).
    now apply (utf8_decode_nonempty _ _ Q) in N. }
  assert (V : if_some piece o /\ (b3 = [] -> o = None \/ o = Some [])).
  { unfold opt_cut in E4. destruct (cut n0 b3) as [w t] eqn:C. injection E4 as <- _. split.
    - destruct (n0 =? 0); [exact I|]. assert (Ob3 : octets b3) by (clear - O E E0 E1 E2; known2; assumption).
      assert (N0 : 0 <= n0 < 65536) by (clear - O E E0 E1; known2; lia).
      destruct (cut_octets _ _ _ _ Ob3 C) as (Ow & _ & L). split; [exact Ow|unfold small; lia].
    - intros ->. destruct (n0 =? 0); [now left|]. right. unfold cut in C. rewrite firstn_nil in C. now injection C as <- _. }
  destruct V as [V1 V2].
  assert (S : if_some sendable x).
  { destruct Q as [-> |(s & -> & Q)]; [exact I|]. cbn [if_some]. clear - O E E0 E1 E2 Q. known2. eapply text_read; [|exact Q]. lia. }
  destruct x as [s|]; [right|destruct o as [w|]; [right|now left]].
  - split; [exact S|]. split; [exact V1|]. cbn [sg_algo sg_value]. split; [|left; discriminate]. intros [= ->]. apply V2. now apply Z.
  - split; [exact I|]. split; [exact V1|]. cbn [sg_algo sg_value]. split; [discriminate|right; discriminate].
Qed.

Theorem cert_read : forall K b c, octets b -> ac_decode K b false = Ok c -> cert_sendable c.
Proof.
  intros K b c O H. unfold ac_decode, decode_body in H.
  destruct (issuer_decode b) as [[is b1]|] eqn:E1; cbn [bind] in H; [|discriminate]. destruct (issuer_read _ _ _ O E1) as [O1 F1].
  destruct (holder_decode b1) as [[ho b2]|] eqn:E2; cbn [bind] in H; [|discriminate]. destruct (holder_read _ _ _ O1 E2) as [O2 F2].
  destruct (info_decode b2) as [[inf b3]|] eqn:E3; cbn [bind] in H; [|discriminate]. destruct (info_read _ _ _ O2 E3) as [O3 F3].
  destruct (get_u 2 b3) as [[n b4]|] eqn:E4; cbn [bind] in H; [|discriminate].
  destruct (get_octets _ _ _ _ O3 E4) as [O4 F4]. change (256 ^ Z.of_nat 2) with 65536 in F4.
  destruct (decode_list att_decode (Z.to_nat n) b4) as [[atts b5]|] eqn:E5; cbn [bind] in H; [|discriminate].
  destruct (list_read _ _ _ att_rest att_read _ _ _ _ O4 E5) as (O5 & L5 & F5).
  destruct (rev_decode b5) as [[rv b6]|] eqn:E6; cbn [bind] in H; [|discriminate]. destruct (rev_read _ _ _ O5 E6) as [O6 F6].
  destruct (decode_del b6) as [[de b7]|] eqn:E7; cbn [bind] in H; [|discriminate]. destruct (del_read _ _ _ O6 E7) as [O7 F7].
  destruct (get_u 2 b7) as [[m b8]|] eqn:E8; cbn [bind] in H; [|discriminate].
  destruct (get_octets _ _ _ _ O7 E8) as [O8 F8]. change (256 ^ Z.of_nat 2) with 65536 in F8.
  destruct (decode_list ext_decode (Z.to_nat m) b8) as [[exts b9]|] eqn:E9; cbn [bind] in H; [|discriminate].
  destruct (list_read _ _ _ ext_rest ext_read _ _ _ _ O8 E9) as (O9 & L9 & F9).
  destruct (sig_decode b9) as [[g b10]|] eqn:E10; cbn [bind] in H; [|discriminate]. destruct b10; [|discriminate]. apply Ok_inj in H. subst c.
  unfold cert_sendable, with_sig. cbn [c_issuer c_holder c_info c_atts c_rev c_del c_exts c_sig].
  assert (N5 : b5 <> []) by (intros ->; discriminate E6). assert (N6 : b6 <> []) by (intros ->; discriminate E7).
  assert (N7 : b7 <> []) by (intros ->; discriminate E8). assert (N9 : b9 <> []) by (intros ->; discriminate E10).
  split; [exact F1|]. split; [exact F2|]. split; [exact F3|]. split; [exists atts; split; [reflexivity|]; split; [unfold small; lia|exact (proj2 (F5 N5))]|].
  split; [exact (F6 N6)|]. split; [exact (F7 N7)|]. split.
  - destruct exts as [|x l]; [exact I|]. cbn [if_some]. split; [discriminate|]. split; [unfold small; lia|exact (proj2 (F9 N9))].
  - destruct (sig_read _ _ O9 E10) as [->|S]; [exact I|]. destruct g as [[a|] [v|]]; try exact I; exact S.
Qed.

(** ** The signed bytes *)

Lemma split_eq : forall (a c b d : bytes), List.length a = List.length c -> a ++ b = c ++ d -> a = c /\ b = d.
Proof.
  induction a as [|x a IH]; intros [|y c] b d L E; cbn [List.length app] in *; try discriminate; [auto|].
  injection E as -> E. injection L as L. destruct (IH c b d L E) as [-> ->]. auto.
Qed.
Lemma pack_split : forall k z w h g r s, pack_u k z = Ok h -> pack_u k w = Ok g -> h ++ r = g ++ s -> z = w /\ r = s.
Proof.
  intros k z w h g r s P Q E. apply split_eq in E as [-> ->]; [|now rewrite (pack_u_length _ _ _ P), (pack_u_length _ _ _ Q)].
  split; [|reflexivity]. pose proof (get_u_pack k z g [] P) as A. rewrite (get_u_pack k w g [] Q) in A. apply Ok_inj in A. now injection A.
Qed.
Lemma len_split : forall A B (l : list A) (m : list B) h g r s, pack_u 2 (len l) = Ok h -> pack_u 2 (len m) = Ok g -> h ++ r = g ++ s ->
  List.length l = List.length m /\ r = s.
Proof. intros A B l m h g r s P Q E. destruct (pack_split 2 _ _ _ _ _ _ P Q E) as [L ->]. split; [unfold len in L; lia|reflexivity]. Qed.
Lemma text_split : forall s t b c r r', utf8_encode s = Ok b -> utf8_encode t = Ok c -> List.length s = List.length t ->
  pack_text s b ++ r = pack_text t c ++ r' -> text_alike s t /\ r = r'.
Proof.
  intros s t b c r r' B C L E. apply split_eq in E as [E ->]; [|now rewrite (text_length _ _ B), (text_length _ _ C)].
  split; [|reflexivity]. split; [exact L|]. exists b, c. split; [exact B|]. split; [exact C|].
  rewrite (text_firstn _ _ B), (text_firstn _ _ C), <- L in E. exact E.
Qed.
Lemma text_same : forall s t b, text_alike s t -> utf8_encode s = Ok b -> exists c, utf8_encode t = Ok c /\ pack_text t c = pack_text s b.
Proof.
  intros s t b (L & b' & c & B & C & E) B'. assert (b' = b) by congruence. subst b'. exists c. split; [exact C|].
  rewrite (text_firstn _ _ B), (text_firstn _ _ C), <- L. now symmetry.
Qed.
Lemma content_empty : forall (o : option (list N)), content o = or_empty o.
Proof. intros [l|]; reflexivity. Qed.
Lemma alike_len : forall s t, text_alike s t -> len s = len t.
Proof. intros s t (L & _). unfold len. now rewrite L. Qed.

(** One step of an equation between two encodings. *)
Ltac parse E :=
  first
  [ match type of E with ?h ++ _ = ?g ++ _ =>
      match goal with P : pack_u 2 (len _) = Ok h, Q : pack_u 2 (len _) = Ok g |- _ =>
        let L := fresh "L" in destruct (len_split _ _ _ _ _ _ _ _ P Q E) as [L E']; clear E; rename E' into E end end
  | match type of E with ?h ++ _ = ?g ++ _ =>
      match goal with P : pack_u ?k ?z = Ok h, Q : pack_u ?k ?w = Ok g |- _ =>
        let L := fresh "V" in destruct (pack_split k z w _ _ _ _ P Q E) as [L E']; clear E; rename E' into E end end
  | match type of E with pack_text ?s ?b ++ _ = pack_text ?t ?c ++ _ =>
      match goal with B : utf8_encode s = Ok b, C : utf8_encode t = Ok c, L : List.length s = List.length t |- _ =>
        let A := fresh "A" in destruct (text_split _ _ _ _ _ _ B C L E) as [A E']; clear E; rename E' into E end end
  | match type of E with ?a ++ _ = ?c ++ _ =>
      match goal with L : List.length a = List.length c |- _ =>
        let A := fresh "K" in destruct (split_eq _ _ _ _ L E) as [A E']; clear E; rename E' into E end end ].

Lemma issuer_same : forall i j a b r r', issuer_encode i = Ok a -> issuer_encode j = Ok b -> a ++ r = b ++ r' -> issuer_alike i j /\ r = r'.
Proof.
  intros i j a b r r' A B E. unfold issuer_encode in A, B. cbv zeta in A, B. unbind A. unbind B. apply Ok_inj in A. apply Ok_inj in B. subst a b.
  rewrite <- !app_assoc in E. repeat parse E. unfold issuer_alike. rewrite !content_empty. auto 10.
Qed.
Lemma holder_same : forall i j a b r r', holder_encode i = Ok a -> holder_encode j = Ok b -> a ++ r = b ++ r' -> holder_alike i j /\ r = r'.
Proof.
  intros i j a b r r' A B E. unfold holder_encode in A, B. cbv zeta in A, B. unbind A. unbind B. apply Ok_inj in A. apply Ok_inj in B. subst a b.
  rewrite <- !app_assoc in E. repeat parse E. unfold holder_alike. rewrite !content_empty. auto 10.
Qed.
Lemma att_same : forall i j a b r r', att_encode i = Ok a -> att_encode j = Ok b -> a ++ r = b ++ r' -> att_alike i j /\ r = r'.
Proof.
  intros i j a b r r' A B E. unfold att_encode in A, B. cbv zeta in A, B. unbind A. unbind B. apply Ok_inj in A. apply Ok_inj in B. subst a b.
  rewrite <- !app_assoc in E. repeat parse E. unfold att_alike. rewrite !content_empty.
  assert (T : at_type i = at_type j) by (destruct (at_type i), (at_type j); try reflexivity; discriminate). auto 10.
Qed.
Lemma rev_same : forall i j a b r r', rev_encode i = Ok a -> rev_encode j = Ok b -> a ++ r = b ++ r' -> rev_alike i j /\ r = r'.
Proof.
  intros i j a b r r' A B E. unfold rev_encode in A, B. cbv zeta in A, B. unbind A. unbind B. apply Ok_inj in A. apply Ok_inj in B. subst a b.
  rewrite <- !app_assoc in E. repeat parse E. unfold rev_alike. rewrite !content_empty. auto 10.
Qed.
Lemma ext_same : forall i j a b r r', ext_encode i = Ok a -> ext_encode j = Ok b -> a ++ r = b ++ r' -> ext_alike i j /\ r = r'.
Proof.
  intros i j a b r r' A B E. unfold ext_encode in A, B. cbv zeta in A, B. unbind A. unbind B. apply Ok_inj in A. apply Ok_inj in B. subst a b.
  rewrite <- !app_assoc in E. repeat parse E. unfold ext_alike. rewrite !content_empty. auto 10.
Qed.
Definition enc_del (o : option ac_del) : res bytes := match o with Some d => del_encode d | None => Ok [0; 0]%N end.
Lemma enc_del_bytes : forall o, enc_del o = (h <- pack_u 2 (len (del_bytes o)) ;; Ok (h ++ del_bytes o)).
Proof. intros [[[x|]]|]; reflexivity. Qed.
Lemma del_same' : forall i j a b r r', enc_del i = Ok a -> enc_del j = Ok b -> a ++ r = b ++ r' -> del_bytes i = del_bytes j /\ r = r'.
Proof.
  intros i j a b r r' A B E. rewrite enc_del_bytes in A, B. unbind A. unbind B. apply Ok_inj in A. apply Ok_inj in B. subst a b.
  rewrite <- !app_assoc in E. repeat parse E. auto.
Qed.
Lemma info_same : forall i j a b r r', info_encode i = Ok a -> info_encode j = Ok b -> a ++ r = b ++ r' -> i = j /\ r = r'.
Proof.
  intros i j a b r r' A B E. pose proof (info_app i a r A) as P. pose proof (info_app j b r' B) as Q. rewrite E, Q in P. apply Ok_inj in P. injection P as -> ->. auto.
Qed.
Lemma list_same : forall A (enc : A -> res bytes) (R : A -> A -> Prop),
  (forall x y a b r r', enc x = Ok a -> enc y = Ok b -> a ++ r = b ++ r' -> R x y /\ r = r') ->
  forall l m bs cs r r', mapM enc l = Ok bs -> mapM enc m = Ok cs -> List.length l = List.length m -> List.concat bs ++ r = List.concat cs ++ r' ->
  Forall2 R l m /\ r = r'.
Proof.
  intros A enc R H. induction l as [|x l IH]; intros [|y m] bs cs r r' P Q L E; try discriminate; cbn [mapM] in P, Q.
  - apply Ok_inj in P. apply Ok_inj in Q. subst bs cs. split; [constructor|exact E].
  - unbind P. unbind Q. apply Ok_inj in P. apply Ok_inj in Q. subst bs cs. cbn [List.concat] in E. rewrite <- !app_assoc in E.
    destruct (H _ _ _ _ _ _ E0 E2 E) as [RX E']. injection L as L. destruct (IH m _ _ _ _ eq_refl E3 L E') as [F ->]. auto.
Qed.
Lemma encode_list_content : forall A (enc : A -> res bytes) o,
  encode_list enc o = (n <- pack_u 2 (len (content o)) ;; bs <- mapM enc (content o) ;; Ok (n ++ List.concat bs)).
Proof. intros A enc [[|x l]|]; reflexivity. Qed.
Lemma lists_same : forall A (enc : A -> res bytes) (R : A -> A -> Prop),
  (forall x y a b r r', enc x = Ok a -> enc y = Ok b -> a ++ r = b ++ r' -> R x y /\ r = r') ->
  forall l m a b r r', encode_list enc l = Ok a -> encode_list enc m = Ok b -> a ++ r = b ++ r' -> Forall2 R (content l) (content m) /\ r = r'.
Proof.
  intros A enc R H l m a b r r' P Q E. rewrite encode_list_content in P, Q. unbind P. unbind Q. apply Ok_inj in P. apply Ok_inj in Q. subst a b.
  rewrite <- !app_assoc in E. parse E. exact (list_same A enc R H _ _ _ _ _ _ E1 E3 L E).
Qed.

(** The other way round. *)
Lemma issuer_conv : forall i j a, issuer_alike i j -> issuer_encode i = Ok a -> issuer_encode j = Ok a.
Proof.
  intros i j a (K & H1 & H2 & H3 & H4) A. change (text_alike (or_empty (is_name i)) (or_empty (is_name j))) in H3. change (text_alike (or_empty (is_url i)) (or_empty (is_url j))) in H4. unfold issuer_encode in *. cbv zeta in *. unbind A. apply Ok_inj in A. subst a.
  rewrite <- K. rewrite <- (alike_len _ _ H1), <- (alike_len _ _ H2), <- (alike_len _ _ H3), <- (alike_len _ _ H4).
  destruct (text_same _ _ _ H1 E4) as (c1 & C1 & Q1). destruct (text_same _ _ _ H2 E5) as (c2 & C2 & Q2). destruct (text_same _ _ _ H3 E6) as (c3 & C3 & Q3). destruct (text_same _ _ _ H4 E7) as (c4 & C4 & Q4).
  rewrite C1, C2, C3, C4, E, E0, E1, E2, E3. cbn [bind]. now rewrite Q1, Q2, Q3, Q4.
Qed.
Lemma holder_conv : forall i j a, holder_alike i j -> holder_encode i = Ok a -> holder_encode j = Ok a.
Proof.
  intros i j a (K & H1 & H2 & H3) A. change (text_alike (or_empty (ho_name i)) (or_empty (ho_name j))) in H3. unfold holder_encode in *. cbv zeta in *. unbind A. apply Ok_inj in A. subst a.
  rewrite <- K. rewrite <- (alike_len _ _ H1), <- (alike_len _ _ H2), <- (alike_len _ _ H3).
  destruct (text_same _ _ _ H1 E3) as (c1 & C1 & Q1). destruct (text_same _ _ _ H2 E4) as (c2 & C2 & Q2). destruct (text_same _ _ _ H3 E5) as (c3 & C3 & Q3).
  rewrite C1, C2, C3, E, E0, E1, E2. cbn [bind]. now rewrite Q1, Q2, Q3.
Qed.
Lemma att_conv : forall i j a, att_alike i j -> att_encode i = Ok a -> att_encode j = Ok a.
Proof.
  intros i j a (H1 & T & H2 & H3 & X) A. change (text_alike (or_empty (at_value i)) (or_empty (at_value j))) in H2. change (text_alike (or_empty (at_name i)) (or_empty (at_name j))) in H3. change (or_empty (at_extra i) = or_empty (at_extra j)) in X. unfold att_encode in *. cbv zeta in *. unbind A. apply Ok_inj in A. subst a.
  rewrite <- T, <- X. rewrite <- (alike_len _ _ H1), <- (alike_len _ _ H2), <- (alike_len _ _ H3).
  destruct (text_same _ _ _ H1 E) as (c1 & C1 & Q1). destruct (text_same _ _ _ H2 E0) as (c2 & C2 & Q2). destruct (text_same _ _ _ H3 E1) as (c3 & C3 & Q3).
  rewrite C1, C2, C3, E2, E3, E4, E5, E6. cbn [bind]. now rewrite Q1, Q2, Q3.
Qed.
Lemma rev_conv : forall i j a, rev_alike i j -> rev_encode i = Ok a -> rev_encode j = Ok a.
Proof.
  intros i j a (V1 & V2 & H & X) A. change (text_alike (or_empty (rv_url i)) (or_empty (rv_url j))) in H. change (or_empty (rv_extra i) = or_empty (rv_extra j)) in X. unfold rev_encode in *. cbv zeta in *. unbind A. apply Ok_inj in A. subst a.
  rewrite <- V1, <- V2, <- X. rewrite <- (alike_len _ _ H). destruct (text_same _ _ _ H E) as (c1 & C1 & Q1).
  rewrite C1, E0, E1, E2, E3. cbn [bind]. now rewrite Q1.
Qed.
Lemma ext_conv : forall i j a, ext_alike i j -> ext_encode i = Ok a -> ext_encode j = Ok a.
Proof.
  intros i j a (H & X) A. change (or_empty (ex_extra i) = or_empty (ex_extra j)) in X. unfold ext_encode in *. cbv zeta in *. unbind A. apply Ok_inj in A. subst a.
  rewrite <- X. rewrite <- (alike_len _ _ H). destruct (text_same _ _ _ H E) as (c1 & C1 & Q1).
  rewrite C1, E0, E1. cbn [bind]. now rewrite Q1.
Qed.
Lemma list_conv : forall A (enc : A -> res bytes) (R : A -> A -> Prop), (forall x y a, R x y -> enc x = Ok a -> enc y = Ok a) ->
  forall l m a, Forall2 R (content l) (content m) -> encode_list enc l = Ok a -> encode_list enc m = Ok a.
Proof.
  intros A enc R H l m a F E. rewrite encode_list_content in *. assert (L : len (content l) = len (content m)).
  { unfold len. f_equal. clear - F. induction F; cbn [List.length]; congruence. }
  assert (M : forall bs, mapM enc (content l) = Ok bs -> mapM enc (content m) = Ok bs).
  { clear - F H. induction F as [|x y p q RX F IH]; intros bs M; [exact M|]. cbn [mapM] in *. unbind M. rewrite (H _ _ _ RX E). cbn [bind]. rewrite (IH _ eq_refl). exact M. }
  rewrite <- L. unbind E. cbn [bind]. rewrite (M _ eq_refl). exact E.
Qed.
Lemma del_conv : forall i j, del_bytes i = del_bytes j -> enc_del i = enc_del j.
Proof. intros i j H. now rewrite !enc_del_bytes, H. Qed.

Theorem body_alike : forall a b w, encode_body a = Ok w -> (encode_body b = Ok w <-> alike a b).
Proof.
  intros a b w A. split.
  - intros B. destruct (encode_body_parts a w A) as (is & ho & inf & at_ & rv & de & ex & [P1 P2 _ P4 P5 P6 P7] & P3 & ->).
    destruct (encode_body_parts b _ B) as (is' & ho' & inf' & at' & rv' & de' & ex' & [Q1 Q2 _ Q4 Q5 Q6 Q7] & Q3 & E).
    destruct (issuer_same _ _ _ _ _ _ P1 Q1 E) as [R1 E1]. destruct (holder_same _ _ _ _ _ _ P2 Q2 E1) as [R2 E2].
    destruct (info_same _ _ _ _ _ _ P3 Q3 E2) as [R3 E3]. destruct (lists_same _ _ _ att_same _ _ _ _ _ _ P4 Q4 E3) as [R4 E4].
    destruct (rev_same _ _ _ _ _ _ P5 Q5 E4) as [R5 E5]. destruct (del_same' _ _ _ _ _ _ P6 Q6 E5) as [R6 E6].
    assert (E7 : ex ++ [] = ex' ++ []) by now rewrite !app_nil_r. destruct (lists_same _ _ _ ext_same _ _ _ _ _ _ P7 Q7 E7) as [R7 _].
    unfold alike. auto 10.
  - intros (R1 & R2 & R3 & R4 & R5 & R6 & R7). unfold encode_body in *. fold (enc_del (c_del a)) in A. fold (enc_del (c_del b)). unbind A. apply Ok_inj in A. subst w.
    rewrite (issuer_conv _ _ _ R1 E), (holder_conv _ _ _ R2 E0), <- R3, E1, (rev_conv _ _ _ R5 E2), <- (del_conv _ _ R6), E3, (list_conv _ _ _ att_conv _ _ _ R4 E4), (list_conv _ _ _ ext_conv _ _ _ R7 E5).
    reflexivity.
Qed.
