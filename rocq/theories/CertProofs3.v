(** * CertProofs3: when encoding works, normal forms, octets *)

From Coq Require Import NArith ZArith List Bool Lia.
From Verif Require Import PyBase Struct BytesProofs AttCert CertSpec CertProofs CertProofs2.
Import ListNotations.
Open Scope Z_scope.

(** ** When encoding works *)

Definition ok {A} (m : res A) : Prop := exists a, m = Ok a.

Lemma utf8_fits : forall s, ok (utf8_encode s) <-> Forall encodable s.
Proof.
  intros s. unfold ok. rewrite utf8_encode_ok, forallb_forall, Forall_forall.
  split; intros H c Hc; specialize (H c Hc); unfold scalar, surrogate, encodable in *.
  - apply andb_true_iff in H as [H1 H2]. apply N.ltb_lt in H2. apply negb_true_iff, andb_false_iff in H1.
    split; [|exact H2]. destruct H1 as [H1|H1]; apply N.leb_gt in H1; [now left|now right].
  - destruct H as [H1 H2]. apply andb_true_iff. split; [|now apply N.ltb_lt]. apply negb_true_iff, andb_false_iff.
    destruct H1 as [H1|H1]; [left|right]; now apply N.leb_gt.
Qed.
Lemma pack2_fits : forall {A} (l : list A), ok (pack_u 2 (len l)) <-> small l.
Proof.
  intros A l. unfold ok, small, len. split.
  - intros [b H]. apply pack_u_ok in H as [H _]. change (256 ^ Z.of_nat 2) with 65536 in H. lia.
  - intros H. eexists. apply pack_u_ok. split; [|reflexivity]. change (256 ^ Z.of_nat 2) with 65536. lia.
Qed.
Lemma pack4_fits : forall t, ok (pack_u 4 t) <-> time_fits t.
Proof.
  intros t. unfold ok, time_fits. split.
  - intros [b H]. apply pack_u_ok in H as [H _]. exact H.
  - intros H. eexists. apply pack_u_ok. split; [exact H|reflexivity].
Qed.
Lemma pack1_fits : forall t, ok (pack_u 1 t) <-> 0 <= t <= 255.
Proof.
  intros t. unfold ok. split.
  - intros [b H]. apply pack_u_ok in H as [H _]. change (256 ^ Z.of_nat 1) with 256 in H. lia.
  - intros H. eexists. apply pack_u_ok. split; [|reflexivity]. change (256 ^ Z.of_nat 1) with 256. lia.
Qed.
Lemma opt_fits : forall o, if_some text_fits o <-> text_fits (or_empty o).
Proof.
  intros [s|]; cbn [if_some or_empty]; [reflexivity|]. split; [|trivial]. intros _.
  split; [unfold small; cbn; lia|constructor].
Qed.
Lemma opt_small : forall (o : option bytes), if_some small o <-> small (or_empty o).
Proof.
  intros [s|]; cbn [if_some or_empty]; [reflexivity|]. split; [|trivial]. intros _. unfold small; cbn; lia.
Qed.

Lemma ok_bind : forall {A B} (m : res A) (f : A -> res B) (P : Prop),
  (forall a, m = Ok a -> (ok (f a) <-> P)) -> (ok (bind m f) <-> (ok m /\ P)).
Proof.
  intros A B [a|e] f P H; cbn [bind].
  - rewrite (H a eq_refl). split; [intros; split; [exists a; reflexivity|assumption]|tauto].
  - split; [intros [x X]; discriminate|intros [[x X] _]; discriminate].
Qed.
Lemma ok_Ok : forall {A} (a : A), ok (Ok a) <-> True.
Proof. intros. split; [trivial|]. intros _. now exists a. Qed.
Ltac okb := repeat (rewrite ok_bind; [|intros; reflexivity]); rewrite ?ok_Ok.
Ltac okbind :=
  match goal with
  | |- ok (bind _ _) <-> _ => eapply iff_trans; [apply ok_bind; intros ? ?; okbind|]; apply iff_refl
  | |- ok (Ok _) <-> _ => apply ok_Ok
  end.

Lemma issuer_ok : forall i, ok (issuer_encode i) <-> issuer_fits i.
Proof.
  intros i. unfold issuer_encode. cbv zeta. eapply iff_trans; [okbind|].
  rewrite !pack2_fits, !utf8_fits. unfold issuer_fits. rewrite !opt_fits. unfold text_fits. tauto.
Qed.
Lemma holder_ok : forall i, ok (holder_encode i) <-> holder_fits i.
Proof.
  intros i. unfold holder_encode. cbv zeta. eapply iff_trans; [okbind|].
  rewrite !pack2_fits, !utf8_fits. unfold holder_fits. rewrite !opt_fits. unfold text_fits. tauto.
Qed.
Lemma att_ok : forall i, ok (att_encode i) <-> att_fits i.
Proof.
  intros i. unfold att_encode. cbv zeta. eapply iff_trans; [okbind|].
  rewrite !pack2_fits, !utf8_fits, pack1_fits. unfold att_fits. rewrite !opt_fits, opt_small. unfold text_fits.
  assert (0 <= atype_val (at_type i) <= 255) by (destruct (at_type i); cbn; lia). tauto.
Qed.
Lemma rev_ok : forall i, ok (rev_encode i) <-> rev_fits i.
Proof.
  intros i. unfold rev_encode. cbv zeta. eapply iff_trans; [okbind|].
  rewrite !pack2_fits, !utf8_fits, !pack4_fits. unfold rev_fits. rewrite !opt_fits, opt_small. unfold text_fits. tauto.
Qed.
Lemma del_ok : forall i, ok (del_encode i) <-> del_fits i.
Proof.
  intros i. unfold del_encode. eapply iff_trans; [okbind|].
  rewrite !pack2_fits. unfold del_fits. rewrite opt_small. tauto.
Qed.
Lemma ext_ok : forall i, ok (ext_encode i) <-> ext_fits i.
Proof.
  intros i. unfold ext_encode. cbv zeta. eapply iff_trans; [okbind|].
  rewrite !pack2_fits, !utf8_fits. unfold ext_fits. rewrite opt_small. unfold text_fits. tauto.
Qed.
Lemma sig_ok : forall i, ok (sig_encode i) <-> sig_fits i.
Proof.
  intros [[a|] [v|]]; unfold sig_encode, sig_fits; cbn [sg_algo sg_value].
  2,3,4: split; [intros [x X]; discriminate|intros (a' & v' & X & _); discriminate].
  eapply iff_trans; [okbind|]. rewrite !pack2_fits, !utf8_fits. unfold text_fits. split.
  - intros H. exists a, v. tauto.
  - intros (a' & v' & X & H). injection X as <- <-. tauto.
Qed.
Lemma info_ok : forall i, ok (info_encode i) <-> info_fits i.
Proof.
  intros i. unfold info_encode. eapply iff_trans; [okbind|].
  rewrite pack4_fits, !pack1_fits. unfold info_fits.
  assert (G : ok (if (0 <=? i_serial i) && (i_serial i <? 256 ^ Z.of_nat serial_bytes)
                  then Ok (le_bytes serial_bytes (Z.to_N (i_serial i))) else Err EOverflow) <-> 0 <= i_serial i < 2 ^ 160).
  { change (256 ^ Z.of_nat serial_bytes) with (2 ^ 160).
    destruct (Z.leb_spec 0 (i_serial i)); cbn [andb]; [|split; [intros [x X]; discriminate|lia]].
    destruct (Z.ltb_spec (i_serial i) (2 ^ 160)); [|split; [intros [x X]; discriminate|lia]].
    rewrite ok_Ok. tauto. }
  rewrite G. cbn [serial_bytes Z.of_nat]. assert (0 <= Z.of_nat serial_bytes <= 255) by (cbn; lia). tauto.
Qed.

Lemma mapM_fits : forall {A} (enc : A -> res bytes) (P : A -> Prop), (forall x, ok (enc x) <-> P x) ->
  forall l, ok (mapM enc l) <-> Forall P l.
Proof.
  intros A enc P H. induction l as [|x l IH]; cbn [mapM].
  - rewrite ok_Ok. split; [constructor|trivial].
  - eapply iff_trans; [okbind|]. rewrite H, IH. split; [intros (? & ? & _); now constructor|].
    intros F. inversion_clear F. tauto.
Qed.
Lemma encode_list_ok : forall {A} (enc : A -> res bytes) (P : A -> Prop), (forall x, ok (enc x) <-> P x) ->
  forall o, ok (encode_list enc o) <-> if_some (fun l => small l /\ Forall P l) o.
Proof.
  intros A enc P H [[|x l]|]; cbn [encode_list if_some].
  - rewrite ok_Ok. split; [|trivial]. intros _. split; [unfold small; cbn; lia|constructor].
  - eapply iff_trans; [okbind|]. rewrite pack2_fits, (mapM_fits enc P H). tauto.
  - rewrite ok_Ok. tauto.
Qed.

Theorem body_ok : forall c, ok (encode_body c) <-> body_fits c.
Proof.
  intros c. unfold encode_body. eapply iff_trans; [okbind|].
  rewrite issuer_ok, holder_ok, info_ok, rev_ok.
  rewrite (encode_list_ok att_encode att_fits att_ok), (encode_list_ok ext_encode ext_fits ext_ok).
  assert (G : ok (match c_del c with Some d => del_encode d | None => Ok [0; 0]%N end) <-> if_some del_fits (c_del c)).
  { destruct (c_del c); cbn [if_some]; [apply del_ok|]. rewrite ok_Ok. tauto. }
  rewrite G. unfold body_fits. tauto.
Qed.

(** The exceptions encoding can raise. *)
Definition enc_exc (e : exc) : Prop := e = EStruct \/ e = EUnicodeEncode \/ e = EOverflow.
Lemma err_bind : forall {A B} (m : res A) (f : A -> res B) (P : exc -> Prop),
  (forall e, m = Err e -> P e) -> (forall a e, m = Ok a -> f a = Err e -> P e) -> forall e, bind m f = Err e -> P e.
Proof. intros A B [a|x] f P H1 H2 e; cbn [bind]; intros H; [exact (H2 a e eq_refl H)|]. apply H1. congruence. Qed.
Ltac errs :=
  repeat first
    [ discriminate
    | match goal with
      | |- forall e, bind _ _ = Err e -> _ => apply err_bind
      | |- forall a e, _ = Ok a -> _ => let A := fresh in let a := fresh in let e := fresh in
          intros a e A; revert e
      | |- forall e, pack_u _ _ = Err e -> _ => let e := fresh in let H := fresh in
          intros e H; apply pack_u_err in H; subst e; left; reflexivity
      | |- forall e, utf8_encode _ = Err e -> _ => let e := fresh in let H := fresh in
          intros e H; apply utf8_encode_err in H; subst e; right; left; reflexivity
      | |- forall e, Ok _ = Err e -> _ => discriminate
      end ].
Lemma issuer_err : forall i e, issuer_encode i = Err e -> enc_exc e.
Proof. intros i. unfold issuer_encode. cbv zeta. errs. Qed.
Lemma holder_err : forall i e, holder_encode i = Err e -> enc_exc e.
Proof. intros i. unfold holder_encode. cbv zeta. errs. Qed.
Lemma att_err : forall i e, att_encode i = Err e -> enc_exc e.
Proof. intros i. unfold att_encode. cbv zeta. errs. Qed.
Lemma rev_err : forall i e, rev_encode i = Err e -> enc_exc e.
Proof. intros i. unfold rev_encode. cbv zeta. errs. Qed.
Lemma del_err : forall i e, del_encode i = Err e -> enc_exc e.
Proof. intros i. unfold del_encode. errs. Qed.
Lemma ext_err : forall i e, ext_encode i = Err e -> enc_exc e.
Proof. intros i. unfold ext_encode. cbv zeta. errs. Qed.
Lemma info_err : forall i e, info_encode i = Err e -> enc_exc e.
Proof.
  intros i. unfold info_encode. errs.
  destruct ((0 <=? i_serial i) && (i_serial i <? 256 ^ Z.of_nat serial_bytes)); [discriminate|].
  intros e Q. injection Q as <-. right. right. reflexivity.
Qed.
Lemma mapM_err : forall {A B} (f : A -> res B) (P : exc -> Prop), (forall x e, f x = Err e -> P e) ->
  forall l e, mapM f l = Err e -> P e.
Proof.
  intros A B f P H. induction l as [|x l IH]; cbn [mapM]; [discriminate|].
  apply err_bind; [apply H|]. intros y e _. revert e. apply err_bind; [exact IH|]. discriminate.
Qed.
Lemma encode_list_err : forall {A} (enc : A -> res bytes), (forall x e, enc x = Err e -> enc_exc e) ->
  forall o e, encode_list enc o = Err e -> enc_exc e.
Proof.
  intros A enc H [[|x l]|]; cbn [encode_list]; try discriminate. errs. apply (mapM_err enc enc_exc H).
Qed.
Theorem body_err : forall c e, encode_body c = Err e -> enc_exc e.
Proof.
  intros c. unfold encode_body. errs; try apply issuer_err; try apply holder_err; try apply info_err; try apply rev_err;
    try apply (encode_list_err _ att_err); try apply (encode_list_err _ ext_err).
  destruct (c_del c); [apply del_err|discriminate].
Qed.

(** ** Normal forms *)

Lemma recv_bytes_absent : forall o, recv_bytes o = absent o.
Proof. intros [[|x l]|]; reflexivity. Qed.
Lemma recv_opt_absent : forall o, opt_ascii o -> recv_opt o = Ok (absent o).
Proof.
  intros [[|c s]|] A; unfold recv_opt; cbn [or_empty absent]; try reflexivity.
  cbn in A. now rewrite (recv_ascii _ A).
Qed.
Lemma mapM_fun : forall {A B} (f : A -> res B) (g : A -> B) l, Forall (fun x => f x = Ok (g x)) l -> mapM f l = Ok (map g l).
Proof.
  intros A B f g l H. induction H as [|x l E _ IH]; cbn [mapM map]; [reflexivity|]. rewrite E. cbn [bind]. now rewrite IH.
Qed.

Theorem recv_normal : forall c, body_ascii c -> body_recv c = Ok (normal c).
Proof.
  intros [is ho inf atts rv de exts sg] A. unfold body_ascii in A.
  cbn [c_issuer c_holder c_info c_atts c_rev c_del c_exts] in A.
  destruct A as (A1 & A2 & A3 & A4 & A5 & A6 & A7 & A8 & A9 & A10).
  unfold body_recv, normal, issuer_recv, holder_recv, rev_recv. cbn [c_issuer c_holder c_info c_atts c_rev c_del c_exts].
  rewrite (recv_ascii _ A1), (recv_ascii _ A2), (recv_ascii _ A5), (recv_ascii _ A6). cbn [bind].
  rewrite (recv_opt_absent _ A3), (recv_opt_absent _ A4), (recv_opt_absent _ A7), (recv_opt_absent _ A8). cbn [bind].
  rewrite recv_bytes_absent.
  rewrite (mapM_fun att_recv (fun a => Att (at_id a) (at_type a) (absent (at_value a)) (absent (at_name a)) (absent (at_extra a)))).
  2:{ assert (F : Forall (fun a => ascii (at_id a) /\ opt_ascii (at_value a) /\ opt_ascii (at_name a)) (or_nil atts)).
      { destruct atts; [exact A9|constructor]. }
      revert F. apply Forall_impl. intros a (B1 & B2 & B3). unfold att_recv.
      rewrite (recv_ascii _ B1), (recv_opt_absent _ B2), (recv_opt_absent _ B3). cbn [bind]. now rewrite recv_bytes_absent. }
  rewrite (mapM_fun ext_recv (fun x => Ext (ex_id x) (absent (ex_extra x)))).
  2:{ assert (F : Forall (fun a => ascii (ex_id a)) (or_nil exts)).
      { destruct exts; [exact A10|constructor]. }
      revert F. apply Forall_impl. intros a B1. unfold ext_recv. rewrite (recv_ascii _ B1). cbn [bind]. now rewrite recv_bytes_absent. }
  cbn [bind]. f_equal. f_equal.
  - unfold recv_del, recv_bytes. destruct de as [[[[|x l]|]]|]; reflexivity.
  - destruct exts as [[|x l]|]; reflexivity.
Qed.

Lemma empty_absent : forall (o : option (list N)), or_empty (absent o) = or_empty o.
Proof. intros [[|x l]|]; reflexivity. Qed.

Theorem encode_normal : forall c, encode_body (normal c) = encode_body c.
Proof.
  intros [is ho inf atts rv de exts sg]. unfold encode_body, normal. cbn [c_issuer c_holder c_info c_atts c_rev c_del c_exts].
  assert (E1 : issuer_encode (Issuer (is_key is) (is_algo is) (is_uid is) (absent (is_name is)) (absent (is_url is))) = issuer_encode is).
  { unfold issuer_encode. cbn [is_key is_algo is_uid is_name is_url]. now rewrite !empty_absent. }
  assert (E2 : holder_encode (Holder (ho_key ho) (ho_algo ho) (ho_uid ho) (absent (ho_name ho))) = holder_encode ho).
  { unfold holder_encode. cbn [ho_key ho_algo ho_uid ho_name]. now rewrite !empty_absent. }
  assert (E3 : rev_encode (Rev (rv_after rv) (rv_before rv) (absent (rv_url rv)) (absent (rv_extra rv))) = rev_encode rv).
  { unfold rev_encode. cbn [rv_after rv_before rv_url rv_extra]. now rewrite !empty_absent. }
  assert (E4 : (match (match de with Some (Del (Some (x :: l))) => Some (Del (Some (x :: l))) | _ => None end) with
                | Some d => del_encode d | None => Ok [0; 0]%N end) =
               (match de with Some d => del_encode d | None => Ok [0; 0]%N end)).
  { destruct de as [[[[|x l]|]]|]; reflexivity. }
  assert (E5 : forall l, mapM att_encode (map (fun a => Att (at_id a) (at_type a) (absent (at_value a)) (absent (at_name a))
                 (absent (at_extra a))) l) = mapM att_encode l).
  { induction l as [|a l IH]; cbn [map mapM]; [reflexivity|]. rewrite IH.
    unfold att_encode. cbn [at_id at_type at_value at_name at_extra]. now rewrite !empty_absent. }
  assert (E6 : forall l, mapM ext_encode (map (fun x => Ext (ex_id x) (absent (ex_extra x))) l) = mapM ext_encode l).
  { induction l as [|a l IH]; cbn [map mapM]; [reflexivity|]. rewrite IH.
    unfold ext_encode. cbn [ex_id ex_extra]. now rewrite !empty_absent. }
  rewrite E1, E2, E3, E4.
  assert (E7 : encode_list att_encode (Some (map (fun a => Att (at_id a) (at_type a) (absent (at_value a)) (absent (at_name a))
                 (absent (at_extra a))) (match atts with Some l => l | None => [] end))) = encode_list att_encode atts).
  { destruct atts as [[|a l]|]; try reflexivity. unfold encode_list. rewrite <- (E5 (a :: l)). unfold len.
    rewrite map_length. reflexivity. }
  assert (E8 : encode_list ext_encode (absent (option_map (map (fun x => Ext (ex_id x) (absent (ex_extra x)))) exts)) =
               encode_list ext_encode exts).
  { destruct exts as [[|a l]|]; try reflexivity. unfold encode_list, option_map, absent. rewrite <- (E6 (a :: l)). unfold len.
    cbn [map]. cbn [List.length]. rewrite map_length. reflexivity. }
  rewrite E7, E8. reflexivity.
Qed.

Lemma kept_ascii : forall c, body_kept c -> body_ascii c.
Proof.
  intros c K. destruct K as (K1 & K5 & K8 & _ & (l & E & K9) & K10). destruct K1 as (K1 & K2 & K3 & K4). destruct K5 as (K5 & K6 & K7). destruct K8 as [K8 _].
  unfold body_ascii.
  assert (T : forall o, if_some text_kept o -> opt_ascii o) by (intros [s|] Q; [exact (proj2 Q)|exact I]).
  repeat (split; [solve [auto]|]). split.
  - rewrite E. cbn [if_some]. revert K9. apply Forall_impl. intros a (B1 & B2 & B3 & _). auto.
  - destruct (c_exts c); [|exact I]. cbn [if_some] in *. destruct K10 as [_ K10].
    revert K10. apply Forall_impl. intros a [B _]. exact B.
Qed.
Lemma kept_normal : forall c, body_kept c -> normal c = no_sig c.
Proof.
  intros c K. pose proof (recv_normal c (kept_ascii c K)) as R. apply body_recv_same in K. rewrite K in R.
  apply Ok_inj in R. now symmetry.
Qed.

(** ** Octets *)

Lemma octets_app : forall a b, octets a -> octets b -> octets (a ++ b).
Proof. intros a b Ha Hb. apply Forall_app. now split. Qed.
Lemma octets_pack : forall k z b, pack_u k z = Ok b -> octets b.
Proof. intros k z b H. exact (pack_u_byte k z b H). Qed.
Lemma octets_text : forall s b, utf8_encode s = Ok b -> octets (pack_text s b).
Proof.
  intros s b H. rewrite (text_firstn s b H). apply utf8_byte in H.
  rewrite <- (firstn_skipn (List.length s) b) in H. now apply Forall_app in H as [H _].
Qed.
Lemma octets_empty : forall o, if_some octets o -> octets (or_empty o).
Proof. intros [b|]; [trivial|]. intros _. constructor. Qed.
Ltac oct :=
  repeat (match goal with |- octets (_ ++ _) => apply octets_app end); first
    [ match goal with H : pack_u _ _ = Ok ?b |- octets ?b => exact (octets_pack _ _ _ H) end
    | match goal with H : utf8_encode ?s = Ok ?b |- octets (pack_text ?s ?b) => exact (octets_text _ _ H) end
    | apply octets_empty; assumption
    | assumption ].
Lemma mapM_octets : forall {A} (enc : A -> res bytes) (P : A -> Prop), (forall x b, enc x = Ok b -> P x -> octets b) ->
  forall l bs, mapM enc l = Ok bs -> Forall P l -> octets (List.concat bs).
Proof.
  intros A enc P H. induction l as [|x l IH]; intros bs E F; cbn [mapM] in E.
  - apply Ok_inj in E. subst bs. constructor.
  - unbind E. apply Ok_inj in E. subst bs. inversion_clear F. cbn [List.concat]. apply octets_app; eauto.
Qed.
Lemma encode_list_octets : forall {A} (enc : A -> res bytes) (P : A -> Prop), (forall x b, enc x = Ok b -> P x -> octets b) ->
  forall o b, encode_list enc o = Ok b -> if_some (Forall P) o -> octets b.
Proof.
  intros A enc P H o b E F.
  destruct o as [[|x l]|]; cbn [encode_list] in E; try (apply Ok_inj in E; subst b; repeat constructor).
  destruct (pack_u 2 (len (x :: l))) as [h|] eqn:E1; cbn [bind] in E; [|discriminate].
  destruct (mapM enc (x :: l)) as [bs|] eqn:E2; cbn [bind] in E; [|discriminate].
  apply Ok_inj in E. subst b. apply octets_app; [oct|]. exact (mapM_octets enc P H _ _ E2 F).
Qed.
Theorem body_octets : forall c b, encode_body c = Ok b -> cert_octets c -> octets b.
Proof.
  intros c b H (O1 & O2 & O3 & O4 & O5 & O6 & _). unfold encode_body in H.
  destruct (issuer_encode (c_issuer c)) as [is|] eqn:Eis; cbn [bind] in H; [|discriminate].
  destruct (holder_encode (c_holder c)) as [ho|] eqn:Eho; cbn [bind] in H; [|discriminate].
  destruct (info_encode (c_info c)) as [inf|] eqn:Einf; cbn [bind] in H; [|discriminate].
  destruct (rev_encode (c_rev c)) as [rv|] eqn:Erv; cbn [bind] in H; [|discriminate].
  destruct (match c_del c with Some d => del_encode d | None => Ok [0; 0]%N end) as [de|] eqn:Ede; cbn [bind] in H; [|discriminate].
  destruct (encode_list att_encode (c_atts c)) as [at_|] eqn:Eat; cbn [bind] in H; [|discriminate].
  destruct (encode_list ext_encode (c_exts c)) as [ex|] eqn:Eex; cbn [bind] in H; [|discriminate].
  apply Ok_inj in H. subst b.
  apply octets_app. { unfold issuer_encode in Eis. cbv zeta in Eis. unbind Eis. apply Ok_inj in Eis. subst is. oct. }
  apply octets_app. { unfold holder_encode in Eho. cbv zeta in Eho. unbind Eho. apply Ok_inj in Eho. subst ho. oct. }
  apply octets_app.
  { unfold info_encode in Einf. unbind Einf. apply Ok_inj in Einf. subst inf.
    repeat (match goal with |- octets (_ ++ _) => apply octets_app end); try oct.
    destruct ((0 <=? i_serial (c_info c)) && (i_serial (c_info c) <? 256 ^ Z.of_nat serial_bytes)); [|discriminate].
    apply Ok_inj in E1. subst x1. exact (le_bytes_byte _ _). }
  apply octets_app.
  { revert Eat O5. apply encode_list_octets. intros a y Y P. unfold att_encode in Y. cbv zeta in Y. unbind Y.
    apply Ok_inj in Y. subst y. oct. }
  apply octets_app. { unfold rev_encode in Erv. cbv zeta in Erv. unbind Erv. apply Ok_inj in Erv. subst rv. oct. }
  apply octets_app.
  { destruct (c_del c) as [d|]; [|apply Ok_inj in Ede; subst de; repeat constructor].
    unfold del_encode in Ede. unbind Ede. apply Ok_inj in Ede. subst de. cbn in O4. oct. }
  revert Eex O6. apply encode_list_octets. intros a y Y P. unfold ext_encode in Y. cbv zeta in Y. unbind Y.
  apply Ok_inj in Y. subst y. oct.
Qed.
Lemma sig_octets : forall s b, sig_encode s = Ok b -> if_some octets (sg_value s) -> octets b.
Proof.
  intros [[a|] [v|]] b H O; unfold sig_encode in H; cbn [sg_algo sg_value] in *; try discriminate.
  unbind H. apply Ok_inj in H. subst b. cbn in O. oct.
Qed.

(** ** Base64 text and splitting *)

Lemma b64_char_text : forall n, (43 <= b64_char n)%N.
Proof.
  intros n. unfold b64_char. destruct (N.ltb_spec n 26); [lia|]. destruct (N.ltb_spec n 52); [lia|].
  destruct (N.ltb_spec n 62); [lia|]. destruct (n =? 62)%N; lia.
Qed.
Lemma b64_text_n : forall n b, (List.length b <= n)%nat -> octets b ->
  Forall (fun c => (43 <= c)%N /\ asc c = true) (b64encode b).
Proof.
  assert (G : forall x, (x < 64)%N -> (43 <= b64_char x)%N /\ asc (b64_char x) = true).
  { intros x H. split; [apply b64_char_text|now apply b64_char_ascii]. }
  assert (P : (43 <= b64_pad)%N /\ asc b64_pad = true) by (split; [unfold b64_pad; lia|reflexivity]).
  induction n as [|n IH]; intros b L H.
  - destruct b; [constructor|cbn in L; lia].
  - destruct b as [|x [|y [|z r]]]; [constructor| | |].
    + inversion_clear H. destruct (N_split 4 x ltac:(lia)) as (q & m & -> & B & D & M).
      cbn [b64encode]. rewrite D, M. repeat constructor; try apply G; try apply P; lia.
    + inversion_clear H. inversion_clear H1.
      destruct (N_split 4 x ltac:(lia)) as (q & m & -> & B & D & M).
      destruct (N_split 16 y ltac:(lia)) as (q' & m' & -> & B' & D' & M').
      cbn [b64encode]. rewrite D, M, D', M'. repeat constructor; try apply G; try apply P; lia.
    + inversion_clear H. inversion_clear H1. inversion_clear H2.
      destruct (N_split 4 x ltac:(lia)) as (q & m & -> & B & D & M).
      destruct (N_split 16 y ltac:(lia)) as (q' & m' & -> & B' & D' & M').
      destruct (N_split 64 z ltac:(lia)) as (q'' & m'' & -> & B'' & D'' & M'').
      cbn [b64encode]. rewrite D, M, D', M', D'', M''.
      do 4 (constructor; [apply G; lia|]). apply IH; [cbn in L; lia|assumption].
Qed.
Lemma b64_text : forall b, octets b -> is_ascii (b64encode b) = true /\ ~ In nl (b64encode b).
Proof.
  intros b H. pose proof (b64_text_n _ b (le_n _) H) as T. split.
  - apply forallb_forall. intros x Hx. exact (proj2 (proj1 (Forall_forall _ _) T x Hx)).
  - intros Hx. pose proof (proj1 (proj1 (Forall_forall _ _) T nl Hx)) as L. unfold nl in L. lia.
Qed.

Lemma split_app : forall c w r, ~ In c w -> split_on c (w ++ c :: r) = w :: split_on c r.
Proof.
  induction w as [|x w IH]; intros r H; cbn [app split_on].
  - now rewrite N.eqb_refl.
  - destruct (N.eqb_spec x c) as [E|E]; [exfalso; apply H; now left|].
    rewrite IH by (intros I; apply H; now right). reflexivity.
Qed.

Lemma dec_digits_char : forall f n acc, Forall (fun c => (45 <= c)%N) acc -> Forall (fun c => (45 <= c)%N) (dec_digits f n acc).
Proof.
  induction f as [|f IH]; intros n acc H; cbn [dec_digits]; [exact H|].
  assert (G : Forall (fun c => (45 <= c)%N) ((48 + n mod 10)%N :: acc)) by (constructor; [apply N.le_trans with 48%N; [discriminate|apply N.le_add_r]|exact H]).
  destruct (n <? 10)%N; [exact G|now apply IH].
Qed.
Lemma str_of_Z_no_nl : forall z, ~ In nl (str_of_Z z).
Proof.
  intros z H. assert (F : Forall (fun c => (45 <= c)%N) (str_of_Z z)).
  { unfold str_of_Z. pose proof (dec_digits_char (S (N.to_nat (N.log2 (Z.abs_N z)))) (Z.abs_N z) [] (Forall_nil _)) as F.
    destruct (z <? 0); [constructor; [lia|exact F]|exact F]. }
  pose proof (proj1 (Forall_forall _ _) F nl H) as L. unfold nl in L. lia.
Qed.
