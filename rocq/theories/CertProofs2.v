(** * CertProofs2: which certificates come back, and the shape of decoded ones *)

From Coq Require Import NArith ZArith List Bool Lia.
From Verif Require Import PyBase Struct BytesProofs AttCert CertSpec CertProofs.
Import ListNotations.
Open Scope Z_scope.

(** ** Text *)

Lemma ascii_is : forall s, ascii s <-> is_ascii s = true.
Proof.
  intros s. unfold ascii, is_ascii. rewrite forallb_forall, Forall_forall.
  split; intros H x Hx; [apply N.ltb_lt, (H x Hx)|apply N.ltb_lt, (H x Hx)].
Qed.

Lemma recv_ascii : forall s, ascii s -> recv_text s = Ok s.
Proof.
  intros s H. apply ascii_is in H. apply utf8_ascii in H as [H1 H2]. unfold recv_text. rewrite H1. cbn [bind].
  now rewrite firstn_all.
Qed.

Lemma small_head : forall k n, (128 <=? k)%N = true -> (128 <= k + n)%N.
Proof. intros k n H. apply N.leb_le in H. lia. Qed.

Lemma prefix_ascii : forall s b, utf8_encode s = Ok b -> ascii (firstn (List.length s) b) -> ascii s.
Proof.
  induction s as [|c s IH]; intros b H A; cbn [utf8_encode] in H; [constructor|].
  unbind H. apply Ok_inj in H. subst b. unfold utf8_char in E.
  destruct (N.ltb_spec c 128) as [L|L].
  - apply Ok_inj in E. subst x. cbn [List.length app firstn] in A. inversion_clear A.
    constructor; [exact L|]. exact (IH _ eq_refl H0).
  - exfalso. cbn [List.length] in A.
    assert (G : exists y r, x = y :: r /\ (128 <= y)%N).
    { destruct (c <? 2048)%N; [apply Ok_inj in E; subst x; eexists; eexists; split; [reflexivity|apply small_head; reflexivity]|].
      destruct (surrogate c); [discriminate|].
      destruct (c <? 65536)%N; [apply Ok_inj in E; subst x; eexists; eexists; split; [reflexivity|apply small_head; reflexivity]|].
      destruct (c <? 1114112)%N; [apply Ok_inj in E; subst x; eexists; eexists; split; [reflexivity|apply small_head; reflexivity]|discriminate]. }
    destruct G as (y & r & -> & G). cbn [app firstn] in A. inversion_clear A. lia.
Qed.

Lemma recv_text_enc : forall s t, recv_text s = Ok t ->
  exists b, utf8_encode s = Ok b /\ utf8_encode t = Ok (firstn (List.length s) b).
Proof.
  intros s t H. unfold recv_text in H. destruct (utf8_encode s) as [b|] eqn:E; cbn [bind] in H; [|discriminate].
  exists b. split; [reflexivity|]. exact (utf8_decode_sound _ _ _ (le_n _) H).
Qed.

Lemma recv_text_ascii : forall s t, recv_text s = Ok t -> (ascii t <-> ascii s).
Proof.
  intros s t H. split; intros A.
  - apply recv_text_enc in H as (b & E & F). apply (prefix_ascii s b E).
    apply ascii_is in A. apply utf8_ascii in A as A'. destruct A' as [A1 _]. rewrite A1 in F. apply Ok_inj in F.
    rewrite <- F. now apply ascii_is.
  - rewrite (recv_ascii s A) in H. apply Ok_inj in H. now subst t.
Qed.

Lemma recv_text_same : forall s, recv_text s = Ok s <-> ascii s.
Proof.
  intros s. split; [|apply recv_ascii]. intros H. apply recv_text_enc in H as (b & E & F).
  rewrite E in F. apply Ok_inj in F. apply ascii_is. apply utf8_length in E as [E1 E2]. apply E2.
  apply (f_equal (@List.length N)) in F. rewrite firstn_length in F. lia.
Qed.

Lemma utf8_encode_nil : forall t, utf8_encode t = Ok [] -> t = [].
Proof. intros t H. apply utf8_length in H as [H _]. destruct t; [reflexivity|cbn in H; lia]. Qed.

Lemma utf8_decode_nonempty : forall b s, utf8_decode b = Ok s -> b <> [] -> s <> [].
Proof.
  intros b s H N ->. apply (utf8_decode_sound _ _ _ (le_n _)) in H. cbn in H. apply Ok_inj in H. now subst b.
Qed.

Lemma recv_opt_same : forall o, recv_opt o = Ok o <-> if_some text_kept o.
Proof.
  intros [[|c s]|]; unfold recv_opt; cbn [or_empty if_some].
  - split; [discriminate|]. intros [H _]. contradiction.
  - split.
    + intros H. unbind H. apply Ok_inj in H. injection H as ->. split; [discriminate|]. now apply recv_text_same.
    + intros [_ H]. apply recv_text_same in H. now rewrite H.
  - split; intros _; [exact I|reflexivity].
Qed.

Lemma recv_opt_ascii : forall o o', recv_opt o = Ok o' -> (opt_ascii o' <-> opt_ascii o).
Proof.
  intros [[|c s]|] o'; unfold recv_opt; cbn [or_empty].
  - intros H. apply Ok_inj in H. subst o'. unfold opt_ascii, if_some. split; intros _; [constructor|exact I].
  - intros H. unbind H. apply Ok_inj in H. subst o'. unfold opt_ascii, if_some. now apply recv_text_ascii.
  - intros H. apply Ok_inj in H. subst o'. reflexivity.
Qed.

Lemma recv_bytes_same : forall o, recv_bytes o = o <-> if_some bytes_kept o.
Proof.
  intros [[|c s]|]; unfold recv_bytes, bytes_kept; cbn [or_empty if_some].
  - split; [discriminate|contradiction].
  - split; [discriminate|reflexivity].
  - split; [intros _; exact I|reflexivity].
Qed.

(** ** What is kept *)

Lemma issuer_recv_same : forall i, issuer_recv i = Ok i <-> issuer_kept i.
Proof.
  intros [k a u n l]. unfold issuer_recv, issuer_kept. cbn [is_key is_algo is_uid is_name is_url].
  rewrite <- !recv_opt_same, <- !recv_text_same. split.
  - intros H. unbind H. apply Ok_inj in H. injection H as -> -> -> ->. auto.
  - intros (-> & -> & -> & ->). reflexivity.
Qed.
Lemma holder_recv_same : forall i, holder_recv i = Ok i <-> holder_kept i.
Proof.
  intros [k a u n]. unfold holder_recv, holder_kept. cbn [ho_key ho_algo ho_uid ho_name].
  rewrite <- !recv_opt_same, <- !recv_text_same. split.
  - intros H. unbind H. apply Ok_inj in H. injection H as -> -> ->. auto.
  - intros (-> & -> & ->). reflexivity.
Qed.
Lemma att_recv_same : forall i, att_recv i = Ok i <-> att_kept i.
Proof.
  intros [k t u n x]. unfold att_recv, att_kept. cbn [at_id at_type at_value at_name at_extra].
  rewrite <- !recv_opt_same, <- !recv_text_same, <- recv_bytes_same. split.
  - intros H. unbind H. apply Ok_inj in H. injection H as -> -> -> H. auto.
  - intros (-> & -> & -> & ->). reflexivity.
Qed.
Lemma rev_recv_same : forall i, rev_recv i = Ok i <-> rev_kept i.
Proof.
  intros [a b u x]. unfold rev_recv, rev_kept. cbn [rv_after rv_before rv_url rv_extra].
  rewrite <- !recv_opt_same, <- recv_bytes_same. split.
  - intros H. unbind H. apply Ok_inj in H. injection H as -> H. auto.
  - intros (-> & ->). reflexivity.
Qed.
Lemma del_recv_same : forall i, del_recv i = i <-> del_kept i.
Proof.
  intros [x]. unfold del_recv, del_kept. cbn [de_extra]. rewrite <- recv_bytes_same.
  split; [intros H; congruence|now intros ->].
Qed.
Lemma ext_recv_same : forall i, ext_recv i = Ok i <-> ext_kept i.
Proof.
  intros [k x]. unfold ext_recv, ext_kept. cbn [ex_id ex_extra].
  rewrite <- !recv_text_same, <- recv_bytes_same. split.
  - intros H. unbind H. apply Ok_inj in H. injection H as -> H. auto.
  - intros (-> & ->). reflexivity.
Qed.
Lemma sig_recv_same : forall i, sig_recv i = Ok i <-> sig_kept i.
Proof.
  intros [k x]. unfold sig_recv, sig_kept. cbn [sg_algo sg_value].
  rewrite <- !recv_opt_same, <- recv_bytes_same. split.
  - intros H. unbind H. apply Ok_inj in H. injection H as -> H. auto.
  - intros (-> & ->). reflexivity.
Qed.

Lemma mapM_same : forall {A} (f : A -> res A) l, mapM f l = Ok l <-> Forall (fun x => f x = Ok x) l.
Proof.
  intros A f. induction l as [|x l IH]; cbn [mapM]; [split; [constructor|reflexivity]|]. split.
  - intros H. unbind H. apply Ok_inj in H. injection H as -> ->. constructor; [assumption|]. now apply IH.
  - intros H. inversion_clear H. rewrite H0. cbn [bind]. apply IH in H1. rewrite H1. reflexivity.
Qed.
Lemma Forall_iff : forall {A} (P Q : A -> Prop) l, (forall x, P x <-> Q x) -> (Forall P l <-> Forall Q l).
Proof. intros A P Q l H. split; apply Forall_impl; intros x; apply H. Qed.

Lemma recv_del_same : forall o, recv_del o = o <-> if_some (fun d => exists x, de_extra d = Some x /\ x <> []) o.
Proof.
  intros [[[[|x l]|]]|]; unfold recv_del, recv_bytes; cbn [de_extra or_empty if_some].
  - split; [discriminate|]. intros (x & H & N). congruence.
  - split; [|reflexivity]. intros _. eexists; split; [reflexivity|discriminate].
  - split; [discriminate|]. intros (x & H & N). congruence.
  - split; intros _; [exact I|reflexivity].
Qed.

Definition no_sig (c : cert) : cert :=
  Cert (c_issuer c) (c_holder c) (c_info c) (c_atts c) (c_rev c) (c_del c) (c_exts c) None.

Theorem body_recv_same : forall c, body_recv c = Ok (no_sig c) <-> body_kept c.
Proof.
  intros [is ho inf atts rv de exts sg]. unfold body_recv, body_kept, no_sig.
  cbn [c_issuer c_holder c_info c_atts c_rev c_del c_exts].
  rewrite <- issuer_recv_same, <- holder_recv_same, <- rev_recv_same, <- recv_del_same. split.
  - intros H. unbind H. apply Ok_inj in H. injection H as -> -> <- -> H <-.
    repeat (split; [first [reflexivity|assumption]|]). split.
    + exists x1. split; [reflexivity|]. cbn [or_nil] in E1. apply mapM_same in E1.
      now apply (proj1 (Forall_iff _ _ _ att_recv_same)).
    + destruct x3 as [|y l]; cbn [no_nil or_nil if_some] in *; [exact I|].
      split; [discriminate|]. apply mapM_same in E3. now apply (proj1 (Forall_iff _ _ _ ext_recv_same)).
  - intros (-> & -> & -> & -> & (l & -> & H) & X). cbn [bind or_nil].
    assert (A : mapM att_recv l = Ok l).
    { apply mapM_same. now apply (proj2 (Forall_iff _ _ _ att_recv_same)). }
    rewrite A. cbn [bind]. destruct exts as [m|]; cbn [or_nil if_some] in *; [|reflexivity].
    destruct X as [N X]. assert (B : mapM ext_recv m = Ok m).
    { apply mapM_same. now apply (proj2 (Forall_iff _ _ _ ext_recv_same)). }
    rewrite B. cbn [bind]. destruct m; [congruence|reflexivity].
Qed.

(** ** ASCII on both sides *)

Lemma mapM_rel : forall {A B} (f : A -> res B) (P : A -> Prop) (Q : B -> Prop),
  (forall x y, f x = Ok y -> (Q y <-> P x)) -> forall l m, mapM f l = Ok m -> (Forall Q m <-> Forall P l).
Proof.
  intros A B f P Q H. induction l as [|x l IH]; intros m E; cbn [mapM] in E.
  - apply Ok_inj in E. subst m. split; constructor.
  - unbind E. apply Ok_inj in E. subst m. specialize (H _ _ E0). specialize (IH _ eq_refl).
    split; intros F; inversion_clear F; constructor; tauto.
Qed.

Theorem body_recv_ascii : forall c c', body_recv c = Ok c' -> (body_ascii c' <-> body_ascii c).
Proof.
  intros [is ho inf atts rv de exts sg] c' H. unfold body_recv in H.
  cbn [c_issuer c_holder c_info c_atts c_rev c_del c_exts] in H.
  unbind H. apply Ok_inj in H. subst c'. unfold body_ascii. cbn [c_issuer c_holder c_info c_atts c_rev c_del c_exts].
  unfold issuer_recv in E. unbind E. apply Ok_inj in E. subst x.
  unfold holder_recv in E0. unbind E0. apply Ok_inj in E0. subst x0.
  unfold rev_recv in E2. unbind E2. apply Ok_inj in E2. subst x2.
  cbn [is_algo is_uid is_name is_url ho_algo ho_uid ho_name rv_url].
  rewrite (recv_text_ascii _ _ E4), (recv_text_ascii _ _ E5), (recv_opt_ascii _ _ E6), (recv_opt_ascii _ _ E7),
    (recv_text_ascii _ _ E), (recv_text_ascii _ _ E8), (recv_opt_ascii _ _ E9), (recv_opt_ascii _ _ E0).
  assert (A : if_some (Forall (fun a => ascii (at_id a) /\ opt_ascii (at_value a) /\ opt_ascii (at_name a))) (Some x1) <->
              if_some (Forall (fun a => ascii (at_id a) /\ opt_ascii (at_value a) /\ opt_ascii (at_name a))) atts).
  { cbn [if_some].
    rewrite (mapM_rel att_recv (fun a => ascii (at_id a) /\ opt_ascii (at_value a) /\ opt_ascii (at_name a)) _) by
      (exact E1 || (intros a y Y; unfold att_recv in Y; unbind Y; apply Ok_inj in Y; subst y; cbn [at_id at_value at_name];
       match goal with H1 : recv_text _ = Ok ?x, H2 : recv_opt (at_value _) = Ok ?y, H3 : recv_opt (at_name _) = Ok ?z
         |- context [ascii ?x /\ opt_ascii ?y /\ opt_ascii ?z] =>
         rewrite (recv_text_ascii _ _ H1), (recv_opt_ascii _ _ H2), (recv_opt_ascii _ _ H3); reflexivity end)).
    destruct atts; cbn [or_nil if_some]; [reflexivity|]. split; [intros _; exact I|constructor]. }
  assert (X : if_some (Forall (fun x => ascii (ex_id x))) (no_nil x3) <-> if_some (Forall (fun x => ascii (ex_id x))) exts).
  { assert (Y : Forall (fun x => ascii (ex_id x)) x3 <-> Forall (fun x => ascii (ex_id x)) (or_nil exts)).
    { apply (mapM_rel ext_recv); [|exact E3]. intros a y Y; unfold ext_recv in Y; unbind Y; apply Ok_inj in Y; subst y; cbn [ex_id].
      match goal with H1 : recv_text _ = Ok ?x |- context [ascii ?x] => apply (recv_text_ascii _ _ H1) end. }
    destruct x3 as [|y l], exts as [m|]; cbn [no_nil or_nil if_some] in *; try tauto.
    - split; [|tauto]. intros _. apply Y. constructor.
    - split; [tauto|]. intros _. apply Y. constructor. }
  rewrite A, X. reflexivity.
Qed.

(** ** Shape of decoded certificates *)

Lemma opt_text_kept : forall b o, opt_text b = Ok o -> opt_ascii o -> if_some text_kept o.
Proof.
  intros b o H A. unfold opt_text in H. destruct b as [|x l]; [apply Ok_inj in H; now subst o|].
  unbind H. apply Ok_inj in H. subst o. cbn [if_some opt_ascii] in *.
  split; [|exact A]. apply (utf8_decode_nonempty _ _ E). discriminate.
Qed.

Lemma cut_left : forall n b x r, cut n b = (x, r) -> r <> [] -> List.length x = Z.to_nat n.
Proof.
  intros n b x r H N. unfold cut in H. injection H as <- <-. rewrite firstn_length.
  destruct (Nat.le_gt_cases (List.length b) (Z.to_nat n)) as [L|L]; [|lia].
  rewrite skipn_all2 in N by lia. contradiction.
Qed.
Lemma opt_cut_kept : forall n b o r, 0 <= n -> opt_cut n b = (o, r) -> r <> [] -> if_some bytes_kept o.
Proof.
  intros n b o r P H N. unfold opt_cut in H. destruct (cut n b) as [x r'] eqn:C. injection H as <- <-.
  apply cut_left in C; [|exact N]. destruct (Z.eqb_spec n 0); [exact I|]. cbn. intros ->. cbn in C. lia.
Qed.

Lemma get_u_pos : forall k b z r, get_u k b = Ok (z, r) -> 0 <= z.
Proof.
  intros k b z r H. unfold get_u in H. destruct (take k b) as [[x y]|]; cbn [bind] in H; [|discriminate].
  apply Ok_inj in H. injection H as <- <-. lia.
Qed.

(** One step of a decoder read off its result. *)
Ltac undo H :=
  match type of H with
  | bind (take ?k ?b) _ = Ok _ =>
      let x := fresh "h" in let r := fresh "b" in let E := fresh "E" in
      destruct (take k b) as [[x r]|] eqn:E; cbn [bind] in H; [|discriminate H]
  | bind (get_u ?k ?b) _ = Ok _ =>
      let x := fresh "n" in let r := fresh "b" in let E := fresh "E" in
      destruct (get_u k b) as [[x r]|] eqn:E; cbn [bind] in H; [|discriminate H]
  | (let '(_, _) := cut ?n ?b in _) = Ok _ =>
      let x := fresh "k" in let r := fresh "b" in let E := fresh "E" in
      destruct (cut n b) as [x r] eqn:E
  | (let '(_, _) := opt_cut ?n ?b in _) = Ok _ =>
      let x := fresh "o" in let r := fresh "b" in let E := fresh "E" in
      destruct (opt_cut n b) as [x r] eqn:E
  | bind ?m _ = Ok _ =>
      let x := fresh "x" in let E := fresh "E" in
      destruct m as [x|] eqn:E; cbn [bind] in H; [|discriminate H]
  end.

Lemma issuer_decode_kept : forall b i r, issuer_decode b = Ok (i, r) ->
  ascii (is_algo i) -> ascii (is_uid i) -> opt_ascii (is_name i) -> opt_ascii (is_url i) -> issuer_kept i.
Proof.
  intros b i r H A1 A2 A3 A4. unfold issuer_decode in H. repeat undo H. apply Ok_inj in H. injection H as <- <-.
  unfold issuer_kept. cbn [is_algo is_uid is_name is_url] in *.
  repeat split; [exact A1|exact A2|eapply opt_text_kept; eassumption|eapply opt_text_kept; eassumption].
Qed.
Lemma holder_decode_kept : forall b i r, holder_decode b = Ok (i, r) ->
  ascii (ho_algo i) -> ascii (ho_uid i) -> opt_ascii (ho_name i) -> holder_kept i.
Proof.
  intros b i r H A1 A2 A3. unfold holder_decode in H. repeat undo H. apply Ok_inj in H. injection H as <- <-.
  unfold holder_kept. cbn [ho_algo ho_uid ho_name] in *.
  repeat split; [exact A1|exact A2|eapply opt_text_kept; eassumption].
Qed.
Lemma att_decode_kept : forall b i r, att_decode b = Ok (i, r) -> r <> [] ->
  ascii (at_id i) -> opt_ascii (at_value i) -> opt_ascii (at_name i) -> att_kept i.
Proof.
  intros b i r H N A1 A2 A3. unfold att_decode in H. repeat undo H. apply Ok_inj in H. injection H as <- <-.
  unfold att_kept. cbn [at_id at_value at_name at_extra] in *.
  repeat split; [exact A1|eapply opt_text_kept; eassumption|eapply opt_text_kept; eassumption|].
  eapply opt_cut_kept; [|eassumption|exact N]. eapply get_u_pos; eassumption.
Qed.
Lemma rev_decode_kept : forall b i r, rev_decode b = Ok (i, r) -> r <> [] -> opt_ascii (rv_url i) -> rev_kept i.
Proof.
  intros b i r H N A. unfold rev_decode in H. repeat undo H. apply Ok_inj in H. injection H as <- <-.
  unfold rev_kept. cbn [rv_url rv_extra] in *. split.
  - destruct (Z.eqb_spec n 0) as [Z|Z]; [apply Ok_inj in E5; now subst x|].
    unbind E5. apply Ok_inj in E5. subst x. split; [|exact A].
    apply (utf8_decode_nonempty _ _ E7). intros ->.
    assert (L : b5 <> []).
    { intros ->. unfold opt_cut, cut in E6. rewrite firstn_nil, skipn_nil in E6. injection E6 as _ E6. congruence. }
    apply (cut_left _ _ _ _ E4) in L. apply get_u_pos in E0. cbn in L. lia.
  - eapply opt_cut_kept; [|eassumption|exact N]. eapply get_u_pos; eassumption.
Qed.
Lemma ext_decode_kept : forall b i r, ext_decode b = Ok (i, r) -> r <> [] -> ascii (ex_id i) -> ext_kept i.
Proof.
  intros b i r H N A. unfold ext_decode in H. repeat undo H. apply Ok_inj in H. injection H as <- <-.
  unfold ext_kept. cbn [ex_id ex_extra] in *. split; [exact A|].
  eapply opt_cut_kept; [|eassumption|exact N]. eapply get_u_pos; eassumption.
Qed.

Lemma take_nonempty : forall k b x, take (S k) b = Ok x -> b <> [].
Proof. intros k b x H ->. discriminate. Qed.
Lemma att_nonempty : forall b x, att_decode b = Ok x -> b <> [].
Proof. intros b x H ->. discriminate. Qed.
Lemma ext_nonempty : forall b x, ext_decode b = Ok x -> b <> [].
Proof. intros b x H ->. discriminate. Qed.

Lemma decode_list_kept : forall {A} (dec : bytes -> res (A * bytes)) (P Q : A -> Prop),
  (forall b x, dec b = Ok x -> b <> []) ->
  (forall b x r, dec b = Ok (x, r) -> r <> [] -> P x -> Q x) ->
  forall k b l r, decode_list dec k b = Ok (l, r) -> r <> [] -> Forall P l -> Forall Q l.
Proof.
  intros A dec P Q Hne H. induction k as [|k IH]; intros b l r E N F; cbn [decode_list] in E.
  - apply Ok_inj in E. injection E as <- <-. constructor.
  - destruct (dec b) as [[x b1]|] eqn:D; cbn [bind] in E; [|discriminate].
    destruct (decode_list dec k b1) as [[m b2]|] eqn:D2; cbn [bind] in E; [|discriminate].
    apply Ok_inj in E. injection E as <- <-. inversion_clear F. constructor; [|exact (IH _ _ _ D2 N H1)].
    apply (H _ _ _ D); [|assumption].
    destruct k; cbn [decode_list] in D2; [apply Ok_inj in D2; injection D2 as _ <-; exact N|].
    destruct (dec b1) as [y|] eqn:D3; [|discriminate]. exact (Hne _ _ D3).
Qed.

Lemma decode_del_shape : forall b o r, decode_del b = Ok (o, r) -> r <> [] ->
  if_some (fun d => exists x, de_extra d = Some x /\ x <> []) o.
Proof.
  intros b o r H N. unfold decode_del in H. undo H.
  destruct (Z.eqb_spec n 0) as [Z|Z]; [apply Ok_inj in H; injection H as <- <-; exact I|].
  unfold del_decode in H. rewrite E in H. cbn [bind] in H.
  destruct (opt_cut n b0) as [x r'] eqn:O. cbn [bind] in H. apply Ok_inj in H. injection H as <- <-.
  cbn [if_some de_extra].
  assert (P := get_u_pos _ _ _ _ E). pose proof (opt_cut_kept n b0 x r' P O N) as K.
  unfold opt_cut in O. destruct (cut n b0). injection O as <- <-. rewrite (proj2 (Z.eqb_neq n 0) Z) in *.
  eexists; split; [reflexivity|exact K].
Qed.

Theorem decode_body_kept : forall b c r, decode_body b = Ok (c, r) -> r <> [] -> body_ascii c -> body_kept c.
Proof.
  intros b c r H N A. unfold decode_body in H.
  destruct (issuer_decode b) as [[is b1]|] eqn:E1; cbn [bind] in H; [|discriminate].
  destruct (holder_decode b1) as [[ho b2]|] eqn:E2; cbn [bind] in H; [|discriminate].
  destruct (info_decode b2) as [[inf b3]|] eqn:E3; cbn [bind] in H; [|discriminate].
  destruct (get_u 2 b3) as [[n b4]|] eqn:E4; cbn [bind] in H; [|discriminate].
  destruct (decode_list att_decode (Z.to_nat n) b4) as [[atts b5]|] eqn:E5; cbn [bind] in H; [|discriminate].
  destruct (rev_decode b5) as [[rv b6]|] eqn:E6; cbn [bind] in H; [|discriminate].
  destruct (decode_del b6) as [[de b7]|] eqn:E7; cbn [bind] in H; [|discriminate].
  destruct (get_u 2 b7) as [[m b8]|] eqn:E8; cbn [bind] in H; [|discriminate].
  destruct (decode_list ext_decode (Z.to_nat m) b8) as [[exts b9]|] eqn:E9; cbn [bind] in H; [|discriminate].
  apply Ok_inj in H. injection H as <- <-.
  unfold body_ascii in A. cbn [c_issuer c_holder c_info c_atts c_rev c_del c_exts] in A.
  destruct A as (A1 & A2 & A3 & A4 & A5 & A6 & A7 & A8 & A9 & A10).
  assert (N7 : b7 <> []) by (intros ->; discriminate).
  assert (N6 : b6 <> []) by (intros ->; discriminate).
  assert (N5 : b5 <> []) by (intros ->; discriminate).
  unfold body_kept. cbn [c_issuer c_holder c_info c_atts c_rev c_del c_exts].
  split; [exact (issuer_decode_kept _ _ _ E1 A1 A2 A3 A4)|].
  split; [exact (holder_decode_kept _ _ _ E2 A5 A6 A7)|].
  split; [exact (rev_decode_kept _ _ _ E6 N6 A8)|].
  split; [exact (decode_del_shape _ _ _ E7 N7)|]. split.
  - exists atts. split; [reflexivity|]. cbn [if_some] in A9.
    apply (decode_list_kept att_decode (fun a => ascii (at_id a) /\ opt_ascii (at_value a) /\ opt_ascii (at_name a)) att_kept
      att_nonempty) with (3 := N5) in E5; [exact E5| |exact A9].
    intros b' x r' D N' (B1 & B2 & B3). exact (att_decode_kept _ _ _ D N' B1 B2 B3).
  - destruct exts as [|x l]; cbn [if_some] in *; [exact I|]. split; [discriminate|].
    apply (decode_list_kept ext_decode (fun x => ascii (ex_id x)) ext_kept ext_nonempty ext_decode_kept _ _ _ _ E9 N A10).
Qed.
