(** * CertProofs: what decoding an encoded certificate gives *)

From Coq Require Import NArith ZArith List Bool Lia.
From Verif Require Import PyBase Struct BytesProofs AttCert CertSpec.
Import ListNotations.
Open Scope Z_scope.

Lemma bind_ok {A B} (m : res A) (f : A -> res B) b :
  bind m f = Ok b -> exists a, m = Ok a /\ f a = Ok b.
Proof. destruct m; cbn; [eauto | discriminate]. Qed.

(** Splits [H : (x <- m ;; ...) = Ok b] into one equation per step. *)
Ltac unbind H :=
  repeat match type of H with
  | bind ?m _ = Ok _ =>
      let x := fresh "x" in let E := fresh "E" in
      destruct m as [x|x] eqn:E; cbn [bind] in H; [|discriminate H]
  end.

(** ** Text *)

Lemma text_length : forall s b, utf8_encode s = Ok b -> List.length (pack_text s b) = List.length s.
Proof.
  intros s b H. apply utf8_length in H as [H _]. unfold pack_text, pack_s. rewrite app_length, repeat_length, firstn_length. lia.
Qed.
Lemma text_firstn : forall s b, utf8_encode s = Ok b -> pack_text s b = firstn (List.length s) b.
Proof.
  intros s b H. apply utf8_length in H as [H _]. unfold pack_text, pack_s.
  replace (List.length s - List.length b)%nat with 0%nat by lia. apply app_nil_r.
Qed.

(** What the other side reads for a text. *)
Definition recv_text (s : str) : res str := b <- utf8_encode s ;; utf8_decode (firstn (List.length s) b).
Definition recv_opt (o : option str) : res (option str) :=
  match or_empty o with [] => Ok None | s => t <- recv_text s ;; Ok (Some t) end.
Definition recv_bytes (o : option bytes) : option bytes :=
  match or_empty o with [] => None | s => Some s end.

Lemma decode_text : forall s b, utf8_encode s = Ok b -> utf8_decode (pack_text s b) = recv_text s.
Proof. intros s b H. unfold recv_text. rewrite H. cbn [bind]. now rewrite (text_firstn s b H). Qed.

Lemma opt_text_recv : forall o b, utf8_encode (or_empty o) = Ok b -> opt_text (pack_text (or_empty o) b) = recv_opt o.
Proof.
  intros o b H. pose proof (text_length _ _ H) as L. pose proof (decode_text _ _ H) as D. unfold recv_opt.
  destruct (or_empty o) as [|c s]; [destruct (pack_text [] b); [reflexivity|discriminate]|].
  unfold opt_text. destruct (pack_text (c :: s) b) as [|y l]; [discriminate|]. now rewrite D.
Qed.

Lemma len_nat : forall {A} (l : list A), Z.to_nat (len l) = List.length l.
Proof. intros. unfold len. apply Nat2Z.id. Qed.

Lemma take_text : forall s b r, utf8_encode s = Ok b ->
  take (Z.to_nat (len s)) (pack_text s b ++ r) = Ok (pack_text s b, r).
Proof. intros s b r H. apply take_app. rewrite len_nat. now apply text_length. Qed.

Lemma cut_app : forall n x r, Z.to_nat n = List.length x -> cut n (x ++ r) = (x, r).
Proof.
  intros n x r H. unfold cut. rewrite H, firstn_app, Nat.sub_diag, firstn_all, skipn_app, Nat.sub_diag, skipn_all.
  cbn. now rewrite app_nil_r.
Qed.
Lemma cut_text : forall s b r, utf8_encode s = Ok b -> cut (len s) (pack_text s b ++ r) = (pack_text s b, r).
Proof. intros s b r H. apply cut_app. rewrite len_nat. symmetry. now apply text_length. Qed.

Lemma len_zero : forall {A} (l : list A), (len l =? 0) = match l with [] => true | _ => false end.
Proof. intros A [|x l]; [reflexivity|]. unfold len. cbn [List.length]. apply Z.eqb_neq. lia. Qed.
Lemma len_pos : forall {A} (l : list A), (0 <? len l) = match l with [] => false | _ => true end.
Proof. intros A [|x l]; [reflexivity|]. unfold len. cbn [List.length]. apply Z.ltb_lt. lia. Qed.

Lemma opt_cut_recv : forall o r, opt_cut (len (or_empty o)) (or_empty o ++ r) = (recv_bytes o, r).
Proof.
  intros o r. unfold opt_cut. rewrite cut_app by apply len_nat. rewrite len_zero. unfold recv_bytes.
  destruct (or_empty o); reflexivity.
Qed.

Lemma get_u_last : forall k z b, pack_u k z = Ok b -> get_u k b = Ok (z, []).
Proof. intros k z b H. rewrite <- (app_nil_r b). now apply get_u_pack. Qed.

Lemma pack2 : forall z b, pack_u 2 z = Ok b -> List.length b = 2%nat.
Proof. intros z b. apply pack_u_length. Qed.
Lemma pack1 : forall z b, pack_u 1 z = Ok b -> List.length b = 1%nat.
Proof. intros z b. apply pack_u_length. Qed.
Lemma pack4 : forall z b, pack_u 4 z = Ok b -> List.length b = 4%nat.
Proof. intros z b. apply pack_u_length. Qed.

(** Reads a header whose parts were packed. *)
Ltac lengths :=
  rewrite ?app_length;
  repeat match goal with
  | H : pack_u 2 _ = Ok ?b |- context [List.length ?b] => rewrite (pack2 _ _ H)
  | H : pack_u 1 _ = Ok ?b |- context [List.length ?b] => rewrite (pack1 _ _ H)
  | H : pack_u 4 _ = Ok ?b |- context [List.length ?b] => rewrite (pack4 _ _ H)
  end; reflexivity.
Ltac header h r :=
  rewrite (take_app _ h r) by lengths; cbn [bind];
  repeat (first
    [ match goal with H : pack_u ?k ?z = Ok ?b |- context [get_u ?k (?b ++ ?t)] =>
        rewrite (get_u_pack k z b t H); cbn [bind] end
    | match goal with H : pack_u ?k ?z = Ok ?b |- context [get_u ?k ?b] =>
        rewrite (get_u_last k z b H); cbn [bind] end ]).
Ltac texts :=
  repeat (match goal with H : utf8_encode ?s = Ok ?b |- context [take (Z.to_nat (len ?s)) (pack_text ?s ?b ++ ?t)] =>
            rewrite (take_text s b t H); cbn [bind] end);
  repeat (match goal with
          | H : utf8_encode ?s = Ok ?b |- context [utf8_decode (pack_text ?s ?b)] => rewrite (decode_text s b H)
          | H : utf8_encode (or_empty ?o) = Ok ?b |- context [opt_text (pack_text (or_empty ?o) ?b)] =>
              rewrite (opt_text_recv o b H)
          end).
(** Case analysis of the texts read, the same on both sides. *)
Ltac both :=
  repeat match goal with
  | |- context [bind (recv_text ?s) _] => destruct (recv_text s); cbn [bind]; [|reflexivity]
  | |- context [bind (recv_opt ?s) _] => destruct (recv_opt s); cbn [bind]; [|reflexivity]
  end; try reflexivity.

(** ** Sections *)

Definition issuer_recv (i : ac_issuer) : res ac_issuer :=
  algo <- recv_text (is_algo i) ;; uid <- recv_text (is_uid i) ;; url <- recv_opt (is_url i) ;; name <- recv_opt (is_name i) ;;
  Ok (Issuer (is_key i) algo uid name url).
Lemma issuer_app : forall i b r, issuer_encode i = Ok b ->
  issuer_decode (b ++ r) = (x <- issuer_recv i ;; Ok (x, r)).
Proof.
  intros i b r H. unfold issuer_encode in H. cbv zeta in H. unbind H. apply Ok_inj in H. subst b.
  unfold issuer_decode, issuer_recv.
  rewrite <- !app_assoc.
  match goal with |- context [take 10 (?a ++ ?b ++ ?c ++ ?d ++ ?e ++ ?t)] =>
    replace (a ++ b ++ c ++ d ++ e ++ t) with ((a ++ b ++ c ++ d ++ e) ++ t) by (now rewrite <- !app_assoc);
    header (a ++ b ++ c ++ d ++ e) t end.
  rewrite cut_app by apply len_nat. texts. both.
Qed.

Definition holder_recv (i : ac_holder) : res ac_holder :=
  algo <- recv_text (ho_algo i) ;; uid <- recv_text (ho_uid i) ;; name <- recv_opt (ho_name i) ;;
  Ok (Holder (ho_key i) algo uid name).
Lemma holder_app : forall i b r, holder_encode i = Ok b ->
  holder_decode (b ++ r) = (x <- holder_recv i ;; Ok (x, r)).
Proof.
  intros i b r H. unfold holder_encode in H. cbv zeta in H. unbind H. apply Ok_inj in H. subst b.
  unfold holder_decode, holder_recv.
  rewrite <- !app_assoc.
  match goal with |- context [take 8 (?a ++ ?b ++ ?c ++ ?d ++ ?t)] =>
    replace (a ++ b ++ c ++ d ++ t) with ((a ++ b ++ c ++ d) ++ t) by (now rewrite <- !app_assoc);
    header (a ++ b ++ c ++ d) t end.
  rewrite cut_app by apply len_nat. texts. both.
Qed.

Lemma info_app : forall i b r, info_encode i = Ok b -> info_decode (b ++ r) = Ok (i, r).
Proof.
  intros i b r H. unfold info_encode in H.
  destruct (pack_u 1 (i_version i)) as [v|v] eqn:V; cbn [bind] in H; [|discriminate].
  destruct (pack_u 1 (Z.of_nat serial_bytes)) as [l|l] eqn:L; cbn [bind] in H; [|discriminate].
  destruct ((0 <=? i_serial i) && (i_serial i <? 256 ^ Z.of_nat serial_bytes)) eqn:R; cbn [bind] in H; [|discriminate].
  destruct (pack_u 4 (i_issued i)) as [t|t] eqn:T; cbn [bind] in H; [|discriminate].
  apply Ok_inj in H. subst b. apply andb_true_iff in R as [R1 R2]. apply Z.leb_le in R1. apply Z.ltb_lt in R2.
  unfold info_decode. rewrite <- !app_assoc.
  replace (v ++ l ++ le_bytes serial_bytes (Z.to_N (i_serial i)) ++ t ++ r)
    with ((v ++ l) ++ le_bytes serial_bytes (Z.to_N (i_serial i)) ++ t ++ r) by (now rewrite <- !app_assoc).
  header (v ++ l) (le_bytes serial_bytes (Z.to_N (i_serial i)) ++ t ++ r).
  rewrite cut_app by (now rewrite le_bytes_length).
  rewrite (get_u_pack 4 _ t r T). cbn [bind].
  rewrite le_val_bytes.
  - rewrite Z2N.id by lia. destruct i; reflexivity.
  - apply N2Z.inj_lt. rewrite Z2N.id by lia. rewrite N2Z.inj_pow, nat_N_Z. exact R2.
Qed.

Definition att_recv (a : ac_att) : res ac_att :=
  id <- recv_text (at_id a) ;; value <- recv_opt (at_value a) ;; name <- recv_opt (at_name a) ;;
  Ok (Att id (at_type a) value name (recv_bytes (at_extra a))).
Lemma atype_of_val : forall t, atype_of (atype_val t) = Ok t.
Proof. intros []; reflexivity. Qed.
Lemma att_app : forall i b r, att_encode i = Ok b -> att_decode (b ++ r) = (x <- att_recv i ;; Ok (x, r)).
Proof.
  intros i b r H. unfold att_encode in H. cbv zeta in H. unbind H. apply Ok_inj in H. subst b.
  unfold att_decode, att_recv.
  rewrite <- !app_assoc.
  match goal with |- context [take 9 (?a ++ ?b ++ ?c ++ ?d ++ ?e ++ ?t)] =>
    replace (a ++ b ++ c ++ d ++ e ++ t) with ((a ++ b ++ c ++ d ++ e) ++ t) by (now rewrite <- !app_assoc);
    header (a ++ b ++ c ++ d ++ e) t end.
  rewrite atype_of_val. cbn [bind]. texts. both. now rewrite opt_cut_recv.
Qed.

Definition rev_recv (r : ac_rev) : res ac_rev :=
  url <- recv_opt (rv_url r) ;; Ok (Rev (rv_after r) (rv_before r) url (recv_bytes (rv_extra r))).
Lemma rev_app : forall i b r, rev_encode i = Ok b -> rev_decode (b ++ r) = (x <- rev_recv i ;; Ok (x, r)).
Proof.
  intros i b r H. unfold rev_encode in H. cbv zeta in H. unbind H. apply Ok_inj in H. subst b.
  unfold rev_decode, rev_recv.
  rewrite <- !app_assoc.
  match goal with |- context [take 12 (?a ++ ?b ++ ?c ++ ?d ++ ?t)] =>
    replace (a ++ b ++ c ++ d ++ t) with ((a ++ b ++ c ++ d) ++ t) by (now rewrite <- !app_assoc);
    header (a ++ b ++ c ++ d) t end.
  rewrite (cut_text _ _ _ E). rewrite len_zero.
  assert (G : (if match or_empty (rv_url i) with [] => true | _ => false end then Ok None
               else s <- utf8_decode (pack_text (or_empty (rv_url i)) x) ;; Ok (Some s)) = recv_opt (rv_url i)).
  { rewrite (decode_text _ _ E). unfold recv_opt. destruct (or_empty (rv_url i)); reflexivity. }
  rewrite G. both. now rewrite opt_cut_recv.
Qed.

Definition del_recv (d : ac_del) : ac_del := Del (recv_bytes (de_extra d)).
Lemma del_app : forall i b r, del_encode i = Ok b -> del_decode (b ++ r) = Ok (del_recv i, r).
Proof.
  intros i b r H. unfold del_encode in H. unbind H. apply Ok_inj in H. subst b.
  unfold del_decode, del_recv. rewrite <- app_assoc, (get_u_pack 2 _ x _ E). cbn [bind]. now rewrite opt_cut_recv.
Qed.

Definition ext_recv (x : ac_ext) : res ac_ext :=
  id <- recv_text (ex_id x) ;; Ok (Ext id (recv_bytes (ex_extra x))).
Lemma ext_app : forall i b r, ext_encode i = Ok b -> ext_decode (b ++ r) = (x <- ext_recv i ;; Ok (x, r)).
Proof.
  intros i b r H. unfold ext_encode in H. cbv zeta in H. unbind H. apply Ok_inj in H. subst b.
  unfold ext_decode, ext_recv.
  rewrite <- !app_assoc.
  match goal with |- context [take 4 (?a ++ ?b ++ ?t)] =>
    replace (a ++ b ++ t) with ((a ++ b) ++ t) by (now rewrite <- !app_assoc);
    header (a ++ b) t end.
  rewrite (cut_text _ _ _ E). texts. both. now rewrite opt_cut_recv.
Qed.

Definition sig_recv (s : ac_sig) : res ac_sig :=
  algo <- recv_opt (sg_algo s) ;; Ok (Sig algo (recv_bytes (sg_value s))).
Lemma sig_app : forall i b r, sig_encode i = Ok b -> sig_decode (b ++ r) = (x <- sig_recv i ;; Ok (x, r)).
Proof.
  intros [[a|] [v|]] b r H; unfold sig_encode in H; cbn [sg_algo sg_value] in H; try discriminate.
  unbind H. apply Ok_inj in H. subst b.
  unfold sig_decode, sig_recv. cbn [sg_algo sg_value].
  rewrite <- !app_assoc.
  match goal with |- context [take 4 (?a ++ ?b ++ ?t)] =>
    replace (a ++ b ++ t) with ((a ++ b) ++ t) by (now rewrite <- !app_assoc);
    header (a ++ b) t end.
  rewrite (cut_text _ _ _ E). rewrite len_pos.
  assert (G : (if match a with [] => false | _ => true end then s <- utf8_decode (pack_text a x) ;; Ok (Some s) else Ok None)
              = recv_opt (Some a)).
  { rewrite (decode_text _ _ E). unfold recv_opt, or_empty. destruct a; reflexivity. }
  rewrite G. both. pose proof (opt_cut_recv (Some v) r) as O. cbn [or_empty] in O. now rewrite O.
Qed.

(** ** Body *)

Lemma list_app : forall {A} (enc : A -> res bytes) (dec : bytes -> res (A * bytes)) (rcv : A -> res A),
  (forall x b r, enc x = Ok b -> dec (b ++ r) = (y <- rcv x ;; Ok (y, r))) ->
  forall l bs r, mapM enc l = Ok bs ->
  decode_list dec (List.length l) (List.concat bs ++ r) = (ys <- mapM rcv l ;; Ok (ys, r)).
Proof.
  intros A enc dec rcv H. induction l as [|x l IH]; intros bs r E; cbn [mapM] in E.
  - apply Ok_inj in E. subst bs. reflexivity.
  - unbind E. apply Ok_inj in E. subst bs. cbn [List.length decode_list List.concat mapM].
    rewrite <- app_assoc, (H x x0 _ E0). destruct (rcv x) as [y|e]; cbn [bind]; [|reflexivity].
    rewrite (IH x1 r eq_refl). destruct (mapM rcv l); reflexivity.
Qed.

Definition or_nil {A} (o : option (list A)) : list A := match o with Some l => l | None => [] end.

Lemma encode_list_app : forall {A} (enc : A -> res bytes) (dec : bytes -> res (A * bytes)) (rcv : A -> res A),
  (forall x b r, enc x = Ok b -> dec (b ++ r) = (y <- rcv x ;; Ok (y, r))) ->
  forall o b r, encode_list enc o = Ok b ->
  ('(n, b) <- get_u 2 (b ++ r) ;; decode_list dec (Z.to_nat n) b) = (ys <- mapM rcv (or_nil o) ;; Ok (ys, r)).
Proof.
  intros A enc dec rcv H o b r E.
  destruct o as [[|x l]|]; cbn [encode_list or_nil] in *; try (apply Ok_inj in E; subst b; reflexivity).
  destruct (pack_u 2 (len (x :: l))) as [h|h] eqn:P; cbn [bind] in E; [|discriminate].
  destruct (mapM enc (x :: l)) as [bs|bs] eqn:M; cbn [bind] in E; [|discriminate].
  apply Ok_inj in E. subst b. rewrite <- app_assoc, (get_u_pack 2 _ h _ P). cbn [bind].
  rewrite len_nat. apply (list_app enc dec rcv H _ _ _ M).
Qed.

Definition recv_del (o : option ac_del) : option ac_del :=
  match o with
  | Some d => match recv_bytes (de_extra d) with None => None | x => Some (Del x) end
  | None => None
  end.
Lemma decode_del_app : forall o b r,
  (match o with Some d => del_encode d | None => Ok [0; 0]%N end) = Ok b ->
  decode_del (b ++ r) = Ok (recv_del o, r).
Proof.
  intros [d|] b r H; [|apply Ok_inj in H; subst b; reflexivity].
  unfold decode_del. pose proof (del_app d b r H) as D.
  unfold del_encode in H. destruct (pack_u 2 (len (or_empty (de_extra d)))) as [h|h] eqn:P; cbn [bind] in H; [|discriminate].
  apply Ok_inj in H. subst b. rewrite <- app_assoc in *. rewrite (get_u_pack 2 _ h _ P). cbn [bind].
  rewrite len_zero, D. cbn [bind]. unfold recv_del, del_recv, recv_bytes.
  destruct (or_empty (de_extra d)); reflexivity.
Qed.

Definition no_nil {A} (l : list A) : option (list A) := match l with [] => None | _ => Some l end.
Definition body_recv (c : cert) : res cert :=
  is <- issuer_recv (c_issuer c) ;;
  ho <- holder_recv (c_holder c) ;;
  atts <- mapM att_recv (or_nil (c_atts c)) ;;
  rv <- rev_recv (c_rev c) ;;
  exts <- mapM ext_recv (or_nil (c_exts c)) ;;
  Ok (Cert is ho (c_info c) (Some atts) rv (recv_del (c_del c)) (no_nil exts) None).

(** The parts of a body; the information may be written in any way its decoder accepts. *)
Record parts_of (c : cert) (is ho inf at_ rv de ex : bytes) : Prop := {
  p_is : issuer_encode (c_issuer c) = Ok is;
  p_ho : holder_encode (c_holder c) = Ok ho;
  p_inf : forall r, info_decode (inf ++ r) = Ok (c_info c, r);
  p_at : encode_list att_encode (c_atts c) = Ok at_;
  p_rv : rev_encode (c_rev c) = Ok rv;
  p_de : (match c_del c with Some d => del_encode d | None => Ok [0; 0]%N end) = Ok de;
  p_ex : encode_list ext_encode (c_exts c) = Ok ex }.

Lemma parts_app : forall c is ho inf at_ rv de ex r, parts_of c is ho inf at_ rv de ex ->
  decode_body ((is ++ ho ++ inf ++ at_ ++ rv ++ de ++ ex) ++ r) = (x <- body_recv c ;; Ok (x, r)).
Proof.
  intros c is ho inf at_ rv de ex r [Eis Eho Einf Eat Erv Ede Eex].
  unfold decode_body, body_recv. rewrite <- !app_assoc.
  rewrite (issuer_app _ _ _ Eis). destruct (issuer_recv (c_issuer c)) as [is'|]; cbn [bind]; [|reflexivity].
  rewrite (holder_app _ _ _ Eho). destruct (holder_recv (c_holder c)) as [ho'|]; cbn [bind]; [|reflexivity].
  rewrite Einf. cbn [bind].
  pose proof (encode_list_app att_encode att_decode att_recv att_app _ _ (rv ++ de ++ ex ++ r) Eat) as A.
  destruct (get_u 2 (at_ ++ rv ++ de ++ ex ++ r)) as [[n b1]|e]; cbn [bind] in A |- *.
  2:{ destruct (mapM att_recv (or_nil (c_atts c))); cbn [bind] in A |- *; [discriminate|]. injection A as ->. reflexivity. }
  rewrite A. destruct (mapM att_recv (or_nil (c_atts c))) as [atts|]; cbn [bind]; [|reflexivity].
  rewrite (rev_app _ _ _ Erv). destruct (rev_recv (c_rev c)) as [rv'|]; cbn [bind]; [|reflexivity].
  rewrite (decode_del_app _ _ _ Ede). cbn [bind].
  pose proof (encode_list_app ext_encode ext_decode ext_recv ext_app _ _ r Eex) as X.
  destruct (get_u 2 (ex ++ r)) as [[m b2]|e]; cbn [bind] in X |- *.
  2:{ destruct (mapM ext_recv (or_nil (c_exts c))); cbn [bind] in X |- *; [discriminate|]. injection X as ->. reflexivity. }
  rewrite X. destruct (mapM ext_recv (or_nil (c_exts c))) as [exts|]; cbn [bind]; reflexivity.
Qed.

Lemma encode_body_parts : forall c b, encode_body c = Ok b ->
  exists is ho inf at_ rv de ex, parts_of c is ho inf at_ rv de ex /\ info_encode (c_info c) = Ok inf /\
    b = is ++ ho ++ inf ++ at_ ++ rv ++ de ++ ex.
Proof.
  intros c b H. unfold encode_body in H.
  destruct (issuer_encode (c_issuer c)) as [is|] eqn:Eis; cbn [bind] in H; [|discriminate].
  destruct (holder_encode (c_holder c)) as [ho|] eqn:Eho; cbn [bind] in H; [|discriminate].
  destruct (info_encode (c_info c)) as [inf|] eqn:Einf; cbn [bind] in H; [|discriminate].
  destruct (rev_encode (c_rev c)) as [rv|] eqn:Erv; cbn [bind] in H; [|discriminate].
  destruct (match c_del c with Some d => del_encode d | None => Ok [0; 0]%N end) as [de|] eqn:Ede; cbn [bind] in H; [|discriminate].
  destruct (encode_list att_encode (c_atts c)) as [at_|] eqn:Eat; cbn [bind] in H; [|discriminate].
  destruct (encode_list ext_encode (c_exts c)) as [ex|] eqn:Eex; cbn [bind] in H; [|discriminate].
  apply Ok_inj in H. exists is, ho, inf, at_, rv, de, ex. split; [|split; [reflexivity|now symmetry]].
  constructor; auto. intros r. now apply info_app.
Qed.

Theorem body_app : forall c b r, encode_body c = Ok b -> decode_body (b ++ r) = (x <- body_recv c ;; Ok (x, r)).
Proof.
  intros c b r H. apply encode_body_parts in H as (is & ho & inf & at_ & rv & de & ex & P & _ & ->).
  now apply parts_app.
Qed.
