(** * CodecProofs2: decoding what was encoded, and decoding anything *)

From Coq Require Import NArith ZArith List Bool Lia.
From Coq Require Import Floats.SpecFloat.
From Verif Require Import PyBase PyNum Lexer Values Ast Struct AstCodec ParseProofs ParseProofs2 Syntax PrintProofs
  EvalProofs BytesProofs FloatProofs CodecSpec CodecProofs.
Import ListNotations.
Open Scope Z_scope.

(** ** One value *)

Definition recv (t : token) : res tokval :=
  '(sz, b) <- val_bytes t ;; '(v, _) <- get_value (Z.of_N (ttype_val (t_type t))) sz b ;; Ok v.

Lemma pack_s_length : forall n b, List.length (pack_s n b) = n.
Proof. intros n b. unfold pack_s. rewrite app_length, firstn_length, repeat_length. lia. Qed.

Lemma Forall_firstn : forall {A} (P : A -> Prop) n l, Forall P l -> Forall P (firstn n l).
Proof.
  intros A P n l H. revert n. induction H as [|x l Hx _ IH]; intros [|n]; cbn; constructor; auto.
Qed.

Lemma pack_s_byte : forall n b, Forall is_byte b -> Forall is_byte (pack_s n b).
Proof.
  intros n b H. unfold pack_s. apply Forall_app. split.
  - now apply Forall_firstn.
  - apply Forall_forall. intros x Hx. apply repeat_spec in Hx. subst. unfold is_byte. lia.
Qed.

Lemma val_bytes_length : forall t sz b, val_bytes t = Ok (sz, b) -> Z.of_nat (List.length b) = sz /\ Forall is_byte b.
Proof.
  intros t sz b H. unfold val_bytes in H.
  destruct (ttype_dec (t_type t) INT) as [HI|HI]; [|destruct (ttype_dec (t_type t) FLOAT) as [HF|HF]].
  - unfold tval_size in H. rewrite HI in H. cbn [bind] in H. destruct (t_val t); cbn [bind] in H; try discriminate.
    destruct (pack_i32 z) as [x|x] eqn:P; cbn [bind] in H; [|discriminate]. injection H as <- <-.
    apply unpack_pack_i32 in P as (L & B & _). split; [lia|exact B].
  - unfold tval_size in H. rewrite HF in H. cbn [bind] in H. destruct (t_val t) as [|s|z|f]; cbn [bind] in H; try discriminate.
    + destruct (binary_normalize 53 1024 z 0 false) as [s|s| |s m e] eqn:N.
      * destruct (pack_f32 (S754_zero s)) as [x|x] eqn:P; cbn [bind] in H; [|discriminate]. injection H as <- <-.
        apply pack_f32_bytes in P as [L B]. split; [lia|exact B].
      * discriminate.
      * destruct (pack_f32 S754_nan) as [x|x] eqn:P; cbn [bind] in H; [|discriminate]. injection H as <- <-.
        apply pack_f32_bytes in P as [L B]. split; [lia|exact B].
      * destruct (pack_f32 (S754_finite s m e)) as [x|x] eqn:P; cbn [bind] in H; [|discriminate]. injection H as <- <-.
        apply pack_f32_bytes in P as [L B]. split; [lia|exact B].
    + destruct (pack_f32 f) as [x|x] eqn:P; cbn [bind] in H; [|discriminate]. injection H as <- <-.
      apply pack_f32_bytes in P as [L B]. split; [lia|exact B].
  - rewrite tval_size_other in H by assumption. destruct (t_val t) as [|s|z|f]; cbn [bind] in H; try discriminate.
    + injection H as <- <-. split; [reflexivity|constructor].
    + destruct (utf8_encode s) as [x|x] eqn:E; cbn [bind] in H; [|discriminate]. injection H as <- <-.
      split; [now rewrite pack_s_length|]. apply pack_s_byte. exact (utf8_byte s x E).
Qed.

Lemma ttype_13 : forall t, (Z.of_N (ttype_val t) =? 13) = match t with INT => true | _ => false end.
Proof. intros t. destruct t; reflexivity. Qed.
Lemma ttype_14 : forall t, (Z.of_N (ttype_val t) =? 14) = match t with FLOAT => true | _ => false end.
Proof. intros t. destruct t; reflexivity. Qed.

Lemma get_value_app : forall ty sz v r, Z.of_nat (List.length v) = sz ->
  get_value ty sz (v ++ r) = ('(x, _) <- get_value ty sz v ;; Ok (x, r)).
Proof.
  intros ty sz v r H. unfold get_value. destruct (Z.ltb_spec 0 sz) as [L|L].
  - cbn [bind]. replace (Z.to_nat sz) with (List.length v) by lia.
    rewrite firstn_app, Nat.sub_diag, firstn_all, skipn_app, Nat.sub_diag, skipn_all. cbn [firstn skipn app]. rewrite app_nil_r.
    destruct (ty =? 13); [destruct (List.length v =? 4)%nat; reflexivity|].
    destruct (ty =? 14); [destruct (List.length v =? 4)%nat; reflexivity|].
    destruct (Z.of_nat (List.length v) =? sz); [|reflexivity]. destruct (utf8_decode v); reflexivity.
  - destruct v as [|x v]; [reflexivity|]. cbn [List.length] in H. lia.
Qed.

Lemma str_eqb_eq : forall a b, str_eqb a b = true <-> a = b.
Proof.
  unfold str_eqb. induction a as [|x a IH]; intros [|y b]; cbn [leqb]; split; intros H; try discriminate; try reflexivity.
  - apply andb_true_iff in H as [H1 H2]. apply N.eqb_eq in H1. apply IH in H2. congruence.
  - injection H as -> ->. apply andb_true_iff. split; [apply N.eqb_refl|now apply IH].
Qed.

Lemma ascii_Forall : forall s, Forall (fun c => (c < 128)%N) s <-> is_ascii s = true.
Proof.
  intros s. unfold is_ascii. rewrite forallb_forall, Forall_forall. unfold asc.
  split; intros H x Hx; specialize (H x Hx); now apply N.ltb_lt.
Qed.

(** A value comes back equal exactly if it survives. *)
Lemma recv_survives : forall t sz b, (t_type t = FLOAT -> forall z, t_val t <> TInt z) ->
  val_bytes t = Ok (sz, b) ->
  ((exists v, recv t = Ok v /\ tokval_eqb (t_val t) v = true) <-> survives t).
Proof.
  intros t sz b Hf H. unfold recv. rewrite H. cbn [bind].
  destruct (val_bytes_length t sz b H) as [L _]. unfold val_bytes in H. unfold survives.
  destruct (ttype_dec (t_type t) INT) as [HI|HI]; [|destruct (ttype_dec (t_type t) FLOAT) as [HF|HF]].
  - unfold tval_size in H. rewrite HI in *. cbn [bind] in H. destruct (t_val t) as [|s|z|f]; cbn [bind] in H; try discriminate.
    destruct (pack_i32 z) as [x|x] eqn:P; cbn [bind] in H; [|discriminate]. injection H as <- <-.
    apply unpack_pack_i32 in P as (L4 & _ & V). split; [auto|]. intros _. exists (TInt z).
    split; [|cbn; apply Z.eqb_refl]. unfold get_value. change (Z.of_N (ttype_val INT) =? 13) with true. cbn [Z.ltb Z.compare bind].
    change (Z.to_nat 4) with 4%nat. rewrite <- L4, firstn_all, L4. cbn [Nat.eqb bind]. now rewrite V.
  - specialize (Hf HF). unfold tval_size in H. rewrite HF in *. cbn [bind] in H.
    destruct (t_val t) as [|s|z|f]; cbn [bind] in H; try discriminate; [exfalso; now apply (Hf z)|].
    destruct (pack_f32 f) as [x|x] eqn:P; cbn [bind] in H; [|discriminate]. injection H as <- <-.
    destruct (pack_f32_bytes f x P) as [L4 _].
    assert (G : get_value (Z.of_N (ttype_val FLOAT)) 4 x = Ok (TFloat (unpack_f32 x), [])).
    { unfold get_value. change (Z.of_N (ttype_val FLOAT) =? 13) with false. change (Z.of_N (ttype_val FLOAT) =? 14) with true.
      change (0 <? 4) with true. cbn [bind]. change (Z.to_nat 4) with 4%nat. rewrite <- L4, firstn_all, skipn_all, L4. reflexivity. }
    rewrite G. cbn [bind]. rewrite <- (f32_survives f x P). split.
    + intros (v & Hv & E). injection Hv as <-. exact E.
    + intros E. eexists. split; [reflexivity|exact E].
  - rewrite tval_size_other in H by assumption. destruct (t_val t) as [|s|z|f]; cbn [bind] in H; try discriminate.
    + injection H as <- <-. split; [auto|]. intros _. exists TNone. split; reflexivity.
    + destruct (utf8_encode s) as [x|x] eqn:E; cbn [bind] in H; [|discriminate]. injection H as <- <-.
      unfold get_value. rewrite ttype_13, ttype_14.
      assert (N13 : match t_type t with INT => true | _ => false end = false) by (destruct (t_type t); congruence).
      assert (N14 : match t_type t with FLOAT => true | _ => false end = false) by (destruct (t_type t); congruence).
      rewrite N13, N14. rewrite ascii_Forall.
      destruct s as [|c s].
      * cbn [List.length Z.of_nat Z.ltb Z.compare bind]. split.
        -- intros (v & Hv & C). injection Hv as <-. discriminate.
        -- intros [C _]. contradiction.
      * destruct (Z.ltb_spec 0 (Z.of_nat (List.length (c :: s)))) as [_|C]; [|cbn [List.length] in C; lia].
        cbn [bind]. rewrite Nat2Z.id. set (w := c :: s) in *.
        assert (Fw : firstn (List.length w) (pack_s (List.length w) x) = firstn (List.length w) x).
        { pose proof (utf8_length w x E) as [Lw _]. unfold pack_s. rewrite firstn_app, firstn_firstn, Nat.min_id.
          rewrite firstn_length. replace (List.length w - Nat.min (List.length w) (List.length x))%nat with 0%nat by lia.
          cbn [firstn]. apply app_nil_r. }
        rewrite Fw. pose proof (utf8_length w x E) as [Lw Aw].
        rewrite firstn_length, Nat.min_l by lia. rewrite Z.eqb_refl. split.
        -- intros (v & Hv & C). split; [discriminate|].
           destruct (utf8_decode (firstn (List.length w) x)) as [y|y] eqn:D; cbn [bind] in Hv; [|discriminate].
           injection Hv as <-. cbn [tokval_eqb] in C. apply str_eqb_eq in C. subst y.
           apply (utf8_decode_sound _ _ _ (le_n _)) in D. rewrite D in E. apply Ok_inj in E.
           apply Aw. rewrite <- E. rewrite firstn_length. lia.
        -- intros [_ Ha]. destruct (utf8_ascii w Ha) as [E1 D1]. rewrite E1 in E. apply Ok_inj in E. subst x.
           rewrite firstn_all, D1. cbn [bind]. eexists. split; [reflexivity|]. cbn [tokval_eqb]. now apply str_eqb_eq.
Qed.

(** It is then of the same kind. *)
Lemma recv_kind : forall t sz b v, (t_type t = FLOAT -> forall z, t_val t <> TInt z) ->
  val_bytes t = Ok (sz, b) -> recv t = Ok v -> tokval_eqb (t_val t) v = true -> same_kind (t_val t) v = true.
Proof.
  intros t sz b v Hf H R Q. unfold recv in R. rewrite H in R. cbn [bind] in R. unfold val_bytes in H. unfold get_value in R.
  rewrite ttype_13, ttype_14 in R.
  destruct (ttype_dec (t_type t) INT) as [HI|HI]; [|destruct (ttype_dec (t_type t) FLOAT) as [HF|HF]].
  - unfold tval_size in H. rewrite HI in *. cbn [bind] in H. destruct (t_val t) as [|s|z|f]; cbn [bind] in H; try discriminate.
    destruct v; try discriminate Q; try reflexivity. exfalso.
    destruct (0 <? sz); cbn [bind] in R; [|discriminate R]. destruct (_ =? 4)%nat in R; discriminate R.
  - specialize (Hf HF). unfold tval_size in H. rewrite HF in *. cbn [bind] in H.
    destruct (t_val t) as [|s|z|f]; cbn [bind] in H; try discriminate; [exfalso; now apply (Hf z)|].
    destruct v; try discriminate Q; try reflexivity. exfalso.
    destruct (0 <? sz); cbn [bind] in R; [|discriminate R]. destruct (_ =? 4)%nat in R; discriminate R.
  - rewrite tval_size_other in H by assumption. destruct (t_val t) as [|s|z|f]; cbn [bind] in H; try discriminate;
    destruct v; try discriminate Q; reflexivity.
Qed.

(** ** One node *)

Lemma get_ids_app : forall ks ids r, mapM (fun k => pack_u 2 (n_id k)) ks = Ok ids ->
  get_ids (List.length ks) (List.concat ids ++ r) = Ok (map n_id ks, r) /\
  List.length (List.concat ids) = (2 * List.length ks)%nat /\ Forall is_byte (List.concat ids).
Proof.
  induction ks as [|k ks IH]; intros ids r H; cbn [mapM] in H.
  - injection H as <-. cbn. repeat split; constructor.
  - destruct (pack_u 2 (n_id k)) as [x|e] eqn:P; cbn [bind] in H; [|discriminate].
    destruct (mapM (fun k => pack_u 2 (n_id k)) ks) as [l|e] eqn:M; cbn [bind] in H; [|discriminate]. injection H as <-.
    destruct (IH l r eq_refl) as (G & L & B). cbn [List.concat List.length get_ids map]. rewrite <- app_assoc.
    rewrite (get_u_pack 2 _ x _ P). cbn [bind]. rewrite G. cbn [bind]. split; [reflexivity|].
    rewrite app_length, (pack_u_length 2 _ x P), L. split; [lia|]. apply Forall_app. split; [exact (pack_u_byte 2 _ x P)|exact B].
Qed.

Lemma get_fields_app : forall n b r, encode_one n = Ok b ->
  get_fields (b ++ r) =
    (v <- recv (n_tok n) ;;
     Ok ((n_id n, class_val (n_cls n), Z.of_N (ttype_val (t_type (n_tok n))), t_pos (n_tok n), v, map n_id (n_kids n)), r)).
Proof.
  intros n b r H.
  apply encode_one_inv in H as (sz & v & ids & h & V & I & (h1 & h2 & h3 & h4 & h5 & h6 & E1 & E2 & E3 & E4 & E5 & E6 & ->) & ->).
  unfold recv. rewrite V. cbn [bind]. unfold get_fields.
  rewrite <- !app_assoc. 
  assert (T : forall w, take 10 (h1 ++ h2 ++ h3 ++ h4 ++ h5 ++ h6 ++ w) = Ok (h1 ++ h2 ++ h3 ++ h4 ++ h5 ++ h6, w)).
  { intros w. rewrite <- (take_app 10 (h1 ++ h2 ++ h3 ++ h4 ++ h5 ++ h6) w).
    - rewrite <- !app_assoc. reflexivity.
    - rewrite !app_length. rewrite (pack_u_length _ _ _ E1), (pack_u_length _ _ _ E2), (pack_u_length _ _ _ E3),
        (pack_u_length _ _ _ E4), (pack_u_length _ _ _ E5), (pack_u_length _ _ _ E6). reflexivity. }
  rewrite T. cbn [bind].
  rewrite (get_u_pack _ _ _ _ E1). cbn [bind]. rewrite (get_u_pack _ _ _ _ E2). cbn [bind].
  rewrite (get_u_pack _ _ _ _ E3). cbn [bind]. rewrite (get_u_pack _ _ _ _ E4). cbn [bind].
  rewrite (get_u_pack _ _ _ _ E5). cbn [bind].
  rewrite <- (app_nil_r h6), (get_u_pack _ _ _ _ E6). cbn [bind].
  rewrite get_value_app by exact (proj1 (val_bytes_length _ _ _ V)).
  destruct (get_value (Z.of_N (ttype_val (t_type (n_tok n)))) sz v) as [[x y]|e]; cbn [bind]; [|reflexivity].
  destruct (get_ids_app (n_kids n) ids [] I) as (G & L & _). rewrite app_nil_r in G.
  rewrite Nat2Z.id. rewrite take_app by exact L. cbn [bind]. rewrite G. cbn [bind]. reflexivity.
Qed.

Lemma encode_one_byte : forall n b, encode_one n = Ok b -> Forall is_byte b.
Proof.
  intros n b H.
  apply encode_one_inv in H as (sz & v & ids & h & V & I & (h1 & h2 & h3 & h4 & h5 & h6 & E1 & E2 & E3 & E4 & E5 & E6 & ->) & ->).
  destruct (get_ids_app (n_kids n) ids [] I) as (_ & _ & B). destruct (val_bytes_length _ _ _ V) as [_ Bv].
  rewrite !Forall_app. repeat split; try assumption; eapply pack_u_byte; eassumption.
Qed.

Lemma ttype_of_val : forall t, ttype_of (Z.of_N (ttype_val t)) = Ok t.
Proof. intros t. destruct t; reflexivity. Qed.
Lemma class_of_val : forall c, class_of (class_val c) = Ok (plain c).
Proof. intros c. destruct c; reflexivity. Qed.

Section WithUnicode.
Variable U : unicode.

(** The object decoded for a node. *)
Definition dec_one (n : ast) : res gnode :=
  v <- recv (n_tok n) ;;
  let t := Tok (t_type (n_tok n)) (t_pos (n_tok n)) v in
  r <- init_result U (plain (n_cls n)) t ;;
  Ok (GN (plain (n_cls n)) t (n_id n) r (map n_id (n_kids n))).

Lemma decode_loop_nodes : forall ns bs r last g, Forall2 (fun n b => encode_one n = Ok b) ns bs ->
  snd (decode_loop U (List.length ns) (List.concat bs ++ r) last g) =
  (gs <- mapM dec_one ns ;; Ok (fold_left (fun g n => gset (g_id n) n g) gs g)).
Proof.
  intros ns bs r last g H. revert last g. induction H as [|n b ns bs E _ IH]; intros last g; [reflexivity|].
  cbn [List.length List.concat decode_loop mapM]. rewrite <- app_assoc, (get_fields_app n b _ E).
  unfold dec_one at 1. destruct (recv (n_tok n)) as [v|e]; cbn [bind]; [|reflexivity].
  unfold make_node. rewrite ttype_of_val, class_of_val. cbv zeta.
  destruct (init_result U (plain (n_cls n)) (Tok (t_type (n_tok n)) (t_pos (n_tok n)) v)) as [x|e]; cbn [bind]; [|reflexivity].
  cbn [g_id]. rewrite IH. destruct (mapM dec_one ns) as [gs|e]; cbn [bind]; [|reflexivity]. reflexivity.
Qed.

(** ** Graphs *)

Lemma gassoc_gset : forall k n g i, gassoc i (gset k n g) = if k =? i then Some n else gassoc i g.
Proof.
  intros k n g i. induction g as [|[j m] g IH]; cbn [gset gassoc]; [reflexivity|].
  destruct (Z.eqb_spec j k) as [->|N]; cbn [gassoc].
  - destruct (Z.eqb_spec k i); reflexivity.
  - rewrite IH. destruct (Z.eqb_spec j i) as [->|N2]; [|reflexivity].
    destruct (Z.eqb_spec k i) as [->|N3]; [contradiction|reflexivity].
Qed.

Lemma gassoc_fold : forall gs g, NoDup (map g_id gs) -> forall x, In x gs ->
  gassoc (g_id x) (fold_left (fun g n => gset (g_id n) n g) gs g) = Some x.
Proof.
  assert (K : forall gs g i, ~ In i (map g_id gs) ->
              gassoc i (fold_left (fun g n => gset (g_id n) n g) gs g) = gassoc i g).
  { induction gs as [|y gs IH]; intros g i Hi; [reflexivity|]. cbn [fold_left map In] in *. rewrite IH by tauto.
    rewrite gassoc_gset. destruct (Z.eqb_spec (g_id y) i); [tauto|reflexivity]. }
  induction gs as [|y gs IH]; intros g Hnd x Hx; [contradiction|]. cbn [map fold_left] in *.
  inversion Hnd as [|? ? Hy Hn]; subst. destruct Hx as [->|Hx]; [|now apply IH].
  rewrite K by exact Hy. rewrite gassoc_gset, Z.eqb_refl. reflexivity.
Qed.

Lemma gset_in : forall k n g x, In x (gset k n g) -> x = (k, n) \/ In x g.
Proof.
  intros k n g x. induction g as [|[j m] g IH]; cbn [gset In]; [intuition|].
  destruct (Z.eqb_spec j k) as [->|N]; cbn [In]; intuition.
Qed.

(** Every stored object is stored under its own id, once. *)
Definition keyed (g : graph) : Prop := Forall (fun '(i, n) => g_id n = i) g /\ NoDup (map fst g).

Lemma gset_keys : forall k n g, map fst (gset k n g) = map fst g \/ (map fst (gset k n g) = map fst g ++ [k] /\ ~ In k (map fst g)).
Proof.
  intros k n g. induction g as [|[j m] g IH]; cbn [gset map fst app In]; [right; auto|].
  destruct (Z.eqb_spec j k) as [->|N]; cbn [map fst]; [now left|].
  destruct IH as [->|[-> H]]; [now left|right]. split; [reflexivity|tauto].
Qed.

Lemma NoDup_snoc : forall {A} (l : list A) x, NoDup l -> ~ In x l -> NoDup (l ++ [x]).
Proof.
  intros A l x H Hx. induction H as [|y l Hy _ IH]; cbn [app]; [constructor; [auto|constructor]|].
  constructor.
  - rewrite in_app_iff. cbn [In] in *. intuition.
  - apply IH. cbn [In] in Hx. tauto.
Qed.

Lemma keyed_gset : forall n g, keyed g -> keyed (gset (g_id n) n g).
Proof.
  intros n g [K D]. split.
  - apply Forall_forall. intros x Hx. apply gset_in in Hx as [->|Hx]; [reflexivity|].
    exact (proj1 (Forall_forall _ _) K x Hx).
  - destruct (gset_keys (g_id n) n g) as [->|[-> H]]; [exact D|]. now apply NoDup_snoc.
Qed.

Lemma gassoc_in : forall i g n, gassoc i g = Some n -> In (i, n) g.
Proof.
  intros i g n. induction g as [|[j m] g IH]; cbn [gassoc]; [discriminate|].
  destruct (Z.eqb_spec j i) as [->|N]; intros H; [injection H as ->; now left|right; auto].
Qed.

Lemma in_gassoc : forall i g, In i (map fst g) -> exists n, gassoc i g = Some n.
Proof.
  intros i g. induction g as [|[j m] g IH]; cbn [map fst In gassoc]; [contradiction|].
  destruct (Z.eqb_spec j i) as [->|N]; [eauto|]. intros [C|H]; [contradiction|auto].
Qed.

(** ** The decoded tree *)

(** [a'] is the tree of the objects decoded for [a]. *)
Inductive dec_tree : ast -> ast -> Prop :=
| DecTree : forall n g ks', dec_one n = Ok g -> Forall2 dec_tree (n_kids n) ks' ->
    dec_tree n (Node (g_cls g) (g_tok g) (g_id g) (g_result g) ks').

Lemma dec_one_fields : forall n g, dec_one n = Ok g ->
  g_id g = n_id n /\ g_kids g = map n_id (n_kids n) /\ g_cls g = plain (n_cls n) /\
  t_type (g_tok g) = t_type (n_tok n) /\ t_pos (g_tok g) = t_pos (n_tok n) /\
  recv (n_tok n) = Ok (t_val (g_tok g)) /\ init_result U (g_cls g) (g_tok g) = Ok (g_result g).
Proof.
  intros n g H. unfold dec_one in H. destruct (recv (n_tok n)) as [v|e] eqn:R; cbn [bind] in H; [|discriminate].
  cbv zeta in H.
  destruct (init_result U (plain (n_cls n)) (Tok (t_type (n_tok n)) (t_pos (n_tok n)) v)) as [x|e] eqn:I; cbn [bind] in H; [|discriminate].
  injection H as <-. cbn. auto 10.
Qed.

Lemma dec_tree_exists : forall a g, (forall n, In n (subtrees a) -> exists x, dec_one n = Ok x /\ gassoc (n_id n) g = Some x) ->
  exists a', dec_tree a a' /\ denotes g (n_id a) a'.
Proof.
  induction a as [c t i r ks IH] using ast_ind'. intros g H.
  destruct (H (Node c t i r ks)) as (x & D & A); [rewrite subtrees_unfold; now left|].
  assert (K : exists ks', Forall2 dec_tree ks ks' /\ Forall2 (denotes g) (map n_id ks) ks').
  { assert (Hk : forall n, In n (flat_map subtrees ks) -> exists x, dec_one n = Ok x /\ gassoc (n_id n) g = Some x).
    { intros n Hn. apply H. rewrite subtrees_unfold. now right. }
    clear - IH Hk. induction IH as [|k ks IHk _ IHks]; [exists []; split; constructor|].
    destruct (IHk g) as (k' & D1 & D2).
    { intros n Hn. apply Hk. cbn [flat_map]. apply in_or_app. now left. }
    destruct IHks as (ks' & D3 & D4).
    { intros n Hn. apply Hk. cbn [flat_map]. apply in_or_app. now right. }
    exists (k' :: ks'). split; constructor; assumption. }
  destruct K as (ks' & K1 & K2). destruct (dec_one_fields _ _ D) as (F1 & F2 & _).
  eexists. split; [exact (DecTree _ x ks' D K1)|]. cbn [n_id n_kids] in *.
  apply Denotes; [exact A|]. rewrite F2. exact K2.
Qed.

(** A graph node denotes at most one tree. *)
Lemma denotes_fun : forall g a i b, denotes g i a -> denotes g i b -> a = b.
Proof.
  intros g a. induction a as [c t j r ks IH] using ast_ind'. intros i b Ha Hb.
  inversion Ha as [i1 n1 ks1 A1 F1 Hi1 E1]; subst. inversion Hb as [i2 n2 ks2 A2 F2 Hi2 E2]; subst.
  rewrite A1 in A2. injection A2 as <-. f_equal.
  assert (W : forall l m ids, Forall (fun a => forall i b, denotes g i a -> denotes g i b -> a = b) l ->
              Forall2 (denotes g) ids l -> Forall2 (denotes g) ids m -> l = m).
  { clear. induction l as [|x l IH]; intros m ids Hl H1 H2.
    - inversion H1; subst. inversion H2; subst. reflexivity.
    - inversion H1 as [|y ? ys ? D1 D2]; subst. inversion H2 as [|? z ? zs D3 D4]; subst.
      inversion Hl as [|? ? L1 L2]; subst. f_equal; [exact (L1 y z D1 D3)|exact (IH zs ys L2 D2 D4)]. }
  exact (W _ _ _ IH F1 F2).
Qed.

Lemma same_tree_unfold : forall c t i r ks c' t' i' r' ks',
  same_tree U (Node c t i r ks) (Node c' t' i' r' ks') <->
  c' = plain c /\ i' = i /\ t_type t' = t_type t /\ t_pos t' = t_pos t /\
  tokval_eqb (t_val t) (t_val t') = true /\ same_kind (t_val t) (t_val t') = true /\
  init_result U c' t' = Ok r' /\ Forall2 (same_tree U) ks ks'.
Proof.
  intros c t i r ks c' t' i' r' ks'. cbn [same_tree].
  assert (E : forall l m, (fix all (l m : list ast) : Prop :=
     match l, m with [], [] => True | x :: l, y :: m => same_tree U x y /\ all l m | _, _ => False end) l m <-> Forall2 (same_tree U) l m).
  { induction l as [|x l IH]; intros [|y m]; split; intros H; try contradiction; try constructor; try (inversion H; fail).
    - apply H.
    - apply IH, H.
    - inversion H; assumption.
    - inversion H. apply IH. assumption. }
  rewrite E. tauto.
Qed.

Lemma ast_eqb_unfold : forall c t i r ks c' t' i' r' ks',
  ast_eqb (Node c t i r ks) (Node c' t' i' r' ks') = true <->
  token_eqb t t' = true /\ Forall2 (fun a b => ast_eqb a b = true) ks ks'.
Proof.
  intros c t i r ks c' t' i' r' ks'. cbn [ast_eqb]. rewrite andb_true_iff.
  assert (E : forall l m, (fix go (l m : list ast) : bool :=
     match l, m with [], [] => true | x :: l', y :: m' => ast_eqb x y && go l' m' | _, _ => false end) l m = true
     <-> Forall2 (fun a b => ast_eqb a b = true) l m).
  { induction l as [|x l IH]; intros [|y m]; split; intros H; try discriminate; try constructor; try reflexivity; try (inversion H; fail).
    - apply andb_true_iff in H. apply H.
    - apply IH. apply andb_true_iff in H. apply H.
    - inversion H; subst. apply andb_true_iff. split; [assumption|now apply IH]. }
  rewrite E. tauto.
Qed.

Lemma ttype_eqb_refl : forall t, ttype_eqb t t = true.
Proof. intros t. destruct t; reflexivity. Qed.

Lemma token_eqb_split : forall t t', token_eqb t t' = true <->
  ttype_eqb (t_type t) (t_type t') = true /\ tokval_eqb (t_val t) (t_val t') = true /\ t_pos t = t_pos t'.
Proof. intros t t'. unfold token_eqb. rewrite !andb_true_iff, Z.eqb_eq. tauto. Qed.

Lemma same_tree_eqb : forall a b, same_tree U a b -> ast_eqb a b = true.
Proof.
  induction a as [c t i r ks IH] using ast_ind'. intros [c' t' i' r' ks'] H.
  apply same_tree_unfold in H as (_ & _ & E1 & E2 & E3 & _ & _ & F). apply ast_eqb_unfold. split.
  - apply token_eqb_split. rewrite E1, ttype_eqb_refl. auto.
  - clear - IH F. revert IH. induction F as [|x y l m H _ IHF]; intros IH; constructor; inversion IH; subst; auto.
Qed.

Lemma dec_tree_same : forall a a', dec_tree a a' ->
  (forall n v, In n (subtrees a) -> recv (n_tok n) = Ok v ->
     tokval_eqb (t_val (n_tok n)) v = true /\ same_kind (t_val (n_tok n)) v = true) -> same_tree U a a'.
Proof.
  induction a as [c t i r ks IH] using ast_ind'. intros a' H S. inversion H as [n g ks' D F]; subst.
  destruct (dec_one_fields _ _ D) as (F1 & _ & F3 & F4 & F5 & F6 & F7). cbn [n_id n_cls n_tok n_kids] in *.
  apply same_tree_unfold. repeat split; try assumption.
  - apply (S (Node c t i r ks)); [rewrite subtrees_unfold; now left|exact F6].
  - apply (S (Node c t i r ks)); [rewrite subtrees_unfold; now left|exact F6].
  - assert (Sk : forall n v, In n (flat_map subtrees ks) -> recv (n_tok n) = Ok v ->
      tokval_eqb (t_val (n_tok n)) v = true /\ same_kind (t_val (n_tok n)) v = true).
    { intros n v Hn. apply S. rewrite subtrees_unfold. now right. }
    clear - IH F Sk. revert IH Sk. induction F as [|x y l m Hx _ IHF]; intros IH Sk; constructor; inversion IH as [|? ? I1 I2]; subst.
    + apply I1; [exact Hx|]. intros n v Hn. apply Sk. cbn [flat_map]. apply in_or_app. now left.
    + apply IHF; [exact I2|]. intros n v Hn. apply Sk. cbn [flat_map]. apply in_or_app. now right.
Qed.

Lemma dec_tree_eqb : forall a a', dec_tree a a' -> ast_eqb a a' = true ->
  forall n, In n (subtrees a) -> exists v, recv (n_tok n) = Ok v /\ tokval_eqb (t_val (n_tok n)) v = true.
Proof.
  induction a as [c t i r ks IH] using ast_ind'. intros a' H E n Hn. inversion H as [n0 g ks' D F]; subst.
  destruct (dec_one_fields _ _ D) as (_ & _ & _ & _ & _ & F6 & _). cbn [n_id n_cls n_tok n_kids] in *.
  apply ast_eqb_unfold in E as [E1 E2]. cbn [subtrees n_kids] in Hn. destruct Hn as [<-|Hn].
  - cbn [n_tok]. apply token_eqb_split in E1 as (_ & E1 & _). eauto.
  - clear - IH F E2 Hn. revert IH E2 Hn. induction F as [|x y l m Hx _ IHF]; intros IH E2 Hn; [contradiction|].
    inversion IH as [|? ? I1 I2]; subst. inversion E2 as [|? ? ? ? G1 G2]; subst. cbn [flat_map] in Hn.
    apply in_app_or in Hn as [Hn|Hn]; [exact (I1 y Hx G1 n Hn)|exact (IHF I2 G2 Hn)].
Qed.
End WithUnicode.
