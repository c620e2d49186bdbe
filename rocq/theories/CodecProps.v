(** * CodecProps: properties of the AST encoding (C31-C33) *)

From Coq Require Import NArith ZArith List Bool String Lia.
From Coq Require Import Floats.SpecFloat.
From Verif Require Import PyBase PyNum Lexer LexSpec LexProofs LexProps Values Ast Struct Parser Grammar ParseProofs
  ParseProofs2 Syntax PrintProofs ParseProps AbsProofs EvalProofs AstCodec BytesProofs FloatProofs CodecSpec CodecProofs CodecProofs2.
Import ListNotations.
Open Scope Z_scope.

(** ** Decoding an encoded tree *)

Lemma encode_inv : forall a b64 bs, encode a b64 = Ok bs ->
  exists l h, Forall2 (fun n b => encode_one n = Ok b) (subtrees a) l /\
    (exists h1 h2 h3, pack_u 1 1 = Ok h1 /\ pack_u 2 (Z.of_nat (List.length (subtrees a))) = Ok h2 /\
                      pack_u 2 (n_id a) = Ok h3 /\ h = h1 ++ h2 ++ h3) /\
    bs = (if b64 then b64encode (h ++ List.concat l) else h ++ List.concat l).
Proof.
  intros a b64 bs H. unfold encode in H. rewrite encode_node_eq in H.
  destruct (mapM encode_one (subtrees a)) as [l|e] eqn:M; cbn [bind] in H; [|discriminate].
  apply mapM_Forall2 in M. pose proof (F2_length M) as L.
  destruct (pack_u 1 1) as [h1|e] eqn:E1; cbn [bind] in H; [|discriminate].
  destruct (pack_u 2 (Z.of_nat (List.length l))) as [h2|e] eqn:E2; cbn [bind] in H; [|discriminate].
  destruct (pack_u 2 (n_id a)) as [h3|e] eqn:E3; cbn [bind] in H; [|discriminate].
  apply Ok_inj in H. exists l, (h1 ++ h2 ++ h3). split; [exact M|]. split.
  - exists h1, h2, h3. rewrite L. auto.
  - rewrite <- H, <- !app_assoc. reflexivity.
Qed.

Lemma decode_inner : forall U a b64 bs last, encode a b64 = Ok bs ->
  exists l, Forall2 (fun n b => encode_one n = Ok b) (subtrees a) l /\
  decode U bs b64 last =
    match decode_loop U (List.length (subtrees a)) (List.concat l) last [] with
    | (last, Err e) => (last, Err e)
    | (last, Ok g) =>
        (last, if negb (resolved g) then Err EGeneric
               else match gassoc (n_id a) g with Some _ => Ok (g, n_id a) | None => Err EGeneric end)
    end.
Proof.
  intros U a b64 bs last H. apply encode_inv in H as (l & h & M & (h1 & h2 & h3 & E1 & E2 & E3 & ->) & ->).
  exists l. split; [exact M|]. unfold decode.
  assert (B : Forall is_byte ((h1 ++ h2 ++ h3) ++ List.concat l)).
  { rewrite !Forall_app. repeat split; try (eapply pack_u_byte; eassumption).
    clear - M. induction M as [|n b ns bs E _ IH]; [constructor|]. cbn [List.concat]. apply Forall_app.
    split; [exact (encode_one_byte n b E)|exact IH]. }
  assert (D : (if b64 then b64decode (if b64 then b64encode ((h1 ++ h2 ++ h3) ++ List.concat l) else (h1 ++ h2 ++ h3) ++ List.concat l)
               else Ok (if b64 then b64encode ((h1 ++ h2 ++ h3) ++ List.concat l) else (h1 ++ h2 ++ h3) ++ List.concat l))
              = Ok ((h1 ++ h2 ++ h3) ++ List.concat l)).
  { destruct b64; [now apply b64_round_trip|reflexivity]. }
  rewrite D. rewrite take_app.
  - cbn [bind]. rewrite (get_u_pack _ _ _ _ E1). cbn [bind]. rewrite (get_u_pack _ _ _ _ E2). cbn [bind].
    rewrite <- (app_nil_r h3), (get_u_pack _ _ _ _ E3). cbn [bind]. rewrite Nat2Z.id. reflexivity.
  - rewrite !app_length, (pack_u_length _ _ _ E1), (pack_u_length _ _ _ E2), (pack_u_length _ _ _ E3). reflexivity.
Qed.

Lemma decode_loop_counter : forall U k b last g, 
  (forall last' g', decode_loop U k b last g = (last', Ok g') -> last' = last + Z.of_nat k) /\
  last <= fst (decode_loop U k b last g) <= last + Z.of_nat k.
Proof.
  intros U. induction k as [|k IH]; intros b last g; cbn [decode_loop].
  - split; [intros last' g' H; injection H as <- <-; lia|cbn [fst]; lia].
  - destruct (get_fields b) as [[f b']|e]; [|cbn [fst]; split; [discriminate|lia]].
    unfold make_node. destruct f as [[[[[i c] ty] p] v] ids].
    destruct (ttype_of ty) as [ty'|e]; [|cbn [fst]; split; [discriminate|lia]].
    destruct (class_of c) as [c'|e]; [|cbn [fst]; split; [discriminate|lia]]. cbv zeta.
    destruct (r <- init_result U c' (Tok ty' p v);; Ok (GN c' (Tok ty' p v) i r ids)) as [n|e];
      [|cbn [fst]; split; [discriminate|lia]].
    destruct (IH b' (last + 1) (gset (g_id n) n g)) as [I1 I2]. split; [|lia].
    intros last' g' H. apply I1 in H. lia.
Qed.

Lemma graph_nodes : forall gs g x, In x (fold_left (fun g n => gset (g_id n) n g) gs g) ->
  In x g \/ In (snd x) gs.
Proof.
  induction gs as [|y gs IH]; intros g x H; [now left|]. cbn [fold_left] in H. apply IH in H as [H|H]; [|right; now right].
  apply gset_in in H as [->|H]; [right; now left|now left].
Qed.

(** All objects decode; the graph has the expected objects and every reference resolves. *)
Lemma decode_all : forall U a b64 bs last gs, NoDup (map n_id (subtrees a)) -> encode a b64 = Ok bs ->
  mapM (dec_one U) (subtrees a) = Ok gs ->
  exists g, decode U bs b64 last = (last + Z.of_nat (List.length (subtrees a)), Ok (g, n_id a)) /\
    forall n, In n (subtrees a) -> exists x, dec_one U n = Ok x /\ gassoc (n_id n) g = Some x.
Proof.
  intros U a b64 bs last gs Hnd He Hm. destruct (decode_inner U a b64 bs last He) as (l & M & ->).
  pose proof (decode_loop_nodes U (subtrees a) l [] last [] M) as D. rewrite app_nil_r, Hm in D. cbn [bind] in D.
  set (g := fold_left (fun g n => gset (g_id n) n g) gs []) in *.
  destruct (decode_loop U (List.length (subtrees a)) (List.concat l) last []) as [last' r] eqn:E. cbn [snd] in D. subst r.
  apply (proj1 (decode_loop_counter U _ _ last [])) in E. subst last'.
  apply mapM_Forall2 in Hm.
  assert (Ids : map g_id gs = map n_id (subtrees a)).
  { clear - Hm. induction Hm as [|n x ns xs H _ IH]; [reflexivity|]. cbn [map]. rewrite IH.
    destruct (dec_one_fields U n x H) as [-> _]. reflexivity. }
  assert (G : forall n, In n (subtrees a) -> exists x, dec_one U n = Ok x /\ gassoc (n_id n) g = Some x).
  { intros n Hn. assert (exists x, In x gs /\ dec_one U n = Ok x) as (x & Hx & Dx).
    { clear - Hm Hn. induction Hm as [|m x ns xs H _ IH]; [contradiction|]. destruct Hn as [->|Hn].
      - exists x. split; [now left|exact H].
      - destruct (IH Hn) as (y & Hy & Dy). exists y. split; [now right|exact Dy]. }
    exists x. split; [exact Dx|]. destruct (dec_one_fields U n x Dx) as [<- _].
    apply gassoc_fold; [now rewrite Ids|exact Hx]. }
  exists g. split; [|exact G].
  assert (R : resolved g = true).
  { unfold resolved. apply forallb_forall. intros [i x] Hx. apply graph_nodes in Hx as [[]|Hx]. cbn [snd] in Hx.
    apply forallb_forall. intros k Hk.
    assert (exists n, In n (subtrees a) /\ dec_one U n = Ok x) as (n & Hn & Dn).
    { clear - Hm Hx. induction Hm as [|m y ns xs H _ IH]; [contradiction|]. destruct Hx as [->|Hx].
      - exists m. split; [now left|exact H].
      - destruct (IH Hx) as (n & Hn & Dn). exists n. split; [now right|exact Dn]. }
    destruct (dec_one_fields U n x Dn) as (_ & F & _). rewrite F in Hk. apply in_map_iff in Hk as (c & <- & Hc).
    destruct (G c (subtrees_in_trans a n c Hn Hc)) as (y & _ & ->). reflexivity. }
  rewrite R. cbn [negb]. destruct (G a) as (y & _ & ->); [rewrite subtrees_unfold; now left|]. reflexivity.
Qed.

Lemma dec_one_survives : forall U n b, buildable n -> encode_one n = Ok b -> survives (n_tok n) ->
  exists x, dec_one U n = Ok x /\ tokval_eqb (t_val (n_tok n)) (t_val (g_tok x)) = true.
Proof.
  intros U n b [B1 B2] E S. apply encode_one_inv in E as (sz & v & ids & h & V & _).
  apply (recv_survives _ _ _ B2 V) in S as (w & R & Q). unfold dec_one. rewrite R. cbn [bind]. cbv zeta.
  assert (I : exists r, init_result U (plain (n_cls n)) (Tok (t_type (n_tok n)) (t_pos (n_tok n)) w) = Ok r).
  { destruct (n_cls n); cbn [plain init_result]; eauto. destruct (B1 eq_refl) as [s Es]. rewrite Es in Q. cbn [t_val].
    destruct w; try discriminate. eauto. }
  destruct I as [r ->]. cbn [bind]. eexists. split; [reflexivity|]. cbn [g_tok t_val]. exact Q.
Qed.

Theorem C31_round_trip (U : unicode) (a : ast) (b64 : bool) (bs : bytes) (last : Z) :
  Forall buildable (subtrees a) -> NoDup (map n_id (subtrees a)) -> encode a b64 = Ok bs ->
  Forall (fun n => survives (n_tok n)) (subtrees a) ->
  exists g a', decode U bs b64 last = (last + Z.of_nat (List.length (subtrees a)), Ok (g, n_id a)) /\
    denotes g (n_id a) a' /\ same_tree U a a' /\ ast_eqb a a' = true.
Proof.
  intros Hb Hnd He Hs.
  destruct (encode_inv a b64 bs He) as (l & _ & M & _).
  assert (Hm : exists gs, mapM (dec_one U) (subtrees a) = Ok gs).
  { apply mapM_ok. clear - Hb Hs M. induction M as [|n b ns bs E _ IH]; constructor; inversion Hb; inversion Hs; subst; auto.
    destruct (dec_one_survives U n b) as (x & Hx & _); eauto. }
  destruct Hm as [gs Hm]. destruct (decode_all U a b64 bs last gs Hnd He Hm) as (g & D & G).
  destruct (dec_tree_exists U a g G) as (a' & T & Dn). exists g, a'. split; [exact D|]. split; [exact Dn|].
  assert (S : same_tree U a a').
  { apply dec_tree_same; [exact T|]. intros n v Hn Rv.
    assert (exists b, encode_one n = Ok b) as [b Eb].
    { clear - M Hn. induction M as [|m b ns bs E _ IH]; [contradiction|]. destruct Hn as [->|Hn]; eauto. }
    rewrite Forall_forall in Hb, Hs. destruct (dec_one_survives U n b (Hb n Hn) Eb (Hs n Hn)) as (x & Hx & Q).
    destruct (dec_one_fields U n x Hx) as (_ & _ & _ & _ & _ & R & _). rewrite Rv in R. apply Ok_inj in R. subst v.
    split; [exact Q|]. destruct (encode_one_inv _ _ Eb) as (sz & v & ids & h & V & _).
    exact (recv_kind _ _ _ _ (proj2 (Hb n Hn)) V Rv Q). }
  split; [exact S|now apply same_tree_eqb with (U := U)].
Qed.
Print Assumptions C31_round_trip.

(** An encoded tree comes back equal exactly if all its values survive. *)
Theorem C32_loss (U : unicode) (a : ast) (b64 : bool) (bs : bytes) (last : Z) :
  Forall buildable (subtrees a) -> NoDup (map n_id (subtrees a)) -> encode a b64 = Ok bs ->
  ((exists g r a', snd (decode U bs b64 last) = Ok (g, r) /\ denotes g r a' /\ ast_eqb a a' = true) <->
   Forall (fun n => survives (n_tok n)) (subtrees a)).
Proof.
  intros Hb Hnd He. split.
  - intros (g & r & a' & D & Dn & Q).
    assert (Hm : exists gs, mapM (dec_one U) (subtrees a) = Ok gs).
    { destruct (decode_inner U a b64 bs last He) as (l & M & E). rewrite E in D.
      pose proof (decode_loop_nodes U (subtrees a) l [] last [] M) as L. rewrite app_nil_r in L.
      destruct (decode_loop U (List.length (subtrees a)) (List.concat l) last []) as [x [g'|e]]; cbn [snd] in *; [|discriminate].
      destruct (mapM (dec_one U) (subtrees a)) as [gs|e]; [eauto|discriminate]. }
    destruct Hm as [gs Hm]. destruct (decode_all U a b64 bs last gs Hnd He Hm) as (g' & D' & G).
    rewrite D' in D. cbn [snd] in D. injection D as <- <-.
    destruct (dec_tree_exists U a g' G) as (a'' & T & Dn2).
    assert (a' = a'') by (exact (denotes_fun g' a' (n_id a) a'' Dn Dn2)). subst a''.
    destruct (encode_inv a b64 bs He) as (l & _ & M & _).
    apply Forall_forall. intros n Hn. rewrite Forall_forall in Hb.
    assert (exists b, encode_one n = Ok b) as [b Eb].
    { clear - M Hn. induction M as [|m b ns bs E _ IH]; [contradiction|]. destruct Hn as [->|Hn]; eauto. }
    apply encode_one_inv in Eb as (sz & v & ids & h & V & _).
    apply (recv_survives _ _ _ (proj2 (Hb n Hn)) V). exact (dec_tree_eqb U a a' T Q n Hn).
  - intros Hs. destruct (C31_round_trip U a b64 bs last Hb Hnd He Hs) as (g & a' & D & Dn & _ & Q).
    exists g, (n_id a), a'. rewrite D. auto.
Qed.
Print Assumptions C32_loss.

Theorem C32_fits (a : ast) (b64 : bool) : Forall buildable (subtrees a) -> ((exists bs, encode a b64 = Ok bs) <-> fits a).
Proof. apply encode_fits. Qed.
Print Assumptions C32_fits.

(** ** Parsed policies *)

Fixpoint ptokens (p : ptree) : list token := let 'PT _ t ks := p in t :: flat_map ptokens ks.

Lemma ptokens_erase : forall a, ptokens (erase a) = map n_tok (subtrees a).
Proof.
  induction a as [c t i r ks IH] using ast_ind'. cbn [erase ptokens subtrees n_kids map n_tok]. f_equal.
  induction IH as [|k ks H _ IHk]; [reflexivity|]. cbn [map flat_map]. rewrite map_app, H, IHk. reflexivity.
Qed.

Section Tokens.
Variable P : token -> Prop.
Lemma tk_atomic u a : g_atomic u a -> Forall P u -> Forall P (ptokens a).
Proof. destruct 1; intros H0; inversion H0; subst; cbn; auto. Qed.
Lemma tk_att u a : g_att u a -> Forall P u -> Forall P (ptokens a).
Proof. destruct 1; intros H0; inversion H0; subst; cbn; auto. Qed.
Lemma tk_setval u l : g_setval u l -> Forall P u -> Forall P (flat_map ptokens l).
Proof.
  induction 1 as [u a H|u a c v l H Hc Hl IH]; intros Hf; cbn [flat_map].
  - rewrite app_nil_r. eapply tk_atomic; eauto.
  - split_forall. apply Forall_app. split; [eapply tk_atomic; eauto|auto].
Qed.
Lemma tk_var u a : g_var u a -> Forall P u -> Forall P (ptokens a).
Proof.
  destruct 1 as [u a H|u a H|u a H]; intros Hf; [eapply tk_atomic; eauto| |eapply tk_att; eauto].
  destruct H as [lb rb Hl Hr|lb u l rb Hl Hs Hr]; split_forall; cbn [ptokens flat_map]; constructor; auto.
  eapply tk_setval; eauto.
Qed.
Lemma tk_boolvar u a : g_boolvar u a -> Forall P u -> Forall P (ptokens a).
Proof. destruct 1 as [t H|u a H]; intros Hf; [split_forall; cbn; auto|eapply tk_att; eauto]. Qed.
Lemma tk_all :
  (forall u a, g_exp u a -> Forall P u -> Forall P (ptokens a)) /\
  (forall u a, g_term u a -> Forall P u -> Forall P (ptokens a)) /\
  (forall u a, g_policy u a -> Forall P u -> Forall P (ptokens a)).
Proof.
  apply g_mind; auto.
  - intros u l o v r Hl Ho Hr Hf. split_forall. cbn [ptokens flat_map]. rewrite app_nil_r. constructor; auto.
    apply Forall_app. split; eapply tk_var; eauto.
  - intros u b. apply tk_boolvar.
  - intros t u b Ht Hb Hf. split_forall. cbn [ptokens flat_map]. rewrite app_nil_r. constructor; auto. eapply tk_boolvar; eauto.
  - intros lp u p rp Hl Hp IH Hr Hf. split_forall. auto.
  - intros t lp u p rp Ht Hl Hp IH Hr Hf. split_forall. cbn [ptokens flat_map]. rewrite app_nil_r. constructor; auto.
  - intros u l a v r Hl IHl _ Hr IHr Hf. split_forall. cbn [ptokens flat_map]. rewrite app_nil_r. constructor; auto.
    apply Forall_app. split; auto.
  - intros u l a v r Hl IHl _ Hr IHr Hf. split_forall. cbn [ptokens flat_map]. rewrite app_nil_r. constructor; auto.
    apply Forall_app. split; auto.
Qed.
End Tokens.

Lemma fresh_sub : forall U a, fresh U a -> forall n, In n (subtrees a) -> fresh U n.
Proof.
  intros U a. induction a as [c t i r ks IH] using ast_ind'. intros H n Hn. cbn [subtrees n_kids] in Hn.
  destruct Hn as [<-|Hn]; [exact H|]. apply fresh_unfold in H as [_ H]. apply in_flat_map in Hn as (k & Hk & Hn).
  rewrite Forall_forall in IH, H. exact (IH k Hk (H k Hk) n Hn).
Qed.

Lemma parsed_buildable U text last a n' : unicode_ok U -> parse_text U text last = Ok (a, n') ->
  Forall buildable (subtrees a).
Proof.
  intros uok H. assert (Hp := H). apply C08_text_sound in Hp as (u & e & Hl & He & Hg); [|exact uok].
  apply lex_tok_ok in Hl; [|exact uok].
  assert (F : fresh U a).
  { unfold parse_text in H. apply bind_ok in H as (ts & _ & H). eapply parse_fresh; eauto. }
  assert (T : Forall tok_ok (ptokens (erase a))).
  { inversion Hl as [|? ? _ Hl2]; subst. apply Forall_app in Hl2 as [Hl2 _]. exact (proj2 (proj2 (tk_all tok_ok)) u _ Hg Hl2). }
  rewrite ptokens_erase in T. apply Forall_forall. intros n Hn. split.
  - intros Hc. apply (fresh_sub U a F) in Hn. destruct n as [c t i r ks]. apply fresh_unfold in Hn as [Hn _].
    cbn [n_cls n_tok] in *. subst c. cbn [init_result] in Hn. destruct (t_val t); try discriminate. eauto.
  - intros Hf z Hz. assert (K : tok_ok (n_tok n)).
    { rewrite Forall_forall in T. apply T. apply in_map. exact Hn. }
    unfold tok_ok in K. rewrite Hf in K. destruct K as [f K]. congruence.
Qed.

Lemma postorder_ids : forall a i, In i (postorder a) <-> In i (map n_id (subtrees a)).
Proof.
  induction a as [c t j r ks IH] using ast_ind'. intros i. cbn [postorder subtrees n_kids map n_id In].
  rewrite in_app_iff. cbn [In]. assert (K : In i (flat_map postorder ks) <-> In i (map n_id (flat_map subtrees ks))).
  { induction IH as [|k ks H _ IHk]; [reflexivity|]. cbn [flat_map]. rewrite map_app, !in_app_iff, H, IHk. reflexivity. }
  rewrite K. tauto.
Qed.

Lemma subtrees_num : forall a, List.length (subtrees a) = num_nodes a.
Proof.
  induction a as [c t i r ks IH] using ast_ind'. cbn [subtrees n_kids List.length num_nodes]. f_equal.
  induction IH as [|k ks H _ IHk]; [reflexivity|]. cbn [flat_map fold_right]. rewrite app_length, H, IHk. reflexivity.
Qed.

Lemma postorder_length : forall a, List.length (postorder a) = num_nodes a.
Proof.
  induction a as [c t i r ks IH] using ast_ind'. cbn [postorder num_nodes]. rewrite app_length. cbn [List.length].
  assert (K : List.length (flat_map postorder ks) = fold_right (fun m a => num_nodes m + a)%nat 0%nat ks); [|lia].
  induction IH as [|k ks H _ IHk]; [reflexivity|]. cbn [flat_map fold_right]. rewrite app_length, H, IHk. reflexivity.
Qed.

Lemma parsed_ids U text last a n' : parse_text U text last = Ok (a, n') ->
  NoDup (map n_id (subtrees a)) /\ n' = last + Z.of_nat (List.length (subtrees a)) /\
  forall i, In i (map n_id (subtrees a)) <-> last < i <= n'.
Proof.
  intros H. unfold parse_text in H. apply bind_ok in H as (ts & _ & H).
  destruct (C13_ids U ts last a n' H) as (-> & E & ND).
  assert (L : List.length (postorder a) = List.length (subtrees a)) by now rewrite postorder_length, subtrees_num.
  split; [|split].
  - apply (@NoDup_incl_NoDup Z (postorder a)); [exact ND|rewrite map_length; lia|].
    intros i Hi. now apply postorder_ids.
  - lia.
  - intros i. rewrite <- postorder_ids. remember (List.length (postorder a)) as k eqn:Ek. clear Ek. rewrite E, in_map_iff. split.
    + intros (x & <- & Hx). apply in_seq in Hx. lia.
    + intros Hi. exists (Z.to_nat (i - last - 1)). split; [lia|]. apply in_seq. lia.
Qed.

(** A parsed policy: encoding fails as soon as the process-wide node counter has passed 65535. *)
Theorem C32_parsed (U : unicode) (text : str) (last : Z) (a : ast) (n' : Z) (b64 : bool) :
  unicode_ok U -> parse_text U text last = Ok (a, n') -> -1 <= last ->
  ((exists bs, encode a b64 = Ok bs) <->
   n' <= 65535 /\ n' - last <= 65535 /\
   Forall (fun n => 0 <= t_pos (n_tok n) <= 65535 /\ value_fits (n_tok n)) (subtrees a)).
Proof.
  intros uok H Hl. rewrite (C32_fits a b64 (parsed_buildable U text last a n' uok H)).
  destruct (parsed_ids U text last a n' H) as (_ & En & I). unfold fits, node_fits.
  rewrite Forall_forall. setoid_rewrite Forall_forall. split.
  - intros [F L]. split; [|split; [lia|intros n Hn; destruct (F n Hn); tauto]].
    assert (X : In n' (map n_id (subtrees a))).
    { apply I. rewrite subtrees_unfold in En. cbn [List.length] in En. lia. }
    apply in_map_iff in X as (n & En2 & Hn). destruct (F n Hn). lia.
  - intros (L1 & L2 & F). split; [|lia]. intros n Hn. split; [|apply F; exact Hn].
    assert (X : In (n_id n) (map n_id (subtrees a))) by now apply in_map. apply I in X. lia.
Qed.
Print Assumptions C32_parsed.

Theorem C32_counter (U : unicode) (text : str) (last : Z) (a : ast) (n' : Z) (b64 : bool) (bs : bytes) :
  unicode_ok U -> parse_text U text last = Ok (a, n') -> 65535 <= last -> encode a b64 <> Ok bs.
Proof.
  intros uok H Hl C. assert (X : exists bs, encode a b64 = Ok bs) by eauto.
  apply (C32_parsed U text last a n' b64 uok H ltac:(lia)) in X as (X & _).
  destruct (parsed_ids U text last a n' H) as (_ & En & _). rewrite subtrees_unfold in En. cbn [List.length] in En. lia.
Qed.
Print Assumptions C32_counter.

Theorem C31_parsed (U : unicode) (text : str) (last : Z) (a : ast) (n' : Z) (b64 : bool) (bs : bytes) (last2 : Z) :
  unicode_ok U -> parse_text U text last = Ok (a, n') -> encode a b64 = Ok bs ->
  Forall (fun n => survives (n_tok n)) (subtrees a) ->
  exists g a', decode U bs b64 last2 = (last2 + (n' - last), Ok (g, n')) /\
    denotes g n' a' /\ same_tree U a a' /\ ast_eqb a a' = true.
Proof.
  intros uok H He Hs. destruct (parsed_ids U text last a n' H) as (ND & En & I).
  destruct (C31_round_trip U a b64 bs last2 (parsed_buildable U text last a n' uok H) ND He Hs) as (g & a' & D & R).
  assert (Er : n_id a = n').
  { unfold parse_text in H. apply bind_ok in H as (ts & _ & H). destruct (C13_ids U ts last a n' H) as (En2 & E & _).
    destruct a as [c t i r ks]. cbn [postorder n_id] in *.
    set (l := flat_map postorder ks) in *. rewrite app_length in En2, E. cbn [List.length] in En2, E.
    rewrite seq_app, map_app in E. apply app_inj_tail in E as [_ E]. cbn [Nat.add] in E. lia. }
  rewrite Er in *. exists g, a'. rewrite D. split; [|exact R]. f_equal. lia.
Qed.
Print Assumptions C31_parsed.

(** ** Decoding arbitrary bytes *)

Definition codec_exceptions : list exc := [EStruct; EUnicodeDecode; EValue; EAttribute; EType; EGeneric].

Lemma get_value_err : forall ty sz b e, get_value ty sz b = Err e -> e = EStruct \/ e = EUnicodeDecode.
Proof.
  intros ty sz b e H. unfold get_value in H. destruct (0 <? sz); [|discriminate]. cbn [bind] in H.
  destruct (ty =? 13); [destruct (_ =? 4)%nat in H; try discriminate; left; congruence|].
  destruct (ty =? 14); [destruct (_ =? 4)%nat in H; try discriminate; left; congruence|].
  destruct (_ =? sz) in H; [|left; congruence].
  destruct (utf8_decode (firstn (Z.to_nat sz) b)) as [s|x] eqn:D; cbn [bind] in H; [discriminate|].
  apply (utf8_decode_err _ _ _ (le_n _)) in D. right. congruence.
Qed.

Lemma get_ids_err : forall k b e, get_ids k b = Err e -> e = EStruct.
Proof.
  induction k as [|k IH]; intros b e H; cbn [get_ids] in H; [discriminate|].
  destruct (get_u 2 b) as [[x r]|x] eqn:G; cbn [bind] in H; [|apply get_u_err in G; congruence].
  destruct (get_ids k r) as [[l r2]|x2] eqn:G2; cbn [bind] in H; [discriminate|]. apply IH in G2. congruence.
Qed.

Ltac step H := match type of H with
  | bind ?m _ = _ => let G := fresh "G" in destruct m as [[? ?]|?] eqn:G; cbn [bind] in H;
                     [|first [apply get_u_err in G|apply take_err in G as [G _]|apply get_ids_err in G]; try (left; congruence)]
  end.

Lemma get_fields_err : forall b e, get_fields b = Err e -> e = EStruct \/ e = EUnicodeDecode.
Proof.
  intros b e H. unfold get_fields in H. do 7 step H.
  destruct (get_value _ _ _) as [[v r]|x] eqn:G6 in H; cbn [bind] in H.
  - do 2 step H. discriminate.
  - apply get_value_err in G6. injection H as <-. exact G6.
Qed.

Lemma class_of_err : forall v e, class_of v = Err e -> In e codec_exceptions.
Proof.
  intros v e H. unfold class_of in H. destruct (find _ _); [discriminate|].
  destruct (v =? 255); [injection H as <-; cbn; auto 10|]. destruct (v =? 34); injection H as <-; cbn; auto 10.
Qed.

Lemma make_node_spec : forall U f last last' r, make_node U f last = (last', r) ->
  match r with
  | Err e => In e codec_exceptions
  | Ok n => let '(i, _, _, _, _, ids) := f in
            g_id n = i /\ g_kids n = ids /\ init_result U (g_cls n) (g_tok n) = Ok (g_result n)
  end.
Proof.
  intros U [[[[[i c] ty] p] v] ids] last last' r H. unfold make_node in H.
  unfold ttype_of in H. destruct (find _ _) as [ty'|]; [|injection H as <- <-; cbn; auto 10].
  destruct (class_of c) as [c'|e] eqn:Ec.
  - cbv zeta in H. destruct (init_result U c' (Tok ty' p v)) as [x|e] eqn:I; cbn [bind] in H; injection H as <- <-.
    + cbn. auto.
    + destruct c'; cbn [init_result t_val] in I; try discriminate. destruct v; try discriminate;
        injection I as <-; cbn; auto 10.
  - injection H as <- <-. now apply (class_of_err c).
Qed.

Lemma decode_loop_spec : forall U k b last g last' r, decode_loop U k b last g = (last', r) ->
  match r with
  | Err e => In e codec_exceptions
  | Ok g' => keyed g -> Forall (fun x => init_result U (g_cls (snd x)) (g_tok (snd x)) = Ok (g_result (snd x))) g ->
             keyed g' /\ Forall (fun x => init_result U (g_cls (snd x)) (g_tok (snd x)) = Ok (g_result (snd x))) g' /\
             (List.length g' <= List.length g + k)%nat
  end.
Proof.
  intros U. induction k as [|k IH]; intros b last g last' r H; cbn [decode_loop] in H.
  - injection H as <- <-. intros K F. split; [exact K|split; [exact F|lia]].
  - destruct (get_fields b) as [[f b']|e] eqn:Gf.
    2: { injection H as <- <-. apply get_fields_err in Gf. destruct Gf as [->| ->]; cbn; auto 10. }
    destruct (make_node U f last) as [last2 [n|e]] eqn:M; pose proof (make_node_spec U f last last2 _ M) as S.
    + apply IH in H. destruct r as [g'|e]; [|exact H]. intros K F.
      destruct f as [[[[[i c] ty] p] v] ids]. destruct S as (S1 & S2 & S3).
      destruct H as (H1 & H2 & H3).
      * now apply keyed_gset.
      * apply Forall_forall. intros x Hx. apply gset_in in Hx as [->|Hx]; [exact S3|].
        exact (proj1 (Forall_forall _ _) F x Hx).
      * split; [exact H1|]. split; [exact H2|].
        destruct (gset_keys (g_id n) n g) as [E|[E _]]; apply (f_equal (@List.length Z)) in E;
          rewrite ?app_length, !map_length in E; cbn [List.length] in E; lia.
    + injection H as <- <-. exact S.
Qed.

Theorem C33_resolves (U : unicode) (bs : bytes) (b64 : bool) (last last' : Z) (g : graph) (root : Z) :
  decode U bs b64 last = (last', Ok (g, root)) ->
  (exists n, gassoc root g = Some n) /\
  forall i n, gassoc i g = Some n ->
    g_id n = i /\ init_result U (g_cls n) (g_tok n) = Ok (g_result n) /\
    forall k, In k (g_kids n) -> exists m, gassoc k g = Some m.
Proof.
  intros H. unfold decode in H. destruct (if b64 then b64decode bs else Ok bs) as [b|e]; [|discriminate].
  match type of H with match ?x with _ => _ end = _ => destruct x as [[[k rt] r]|e] end; [|discriminate].
  destruct (decode_loop U (Z.to_nat k) r last []) as [l2 [g2|e]] eqn:L; [|discriminate].
  destruct (decode_loop_spec U _ _ _ _ _ _ L (conj (Forall_nil _) (NoDup_nil _)) (Forall_nil _)) as (K & F & _).
  destruct (resolved g2) eqn:R; cbn [negb] in H; [|discriminate].
  destruct (gassoc rt g2) as [n|] eqn:A; [|discriminate]. injection H as <- <- <-. split; [eauto|].
  intros i m Hm. apply gassoc_in in Hm. destruct K as [K _].
  split; [exact (proj1 (Forall_forall _ _) K (i, m) Hm)|].
  split; [exact (proj1 (Forall_forall _ _) F (i, m) Hm)|].
  intros c Hc. unfold resolved in R. rewrite forallb_forall in R. specialize (R (i, m) Hm). cbn in R.
  rewrite forallb_forall in R. specialize (R c Hc). destruct (gassoc c g2); [eauto|discriminate].
Qed.
Print Assumptions C33_resolves.

Theorem C33_exceptions (U : unicode) (bs : bytes) (b64 : bool) (last : Z) (e : exc) :
  snd (decode U bs b64 last) = Err e -> In e codec_exceptions \/ (b64 = true /\ e = EBinascii).
Proof.
  intros H. unfold decode in H. destruct (if b64 then b64decode bs else Ok bs) as [b|x] eqn:B.
  - left. match type of H with snd (match ?w with _ => _ end) = _ => destruct w as [[[k rt] r]|x] eqn:E end.
    + destruct (decode_loop U (Z.to_nat k) r last []) as [l2 [g2|x]] eqn:L; cbn [snd] in H.
      * destruct (negb (resolved g2)); [injection H as <-; cbn; auto 10|].
        destruct (gassoc rt g2); [discriminate|]. injection H as <-. cbn. auto 10.
      * injection H as <-. exact (decode_loop_spec U _ _ _ _ _ _ L).
    + cbn [snd] in H. injection H as <-. assert (X : x = EStruct \/ x = EUnicodeDecode).
      { do 4 step E. discriminate. }
      destruct X as [->| ->]; cbn; auto 10.
  - right. cbn [snd] in H. injection H as <-. destruct b64; [|discriminate]. split; [reflexivity|].
    exact (b64_loop_err _ _ _ _ _ B).
Qed.
Print Assumptions C33_exceptions.

Lemma b64_digit_bound : forall c d, b64_digit c = Some d -> (d < 64)%N.
Proof.
  intros c d. unfold b64_digit.
  destruct (N.leb_spec 65 c); destruct (N.leb_spec c 90); cbn [andb]; try (intros H1; injection H1 as <-; lia);
  destruct (N.leb_spec 97 c); destruct (N.leb_spec c 122); cbn [andb]; try (intros H2; injection H2 as <-; lia);
  destruct (N.leb_spec 48 c); destruct (N.leb_spec c 57); cbn [andb]; try (intros H3; injection H3 as <-; lia);
  destruct (c =? 43)%N; try (intros H4; injection H4 as <-; lia);
  destruct (c =? 47)%N; intros H5; try discriminate; injection H5 as <-; lia.
Qed.

Lemma b64_loop_byte : forall b q l p out, b64_loop b q l p = Ok out ->
  ((q = 1 -> l < 64) /\ (q = 2 -> l < 16) /\ (2 < q -> l < 4))%N -> Forall is_byte out.
Proof.
  induction b as [|c r IH]; intros q l p out H Hq; cbn [b64_loop] in H.
  - destruct (q =? 0)%N; [|discriminate]. injection H as <-. constructor.
  - destruct (c =? b64_pad)%N.
    { destruct (2 <=? q)%N; [|exact (IH _ _ _ _ H Hq)].
      destruct (4 <=? q + (p + 1))%N; [injection H as <-; constructor|exact (IH _ _ _ _ H Hq)]. }
    destruct (b64_digit c) as [d|] eqn:D; [|exact (IH _ _ _ _ H Hq)]. apply b64_digit_bound in D.
    assert (D4 : (d / 4 < 16)%N) by (apply N.div_lt_upper_bound; lia).
    assert (D16 : (d / 16 < 4)%N) by (apply N.div_lt_upper_bound; lia).
    assert (M4 : (d mod 4 < 4)%N) by (apply N.mod_upper_bound; lia).
    assert (M16 : (d mod 16 < 16)%N) by (apply N.mod_upper_bound; lia).
    destruct (N.eqb_spec q 0) as [->|Q0]; [refine (IH _ _ _ _ H _); lia|].
    destruct (N.eqb_spec q 1) as [->|Q1].
    { destruct (b64_loop r 2 (d mod 16) 0) as [t|t] eqn:T; cbn [bind] in H; [|discriminate]. apply Ok_inj in H. subst out.
      constructor; [unfold is_byte; lia|]. refine (IH _ _ _ _ T _). lia. }
    destruct (N.eqb_spec q 2) as [->|Q2].
    { destruct (b64_loop r 3 (d mod 4) 0) as [t|t] eqn:T; cbn [bind] in H; [|discriminate]. apply Ok_inj in H. subst out.
      constructor; [unfold is_byte; lia|]. refine (IH _ _ _ _ T _). lia. }
    destruct (b64_loop r 0 0 0) as [t|t] eqn:T; cbn [bind] in H; [|discriminate]. apply Ok_inj in H. subst out.
    constructor; [unfold is_byte; lia|]. refine (IH _ _ _ _ T _). lia.
Qed.

(** The header: node count and root id. *)
Lemma header_bounds : forall b n root r, Forall is_byte b ->
  ('(h, r) <- take 5 b ;; '(_, h) <- get_u 1 h ;; '(n, h) <- get_u 2 h ;; '(root, _) <- get_u 2 h ;; Ok (n, root, r)) = Ok (n, root, r) ->
  0 <= n <= 65535.
Proof.
  intros b n root r Hb H. destruct (take 5 b) as [[h r1]|e] eqn:T; cbn [bind] in H; [|discriminate].
  apply take_ok in T as [-> _]. apply Forall_app in Hb as [Hh _].
  destruct (get_u 1 h) as [[x h1]|e] eqn:G1; cbn [bind] in H; [|discriminate].
  destruct (get_u_ok 1 h x h1 Hh G1) as (y & -> & _). apply Forall_app in Hh as [_ Hh].
  destruct (get_u 2 h1) as [[z h2]|e] eqn:G2; cbn [bind] in H; [|discriminate].
  destruct (get_u_ok 2 h1 z h2 Hh G2) as (y2 & -> & P).
  destruct (get_u 2 h2) as [[w h3]|e]; cbn [bind] in H; [|discriminate]. injection H as <- <- <-.
  apply pack_u2. eauto.
Qed.

(** The process-wide node counter moves also when decoding fails. *)
Theorem C33_counter (U : unicode) (bs : bytes) (b64 : bool) (last : Z) :
  Forall is_byte bs ->
  last <= fst (decode U bs b64 last) <= last + 65535.
Proof.
  intros Hb. unfold decode. destruct (if b64 then b64decode bs else Ok bs) as [b|x] eqn:B; [|cbn [fst]; lia].
  assert (Hb2 : Forall is_byte b).
  { destruct b64; [|congruence]. exact (b64_loop_byte _ _ _ _ _ B ltac:(lia)). }
  match goal with |- context [match ?w with Ok _ => _ | Err _ => _ end] => destruct w as [[[k rt] r]|x] eqn:E end; [|cbn [fst]; lia].
  apply header_bounds in E; [|exact Hb2].
  pose proof (proj2 (decode_loop_counter U (Z.to_nat k) r last [])) as C.
  destruct (decode_loop U (Z.to_nat k) r last []) as [l2 [g2|x]]; cbn [fst] in *; lia.
Qed.
Print Assumptions C33_counter.

(** The version byte and everything after the last node are ignored. *)
Theorem C33_version (U : unicode) (v w : N) (bs : bytes) (last : Z) :
  decode U (v :: bs) false last = decode U (w :: bs) false last.
Proof.
  unfold decode. unfold take. cbn [List.length]. destruct (S (List.length bs) <? 5)%nat; [reflexivity|].
  cbn [firstn skipn bind]. unfold get_u at 1 4. unfold take. cbn [List.length].
  destruct (S (List.length (firstn 4 bs)) <? 1)%nat eqn:E; [reflexivity|]. cbn [bind firstn skipn]. reflexivity.
Qed.
Print Assumptions C33_version.

Lemma take_ext : forall k b x r j, take k b = Ok (x, r) -> take k (b ++ j) = Ok (x, r ++ j).
Proof. intros k b x r j H. apply take_ok in H as [-> L]. rewrite <- app_assoc. now apply take_app. Qed.


Lemma get_value_ext : forall ty sz b x r j, j <> [] -> get_value ty sz b = Ok (x, r) ->
  get_value ty sz (b ++ j) = Ok (x, r ++ j) \/ get_value ty sz (b ++ j) = Err EStruct.
Proof.
  intros ty sz b x r j Hj H. unfold get_value in *. destruct (Z.ltb_spec 0 sz) as [P|P]; [|injection H as <- <-; now left].
  cbn [bind] in *. destruct (le_lt_dec (Z.to_nat sz) (List.length b)) as [L|L].
  - left. rewrite firstn_app, skipn_app. replace (Z.to_nat sz - List.length b)%nat with 0%nat by lia.
    cbn [firstn skipn]. rewrite app_nil_r.
    destruct (ty =? 13); [destruct (_ =? 4)%nat in *; [|discriminate]; injection H as <- <-; reflexivity|].
    destruct (ty =? 14); [destruct (_ =? 4)%nat in *; [|discriminate]; injection H as <- <-; reflexivity|].
    destruct (_ =? sz) in *; [|discriminate].
    destruct (utf8_decode (firstn (Z.to_nat sz) b)) as [s|e]; cbn [bind] in *; [|discriminate]. injection H as <- <-. reflexivity.
  - right. assert (F : (List.length (firstn (Z.to_nat sz) b) = List.length b /\
                      List.length b < List.length (firstn (Z.to_nat sz) (b ++ j)))%nat).
    { rewrite !firstn_length, app_length. destruct j as [|y j]; [contradiction|]. cbn [List.length]. lia. }
    destruct F as [F1 F2].
    destruct (ty =? 13).
    { destruct (Nat.eqb_spec (List.length (firstn (Z.to_nat sz) b)) 4) as [E|E]; [|discriminate].
      destruct (Nat.eqb_spec (List.length (firstn (Z.to_nat sz) (b ++ j))) 4) as [E2|E2]; [lia|reflexivity]. }
    destruct (ty =? 14).
    { destruct (Nat.eqb_spec (List.length (firstn (Z.to_nat sz) b)) 4) as [E|E]; [|discriminate].
      destruct (Nat.eqb_spec (List.length (firstn (Z.to_nat sz) (b ++ j))) 4) as [E2|E2]; [lia|reflexivity]. }
    destruct (Z.eqb_spec (Z.of_nat (List.length (firstn (Z.to_nat sz) b))) sz) as [E|E]; [lia|discriminate].
Qed.

Lemma get_fields_ext : forall b f r j, j <> [] -> get_fields b = Ok (f, r) ->
  get_fields (b ++ j) = Ok (f, r ++ j) \/ get_fields (b ++ j) = Err EStruct.
Proof.
  intros b f r j Hj H. unfold get_fields in *.
  destruct (take 10 b) as [[h b1]|e] eqn:T; cbn [bind] in H; [|discriminate]. rewrite (take_ext _ _ _ _ j T). cbn [bind].
  destruct (get_u 2 h) as [[i h1]|e]; cbn [bind] in *; [|discriminate].
  destruct (get_u 1 h1) as [[c h2]|e]; cbn [bind] in *; [|discriminate].
  destruct (get_u 1 h2) as [[ty h3]|e]; cbn [bind] in *; [|discriminate].
  destruct (get_u 2 h3) as [[p h4]|e]; cbn [bind] in *; [|discriminate].
  destruct (get_u 2 h4) as [[sz h5]|e]; cbn [bind] in *; [|discriminate].
  destruct (get_u 2 h5) as [[nk h6]|e]; cbn [bind] in *; [|discriminate].
  destruct (get_value ty sz b1) as [[v b2]|e] eqn:V; cbn [bind] in H; [|discriminate].
  destruct (get_value_ext _ _ _ _ _ j Hj V) as [-> | ->]; cbn [bind]; [|now right].
  destruct (take (2 * Z.to_nat nk) b2) as [[x b3]|e] eqn:T2; cbn [bind] in H; [|discriminate].
  rewrite (take_ext _ _ _ _ j T2). cbn [bind].
  destruct (get_ids (Z.to_nat nk) x) as [[ids y]|e]; cbn [bind] in *; [|discriminate].
  injection H as <- <-. now left.
Qed.

Lemma decode_loop_ext : forall U k b last g last' g' j, j <> [] -> decode_loop U k b last g = (last', Ok g') ->
  decode_loop U k (b ++ j) last g = (last', Ok g') \/ snd (decode_loop U k (b ++ j) last g) = Err EStruct.
Proof.
  intros U. induction k as [|k IH]; intros b last g last' g' j Hj H; cbn [decode_loop] in *; [now left|].
  destruct (get_fields b) as [[f r]|e] eqn:F; [|discriminate].
  destruct (get_fields_ext _ _ _ j Hj F) as [-> | ->]; [|now right].
  destruct (make_node U f last) as [l2 [n|e]]; [|discriminate]. now apply IH.
Qed.

(** Bytes after the last node are ignored, or make decoding fail (when the size field of the
    last number says more than its four bytes). *)
Theorem C33_trailing (U : unicode) (bs junk : bytes) (last last' : Z) (x : graph * Z) :
  decode U bs false last = (last', Ok x) ->
  decode U (bs ++ junk) false last = (last', Ok x) \/ snd (decode U (bs ++ junk) false last) = Err EStruct.
Proof.
  destruct junk as [|y junk]; [rewrite app_nil_r; now left|]. assert (Hj : y :: junk <> []) by discriminate.
  intros H. unfold decode in *. destruct (take 5 bs) as [[h r]|e] eqn:T; cbn [bind] in H; [|discriminate].
  rewrite (take_ext _ _ _ _ _ T). cbn [bind].
  destruct (get_u 1 h) as [[v h1]|e]; cbn [bind] in *; [|discriminate].
  destruct (get_u 2 h1) as [[n h2]|e]; cbn [bind] in *; [|discriminate].
  destruct (get_u 2 h2) as [[root h3]|e]; cbn [bind] in *; [|discriminate].
  destruct (decode_loop U (Z.to_nat n) r last []) as [l2 [g|e]] eqn:L; [|discriminate].
  destruct (decode_loop_ext U _ _ _ _ _ _ _ Hj L) as [-> | E]; [left; exact H|right].
  destruct (decode_loop U (Z.to_nat n) (r ++ y :: junk) last []) as [l3 [g3|e3]]; cbn [snd] in *; [discriminate|congruence].
Qed.
Print Assumptions C33_trailing.

(** After an encoded tree they are always ignored. *)
Theorem C33_trailing_encoded (U : unicode) (a : ast) (bs junk : bytes) (last : Z) :
  encode a false = Ok bs -> snd (decode U (bs ++ junk) false last) = snd (decode U bs false last).
Proof.
  intros H. apply encode_inv in H as (l & h & M & (h1 & h2 & h3 & E1 & E2 & E3 & ->) & ->).
  assert (X : forall j, decode U (((h1 ++ h2 ++ h3) ++ List.concat l) ++ j) false last =
    match decode_loop U (List.length (subtrees a)) (List.concat l ++ j) last [] with
    | (last, Err e) => (last, Err e)
    | (last, Ok g) =>
        (last, if negb (resolved g) then Err EGeneric
               else match gassoc (n_id a) g with Some _ => Ok (g, n_id a) | None => Err EGeneric end)
    end).
  { intros j. unfold decode. rewrite <- app_assoc, take_app.
    - cbn [bind]. rewrite (get_u_pack _ _ _ _ E1). cbn [bind]. rewrite (get_u_pack _ _ _ _ E2). cbn [bind].
      rewrite <- (app_nil_r h3), (get_u_pack _ _ _ _ E3). cbn [bind]. rewrite Nat2Z.id. reflexivity.
    - rewrite !app_length, (pack_u_length _ _ _ E1), (pack_u_length _ _ _ E2), (pack_u_length _ _ _ E3). reflexivity. }
  rewrite (X junk). specialize (X []). rewrite app_nil_r in X. rewrite X. clear X.
  pose proof (decode_loop_nodes U (subtrees a) l junk last [] M) as D1.
  pose proof (decode_loop_nodes U (subtrees a) l [] last [] M) as D2. rewrite <- D1 in D2. clear D1.
  destruct (decode_loop U (List.length (subtrees a)) (List.concat l ++ junk) last []) as [l1 r1].
  destruct (decode_loop U (List.length (subtrees a)) (List.concat l ++ []) last []) as [l2 r2].
  cbn [snd] in D2. subst r2. destruct r1; reflexivity.
Qed.
Print Assumptions C33_trailing_encoded.

(** A decoded graph can be walked as a tree exactly if it has no cycle below the root. *)
Definition child_of (g : graph) (k i : Z) : Prop := exists n, gassoc i g = Some n /\ In k (g_kids n).

Theorem C33_cycles (U : unicode) (bs : bytes) (b64 : bool) (last last' : Z) (g : graph) (root : Z) :
  decode U bs b64 last = (last', Ok (g, root)) ->
  ((exists a, denotes g root a) <-> Acc (child_of g) root).
Proof.
  intros H. destruct (C33_resolves U bs b64 last last' g root H) as ([n0 R] & C). clear H. split.
  - intros [a Ha]. clear R. revert root Ha. induction a as [c t i r ks IH] using ast_ind'. intros root Ha.
    inversion Ha as [j n ks' A F]; subst. constructor. intros k (n' & A' & Hk). rewrite A in A'. injection A' as <-.
    clear - IH F Hk. induction F as [|x y xs ys D _ IHF]; [contradiction|]. inversion IH as [|? ? I1 I2]; subst.
    destruct Hk as [->|Hk]; [exact (I1 k D)|exact (IHF I2 Hk)].
  - intros Ha. revert n0 R. induction Ha as [i _ IH]. intros n A.
    destruct (C i n A) as (_ & _ & Hk).
    assert (K : exists ks, Forall2 (denotes g) (g_kids n) ks).
    { assert (S : forall k, In k (g_kids n) -> exists a, denotes g k a).
      { intros k Hin. destruct (Hk k Hin) as [m Hm]. apply (IH k) with (n0 := m); [exists n; auto|exact Hm]. }
      clear - S. induction (g_kids n) as [|k l IHl]; [exists []; constructor|].
      destruct (S k (or_introl eq_refl)) as [a Ha]. destruct IHl as [ks Hks]; [intros k' Hk'; apply S; now right|].
      exists (a :: ks). now constructor. }
    destruct K as [ks Hks]. eexists. exact (Denotes g i n ks A Hks).
Qed.
Print Assumptions C33_cycles.

(** ** Concrete cases *)

Definition ex_text : str := lit "user.age >= 18 AND object.size < 2.5 OR user.name IN {""ann"", NULL}".

(** A policy with every kind of value is encoded, comes back equal, also through base64. *)
Example ex_round_trip : exists a n' bs g,
  parse_text ascii_only ex_text 99 = Ok (a, n') /\ encode a true = Ok bs /\
  Forall (fun n => survives (n_tok n)) (subtrees a) /\
  List.length (subtrees a) = 13%nat /\
  decode ascii_only bs true n' = (n' + 13, Ok (g, n')) /\ NoDup (map n_id (subtrees a)).
Proof.
  eexists _, _, _, _. split; [vm_compute; reflexivity|]. split; [vm_compute; reflexivity|].
  split; [|split; [reflexivity|split; [vm_compute; reflexivity|]]].
  - cbn [subtrees n_kids flat_map app]. repeat constructor; cbn; try discriminate; try (repeat constructor; fail).
    exists 5%positive, (-1). split; [reflexivity|]. split; [lia|vm_compute; reflexivity].
  - cbn. repeat constructor; cbn; intuition discriminate.
Qed.

(** Values that do not survive: 3.14, the empty string, a name outside ASCII. *)
Definition lossy (v : tokval) (ty : ttype) (c : nclass) : ast := Node c (Tok ty 0 v) 7 None [].
Example ex_loss : 
  ~ survives (Tok FLOAT 0 (TFloat (float_of_dec false 314 2))) /\
  ~ survives (Tok STRING 0 (TStr [])) /\ ~ survives (Tok USR_ATT 0 (TStr (lit "user.caf" ++ [233%N]))) /\
  (exists bs, encode (lossy (TFloat (float_of_dec false 314 2)) FLOAT CFloat) false = Ok bs) /\
  (exists bs, encode (lossy (TStr []) STRING CString) false = Ok bs) /\
  (exists bs, encode (lossy (TStr (lit "user.caf" ++ [233%N])) USR_ATT CUsr) false = Ok bs /\
              snd (decode ascii_only bs false 0) = Err EUnicodeDecode).
Proof.
  split; [|split; [|split; [|split; [|split]]]].
  - intros S. assert (P : exists b, pack_f32 (float_of_dec false 314 2) = Ok b) by (vm_compute; eauto).
    destruct P as [b P]. apply (f32_survives _ b P) in S. revert S. vm_compute in P. injection P as <-. vm_compute. discriminate.
  - intros [C _]. now apply C.
  - intros [_ F]. apply ascii_Forall in F. discriminate.
  - vm_compute. eauto.
  - vm_compute. eauto.
  - eexists. split; [vm_compute; reflexivity|]. vm_compute. reflexivity.
Qed.

(** Encoding fails for a policy parsed late in the life of the process, although it fits at first. *)
Example ex_counter : exists a n1 b n2,
  parse_text ascii_only (lit "user.age >= 18") (-1) = Ok (a, n1) /\ (exists bs, encode a false = Ok bs) /\
  parse_text ascii_only (lit "user.age >= 18") 65535 = Ok (b, n2) /\ encode b false = Err EStruct.
Proof.
  eexists _, _, _, _. split; [vm_compute; reflexivity|]. split; [vm_compute; eauto|].
  split; [vm_compute; reflexivity|vm_compute; reflexivity].
Qed.

(** Numbers that are too large. *)
Example ex_too_large :
  too_large (float_of_dec false (10 ^ 39) 0) /\ ~ too_large (float_of_dec false (3 * 10 ^ 38) 0) /\
  encode (lossy (TFloat (float_of_dec false (10 ^ 39) 0)) FLOAT CFloat) false = Err EOverflow /\
  encode (lossy (TInt 2147483648) INT CInt) false = Err EStruct.
Proof. split; [vm_compute; reflexivity|]. split; [vm_compute; discriminate|]. split; vm_compute; reflexivity. Qed.

(** Decoding can return a node that is its own child: no tree. *)
Theorem C33_cyclic_graph : exists bs g, Forall is_byte bs /\
  decode ascii_only bs false 0 = (1, Ok (g, 0)) /\ forall a, ~ denotes g 0 a.
Proof.
  exists [1; 1;0; 0;0; 0;0; 13; 3; 0;0; 0;0; 1;0; 0;0]%N.
  eexists. split; [repeat constructor|]. split; [vm_compute; reflexivity|].
  intros a. induction a as [c t i r ks IH] using ast_ind'. intros H.
  inversion H as [j n ks' A F]; subst. vm_compute in A. injection A as <-. cbn [g_kids] in F.
  inversion F as [|x y xs ys D _]; subst. inversion IH as [|? ? I1 _]; subst. exact (I1 D).
Qed.
Print Assumptions C33_cyclic_graph.

(** Appended bytes are not always ignored. *)
Theorem C33_trailing_refuted : exists bs junk g,
  Forall is_byte bs /\ decode ascii_only bs false 0 = (1, Ok (g, 0)) /\
  snd (decode ascii_only (bs ++ junk) false 0) = Err EStruct.
Proof.
  exists [1; 1;0; 0;0; 0;0; 31; 13; 0;0; 9;0; 0;0; 1;2;3;4]%N, [0]%N. eexists.
  split; [repeat constructor|]. split; [vm_compute; reflexivity|vm_compute; reflexivity].
Qed.
Print Assumptions C33_trailing_refuted.

(** ** Which exception a bad class number raises *)

(** The bytes of one node without value and children: class number [c], an OP token at 0. *)
Definition one_node (c : N) : bytes := ([1; 1;0; 0;0; 0;0] ++ [c] ++ [1; 0;0; 0;0; 0;0])%N.
(** What the caller sees for each class number.  255 is Unknown, which names no class, and a
    BoolValNode asks its missing value for upper(): AttributeError.  34 is ASTNullVal, which
    takes no token: TypeError.  A number outside the enumeration: ValueError. *)
Definition class_answer (c : N) : option exc :=
  if existsb (N.eqb c) [0; 11; 12; 13; 30; 31; 32; 33; 35; 41; 50; 51; 52; 53; 54; 55]%N then None
  else if existsb (N.eqb c) [21; 255]%N then Some EAttribute
  else if (c =? 34)%N then Some EType
  else Some EValue.

Theorem C33_class (U : unicode) (c : N) (last : Z) : (c < 256)%N ->
  match class_answer c with
  | None => exists n, snd (decode U (one_node c) false last) = Ok ([(0, n)], 0) /\ class_val (g_cls n) = Z.of_N c
  | Some e => snd (decode U (one_node c) false last) = Err e
  end.
Proof.
  intros H. assert (I : In c (map N.of_nat (seq 0 256))).
  { apply in_map_iff. exists (N.to_nat c). split; [apply N2Nat.id|]. apply in_seq. lia. }
  clear H. change (map N.of_nat (seq 0 256)) with (ltac:(let x := eval vm_compute in (map N.of_nat (seq 0 256)) in exact x)) in I.
  repeat (destruct I as [<-|I]; [vm_compute; first [reflexivity | eexists; split; reflexivity]|]). contradiction.
Qed.
Print Assumptions C33_class.
Example ex_class : map class_answer [0; 7; 21; 34; 55; 56; 255]%N
  = [None; Some EValue; Some EAttribute; Some EType; None; Some EValue; Some EAttribute].
Proof. reflexivity. Qed.
