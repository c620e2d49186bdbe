(** * CodecProofs: the encoder and decoder of policy trees *)

From Coq Require Import NArith ZArith List Bool Lia.
From Coq Require Import Floats.SpecFloat.
From Verif Require Import PyBase PyNum Lexer Values Ast Struct AstCodec ParseProofs ParseProofs2 Syntax PrintProofs
  EvalProofs BytesProofs FloatProofs CodecSpec.
Import ListNotations.
Open Scope Z_scope.

(** ** Single precision *)

Lemma scale_eq : forall m e m' e' lo, lo <= e -> lo <= e' ->
  (m * 2 ^ (e - Z.min e e') = m' * 2 ^ (e' - Z.min e e') <-> m * 2 ^ (e - lo) = m' * 2 ^ (e' - lo)).
Proof.
  intros m e m' e' lo L1 L2. set (k := Z.min e e').
  replace (e - lo) with ((e - k) + (k - lo)) by lia. replace (e' - lo) with ((e' - k) + (k - lo)) by lia.
  rewrite !Z.pow_add_r by lia. assert (0 < 2 ^ (k - lo)) by (apply pow2_pos; lia).
  split; intros H1; [rewrite !Z.mul_assoc, H1; ring|]. rewrite !Z.mul_assoc in H1. apply Z.mul_reg_r in H1; lia.
Qed.

Lemma float_eq_fin : forall s m e m' e' lo, lo <= e -> lo <= e' ->
  (float_eqb (S754_finite s m e) (S754_finite s m' e') = true <-> Z.pos m * 2 ^ (e - lo) = Z.pos m' * 2 ^ (e' - lo)).
Proof.
  intros s m e m' e' lo L1 L2. rewrite <- (scale_eq (Z.pos m) e (Z.pos m') e' lo L1 L2).
  unfold float_eqb, num_eqb, num_cmp. cbn [ext_of]. cbv zeta.
  set (a := 2 ^ (e - Z.min e e')). set (b := 2 ^ (e' - Z.min e e')).
  destruct s.
  - rewrite <- !Pos2Z.opp_pos. rewrite !Z.mul_opp_l. rewrite Z.compare_opp.
    destruct (Z.compare_spec (Z.pos m' * b) (Z.pos m * a)); split; intros; try reflexivity; try discriminate; lia.
  - destruct (Z.compare_spec (Z.pos m * a) (Z.pos m' * b)); split; intros; try reflexivity; try discriminate; lia.
Qed.

Lemma num_ge_fin : forall m e n lo, lo <= e -> lo <= 0 -> 
  (num_geb (NFloat (S754_finite false m e)) (NInt n) = true <-> n * 2 ^ (0 - lo) <= Z.pos m * 2 ^ (e - lo)).
Proof.
  intros m e n lo L1 L2. unfold num_geb, num_cmp. cbn [ext_of]. cbv zeta. set (k := Z.min e 0).
  replace (e - lo) with ((e - k) + (k - lo)) by lia. replace (0 - lo) with ((0 - k) + (k - lo)) by lia.
  rewrite !Z.pow_add_r by lia. assert (0 < 2 ^ (k - lo)) by (apply pow2_pos; lia).
  rewrite !Z.mul_assoc.
  destruct (Z.compare_spec (Z.pos m * 2 ^ (e - k)) (n * 2 ^ (0 - k))); split; intros; try reflexivity; try discriminate; nia.
Qed.

Lemma f32_bits_bound : forall m e, Z.pos m < 2 ^ 24 -> -149 <= e <= 104 ->
  (2 ^ 23 <= Z.pos m \/ e = -149) -> forall s,
  unpack_f32 (le_bytes 4 (f32_bits (S754_finite s m e))) = binary_round 53 1024 s m e.
Proof.
  intros m e Hm He Hc s. change (2 ^ 24) with 16777216 in Hm. change (2 ^ 23) with 8388608 in Hc.
  set (sg := (if s then 2147483648 else 0)%N). assert (Hsg : (sg = 0 \/ sg = 2147483648)%N) by (unfold sg; destruct s; lia).
  assert (S : (2147483648 <=? sg)%N = s) by (unfold sg; destruct s; reflexivity).
  assert (B : exists ex mt, f32_bits (S754_finite s m e) = (sg + 8388608 * ex + mt)%N /\ (ex < 255)%N /\ (mt < 8388608)%N /\
              ((ex = 0%N /\ mt = N.pos m /\ e = -149) \/ ((1 <= ex)%N /\ mt = (N.pos m - 8388608)%N /\ (8388608 <= N.pos m)%N /\ e = Z.of_N ex - 150))).
  { cbn [f32_bits]. fold sg. destruct (N.ltb_spec (N.pos m) 8388608) as [L|L].
    - exists 0%N, (N.pos m). split; [lia|]. split; [lia|]. split; [lia|]. left. lia.
    - exists (Z.to_N (e + 150)), (N.pos m - 8388608)%N. split; [lia|]. split; [lia|]. split; [lia|]. right. lia. }
  destruct B as (ex & mt & -> & Hex & Hmt & Hk).
  unfold unpack_f32. rewrite le_val_bytes by (change (256 ^ N.of_nat 4)%N with 4294967296%N; lia). cbv zeta.
  assert (D : ((sg + 8388608 * ex + mt) / 8388608 = sg / 8388608 + ex /\ (sg + 8388608 * ex + mt) mod 8388608 = mt)%N).
  { replace (sg + 8388608 * ex + mt)%N with (8388608 * (sg / 8388608 + ex) + mt)%N.
    - apply div_val. exact Hmt.
    - destruct Hsg as [-> | ->]; [|change (2147483648 / 8388608)%N with 256%N; lia]. rewrite N.div_0_l; lia. }
  destruct D as [-> ->].
  assert (S2 : (2147483648 <=? sg + 8388608 * ex + mt)%N = s).
  { rewrite <- S. destruct (N.leb_spec 2147483648 sg) as [A|A]; [apply N.leb_le; lia|]. apply N.leb_gt. lia. }
  rewrite S2.
  assert (X : ((sg / 8388608 + ex) mod 256 = ex)%N).
  { destruct Hsg as [-> | ->].
    - rewrite N.div_0_l by lia. rewrite N.add_0_l, N.mod_small by lia. reflexivity.
    - change (2147483648 / 8388608)%N with (1 * 256)%N. rewrite N.add_comm, N.mod_add, N.mod_small by lia. reflexivity. }
  rewrite X. destruct (N.eqb_spec ex 255) as [C|_]; [lia|].
  destruct Hk as [(-> & -> & ->)|(Hx & -> & Hn & ->)].
  - reflexivity.
  - destruct (N.eqb_spec ex 0) as [C|_]; [lia|]. f_equal.
    apply Pos2Z.inj. rewrite <- (N2Z.inj_pos (N.succ_pos _)), N.succ_pos_spec. lia.
Qed.

Lemma round64_exact : forall s m e, Z.pos m < 2 ^ 24 -> -149 <= e <= 104 ->
  exists m2 e2, binary_round 53 1024 s m e = S754_finite s m2 e2 /\ -1074 <= e2 /\
                forall lo, lo <= -1074 -> Z.pos m * 2 ^ (e - lo) = Z.pos m2 * 2 ^ (e2 - lo).
Proof.
  intros s m e Hm He.
  destruct (round_exact 53 1024 ltac:(lia) ltac:(lia) s m e m e (-1074) ltac:(lia) ltac:(lia)
              ltac:(unfold emin; lia) eq_refl) as (m2 & e2 & R & Le & V).
  - assert (2 ^ 24 < 2 ^ 53) by reflexivity. lia.
  - unfold emin. lia.
  - unfold emin in Le. exists m2, e2. split; [exact R|]. split; [lia|]. intros lo Hlo.
    apply (scale_eq (Z.pos m) e (Z.pos m2) e2 lo); [lia|lia|].
    apply (scale_eq (Z.pos m) e (Z.pos m2) e2 (-1074)); [lia|lia|exact V].
Qed.

Lemma pack_f32_bytes : forall f b, pack_f32 f = Ok b -> List.length b = 4%nat /\ Forall is_byte b.
Proof.
  intros f b H. assert (exists n, b = le_bytes 4 n) as [n ->].
  { unfold pack_f32 in H. destruct f as [s|s| |s m e].
    - apply Ok_inj in H. subst b. eauto.
    - apply Ok_inj in H. subst b. eauto.
    - apply Ok_inj in H. subst b. eauto.
    - destruct (binary_round 24 128 s m e); try discriminate; apply Ok_inj in H; subst b; eauto. }
  split; [apply le_bytes_length|apply le_bytes_byte].
Qed.

Theorem f32_survives : forall f b, pack_f32 f = Ok b -> (float_eqb f (unpack_f32 b) = true <-> single f).
Proof.
  intros f b H. unfold pack_f32 in H. destruct f as [s|s| |s m e].
  - apply Ok_inj in H. subst b. destruct s; vm_compute; split; auto.
  - apply Ok_inj in H. subst b. destruct s; vm_compute; split; auto.
  - apply Ok_inj in H. subst b. vm_compute. split; [discriminate|contradiction].
  - pose proof (round_cases 24 128 ltac:(lia) s m e) as [Z|[I|(m1 & e1 & F)]].
    + rewrite Z in H. apply Ok_inj in H. subst b. split.
      * intros C. exfalso. revert C. replace (unpack_f32 _) with (S754_zero s) by (destruct s; reflexivity).
        unfold float_eqb, num_eqb, num_cmp. cbn [ext_of]. cbv zeta.
        assert (0 < 2 ^ (e - Z.min e 0)) by (apply pow2_pos; lia). rewrite Z.mul_0_l.
        destruct s; destruct (Z.compare_spec (Z.pos m * 2 ^ (e - Z.min e 0)) 0);
          destruct (Z.compare_spec (Z.neg m * 2 ^ (e - Z.min e 0)) 0); try discriminate; lia.
      * intros (m0 & e0 & B1 & B2 & V). exfalso. set (lo := Z.min e (-149)).
        apply (float_eq_fin s m e m0 e0 lo) in V; [|lia|lia].
        destruct (round_exact 24 128 ltac:(lia) ltac:(lia) s m e m0 e0 lo ltac:(lia) ltac:(lia)
              ltac:(unfold emin; lia) V B1 ltac:(unfold emin; lia)) as (m2 & e2 & R & _). congruence.
    + rewrite I in H. discriminate.
    + pose proof (round_bounded 24 128 ltac:(lia) s m e s m1 e1 F) as (_ & B1 & B2 & B3).
      unfold emin in *. rewrite F in H. apply Ok_inj in H. subst b.
      rewrite (f32_bits_bound m1 e1 B1 ltac:(lia) ltac:(destruct B3 as [B3|B3]; [left; exact B3|right; lia])).
      destruct (round64_exact s m1 e1 B1 ltac:(lia)) as (m2 & e2 & R2 & Le & V2). rewrite R2.
      set (lo := Z.min e (-1074)). specialize (V2 lo ltac:(lia)).
      rewrite (float_eq_fin s m e m2 e2 lo ltac:(lia) ltac:(lia)). rewrite <- V2. split.
      * intros V. exists m1, e1. split; [exact B1|]. split; [lia|].
        apply (float_eq_fin s m e m1 e1 lo); [lia|lia|exact V].
      * intros (m0 & e0 & C1 & C2 & V). apply (float_eq_fin s m e m0 e0 lo) in V; [|lia|lia].
        destruct (round_exact 24 128 ltac:(lia) ltac:(lia) s m e m0 e0 lo ltac:(lia) ltac:(lia)
              ltac:(unfold emin; lia) V C1 ltac:(unfold emin; lia)) as (m3 & e3 & R3 & _ & V3).
        rewrite F in R3. injection R3 as <- <-. exact V3.
Qed.

Theorem f32_fits : forall f, (exists b, pack_f32 f = Ok b) <-> ~ too_large f.
Proof.
  intros f. unfold pack_f32. destruct f as [s|s| |s m e]; cbn [too_large]; [split; eauto..|].
  set (lo := Z.min e (-149)).
  pose proof (round_overflow 24 128 ltac:(lia) ltac:(lia) s m e lo ltac:(lia) ltac:(unfold emin; lia)) as O.
  rewrite (num_ge_fin m e _ lo) by lia.
  replace ((2 ^ 128 - 2 ^ 103) * 2 ^ (0 - lo)) with ((2 ^ (24 + 1) - 1) * 2 ^ (128 - 24 - 1 - lo)).
  - rewrite <- O. pose proof (round_cases 24 128 ltac:(lia) s m e) as [Z|[I|(m1 & e1 & F)]].
    + rewrite Z. split; [discriminate|eauto].
    + rewrite I. split; [intros (b & C); discriminate|intros C; exfalso; now apply C].
    + rewrite F. split; [discriminate|eauto].
  - replace (128 - 24 - 1 - lo) with (103 + (0 - lo)) by lia. rewrite (Z.pow_add_r 2 103) by lia.
    rewrite Z.mul_assoc. f_equal.
Qed.

Lemma pack_f32_err : forall f e, pack_f32 f = Err e -> e = EOverflow.
Proof.
  intros f e H. unfold pack_f32 in H. destruct f as [s|s| |s m x]; try discriminate.
  destruct (binary_round 24 128 s m x); try discriminate. congruence.
Qed.

(** ** Encoding is node by node *)

Lemma mapM_app : forall {A B} (f : A -> res B) l m,
  mapM f (l ++ m) = (x <- mapM f l ;; y <- mapM f m ;; Ok (x ++ y)).
Proof.
  intros A B f. induction l as [|a l IH]; intros m; cbn [app mapM].
  - cbn [bind]. destruct (mapM f m); reflexivity.
  - destruct (f a) as [y|e]; cbn [bind]; [|reflexivity]. rewrite IH.
    destruct (mapM f l) as [ys|e]; cbn [bind]; [|reflexivity].
    destruct (mapM f m) as [zs|e]; cbn [bind]; reflexivity.
Qed.

Lemma F2_length : forall {A B} {R : A -> B -> Prop} {l m}, Forall2 R l m -> List.length l = List.length m.
Proof. intros A B R l m H. induction H; cbn; congruence. Qed.

Lemma mapM_Forall2 : forall {A B} (f : A -> res B) l ys, mapM f l = Ok ys <-> Forall2 (fun x y => f x = Ok y) l ys.
Proof.
  intros A B f. induction l as [|a l IH]; intros ys; cbn [mapM].
  - split; intros H; [injection H as <-; constructor|inversion H; reflexivity].
  - split.
    + intros H. destruct (f a) as [y|e] eqn:E1; cbn [bind] in H; [|discriminate].
      destruct (mapM f l) as [zs|e] eqn:E2; cbn [bind] in H; [|discriminate]. injection H as <-.
      constructor; [exact E1|now apply IH].
    + intros H. inversion H as [|? y ? zs H1 H2]; subst. rewrite H1. cbn [bind].
      apply IH in H2. rewrite H2. reflexivity.
Qed.

Lemma encode_node_eq : forall a, encode_node a = mapM encode_one (subtrees a).
Proof.
  induction a as [c t i r ks IH] using ast_ind'. cbn [encode_node subtrees n_kids mapM].
  destruct (encode_one (Node c t i r ks)) as [b|e]; cbn [bind]; [|reflexivity].
  match goal with |- bind ?x _ = bind ?y _ => assert (G : x = y) end; [|rewrite G; reflexivity].
  induction ks as [|k ks IHk]; [reflexivity|]. inversion IH as [|? ? H1 H2]; subst.
  cbn [flat_map]. rewrite mapM_app, H1. destruct (mapM encode_one (subtrees k)) as [x|e]; cbn [bind]; [|reflexivity].
  rewrite (IHk H2). reflexivity.
Qed.

Lemma subtrees_unfold : forall a, subtrees a = a :: flat_map subtrees (n_kids a).
Proof. intros [c t i r ks]. reflexivity. Qed.

Lemma subtrees_kids : forall a k, In k (n_kids a) -> In k (subtrees a).
Proof.
  intros a k H. rewrite subtrees_unfold. right. apply in_flat_map. exists k. split; [exact H|].
  rewrite subtrees_unfold. now left.
Qed.

Lemma subtrees_trans : forall a k n, In k (n_kids a) -> In n (subtrees k) -> In n (subtrees a).
Proof. intros a k n H1 H2. rewrite subtrees_unfold. right. apply in_flat_map. eauto. Qed.

(** ** When a value can be packed *)

Definition val_bytes (t : token) : res (Z * bytes) := '(sz, tv) <- tval_size t ;; b <- tv ;; Ok (sz, b).

Lemma encodable_scalar : forall s, Forall encodable s <-> forallb scalar s = true.
Proof.
  intros s. rewrite forallb_forall, Forall_forall. unfold encodable, scalar, surrogate.
  split; intros H x Hx; specialize (H x Hx).
  - destruct H as [[H|H] H2]; apply andb_true_iff; (split; [apply negb_true_iff; apply andb_false_iff|apply N.ltb_lt; lia]).
    + left. apply N.leb_gt. lia.
    + right. apply N.leb_gt. lia.
  - apply andb_true_iff in H as [H1 H2]. apply negb_true_iff in H1. apply N.ltb_lt in H2.
    apply andb_false_iff in H1 as [H1|H1]; apply N.leb_gt in H1; lia.
Qed.

Lemma pack_u2 : forall z, (exists b, pack_u 2 z = Ok b) <-> 0 <= z <= 65535.
Proof.
  intros z. split.
  - intros (b & H). apply pack_u_ok in H as [H _]. change (256 ^ Z.of_nat 2) with 65536 in H. lia.
  - intros H. eexists. apply pack_u_ok. split; [change (256 ^ Z.of_nat 2) with 65536; lia|reflexivity].
Qed.

Lemma class_val_bound : forall c, 0 <= class_val c < 256.
Proof. intros c. destruct c; cbn; lia. Qed.
Lemma ttype_val_bound : forall t, 0 <= Z.of_N (ttype_val t) < 256.
Proof. intros t. destruct t; cbn; lia. Qed.

Lemma pack_u1 : forall z, 0 <= z < 256 -> exists b, pack_u 1 z = Ok b.
Proof. intros z H. eexists. apply pack_u_ok. split; [change (256 ^ Z.of_nat 1) with 256; lia|reflexivity]. Qed.

Definition not_float (t : ttype) : bool := match t with INT | FLOAT => false | _ => true end.

Lemma tval_size_other : forall t, t_type t <> INT -> t_type t <> FLOAT ->
  tval_size t = match t_val t with
                | TNone => Ok (0, Ok [])
                | TStr s => b <- utf8_encode s ;; Ok (Z.of_nat (List.length s), Ok (pack_s (List.length s) b))
                | _ => Err EGeneric
                end.
Proof. intros t H1 H2. unfold tval_size. destruct (t_type t); try reflexivity; contradiction. Qed.

Lemma value_fits_other : forall t, t_type t <> INT -> t_type t <> FLOAT ->
  value_fits t = match t_val t with
                 | TNone => True
                 | TStr s => Z.of_nat (List.length s) <= 65535 /\ Forall encodable s
                 | _ => False
                 end.
Proof. intros t H1 H2. unfold value_fits. destruct (t_type t); try reflexivity; contradiction. Qed.

Definition ttype_dec : forall a b : ttype, {a = b} + {a <> b}.
Proof. decide equality. Defined.

(** The value part of a node, with its size field in range. *)
Lemma value_fits_iff : forall t, (t_type t = FLOAT -> forall z, t_val t <> TInt z) ->
  ((exists sz b, val_bytes t = Ok (sz, b) /\ 0 <= sz <= 65535) <-> value_fits t).
Proof.
  intros t Hf. unfold val_bytes. destruct (ttype_dec (t_type t) INT) as [HI|HI]; [|destruct (ttype_dec (t_type t) FLOAT) as [HF|HF]].
  - unfold tval_size, value_fits. rewrite HI. cbn [bind]. destruct (t_val t) as [|s|z|f]; cbn [bind];
      try (split; [intros (sz & b & C & _); discriminate|contradiction]).
    split.
    + intros (sz & b & H & _). destruct (pack_i32 z) as [x|x] eqn:P; cbn [bind] in H; [|discriminate].
      apply pack_i32_ok in P as [P _]. lia.
    + intros H. destruct (pack_i32 z) as [x|x] eqn:P; cbn [bind].
      * exists 4, x. split; [reflexivity|lia].
      * exfalso. assert (pack_i32 z = Ok (le_bytes 4 (Z.to_N (z mod 4294967296)))) by (apply pack_i32_ok; split; [lia|reflexivity]).
        congruence.
  - specialize (Hf HF). unfold tval_size, value_fits. rewrite HF. cbn [bind]. destruct (t_val t) as [|s|z|f]; cbn [bind];
      try (split; [intros (sz & b & C & _); discriminate|contradiction]).
    + exfalso. now apply (Hf z).
    + rewrite <- f32_fits. split.
      * intros (sz & b & H & _). destruct (pack_f32 f) as [x|x]; cbn [bind] in H; [eauto|discriminate].
      * intros (b & ->). cbn [bind]. exists 4, b. split; [reflexivity|lia].
  - rewrite tval_size_other, value_fits_other by assumption. destruct (t_val t) as [|s|z|f]; cbn [bind];
      try (split; [intros (sz & b & C & _); discriminate|contradiction]).
    + split; [auto|]. intros _. exists 0, []. split; [reflexivity|lia].
    + rewrite encodable_scalar, <- utf8_encode_ok. split.
      * intros (sz & b & H & Hs). destruct (utf8_encode s) as [x|x]; cbn [bind] in H; [|discriminate].
        injection H as <- <-. split; [lia|eauto].
      * intros [Hl (x & ->)]. cbn [bind]. eexists _, _. split; [reflexivity|lia].
Qed.

Lemma encode_one_inv : forall n b, encode_one n = Ok b ->
  exists sz v ids h,
    val_bytes (n_tok n) = Ok (sz, v) /\ mapM (fun k => pack_u 2 (n_id k)) (n_kids n) = Ok ids /\
    (exists h1 h2 h3 h4 h5 h6,
       pack_u 2 (n_id n) = Ok h1 /\ pack_u 1 (class_val (n_cls n)) = Ok h2 /\
       pack_u 1 (Z.of_N (ttype_val (t_type (n_tok n)))) = Ok h3 /\ pack_u 2 (t_pos (n_tok n)) = Ok h4 /\
       pack_u 2 sz = Ok h5 /\ pack_u 2 (Z.of_nat (List.length (n_kids n))) = Ok h6 /\
       h = h1 ++ h2 ++ h3 ++ h4 ++ h5 ++ h6) /\
    b = h ++ v ++ List.concat ids.
Proof.
  intros [c t i r ks] b H. cbn [encode_one n_tok n_id n_cls n_kids] in *. unfold val_bytes.
  destruct (tval_size t) as [[sz tv]|e]; cbn [bind] in *; [|discriminate].
  destruct (pack_u 2 i) as [h1|e] eqn:E1; cbn [bind] in H; [|discriminate].
  destruct (pack_u 1 (class_val c)) as [h2|e] eqn:E2; cbn [bind] in H; [|discriminate].
  destruct (pack_u 1 (Z.of_N (ttype_val (t_type t)))) as [h3|e] eqn:E3; cbn [bind] in H; [|discriminate].
  destruct (pack_u 2 (t_pos t)) as [h4|e] eqn:E4; cbn [bind] in H; [|discriminate].
  destruct (pack_u 2 sz) as [h5|e] eqn:E5; cbn [bind] in H; [|discriminate].
  destruct (pack_u 2 (Z.of_nat (List.length ks))) as [h6|e] eqn:E6; cbn [bind] in H; [|discriminate].
  destruct tv as [v|e]; cbn [bind] in *; [|discriminate].
  destruct (mapM (fun k => pack_u 2 (n_id k)) ks) as [ids|e] eqn:E7; cbn [bind] in H; [|discriminate].
  apply Ok_inj in H. subst b. exists sz, v, ids, (h1 ++ h2 ++ h3 ++ h4 ++ h5 ++ h6).
  split; [reflexivity|]. split; [reflexivity|]. split; [|now rewrite !app_assoc].
  exists h1, h2, h3, h4, h5, h6. repeat split; assumption.
Qed.

Lemma encode_one_ok : forall n, buildable n ->
  ((exists b, encode_one n = Ok b) <->
   node_fits n /\ Z.of_nat (List.length (n_kids n)) <= 65535 /\ Forall (fun k => 0 <= n_id k <= 65535) (n_kids n)).
Proof.
  intros n [_ Hf]. unfold node_fits. rewrite <- (value_fits_iff (n_tok n) Hf). split.
  - intros (b & H). apply encode_one_inv in H as (sz & v & ids & h & V & I & (h1 & h2 & h3 & h4 & h5 & h6 & E1 & _ & _ & E4 & E5 & E6 & _) & _).
    assert (A1 : 0 <= n_id n <= 65535) by (apply pack_u2; eauto).
    assert (A4 : 0 <= t_pos (n_tok n) <= 65535) by (apply pack_u2; eauto).
    assert (A5 : 0 <= sz <= 65535) by (apply pack_u2; eauto).
    assert (A6 : 0 <= Z.of_nat (List.length (n_kids n)) <= 65535) by (apply pack_u2; eauto).
    split; [split; [exact A1|split; [exact A4|eauto]]|]. split; [lia|].
    apply mapM_Forall2 in I. apply Forall_forall. intros k Hk.
    clear - I Hk. induction I as [|x y l l' H _ IH]; [contradiction|]. destruct Hk as [->|Hk]; [apply pack_u2; eauto|auto].
  - intros ((A1 & A4 & sz & v & V & A5) & A6 & A7). destruct n as [c t i r ks]. cbn [n_tok n_id n_kids encode_one] in *.
    unfold val_bytes in V. destruct (tval_size t) as [[sz' tv]|e]; cbn [bind] in *; [|discriminate].
    destruct tv as [v'|e]; cbn [bind] in V; [|discriminate]. injection V as -> ->.
    destruct (proj2 (pack_u2 i) A1) as [h1 ->]. cbn [bind].
    destruct (pack_u1 _ (class_val_bound c)) as [h2 ->]. cbn [bind].
    destruct (pack_u1 _ (ttype_val_bound (t_type t))) as [h3 ->]. cbn [bind].
    destruct (proj2 (pack_u2 (t_pos t)) A4) as [h4 ->]. cbn [bind].
    destruct (proj2 (pack_u2 sz) A5) as [h5 ->]. cbn [bind].
    destruct (proj2 (pack_u2 (Z.of_nat (List.length ks))) ltac:(lia)) as [h6 ->]. cbn [bind].
    assert (I : exists ids, mapM (fun k => pack_u 2 (n_id k)) ks = Ok ids).
    { clear - A7. induction A7 as [|k ks H _ [ids IH]]; [eexists; reflexivity|]. cbn [mapM].
      destruct (proj2 (pack_u2 (n_id k)) H) as [x ->]. rewrite IH. cbn [bind]. eauto. }
    destruct I as [ids ->]. cbn [bind]. eauto.
Qed.

Lemma mapM_ok : forall {A B} (f : A -> res B) l, (exists ys, mapM f l = Ok ys) <-> Forall (fun x => exists y, f x = Ok y) l.
Proof.
  intros A B f. induction l as [|a l IH]; cbn [mapM].
  - split; [constructor|eauto].
  - split.
    + intros (ys & H). destruct (f a) as [y|e] eqn:E1; cbn [bind] in H; [|discriminate].
      destruct (mapM f l) as [zs|e] eqn:E2; cbn [bind] in H; [|discriminate].
      constructor; [eauto|apply IH; eauto].
    + intros H. inversion H as [|? ? [y Hy] H2]; subst. apply IH in H2 as [ys Hys]. rewrite Hy, Hys. cbn [bind]. eauto.
Qed.

Lemma kids_le : forall a, (List.length (n_kids a) < List.length (subtrees a))%nat.
Proof.
  intros a. rewrite subtrees_unfold. cbn [List.length].
  induction (n_kids a) as [|k ks IH]; cbn [flat_map List.length]; [lia|].
  rewrite app_length. rewrite (subtrees_unfold k). cbn [List.length]. lia.
Qed.

Lemma subtrees_sub : forall a n, In n (subtrees a) -> (List.length (subtrees n) <= List.length (subtrees a))%nat.
Proof.
  induction a as [c t i r ks IH] using ast_ind'. intros n H. cbn [subtrees n_kids] in H. destruct H as [<-|H]; [lia|].
  apply in_flat_map in H as (k & Hk & H). cbn [subtrees n_kids List.length].
  assert (L : (List.length (subtrees n) <= List.length (subtrees k))%nat).
  { rewrite Forall_forall in IH. now apply IH. }
  assert (L2 : (List.length (subtrees k) <= List.length (flat_map subtrees ks))%nat); [|lia].
  clear - Hk. induction ks as [|x ks IH]; [contradiction|]. cbn [flat_map]. rewrite app_length.
  destruct Hk as [->|Hk]; [lia|]. specialize (IH Hk). lia.
Qed.

Lemma subtrees_in_trans : forall a n k, In n (subtrees a) -> In k (n_kids n) -> In k (subtrees a).
Proof.
  induction a as [c t i r ks IH] using ast_ind'. intros n k H Hk. cbn [subtrees n_kids] in H. destruct H as [<-|H].
  - apply subtrees_kids. exact Hk.
  - apply in_flat_map in H as (x & Hx & H). apply (subtrees_trans _ x); [exact Hx|].
    rewrite Forall_forall in IH. exact (IH x Hx n k H Hk).
Qed.

Lemma encode_fits : forall a b64, Forall buildable (subtrees a) -> ((exists b, encode a b64 = Ok b) <-> fits a).
Proof.
  intros a b64 Hb. unfold encode, fits. rewrite encode_node_eq. split.
  - intros (b & H). destruct (mapM encode_one (subtrees a)) as [l|e] eqn:M; cbn [bind] in H; [|discriminate].
    destruct (pack_u 1 1) as [h1|e]; cbn [bind] in H; [|discriminate].
    destruct (pack_u 2 (Z.of_nat (List.length l))) as [h2|e] eqn:E2; cbn [bind] in H; [|discriminate].
    assert (L : List.length l = List.length (subtrees a)).
    { apply mapM_Forall2 in M. symmetry. exact (F2_length M). }
    assert (A : 0 <= Z.of_nat (List.length l) <= 65535) by (apply pack_u2; eauto).
    split; [|lia]. assert (M2 : exists l, mapM encode_one (subtrees a) = Ok l) by eauto.
    apply mapM_ok in M2. apply Forall_forall. intros n Hn.
    rewrite Forall_forall in M2, Hb. specialize (M2 n Hn). apply (encode_one_ok n (Hb n Hn)) in M2. tauto.
  - intros [F L].
    assert (M : exists l, mapM encode_one (subtrees a) = Ok l).
    { apply mapM_ok. apply Forall_forall. intros n Hn. rewrite Forall_forall in F, Hb.
      apply (encode_one_ok n (Hb n Hn)). split; [exact (F n Hn)|].
      pose proof (kids_le n). pose proof (subtrees_sub a n Hn). split; [lia|].
      apply Forall_forall. intros k Hk. destruct (F k (subtrees_in_trans a n k Hn Hk)) as [X _]. exact X. }
    destruct M as [l M]. rewrite M. cbn [bind].
    assert (Ll : List.length l = List.length (subtrees a)).
    { apply mapM_Forall2 in M. symmetry. exact (F2_length M). }
    destruct (pack_u1 1 ltac:(lia)) as [h1 ->]. cbn [bind].
    destruct (proj2 (pack_u2 (Z.of_nat (List.length l))) ltac:(lia)) as [h2 ->]. cbn [bind].
    assert (Hr : 0 <= n_id a <= 65535).
    { rewrite subtrees_unfold in F. inversion F as [|? ? [X _] _]; subst. exact X. }
    destruct (proj2 (pack_u2 (n_id a)) Hr) as [h3 ->]. cbn [bind]. eauto.
Qed.
