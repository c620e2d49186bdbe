(** * FloatProofs: rounding to nearest even and the single precision format *)

From Coq Require Import NArith ZArith List Bool Lia.
From Coq Require Import Floats.SpecFloat.
From Verif Require Import PyBase PyNum Struct.
Import ListNotations.
Open Scope Z_scope.

(** ** Powers and digits *)

Lemma pow2_pos : forall n, 0 <= n -> 0 < 2 ^ n.
Proof. intros n H. apply Z.pow_pos_nonneg; lia. Qed.

Lemma pow2_S : forall n, 0 <= n -> 2 ^ (n + 1) = 2 * 2 ^ n.
Proof. intros n H. rewrite Z.pow_add_r by lia. lia. Qed.

Lemma digits_bounds : forall p, 2 ^ (Z.pos (digits2_pos p) - 1) <= Z.pos p < 2 ^ Z.pos (digits2_pos p).
Proof.
  induction p as [p IH|p IH|]; cbn [digits2_pos].
  - rewrite Pos2Z.inj_succ. set (d := Z.pos (digits2_pos p)) in *.
    replace (Z.succ d - 1) with ((d - 1) + 1) by lia. replace (Z.succ d) with (d + 1) by lia.
    rewrite !pow2_S by lia. rewrite Pos2Z.inj_xI. lia.
  - rewrite Pos2Z.inj_succ. set (d := Z.pos (digits2_pos p)) in *.
    replace (Z.succ d - 1) with ((d - 1) + 1) by lia. replace (Z.succ d) with (d + 1) by lia.
    rewrite !pow2_S by lia. rewrite (Pos2Z.inj_xO p). lia.
  - cbn. lia.
Qed.

Lemma digits_le : forall p n, 0 <= n -> Z.pos p < 2 ^ n -> Z.pos (digits2_pos p) <= n.
Proof.
  intros p n Hn H. destruct (Z_le_gt_dec (Z.pos (digits2_pos p)) n) as [L|L]; [exact L|exfalso].
  pose proof (digits_bounds p) as [B _].
  assert (2 ^ n <= 2 ^ (Z.pos (digits2_pos p) - 1)) by (apply Z.pow_le_mono_r; lia). lia.
Qed.

Lemma digits_ge : forall p n, 0 <= n -> 2 ^ n <= Z.pos p -> n + 1 <= Z.pos (digits2_pos p).
Proof.
  intros p n Hn H. destruct (Z_le_gt_dec (n + 1) (Z.pos (digits2_pos p))) as [L|L]; [exact L|exfalso].
  pose proof (digits_bounds p) as [_ B].
  assert (2 ^ Z.pos (digits2_pos p) <= 2 ^ n) by (apply Z.pow_le_mono_r; lia). lia.
Qed.

Lemma digits_shift : forall d p, Z.pos (digits2_pos (shift_pos d p)) = Z.pos (digits2_pos p) + Z.pos d.
Proof.
  intros d p. unfold shift_pos.
  induction d as [|d IH] using Pos.peano_ind.
  - cbn. lia.
  - rewrite Pos.iter_succ. cbn [digits2_pos]. lia.
Qed.

Lemma shift_val : forall d p, Z.pos (shift_pos d p) = Z.pos p * 2 ^ Z.pos d.
Proof. intros d p. rewrite shift_pos_correct. rewrite Z.pow_pos_fold. lia. Qed.

(** ** Shifting right with guard and sticky bits *)

Lemma iter_add : forall {A} (f : A -> A) a b x, Nat.iter (a + b) f x = Nat.iter a f (Nat.iter b f x).
Proof. intros A f a b x. induction a as [|a IH]; [reflexivity|]. cbn [Nat.add Nat.iter nat_rect]. now f_equal. Qed.

Lemma iter_pos_nat : forall {A} (f : A -> A) n x, iter_pos f n x = Nat.iter (Pos.to_nat n) f x.
Proof.
  intros A f. induction n as [n IH|n IH|]; intros x; cbn [iter_pos].
  - rewrite !IH. rewrite <- iter_add. change (f x) with (Nat.iter 1 f x). rewrite <- iter_add. f_equal. lia.
  - rewrite !IH. rewrite <- iter_add. f_equal. lia.
  - reflexivity.
Qed.

Definition shifted (m : Z) (k : nat) (x : shr_record) : Prop :=
  exists rem, m = shr_m x * 2 ^ Z.of_nat k + rem /\ 0 <= rem < 2 ^ Z.of_nat k /\ 0 <= shr_m x /\
              (shr_r x = true <-> 2 ^ Z.of_nat k <= 2 * rem) /\
              (shr_s x = true <-> rem <> 0 /\ 2 * rem <> 2 ^ Z.of_nat k).

Lemma shifted_step : forall m k x, shifted m k x -> shifted m (S k) (shr_1 x).
Proof.
  intros m k [q r s] (rem & E & B & Q & R & S). cbn [shr_m shr_r shr_s] in *.
  replace (Z.of_nat (Datatypes.S k)) with (Z.of_nat k + 1) by lia.
  assert (P : 0 < 2 ^ Z.of_nat k) by (apply pow2_pos; lia).
  set (w := 2 ^ Z.of_nat k) in *.
  assert (RS : (r || s)%bool = true <-> rem <> 0).
  { destruct R as [R1 R2], S as [S1 S2].
    destruct r, s; cbn [orb]; split; intros H; try reflexivity; try discriminate.
    - specialize (R1 eq_refl). lia.
    - specialize (R1 eq_refl). lia.
    - specialize (S1 eq_refl). lia.
    - exfalso. destruct (Z.eq_dec (2 * rem) w) as [C|C].
      + assert (false = true) by (apply R2; lia). discriminate.
      + assert (false = true) by (apply S2; lia). discriminate. }
  unfold shr_1. unfold shifted. fold w.
  replace (Z.of_nat (Datatypes.S k)) with (Z.of_nat k + 1) by lia. rewrite pow2_S by lia. fold w.
  destruct q as [|[p|p|]|p]; [| | | |lia]; cbn [shr_m shr_r shr_s].
  - exists rem. split; [lia|]. split; [lia|]. split; [lia|]. split.
    + split; [discriminate|lia].
    + rewrite RS. lia.
  - exists (w + rem). rewrite Pos2Z.inj_xI in E. split; [lia|]. split; [lia|]. split; [lia|]. split.
    + split; [lia|reflexivity].
    + rewrite RS. lia.
  - exists rem. rewrite (Pos2Z.inj_xO p) in E. split; [lia|]. split; [lia|]. split; [lia|]. split.
    + split; [discriminate|lia].
    + rewrite RS. lia.
  - exists (w + rem). split; [lia|]. split; [lia|]. split; [lia|]. split.
    + split; [lia|reflexivity].
    + rewrite RS. lia.
Qed.

Lemma shifted_iter : forall m k, 0 <= m -> shifted m k (Nat.iter k shr_1 (Build_shr_record m false false)).
Proof.
  intros m k Hm. induction k as [|k IH].
  - exists 0. cbn. split; [lia|]. split; [lia|]. split; [lia|]. split; split; intros; try discriminate; lia.
  - cbn [Nat.iter nat_rect]. apply shifted_step. exact IH.
Qed.

(** [q] is [m / 2^k] rounded to the nearest integer, ties to even. *)
Definition nearest (m k q : Z) : Prop :=
  - 2 ^ k <= 2 * (m - q * 2 ^ k) <= 2 ^ k /\
  (Z.abs (2 * (m - q * 2 ^ k)) = 2 ^ k -> Z.even q = true).

Lemma round_shifted : forall m k x, shifted m k x ->
  nearest m (Z.of_nat k) (round_nearest_even (shr_m x) (loc_of_shr_record x)) /\
  0 <= round_nearest_even (shr_m x) (loc_of_shr_record x).
Proof.
  intros m k [q r s] (rem & E & B & Q & R & S). cbn [shr_m shr_r shr_s] in *.
  assert (P : 0 < 2 ^ Z.of_nat k) by (apply pow2_pos; lia).
  unfold nearest. set (w := 2 ^ Z.of_nat k) in *.
  destruct r, s; cbn [loc_of_shr_record round_nearest_even].
  - assert (w <= 2 * rem) by (now apply R). assert (rem <> 0 /\ 2 * rem <> w) by (now apply S).
    split; [|lia]. subst m. replace (q * w + rem - (q + 1) * w) with (rem - w) by ring. lia.
  - assert (H1 : w <= 2 * rem) by (now apply R).
    assert (H : 2 * rem = w).
    { destruct (Z.eq_dec (2 * rem) w) as [C|C]; [exact C|exfalso].
      assert (false = true) by (apply S; lia). discriminate. }
    destruct (Z.even q) eqn:Ev.
    + split; [|lia]. subst m. replace (q * w + rem - q * w) with rem by ring. split; [lia|]. intros _. exact Ev.
    + split; [|lia]. subst m. replace (q * w + rem - (q + 1) * w) with (rem - w) by ring. split; [lia|].
      intros _. rewrite Z.even_add. rewrite Ev. reflexivity.
  - assert (~ w <= 2 * rem) by (intros C; apply R in C; discriminate).
    split; [|lia]. subst m. replace (q * w + rem - q * w) with rem by ring. lia.
  - assert (~ w <= 2 * rem) by (intros C; apply R in C; discriminate).
    split; [|lia]. subst m. replace (q * w + rem - q * w) with rem by ring. lia.
Qed.

(** ** The rounded result *)

Section Format.
Variables prec emax : Z.
Hypothesis Hprec : 1 < prec.
Hypothesis Hemax : prec < emax.

Definition E (m : positive) (e : Z) : Z := Z.pos (digits2_pos m) + e.

(** The result of rounding [m * 2^e] when the exponent is already small enough. *)
Lemma round_aux : forall s m e, e <= fexp prec emax (E m e) ->
  exists q, nearest (Z.pos m) (fexp prec emax (E m e) - e) q /\ 0 <= q <= 2 ^ prec /\
    let x := fexp prec emax (E m e) in
    binary_round_aux prec emax s (Z.pos m) e loc_Exact =
      if q =? 0 then S754_zero s
      else if q =? 2 ^ prec then
        (if (x + 1 <=? emax - prec) then S754_finite s (Z.to_pos (2 ^ (prec - 1))) (x + 1) else S754_infinity s)
      else (if x <=? emax - prec then S754_finite s (Z.to_pos q) x else S754_infinity s).
Proof.
  intros s m e He. cbv zeta. set (x := fexp prec emax (E m e)) in *.
  assert (Hx : x = Z.max (E m e - prec) (3 - emax - prec)) by reflexivity.
  pose proof (digits_bounds m) as Dm.
  unfold binary_round_aux, shr_fexp. cbn [Zdigits2 shr_record_of_loc].
  change (fexp prec emax (Z.pos (digits2_pos m) + e)) with x.
  (* first shift *)
  assert (S1 : exists y, shr (Build_shr_record (Z.pos m) false false) e (x - e) = (y, x) /\
                         shifted (Z.pos m) (Z.to_nat (x - e)) y).
  { unfold shr. destruct (x - e) as [|p|p] eqn:Ep; [| |lia].
    - eexists. split; [f_equal; lia|]. apply (shifted_iter (Z.pos m) 0). lia.
    - rewrite iter_pos_nat. eexists. split; [f_equal; lia|].
      rewrite Z2Nat.inj_pos. apply shifted_iter. lia. }
  destruct S1 as (y & -> & Sh). destruct (round_shifted _ _ _ Sh) as [Nq Pq].
  rewrite Z2Nat.id in Nq by lia.
  set (q := round_nearest_even (shr_m y) (loc_of_shr_record y)) in *.
  exists q. split; [exact Nq|].
  assert (Hw : 0 < 2 ^ (x - e)) by (apply pow2_pos; lia).
  assert (Qb : q <= 2 ^ prec).
  { destruct Nq as [[N1 N2] N3].
    assert (Z.pos m < 2 ^ prec * 2 ^ (x - e)).
    { rewrite <- Z.pow_add_r by lia.
      assert (2 ^ Z.pos (digits2_pos m) <= 2 ^ (prec + (x - e))) by (apply Z.pow_le_mono_r; unfold E in Hx; lia).
      lia. }
    set (w := 2 ^ (x - e)) in *. set (P := 2 ^ prec) in *.
    destruct (Z_le_gt_dec q P) as [L|L]; [exact L|exfalso].
    assert ((P + 1) * w <= q * w) by (apply Z.mul_le_mono_nonneg_r; lia). lia. }
  split; [lia|].
  assert (PP : 2 ^ prec = 2 * 2 ^ (prec - 1)) by (rewrite <- pow2_S by lia; f_equal; lia).
  assert (P1 : 0 < 2 ^ (prec - 1)) by (apply pow2_pos; lia).
  destruct (q =? 0) eqn:E0.
  - apply Z.eqb_eq in E0. rewrite E0. cbn [Zdigits2]. rewrite Z.add_0_l.
    assert (fexp prec emax x - x <= 0) by (unfold fexp, emin; lia).
    unfold shr. destruct (fexp prec emax x - x); [reflexivity|lia|reflexivity].
  - apply Z.eqb_neq in E0. destruct q as [|q0|q0]; [lia| |lia].
    cbn [Zdigits2]. destruct (Z.pos q0 =? 2 ^ prec) eqn:E1.
    + apply Z.eqb_eq in E1.
      assert (D : Z.pos (digits2_pos q0) = prec + 1).
      { apply Z.le_antisymm.
        - apply digits_le; [lia|]. rewrite pow2_S by lia. lia.
        - apply digits_ge; lia. }
      rewrite D.
      replace (fexp prec emax (prec + 1 + x) - x) with 1 by (unfold fexp, emin; lia).
      cbn [shr iter_pos].
      assert (Hq : exists r, q0 = xO r /\ Z.pos r = 2 ^ (prec - 1)).
      { destruct q0 as [r|r|].
        - rewrite Pos2Z.inj_xI in E1. lia.
        - exists r. rewrite (Pos2Z.inj_xO r) in E1. split; [reflexivity|lia].
        - exfalso. lia. }
      destruct Hq as (r & -> & Hr). cbn [shr_1 shr_m]. rewrite <- Hr. cbn [Z.to_pos].
      reflexivity.
    + apply Z.eqb_neq in E1.
      assert (D : Z.pos (digits2_pos q0) <= prec) by (apply digits_le; lia).
      assert (fexp prec emax (Z.pos (digits2_pos q0) + x) - x <= 0) by (unfold fexp, emin; lia).
      unfold shr. destruct (fexp prec emax (Z.pos (digits2_pos q0) + x) - x); [|lia|];
        cbn [shr_m Z.to_pos]; reflexivity.
Qed.

Lemma round_spec : forall s m e, exists q,
  let x := fexp prec emax (E m e) in
  (forall lo, lo <= e -> lo <= x -> nearest (Z.pos m * 2 ^ (e - lo)) (x - lo) q) /\ 0 <= q <= 2 ^ prec /\
  binary_round prec emax s m e =
      if q =? 0 then S754_zero s
      else if q =? 2 ^ prec then
        (if (x + 1 <=? emax - prec) then S754_finite s (Z.to_pos (2 ^ (prec - 1))) (x + 1) else S754_infinity s)
      else (if x <=? emax - prec then S754_finite s (Z.to_pos q) x else S754_infinity s).
Proof.
  intros s m e. cbv zeta. unfold binary_round, shl_align.
  change (fexp prec emax (Z.pos (digits2_pos m) + e)) with (fexp prec emax (E m e)).
  set (x := fexp prec emax (E m e)).
  assert (C : forall m' e' q, Z.pos m' * 2 ^ (e' - Z.min e e') = Z.pos m * 2 ^ (e - Z.min e e') -> e' <= e -> e' <= x ->
            nearest (Z.pos m') (x - e') q ->
            forall lo, lo <= e -> lo <= x -> nearest (Z.pos m * 2 ^ (e - lo)) (x - lo) q).
  { intros m' e' q Hv L1 L2 [N1 N2] lo Hlo Hlo2. rewrite Z.min_r in Hv by lia.
    replace (e' - e') with 0 in Hv by lia. rewrite Z.mul_1_r in Hv. rewrite Hv in N1, N2. unfold nearest.
    assert (Pw : 0 < 2 ^ (x - e')) by (apply pow2_pos; lia).
    destruct (Z_le_gt_dec lo e') as [Le|Le].
    - replace (e - lo) with ((e - e') + (e' - lo)) by lia. replace (x - lo) with ((x - e') + (e' - lo)) by lia.
      rewrite !Z.pow_add_r by lia. assert (0 < 2 ^ (e' - lo)) by (apply pow2_pos; lia).
      set (w := 2 ^ (x - e')) in *. set (u := 2 ^ (e' - lo)) in *. set (a := Z.pos m * 2 ^ (e - e')) in *.
      replace (Z.pos m * (2 ^ (e - e') * u)) with (a * u) by (unfold a; ring).
      replace (2 * (a * u - q * (w * u))) with (2 * (a - q * w) * u) by ring.
      split; [nia|]. intros T. apply N2. rewrite Z.abs_mul in T. rewrite (Z.abs_eq u) in T by lia. nia.
    - replace (e - e') with ((e - lo) + (lo - e')) in * by lia. replace (x - e') with ((x - lo) + (lo - e')) in * by lia.
      rewrite !Z.pow_add_r in * by lia. assert (0 < 2 ^ (lo - e')) by (apply pow2_pos; lia).
      assert (0 < 2 ^ (x - lo)) by (apply pow2_pos; lia).
      set (w := 2 ^ (x - lo)) in *. set (u := 2 ^ (lo - e')) in *. set (a := Z.pos m * 2 ^ (e - lo)) in *.
      replace (Z.pos m * (2 ^ (e - lo) * u)) with (a * u) in * by (unfold a; ring).
      replace (2 * (a * u - q * (w * u))) with (2 * (a - q * w) * u) in * by ring.
      split; [nia|]. intros T. apply N2. rewrite Z.abs_mul, (Z.abs_eq u) by lia. rewrite T. reflexivity. }
  destruct (x - e) as [|d|d] eqn:Ed.
  - destruct (round_aux s m e ltac:(fold x; lia)) as (q & Nq & Bq & Rq). cbv zeta in Rq. fold x in Nq, Rq.
    exists q. split; [|split; [exact Bq|exact Rq]]. apply (C m e); [lia|lia|lia|exact Nq].
  - destruct (round_aux s m e ltac:(fold x; lia)) as (q & Nq & Bq & Rq). cbv zeta in Rq. fold x in Nq, Rq.
    exists q. split; [|split; [exact Bq|exact Rq]]. apply (C m e); [lia|lia|lia|exact Nq].
  - assert (EE : E (shift_pos d m) x = E m e) by (unfold E; rewrite digits_shift; lia).
    destruct (round_aux s (shift_pos d m) x ltac:(rewrite EE; fold x; lia)) as (q & Nq & Bq & Rq).
    cbv zeta in Rq. rewrite EE in Nq, Rq. fold x in Nq, Rq.
    exists q. split; [|split; [exact Bq|exact Rq]]. apply (C (shift_pos d m) x); [|lia|lia|exact Nq].
    rewrite shift_val. rewrite Z.min_r by lia. replace (x - x) with 0 by lia.
    replace (e - x) with (Z.pos d) by lia. lia.
Qed.

(** A number of the format is not changed. *)
Lemma round_exact : forall s m e m0 e0 lo, lo <= e -> lo <= e0 -> lo <= emin prec emax ->
  Z.pos m * 2 ^ (e - lo) = Z.pos m0 * 2 ^ (e0 - lo) ->
  Z.pos m0 < 2 ^ prec -> emin prec emax <= e0 <= emax - prec ->
  exists m1 e1, binary_round prec emax s m e = S754_finite s m1 e1 /\
                emin prec emax <= e1 /\ Z.pos m * 2 ^ (e - lo) = Z.pos m1 * 2 ^ (e1 - lo).
Proof.
  intros s m e m0 e0 lo L1 L2 L3 Hv Hm He.
  destruct (round_spec s m e) as (q & Nq & Bq & Rq). cbv zeta in Nq, Rq.
  set (x := fexp prec emax (E m e)) in *.
  assert (Hx : x = Z.max (E m e - prec) (3 - emax - prec)) by reflexivity. unfold emin in *.
  pose proof (digits_bounds m) as [D1 D2].
  assert (Pe : 0 < 2 ^ (e - lo)) by (apply pow2_pos; lia).
  assert (HE : E m e <= prec + e0).
  { destruct (Z_le_gt_dec (E m e) (prec + e0)) as [L|L]; [exact L|exfalso]. unfold E in L.
    assert (A1 : 2 ^ (prec + (e0 - lo)) <= 2 ^ (Z.pos (digits2_pos m) - 1 + (e - lo))) by (apply Z.pow_le_mono_r; lia).
    rewrite !Z.pow_add_r in A1 by lia.
    assert (A2 : 0 < 2 ^ (e0 - lo)) by (apply pow2_pos; lia). nia. }
  assert (Xe : x <= e0) by lia.
  specialize (Nq lo L1 ltac:(lia)).
  assert (Q : q = Z.pos m0 * 2 ^ (e0 - x)).
  { rewrite Hv in Nq. replace (e0 - lo) with ((e0 - x) + (x - lo)) in Nq by lia.
    rewrite Z.pow_add_r in Nq by lia. destruct Nq as [[N1 N2] _].
    assert (0 < 2 ^ (x - lo)) by (apply pow2_pos; lia).
    set (w := 2 ^ (x - lo)) in *. set (a := Z.pos m0 * 2 ^ (e0 - x)) in *.
    replace (2 * (Z.pos m0 * (2 ^ (e0 - x) * w) - q * w)) with (2 * (a - q) * w) in * by (unfold a; ring).
    nia. }
  assert (Q0 : 0 < q) by (subst q; assert (0 < 2 ^ (e0 - x)) by (apply pow2_pos; lia); nia).
  assert (V : Z.pos m * 2 ^ (e - lo) = q * 2 ^ (x - lo)).
  { rewrite Hv, Q. replace (e0 - lo) with ((e0 - x) + (x - lo)) by lia. rewrite Z.pow_add_r by lia. ring. }
  assert (QP : q <> 2 ^ prec).
  { intros C. rewrite C in V. rewrite <- Z.pow_add_r in V by lia.
    assert (A1 : 2 ^ (Z.pos (digits2_pos m) + (e - lo)) <= 2 ^ (prec + (x - lo))).
    { apply Z.pow_le_mono_r; [lia|]. unfold E in Hx. lia. }
    rewrite Z.pow_add_r in A1 by lia. nia. }
  destruct (Z.eqb_spec q 0) as [C|_]; [lia|]. destruct (Z.eqb_spec q (2 ^ prec)) as [C|_]; [contradiction|].
  destruct (Z.leb_spec x (emax - prec)) as [_|C]; [|lia].
  exists (Z.to_pos q), x. split; [exact Rq|]. split; [lia|]. rewrite Z2Pos.id by lia. exact V.
Qed.

(** A finite result is a canonical number of the format. *)
Lemma round_bounded : forall s m e s1 m1 e1, binary_round prec emax s m e = S754_finite s1 m1 e1 ->
  s1 = s /\ Z.pos m1 < 2 ^ prec /\ emin prec emax <= e1 <= emax - prec /\
  (2 ^ (prec - 1) <= Z.pos m1 \/ e1 = emin prec emax).
Proof.
  intros s m e s1 m1 e1 H. destruct (round_spec s m e) as (q & Nq & Bq & Rq). cbv zeta in Nq, Rq.
  rewrite H in Rq. clear H. set (x := fexp prec emax (E m e)) in *.
  assert (Hx : x = Z.max (E m e - prec) (3 - emax - prec)) by reflexivity. unfold emin in *.
  assert (PP : 2 ^ prec = 2 * 2 ^ (prec - 1)) by (rewrite <- pow2_S by lia; f_equal; lia).
  assert (P1 : 0 < 2 ^ (prec - 1)) by (apply pow2_pos; lia).
  destruct (Z.eqb_spec q 0) as [C|Q0]; [discriminate|]. destruct (Z.eqb_spec q (2 ^ prec)) as [C|C].
  - destruct (Z.leb_spec (x + 1) (emax - prec)) as [L|L]; [|discriminate]. injection Rq as -> -> ->.
    rewrite Z2Pos.id by lia. split; [reflexivity|]. lia.
  - destruct (Z.leb_spec x (emax - prec)) as [L|L]; [|discriminate]. injection Rq as -> -> ->.
    rewrite Z2Pos.id by lia. split; [reflexivity|]. split; [lia|]. split; [lia|].
    destruct (Z.eq_dec x (3 - emax - prec)) as [Hm|Hm]; [now right|left].
    assert (X : x = E m e - prec) by lia.
    pose proof (digits_bounds m) as [D1 D2]. set (lo := Z.min e x).
    specialize (Nq lo ltac:(lia) ltac:(lia)). destruct Nq as [[N1 N2] _].
    assert (A : 2 ^ (prec - 1) * 2 ^ (x - lo) <= Z.pos m * 2 ^ (e - lo)).
    { assert (Pe : 0 < 2 ^ (e - lo)) by (apply pow2_pos; lia).
      assert (2 ^ (Z.pos (digits2_pos m) - 1) * 2 ^ (e - lo) <= Z.pos m * 2 ^ (e - lo)) by nia.
      rewrite <- !Z.pow_add_r in * by lia.
      replace (prec - 1 + (x - lo)) with (Z.pos (digits2_pos m) - 1 + (e - lo)) by (unfold E in X; lia). lia. }
    assert (0 < 2 ^ (x - lo)) by (apply pow2_pos; lia).
    destruct (Z_le_gt_dec (2 ^ (prec - 1)) q) as [G|G]; [exact G|exfalso].
    set (w := 2 ^ (x - lo)) in *. set (P := 2 ^ (prec - 1)) in *.
    assert ((q + 1) * w <= P * w) by (apply Z.mul_le_mono_nonneg_r; lia). lia.
Qed.

(** No other outcome than a signed zero, a finite number or an infinity. *)
Lemma round_cases : forall s m e,
  binary_round prec emax s m e = S754_zero s \/ binary_round prec emax s m e = S754_infinity s \/
  exists m1 e1, binary_round prec emax s m e = S754_finite s m1 e1.
Proof.
  intros s m e. destruct (round_spec s m e) as (q & _ & _ & ->).
  destruct (q =? 0); [now left|]. destruct (q =? 2 ^ prec).
  - destruct (_ <=? _); [right; right; eauto|right; now left].
  - destruct (_ <=? _); [right; right; eauto|right; now left].
Qed.

(** Overflow: half a unit below the next power of two and above. *)
Lemma round_overflow : forall s m e lo, lo <= e -> lo <= emin prec emax ->
  (binary_round prec emax s m e = S754_infinity s <->
   (2 ^ (prec + 1) - 1) * 2 ^ (emax - prec - 1 - lo) <= Z.pos m * 2 ^ (e - lo)).
Proof.
  intros s m e lo L1 L2. destruct (round_spec s m e) as (q & Nq & Bq & Rq). cbv zeta in Nq, Rq.
  set (x := fexp prec emax (E m e)) in *.
  assert (Hx : x = Z.max (E m e - prec) (3 - emax - prec)) by reflexivity. unfold emin in *.
  specialize (Nq lo L1 ltac:(lia)). rewrite Rq. clear Rq.
  assert (PP : 2 ^ prec = 2 * 2 ^ (prec - 1)) by (rewrite <- pow2_S by lia; f_equal; lia).
  assert (P1 : 0 < 2 ^ (prec - 1)) by (apply pow2_pos; lia).
  pose proof (digits_bounds m) as [D1 D2].
  assert (Pe : 0 < 2 ^ (e - lo)) by (apply pow2_pos; lia).
  set (V := Z.pos m * 2 ^ (e - lo)) in *.
  assert (V1 : 2 ^ (E m e - 1 - lo) <= V).
  { unfold V, E. replace (Z.pos (digits2_pos m) + e - 1 - lo) with (Z.pos (digits2_pos m) - 1 + (e - lo)) by lia.
    rewrite Z.pow_add_r by lia. nia. }
  assert (V2 : V < 2 ^ (E m e - lo)).
  { unfold V, E. replace (Z.pos (digits2_pos m) + e - lo) with (Z.pos (digits2_pos m) + (e - lo)) by lia.
    rewrite Z.pow_add_r by lia. nia. }
  assert (Pu : 0 < 2 ^ (emax - prec - 1 - lo)) by (apply pow2_pos; lia).
  assert (U : forall n, 0 <= n -> 2 ^ (n + (emax - prec - 1 - lo)) = 2 ^ n * 2 ^ (emax - prec - 1 - lo)).
  { intros n Hn. apply Z.pow_add_r; lia. }
  set (u := 2 ^ (emax - prec - 1 - lo)) in *.
  assert (P2 : 2 ^ (prec + 1) = 2 * 2 ^ prec) by (apply pow2_S; lia).
  destruct (Z_lt_ge_dec (E m e) emax) as [H|H].
  - (* too small *)
    assert (X : x <= emax - prec - 1) by lia.
    assert (NV : ~ (2 ^ (prec + 1) - 1) * u <= V).
    { intros C. assert (2 ^ (E m e - lo) <= 2 ^ (prec + (emax - prec - 1 - lo))) by (apply Z.pow_le_mono_r; lia).
      rewrite U in * by lia. nia. }
    split; [|intros C; contradiction]. intros C. exfalso.
    destruct (q =? 0); [discriminate|]. destruct (q =? 2 ^ prec).
    + destruct (Z.leb_spec (x + 1) (emax - prec)) as [L|L]; [discriminate|lia].
    + destruct (Z.leb_spec x (emax - prec)) as [L|L]; [discriminate|lia].
  - assert (X : x = E m e - prec) by lia.
    assert (Q : 2 ^ (prec - 1) <= q).
    { destruct Nq as [[N1 N2] _].
      assert (A : 2 ^ (prec - 1) * 2 ^ (x - lo) <= V).
      { rewrite <- Z.pow_add_r by lia. replace (prec - 1 + (x - lo)) with (E m e - 1 - lo) by lia. exact V1. }
      assert (0 < 2 ^ (x - lo)) by (apply pow2_pos; lia).
      destruct (Z_le_gt_dec (2 ^ (prec - 1)) q) as [G|G]; [exact G|exfalso].
      set (w := 2 ^ (x - lo)) in *. set (P := 2 ^ (prec - 1)) in *.
      assert ((q + 1) * w <= P * w) by (apply Z.mul_le_mono_nonneg_r; lia). lia. }
    destruct (Z.eqb_spec q 0) as [C|_]; [lia|].
    destruct (Z_lt_ge_dec emax (E m e)) as [G|G].
    + (* too large *)
      assert (YV : (2 ^ (prec + 1) - 1) * u <= V).
      { assert (2 ^ (prec + 1 + (emax - prec - 1 - lo)) <= 2 ^ (E m e - 1 - lo)) by (apply Z.pow_le_mono_r; lia).
        rewrite U in * by lia. nia. }
      split; [intros _; exact YV|intros _].
      destruct (q =? 2 ^ prec).
      * destruct (Z.leb_spec (x + 1) (emax - prec)) as [L|L]; [lia|reflexivity].
      * destruct (Z.leb_spec x (emax - prec)) as [L|L]; [lia|reflexivity].
    + assert (HE : E m e = emax) by lia. rewrite HE in *.
      assert (W : 2 ^ (x - lo) = 2 * u).
      { unfold u. rewrite <- pow2_S by lia. f_equal. lia. }
      unfold nearest in Nq. rewrite W in Nq. destruct Nq as [[N1 N2] N3].
      destruct (Z.eqb_spec q (2 ^ prec)) as [C|C].
      * destruct (Z.leb_spec (x + 1) (emax - prec)) as [L|L]; [lia|].
        split; [intros _|reflexivity]. rewrite C in *. nia.
      * destruct (Z.leb_spec x (emax - prec)) as [L|L]; [|lia].
        split; [discriminate|]. intros Y. exfalso.
        assert (Ql : q <= 2 ^ prec - 1) by lia.
        assert (Z1 : q * (2 * u) <= (2 ^ prec - 1) * (2 * u)) by (apply Z.mul_le_mono_nonneg_r; lia).
        assert (Z2 : V - q * (2 * u) = u) by lia.
        rewrite Z2 in N3. specialize (N3 ltac:(lia)).
        assert (q = 2 ^ prec - 1) by nia. subst q. rewrite PP in N3.
        rewrite Z.even_sub, Z.even_mul in N3. discriminate.
Qed.
End Format.
