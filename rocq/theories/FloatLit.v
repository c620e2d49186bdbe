(** * FloatLit: a decimal literal is the double nearest to it (C87) *)

From Coq Require Import NArith ZArith List Bool Lia.
From Coq Require Import Floats.SpecFloat.
From Verif Require Import PyBase PyNum FloatSpec FloatProofs.
Import ListNotations.
Open Scope Z_scope.

(** ** Quotients *)

(** p over q, shifted right by k: quotient, guard bit and sticky bit. *)
Definition qshifted (p q : Z) (k : nat) (x : shr_record) : Prop :=
  exists rem, p = q * shr_m x * 2 ^ Z.of_nat k + rem /\ 0 <= rem < q * 2 ^ Z.of_nat k /\ 0 <= shr_m x /\
              (shr_r x = true <-> q * 2 ^ Z.of_nat k <= 2 * rem) /\
              (shr_s x = true <-> rem <> 0 /\ 2 * rem <> q * 2 ^ Z.of_nat k).
Lemma qshifted_step : forall p q k x, 0 < q -> qshifted p q k x -> qshifted p q (S k) (shr_1 x).
Proof.
  intros p0 d k [q r s] Hd (rem & E & B & Q & R & S). cbn [shr_m shr_r shr_s] in *.
  assert (P : 0 < d * 2 ^ Z.of_nat k) by (pose proof (pow2_pos (Z.of_nat k) ltac:(lia)); nia).
  replace (d * q * 2 ^ Z.of_nat k) with (q * (d * 2 ^ Z.of_nat k)) in E by ring.
  set (w := d * 2 ^ Z.of_nat k) in *.
  assert (RS : (r || s)%bool = true <-> rem <> 0).
  { destruct R as [R1 R2], S as [S1 S2].
    destruct r, s; cbn [orb]; split; intros H; try reflexivity; try discriminate.
    - specialize (R1 eq_refl). lia.
    - specialize (R1 eq_refl). lia.
    - specialize (S1 eq_refl). lia.
    - exfalso. destruct (Z.eq_dec (2 * rem) w) as [C|C].
      + assert (false = true) by (apply R2; lia). discriminate.
      + assert (false = true) by (apply S2; lia). discriminate. }
  unfold shr_1. unfold qshifted.
  replace (Z.of_nat (Datatypes.S k)) with (Z.of_nat k + 1) by lia. rewrite pow2_S by lia.
  replace (d * (2 * 2 ^ Z.of_nat k)) with (2 * w) by (unfold w; ring).
  assert (M : forall y, d * y * (2 * 2 ^ Z.of_nat k) = y * (2 * w)) by (intros y; unfold w; ring).
  destruct q as [|[p|p|]|p]; [| | | |lia]; cbn [shr_m shr_r shr_s]; rewrite M.
  - exists rem. split; [lia|]. split; [lia|]. split; [lia|]. split.
    + split; [discriminate|lia].
    + rewrite RS. lia.
  - exists (w + rem). rewrite Pos2Z.inj_xI in E. split; [lia|]. split; [lia|]. split; [lia|]. split.
    + split; [lia|reflexivity].
    + rewrite RS. lia.
  - exists rem. rewrite (Pos2Z.inj_xO p) in E. split; [lia|]. split; [lia|]. split; [lia|]. split.
    + split; [discriminate|lia].
    + rewrite RS. lia.
  - exists (w + rem). split; [lia|]. split; [lia|]. split; [lia|]. split.
    + split; [lia|reflexivity].
    + rewrite RS. lia.
Qed.
Lemma qshifted_iter : forall p q k x, 0 < q -> qshifted p q 0 x -> qshifted p q k (Nat.iter k shr_1 x).
Proof.
  intros p q k x Hq H. induction k as [|k IH]; [exact H|]. cbn [Nat.iter nat_rect]. now apply qshifted_step.
Qed.
(** The location that the division computes from the remainder. *)
Lemma location_start : forall p q d r, 0 < q -> p = q * d + r -> 0 <= r < q -> 0 <= d ->
  qshifted p q 0 (shr_record_of_loc d (new_location q r)).
Proof.
  intros p q d r Hq Hp Hr Hd. exists r. change (2 ^ Z.of_nat 0) with 1.
  assert (EX : r = 0 -> shr_record_of_loc d loc_Exact = Build_shr_record d false false) by reflexivity.
  unfold new_location. destruct (Z.even q) eqn:Ev.
  - unfold new_location_even. destruct (Zeq_bool r 0) eqn:Z0.
    + apply Zeq_bool_eq in Z0. cbn [shr_record_of_loc shr_m shr_r shr_s]. split; [lia|]. split; [lia|]. split; [lia|]. split; (split; [discriminate|lia]).
    + apply Zeq_bool_neq in Z0. destruct (Z.compare_spec (2 * r) q) as [C|C|C]; cbn [shr_record_of_loc shr_m shr_r shr_s];
        (split; [lia|]; split; [lia|]; split; [lia|]; split; split; intros; try discriminate; try reflexivity; lia).
  - unfold new_location_odd. assert (O : 2 * r <> q).
    { intros C. rewrite <- C, Z.even_mul in Ev. discriminate. }
    destruct (Zeq_bool r 0) eqn:Z0.
    + apply Zeq_bool_eq in Z0. cbn [shr_record_of_loc shr_m shr_r shr_s]. split; [lia|]. split; [lia|]. split; [lia|]. split; (split; [discriminate|lia]).
    + apply Zeq_bool_neq in Z0. destruct (Z.compare_spec (2 * r + 1) q) as [C|C|C]; cbn [shr_record_of_loc shr_m shr_r shr_s];
        (split; [lia|]; split; [lia|]; split; [lia|]; split; split; intros; try discriminate; try reflexivity; lia).
Qed.

(** [n] is [p / (q * 2^k)] rounded to the nearest integer, ties to even. *)
Definition qnearest (p q k n : Z) : Prop :=
  - (q * 2 ^ k) <= 2 * (p - n * (q * 2 ^ k)) <= q * 2 ^ k /\
  (Z.abs (2 * (p - n * (q * 2 ^ k))) = q * 2 ^ k -> Z.even n = true).
Lemma qround_shifted : forall p q k x, 0 < q -> qshifted p q k x ->
  qnearest p q (Z.of_nat k) (round_nearest_even (shr_m x) (loc_of_shr_record x)) /\
  0 <= round_nearest_even (shr_m x) (loc_of_shr_record x).
Proof.
  intros m d k [q r s] Hd (rem & E & B & Q & R & S). cbn [shr_m shr_r shr_s] in *.
  assert (P : 0 < d * 2 ^ Z.of_nat k) by (pose proof (pow2_pos (Z.of_nat k) ltac:(lia)); nia).
  replace (d * q * 2 ^ Z.of_nat k) with (q * (d * 2 ^ Z.of_nat k)) in E by ring.
  unfold qnearest. set (w := d * 2 ^ Z.of_nat k) in *.
  destruct r, s; cbn [loc_of_shr_record round_nearest_even].
  - assert (w <= 2 * rem) by (now apply R). assert (rem <> 0 /\ 2 * rem <> w) by (now apply S).
    split; [|lia]. subst m. replace (q * w + rem - (q + 1) * w) with (rem - w) by ring. lia.
  - assert (H1 : w <= 2 * rem) by (now apply R).
    assert (H : 2 * rem = w).
    { destruct (Z.eq_dec (2 * rem) w) as [C|C]; [exact C|exfalso].
      assert (false = true) by (apply S; lia). discriminate. }
    destruct (Z.even q) eqn:Ev.
    + split; [|lia]. subst m. replace (q * w + rem - q * w) with rem by ring. split; [lia|]. intros _. exact Ev.
    + split; [|lia]. subst m. replace (q * w + rem - (q + 1) * w) with (rem - w) by ring. split; [lia|].
      intros _. rewrite Z.even_add. rewrite Ev. reflexivity.
  - assert (~ w <= 2 * rem) by (intros C; apply R in C; discriminate).
    split; [|lia]. subst m. replace (q * w + rem - q * w) with rem by ring. lia.
  - assert (~ w <= 2 * rem) by (intros C; apply R in C; discriminate).
    split; [|lia]. subst m. replace (q * w + rem - q * w) with rem by ring. lia.
Qed.

(** The second shift of the rounding. *)
Lemma round_finish : forall prec emax s n x, 1 < prec -> prec < emax -> emin prec emax <= x -> 0 <= n <= 2 ^ prec ->
  (let '(y, e) := shr_fexp prec emax n x loc_Exact in
   match shr_m y with
   | Z0 => S754_zero s
   | Zpos m => if Zle_bool e (emax - prec) then S754_finite s m e else S754_infinity s
   | _ => S754_nan
   end) =
  if n =? 0 then S754_zero s
  else if n =? 2 ^ prec then
    (if (x + 1 <=? emax - prec) then S754_finite s (Z.to_pos (2 ^ (prec - 1))) (x + 1) else S754_infinity s)
  else (if x <=? emax - prec then S754_finite s (Z.to_pos n) x else S754_infinity s).
Proof.
  intros prec emax s q x Hprec Hemax Hx Hq. unfold shr_fexp. cbn [shr_record_of_loc].
  assert (PP : 2 ^ prec = 2 * 2 ^ (prec - 1)) by (rewrite <- pow2_S by lia; f_equal; lia).
  assert (P1 : 0 < 2 ^ (prec - 1)) by (apply pow2_pos; lia).
  destruct (q =? 0) eqn:E0.
  - apply Z.eqb_eq in E0. rewrite E0. cbn [Zdigits2]. rewrite Z.add_0_l.
    assert (fexp prec emax x - x <= 0) by (unfold fexp; lia).
    unfold shr. destruct (fexp prec emax x - x); [reflexivity|lia|reflexivity].
  - apply Z.eqb_neq in E0. destruct q as [|q0|q0]; [lia| |lia].
    cbn [Zdigits2]. destruct (Z.pos q0 =? 2 ^ prec) eqn:E1.
    + apply Z.eqb_eq in E1.
      assert (D : Z.pos (digits2_pos q0) = prec + 1).
      { apply Z.le_antisymm.
        - apply digits_le; [lia|]. rewrite pow2_S by lia. lia.
        - apply digits_ge; lia. }
      rewrite D.
      replace (fexp prec emax (prec + 1 + x) - x) with 1 by (unfold fexp; lia).
      cbn [shr iter_pos].
      assert (Hq2 : exists r, q0 = xO r /\ Z.pos r = 2 ^ (prec - 1)).
      { destruct q0 as [r|r|].
        - rewrite Pos2Z.inj_xI in E1. lia.
        - exists r. rewrite (Pos2Z.inj_xO r) in E1. split; [reflexivity|lia].
        - exfalso. lia. }
      destruct Hq2 as (r & -> & Hr). cbn [shr_1 shr_m]. rewrite <- Hr. cbn [Z.to_pos]. reflexivity.
    + apply Z.eqb_neq in E1.
      assert (D : Z.pos (digits2_pos q0) <= prec) by (apply digits_le; lia).
      assert (fexp prec emax (Z.pos (digits2_pos q0) + x) - x <= 0) by (unfold fexp; lia).
      unfold shr. destruct (fexp prec emax (Z.pos (digits2_pos q0) + x) - x); [|lia|];
        cbn [shr_m Z.to_pos]; reflexivity.
Qed.

Lemma pow_swap : forall a b c d, 0 <= a -> 0 <= b -> 0 <= c -> 0 <= d -> a + b = c + d -> 2 ^ a * 2 ^ b = 2 ^ c * 2 ^ d.
Proof. intros a b c d A B C D H. rewrite <- (Z.pow_add_r 2 a b), <- (Z.pow_add_r 2 c d) by lia. now rewrite H. Qed.
Lemma pow_swap3 : forall p a b c d, 0 <= a -> 0 <= b -> 0 <= c -> 0 <= d -> a + b = c + d -> p * 2 ^ a * 2 ^ b = p * 2 ^ c * 2 ^ d.
Proof. intros p a b c d A B C D H. rewrite <- !Z.mul_assoc. f_equal. now apply pow_swap. Qed.
Lemma scale_bound : forall a w u, 0 < u -> (- w <= a <= w <-> - (w * u) <= a * u <= w * u).
Proof.
  intros a w u H. rewrite <- Z.mul_opp_l. rewrite <- !(Z.mul_le_mono_pos_r _ _ u) by exact H. reflexivity.
Qed.
Lemma scale_abs : forall a w u, 0 < u -> (Z.abs a = w <-> Z.abs (a * u) = w * u).
Proof.
  intros a w u H. rewrite Z.abs_mul, (Z.abs_eq u) by lia. split; [congruence|]. intros E. apply Z.mul_reg_r in E; lia.
Qed.
(** The quotient of two positive integers, as mantissa n and exponent x: x is the least
    exponent, or the quotient has 53 bits before the place of 2^x. *)
Lemma div_spec : forall neg p q, exists n x,
  -1074 <= x /\ 0 <= n <= 2 ^ 53 /\
  (forall a, 0 <= a -> 0 <= x + a -> qnearest (Z.pos p * 2 ^ a) (Z.pos q) (x + a) n) /\
  (forall a, 0 <= a -> 0 <= x + a -> Z.pos p * 2 ^ a < Z.pos q * 2 ^ (53 + x + a)) /\
  (x = -1074 \/ forall a, 0 <= a -> 0 <= x + a -> Z.pos q * 2 ^ (52 + x + a) <= Z.pos p * 2 ^ a) /\
  SFdiv 53 1024 (S754_finite neg p 0) (S754_finite false q 0) =
    if n =? 0 then S754_zero neg
    else if n =? 2 ^ 53 then
      (if (x + 1 <=? 971) then S754_finite neg (Z.to_pos (2 ^ 52)) (x + 1) else S754_infinity neg)
    else (if x <=? 971 then S754_finite neg (Z.to_pos n) x else S754_infinity neg).
Proof.
  intros neg p q. cbn [SFdiv]. rewrite xorb_false_r. unfold SFdiv_core_binary. cbn [Zdigits2].
  rewrite !Z.add_0_r, Z.sub_0_r, Z.sub_0_l.
  pose proof (digits_bounds p) as [DP1 DP2]. pose proof (digits_bounds q) as [DQ1 DQ2].
  set (d1 := Z.pos (digits2_pos p)) in *. set (d2 := Z.pos (digits2_pos q)) in *.
  assert (D1 : 1 <= d1) by lia. assert (D2 : 1 <= d2) by lia.
  set (e := Z.min (fexp 53 1024 (d1 - d2)) 0).
  assert (He : e = Z.min (Z.max (d1 - d2 - 53) (-1074)) 0) by reflexivity.
  assert (HM : (match - e with Z0 => Z.pos p | Zpos _ => Z.shiftl (Z.pos p) (- e) | Zneg _ => 0 end) = Z.pos p * 2 ^ (- e)).
  { destruct (- e) as [|y|y] eqn:Y; [lia| |lia]. rewrite Z.shiftl_mul_pow2 by lia. reflexivity. }
  rewrite HM. set (P := Z.pos p * 2 ^ (- e)). pose proof (Z_div_mod P (Z.pos q) ltac:(reflexivity)) as DM.
  destruct (Z.div_eucl P (Z.pos q)) as [d r]. destruct DM as [DM Hr].
  assert (Pe : 0 < 2 ^ (- e)) by (apply pow2_pos; lia).
  assert (PP : 0 < P) by (unfold P; nia). assert (Hd : 0 <= d) by nia.
  assert (ST := location_start P (Z.pos q) d r ltac:(lia) DM Hr Hd).
  (* digits of the quotient *)
  set (x := fexp 53 1024 (Zdigits2 d + e)).
  assert (Hx : x = Z.max (Zdigits2 d + e - 53) (-1074)) by reflexivity.
  assert (PL : 2 ^ (d1 - 1 - e) <= P).
  { unfold P. replace (d1 - 1 - e) with (d1 - 1 + - e) by lia. rewrite Z.pow_add_r by lia. nia. }
  assert (PU : P < 2 ^ (d1 - e)).
  { unfold P. replace (d1 - e) with (d1 + - e) by lia. rewrite Z.pow_add_r by lia. nia. }
  assert (DG : 0 <= Zdigits2 d /\ d < 2 ^ Zdigits2 d /\ (d = 0 \/ 2 ^ (Zdigits2 d - 1) <= d /\ 1 <= Zdigits2 d)).
  { destruct d as [|d|d]; [cbn; lia| |lia]. cbn [Zdigits2]. pose proof (digits_bounds d). lia. }
  destruct DG as (G0 & G1 & G2). set (g := Zdigits2 d) in *.
  assert (LO : d1 - d2 - e <= g \/ d1 - d2 - e <= 0).
  { destruct (Z_le_gt_dec (d1 - d2 - e) 0) as [L|L]; [now right|left].
    destruct (Z_le_gt_dec (d1 - d2 - e) g) as [L'|L']; [exact L'|exfalso].
    assert (A : P < Z.pos q * 2 ^ g) by (assert (Z.pos q * (d + 1) <= Z.pos q * 2 ^ g) by (apply Z.mul_le_mono_nonneg_l; lia); lia).
    assert (B : Z.pos q * 2 ^ g < 2 ^ (d2 + g)) by (rewrite Z.pow_add_r by lia; pose proof (pow2_pos g G0); nia).
    assert (C : 2 ^ (d2 + g) <= 2 ^ (d1 - 1 - e)) by (apply Z.pow_le_mono_r; lia). lia. }
  assert (XE : e <= x) by lia.
  (* the first shift *)
  unfold binary_round_aux. unfold shr_fexp at 1. fold g. fold x.
  assert (S1 : exists y, shr (shr_record_of_loc d (new_location (Z.pos q) r)) e (x - e) = (y, x) /\
                         qshifted P (Z.pos q) (Z.to_nat (x - e)) y).
  { unfold shr. destruct (x - e) as [|k|k] eqn:Ek; [| |lia].
    - eexists. split; [f_equal; lia|]. exact ST.
    - rewrite iter_pos_nat. eexists. split; [f_equal; lia|]. rewrite Z2Nat.inj_pos. apply qshifted_iter; [lia|exact ST]. }
  destruct S1 as (y & -> & Sh). destruct (qround_shifted P (Z.pos q) _ y (Pos2Z.is_pos q) Sh) as [Nn Pn].
  rewrite Z2Nat.id in Nn by lia. set (n := round_nearest_even (shr_m y) (loc_of_shr_record y)) in *.
  (* bounds of the value *)
  assert (UB : P < Z.pos q * 2 ^ (53 + x - e)).
  { assert (A : P < Z.pos q * 2 ^ g) by (assert (Z.pos q * (d + 1) <= Z.pos q * 2 ^ g) by (apply Z.mul_le_mono_nonneg_l; lia); lia). assert (B : 2 ^ g <= 2 ^ (53 + x - e)) by (apply Z.pow_le_mono_r; lia). nia. }
  assert (LB : x = -1074 \/ Z.pos q * 2 ^ (52 + x - e) <= P).
  { destruct (Z.eq_dec x (-1074)) as [X|X]; [now left|right]. assert (X2 : x = g + e - 53) by lia.
    destruct G2 as [G2|[G2 G3]].
    - exfalso. assert (g = 0) by (unfold g; now rewrite G2). lia.
    - replace (52 + x - e) with (g - 1) by lia. nia. }
  assert (Hw : 0 < 2 ^ (x - e)) by (apply pow2_pos; lia).
  assert (N53 : n <= 2 ^ 53).
  { destruct Nn as [[N1 N2] _]. replace (53 + x - e) with (53 + (x - e)) in UB by lia. rewrite Z.pow_add_r in UB by lia.
    set (w := 2 ^ (x - e)) in *. set (T := 2 ^ 53) in *.
    destruct (Z_le_gt_dec n T) as [L|L]; [exact L|exfalso].
    assert ((T + 1) * (Z.pos q * w) <= n * (Z.pos q * w)) by (apply Z.mul_le_mono_nonneg_r; nia). nia. }
  exists n, x. split; [lia|]. split; [lia|].
  (* any other scale *)
  clear ST G1 G2 LO PL PU Sh DM. clearbody n x e.
  split; [|split; [|split]].
  - intros a A XA. unfold qnearest in *. set (c := Z.max a (- e)).
    assert (E1 : P * 2 ^ (c + e) = Z.pos p * 2 ^ a * 2 ^ (c - a)).
    { unfold P. apply pow_swap3; lia. }
    assert (E2 : 2 ^ (x - e) * 2 ^ (c + e) = 2 ^ (x + a) * 2 ^ (c - a)).
    { apply pow_swap; lia. }
    assert (U1 : 0 < 2 ^ (c + e)) by (apply pow2_pos; lia). assert (U2 : 0 < 2 ^ (c - a)) by (apply pow2_pos; lia).
    set (u1 := 2 ^ (c + e)) in *. set (u2 := 2 ^ (c - a)) in *. set (Pa := Z.pos p * 2 ^ a) in *.
    set (w1 := Z.pos q * 2 ^ (x - e)) in *. set (w2 := Z.pos q * 2 ^ (x + a)).
    assert (E3 : w1 * u1 = w2 * u2) by (unfold w1, w2; rewrite <- !Z.mul_assoc, E2; reflexivity).
    assert (E4 : 2 * (P - n * w1) * u1 = 2 * (Pa - n * w2) * u2).
    { transitivity (2 * (P * u1 - n * (w1 * u1))); [ring|]. rewrite E1, E3. ring. }
    destruct Nn as [N1 N3]. split.
    + apply (scale_bound _ _ u2 U2). rewrite <- E4, <- E3. now apply scale_bound.
    + intros T. apply N3. apply (scale_abs _ _ u1 U1). rewrite E4, E3. now apply scale_abs.
  - intros a A XA. set (c := Z.max a (- e)).
    assert (E1 : P * 2 ^ (c + e) = Z.pos p * 2 ^ a * 2 ^ (c - a)).
    { unfold P. apply pow_swap3; lia. }
    assert (E2 : 2 ^ (53 + x - e) * 2 ^ (c + e) = 2 ^ (53 + x + a) * 2 ^ (c - a)).
    { apply pow_swap; lia. }
    assert (U1 : 0 < 2 ^ (c + e)) by (apply pow2_pos; lia). assert (U2 : 0 < 2 ^ (c - a)) by (apply pow2_pos; lia).
    apply (Z.mul_lt_mono_pos_r (2 ^ (c - a))); [exact U2|]. rewrite <- E1, <- Z.mul_assoc, <- E2, Z.mul_assoc.
    now apply Z.mul_lt_mono_pos_r.
  - destruct LB as [LB|LB]; [now left|right]. intros a A XA. set (c := Z.max a (- e)).
    assert (E1 : P * 2 ^ (c + e) = Z.pos p * 2 ^ a * 2 ^ (c - a)).
    { unfold P. apply pow_swap3; lia. }
    assert (E2 : 2 ^ (52 + x - e) * 2 ^ (c + e) = 2 ^ (52 + x + a) * 2 ^ (c - a)).
    { apply pow_swap; lia. }
    assert (U1 : 0 < 2 ^ (c + e)) by (apply pow2_pos; lia). assert (U2 : 0 < 2 ^ (c - a)) by (apply pow2_pos; lia).
    apply (Z.mul_le_mono_pos_r _ _ (2 ^ (c - a))); [exact U2|]. rewrite <- E1, <- Z.mul_assoc, <- E2, Z.mul_assoc.
    apply Z.mul_le_mono_pos_r; auto.
  - apply (round_finish 53 1024 neg n x); [lia|lia|change (emin 53 1024) with (-1074); lia|lia].
Qed.

(** ** The nearest double *)

Lemma nearest_int : forall V Q n k, 0 < Q -> - Q <= 2 * (V - n * Q) <= Q ->
  Z.abs (V - n * Q) <= Z.abs (V - k * Q) /\ (k <> n -> Z.abs (V - n * Q) = Z.abs (V - k * Q) -> Z.abs (2 * (V - n * Q)) = Q).
Proof.
  intros V Q n k HQ H. replace (V - k * Q) with ((V - n * Q) + (n - k) * Q) by ring. set (a := V - n * Q) in *. set (j := n - k).
  destruct (Z.eq_dec j 0) as [J|J]; [split; [rewrite J; rewrite Z.mul_0_l, Z.add_0_r; lia|lia]|].
  assert (B : Q <= Z.abs (j * Q)) by (rewrite Z.abs_mul, (Z.abs_eq Q) by lia; nia). set (b := j * Q) in *. split; [lia|]. intros _ E. lia.
Qed.
Lemma div_rounds : forall neg p q, rounds neg (Z.pos p) (Z.pos q) (SFdiv 53 1024 (S754_finite neg p 0) (S754_finite false q 0)).
Proof.
  intros neg p q. destruct (div_spec neg p q) as (n & x & Hx & Hn & N & UB & LB & ->).
  specialize (N 1074 ltac:(lia) ltac:(lia)). specialize (UB 1074 ltac:(lia) ltac:(lia)).
  assert (LB' : x = -1074 \/ Z.pos q * 2 ^ (52 + x + 1074) <= Z.pos p * 2 ^ 1074) by (destruct LB as [L|L]; [now left|right; apply L; lia]).
  clear LB. unfold rounds. cbv zeta. unfold off. set (V := Z.pos p * 2 ^ 1074) in *. clearbody V.
  unfold qnearest in N. destruct N as [N1 N2].
  assert (Hw : 0 < 2 ^ (x + 1074)) by (apply pow2_pos; lia).
  replace (52 + x + 1074) with (52 + (x + 1074)) in LB' by lia. replace (53 + x + 1074) with (53 + (x + 1074)) in UB by lia.
  rewrite Z.pow_add_r in LB', UB by lia. set (w := 2 ^ (x + 1074)) in *.
  set (Q := Z.pos q * w) in *. assert (HQ : 0 < Q) by (unfold Q; nia).
  replace (Z.pos q * (2 ^ 52 * w)) with (2 ^ 52 * Q) in LB' by (unfold Q; ring). replace (Z.pos q * (2 ^ 53 * w)) with (2 ^ 53 * Q) in UB by (unfold Q; ring).
  assert (N52 : x = -1074 \/ 2 ^ 52 <= n).
  { destruct LB' as [L|L]; [now left|right]. destruct (Z_le_gt_dec (2 ^ 52) n) as [G|G]; [exact G|exfalso].
    assert ((n + 1) * Q <= 2 ^ 52 * Q) by (apply Z.mul_le_mono_nonneg_r; lia). lia. }
  (* finite results *)
  assert (FIN : forall f, in_units neg f (n * w) (Z.even n) ->
    exists u even, in_units neg f u even /\ (forall v, double v -> Z.abs (V - Z.pos q * u) <= Z.abs (V - Z.pos q * v)) /\
      (forall v, double v -> v <> u -> Z.abs (V - Z.pos q * u) = Z.abs (V - Z.pos q * v) -> even = true)).
  { intros f I. exists (n * w), (Z.even n). split; [exact I|].
    assert (K : forall v, double v -> Z.abs (V - Z.pos q * (n * w)) <= Z.abs (V - Z.pos q * v) /\
                (v <> n * w -> Z.abs (V - Z.pos q * (n * w)) = Z.abs (V - Z.pos q * v) -> Z.abs (2 * (V - n * Q)) = Q)).
    { intros v (m & e & Hm & He & ->). replace (Z.pos q * (n * w)) with (n * Q) by (unfold Q; ring).
      destruct (Z_le_gt_dec (x + 1074) e) as [L|L].
      - assert (E : 2 ^ e = 2 ^ (e - (x + 1074)) * w) by (unfold w; rewrite <- Z.pow_add_r by lia; f_equal; lia).
        rewrite E. set (k := m * 2 ^ (e - (x + 1074))).
        replace (m * (2 ^ (e - (x + 1074)) * w)) with (k * w) by (unfold k; ring). replace (Z.pos q * (k * w)) with (k * Q) by (unfold Q; ring).
        destruct (nearest_int V Q n k HQ N1) as [A B]. split; [exact A|]. intros D. apply B. congruence.
      - destruct LB' as [LB'|LB']; [lia|]. destruct N52 as [N52|N52]; [lia|].
        assert (S : m * 2 ^ e < 2 ^ 52 * w).
        { assert (E : 2 ^ 52 * w = 2 ^ 53 * 2 ^ (x + 1074 - 1)).
          { unfold w. apply pow_swap; lia. }
          assert (2 ^ e <= 2 ^ (x + 1074 - 1)) by (apply Z.pow_le_mono_r; lia).
          assert (0 < 2 ^ e) by (apply pow2_pos; lia). rewrite E. clear E. set (T := 2 ^ 53) in *. assert (0 < T) by reflexivity. clearbody T.
          assert (m * 2 ^ e < T * 2 ^ e) by (apply Z.mul_lt_mono_pos_r; lia).
          assert (T * 2 ^ e <= T * 2 ^ (x + 1074 - 1)) by (apply Z.mul_le_mono_nonneg_l; lia). lia. }
        assert (S2 : Z.pos q * (m * 2 ^ e) < 2 ^ 52 * Q).
        { replace (2 ^ 52 * Q) with (Z.pos q * (2 ^ 52 * w)) by (unfold Q; ring). apply Z.mul_lt_mono_pos_l; lia. }
        destruct (nearest_int V Q n (2 ^ 52) HQ N1) as [A _].
        set (y := Z.pos q * (m * 2 ^ e)) in *. split; [lia|]. intros _ E. lia. }
    split; [intros v D; now apply K|]. intros v D NE E. apply N2. exact (proj2 (K v D) NE E). }
  (* overflow *)
  set (huge := Z.pos q * ((2 ^ 54 - 1) * 2 ^ (970 + 1074)) <= V).
  assert (HU : x <> 971 -> huge <-> 971 < x).
  { intros X. unfold huge. split.
    - intros G. destruct (Z_lt_ge_dec 971 x) as [L|L]; [exact L|exfalso].
      assert (E : w <= 2 ^ (970 + 1074)) by (apply Z.pow_le_mono_r; lia). set (z := 2 ^ (970 + 1074)) in *. clearbody z.
      assert (Z.pos q * w <= Z.pos q * z) by (apply Z.mul_le_mono_nonneg_l; lia). fold Q in H. change (2 ^ 54 - 1) with 18014398509481983 in G.
      change (2 ^ 53) with 9007199254740992 in UB. lia.
    - intros L. destruct LB' as [LB'|LB']; [lia|].
      assert (E : 4 * 2 ^ (970 + 1074) <= w).
      { change (4 * 2 ^ (970 + 1074)) with (2 ^ (972 + 1074)). apply Z.pow_le_mono_r; lia. }
      set (z := 2 ^ (970 + 1074)) in *. clearbody z.
      assert (Z.pos q * (4 * z) <= Z.pos q * w) by (apply Z.mul_le_mono_nonneg_l; lia). fold Q in H. change (2 ^ 54 - 1) with 18014398509481983.
      change (2 ^ 52) with 4503599627370496 in LB'. lia. }
  assert (HU2 : x = 971 -> huge <-> n = 2 ^ 53).
  { intros X. unfold huge. assert (E : w = 2 * 2 ^ (970 + 1074)).
    { unfold w. rewrite X. change (971 + 1074) with (970 + 1074 + 1). now rewrite pow2_S. }
    set (z := 2 ^ (970 + 1074)) in *. clearbody z. clear HU FIN. change (2 ^ 54 - 1) with 18014398509481983.
    assert (EQ : Q = 2 * (Z.pos q * z)) by (unfold Q; rewrite E; ring). replace (Z.pos q * (18014398509481983 * z)) with (18014398509481983 * (Z.pos q * z)) by ring.
    set (y := Z.pos q * z) in *. clearbody y. rewrite EQ in *. change (2 ^ 53) with 9007199254740992 in *. split.
    - intros G. destruct (Z.eq_dec n 9007199254740992) as [D|D]; [exact D|exfalso].
      assert (M : n * (2 * y) <= 9007199254740991 * (2 * y)) by (apply Z.mul_le_mono_nonneg_r; lia).
      assert (M2 : V - n * (2 * y) = y) by lia. rewrite M2 in N2. specialize (N2 ltac:(lia)).
      assert (n = 9007199254740991).
      { destruct (Z.eq_dec n 9007199254740991) as [D2|D2]; [exact D2|exfalso].
        assert (n * (2 * y) <= 9007199254740990 * (2 * y)) by (apply Z.mul_le_mono_nonneg_r; lia). lia. }
      subst n. discriminate N2.
    - intros ->. lia. }
  change (1024 - 53) with 971 in *.
  destruct (Z.eqb_spec n 0) as [Z0|Z0].
  { right. split.
    - intros G. destruct (Z.eq_dec x 971) as [X|X].
      + apply HU2 in G; [|exact X]. rewrite Z0 in G. discriminate G.
      + apply HU in G; [|exact X]. destruct N52 as [A|A]; [lia|]. rewrite Z0 in A. now destruct A.
    - apply FIN. rewrite Z0. cbn [in_units]. auto. }
  destruct (Z.eqb_spec n (2 ^ 53)) as [T|T].
  - destruct (Z.leb_spec (x + 1) 971) as [L|L].
    + right. split; [intros G; apply HU in G; lia|]. apply FIN. cbn [in_units]. rewrite T.
      split; [reflexivity|]. split; [lia|]. split; [reflexivity|]. split; [right; vm_compute; discriminate|]. split; [|reflexivity].
      change (Z.pos (Z.to_pos (2 ^ 52))) with (2 ^ 52). unfold w. apply pow_swap; lia.
    + left. split; [|reflexivity]. destruct (Z.eq_dec x 971) as [X|X]; [now apply HU2|]. apply HU; lia.
  - destruct (Z.leb_spec x 971) as [L|L].
    + right. split.
      * intros G. destruct (Z.eq_dec x 971) as [X|X]; [now apply HU2 in G|]. apply HU in G; lia.
      * apply FIN. cbn [in_units]. rewrite Z2Pos.id by lia. split; [reflexivity|]. split; [lia|]. split; [lia|]. split; [lia|]. split; reflexivity.
    + left. split; [|reflexivity]. apply HU; lia.
Qed.

(** The literal with the digits of m, k of them after the dot. *)
Theorem C87_nearest : forall neg m k, rounds neg (Z.of_N m) (10 ^ Z.of_N k) (float_of_dec neg m k).
Proof.
  intros neg m k. unfold float_of_dec. destruct m as [|p].
  - right. assert (P : 0 < 10 ^ Z.of_N k) by (apply Z.pow_pos_nonneg; lia). set (q := 10 ^ Z.of_N k) in *. clearbody q.
    unfold off. set (t := 2 ^ 1074). change (Z.of_N 0) with 0. rewrite Z.mul_0_l. split.
    + intros G. assert (Z0 : 0 < (2 ^ 54 - 1) * 2 ^ (970 + 1074)) by reflexivity. set (z := (2 ^ 54 - 1) * 2 ^ (970 + 1074)) in *. clearbody z. nia.
    + exists 0, true. split; [cbn [in_units]; auto|]. rewrite Z.mul_0_r. split; intros v D; [lia|]. reflexivity.
  - destruct (N.pow 10 k) as [|q] eqn:E; [exfalso; apply (N.pow_nonzero 10 k); [discriminate|exact E]|].
    assert (Q : 10 ^ Z.of_N k = Z.pos q).
    { change 10 with (Z.of_N 10). rewrite <- N2Z.inj_pow, E. reflexivity. }
    rewrite Q. change (Z.of_N (N.pos p)) with (Z.pos p). apply div_rounds.
Qed.
Print Assumptions C87_nearest.

(** ** Only one float is the nearest *)

Lemma units_double : forall neg f u even, in_units neg f u even -> double u.
Proof.
  intros neg f u even I. destruct f as [s|s| |s m e]; cbn [in_units] in I; try contradiction.
  - destruct I as (_ & -> & _). exists 0, 0. repeat split; try lia. 
  - destruct I as (_ & E & M & _ & -> & _). exists (Z.pos m), (e + 1074). repeat split; try lia.
Qed.
Lemma canonical : forall m e m' e', 0 < m < 2 ^ 53 -> 0 < m' < 2 ^ 53 -> 0 <= e -> 0 <= e' -> (e = 0 \/ 2 ^ 52 <= m) -> (e' = 0 \/ 2 ^ 52 <= m') ->
  m * 2 ^ e = m' * 2 ^ e' -> m = m' /\ e = e'.
Proof.
  assert (H : forall m e m' e', 0 < m < 2 ^ 53 -> 0 < m' < 2 ^ 53 -> 0 <= e -> e <= e' -> (e' = 0 \/ 2 ^ 52 <= m') ->
    m * 2 ^ e = m' * 2 ^ e' -> m = m' /\ e = e').
  { intros m e m' e' M M' E L C' H. destruct (Z.eq_dec e e') as [<-|D].
    - split; [|reflexivity]. apply Z.mul_reg_r in H; [exact H|]. pose proof (pow2_pos e E). lia.
    - exfalso. destruct C' as [C'|C']; [lia|]. assert (P : 0 < 2 ^ e) by (apply pow2_pos; lia).
      assert (X : 2 ^ e' = 2 ^ (e' - e) * 2 ^ e) by (rewrite <- Z.pow_add_r by lia; f_equal; lia).
      rewrite X, Z.mul_assoc in H. apply Z.mul_reg_r in H; [|lia].
      assert (2 ^ 1 <= 2 ^ (e' - e)) by (apply Z.pow_le_mono_r; lia). change (2 ^ 1) with 2 in *.
      assert (m' * 2 <= m' * 2 ^ (e' - e)) by (apply Z.mul_le_mono_nonneg_l; lia).
      change (2 ^ 53) with 9007199254740992 in *. change (2 ^ 52) with 4503599627370496 in *. lia. }
  intros m e m' e' M M' E E' C C' Q. destruct (Z_le_gt_dec e e') as [L|L]; [now apply (H m e m' e')|].
  destruct (H m' e' m e) as [A B]; auto; lia.
Qed.
Lemma units_nonneg : forall neg f u even, in_units neg f u even -> 0 <= u.
Proof.
  intros neg f u even I. destruct f as [s|s| |s m e]; cbn [in_units] in I; try contradiction.
  - destruct I as (_ & -> & _). lia.
  - destruct I as (_ & E & _ & _ & -> & _). apply Z.mul_nonneg_nonneg; [lia|]. apply Z.pow_nonneg. lia.
Qed.
(** Mantissa and exponent of a number of units. *)
Lemma units_parts : forall neg f u even, in_units neg f u even ->
  exists m e, 0 <= m < 2 ^ 53 /\ 0 <= e <= 2045 /\ (e = 0 \/ 2 ^ 52 <= m) /\ u = m * 2 ^ e /\ even = Z.even m /\
    f = (if m =? 0 then S754_zero neg else S754_finite neg (Z.to_pos m) (e - 1074)).
Proof.
  intros neg f u even I. destruct f as [s|s| |s m e]; cbn [in_units] in I; try contradiction.
  - destruct I as (-> & -> & ->). exists 0, 0. repeat split; try lia.
  - destruct I as (-> & E & M & C & -> & ->). exists (Z.pos m), (e + 1074). split; [lia|]. split; [lia|]. split; [lia|].
    split; [reflexivity|]. split; [reflexivity|]. cbn [Z.eqb Z.to_pos]. f_equal. lia.
Qed.
Lemma units_fun : forall neg f g u a b, in_units neg f u a -> in_units neg g u b -> f = g.
Proof.
  intros neg f g u a b I J. apply units_parts in I as (m & e & M & E & C & U1 & _ & ->). apply units_parts in J as (m' & e' & M' & E' & C' & U2 & _ & ->).
  assert (P : 0 < 2 ^ e) by (apply pow2_pos; lia). assert (P' : 0 < 2 ^ e') by (apply pow2_pos; lia).
  destruct (Z.eq_dec m 0) as [Z0|Z0].
  - subst m. assert (m' = 0) by (clear - U1 U2 P' M'; nia). subst m'. reflexivity.
  - assert (m' <> 0) by (intros ->; clear - U1 U2 P Z0; nia).
    destruct (canonical m e m' e') as [-> ->]; auto; lia.
Qed.
Lemma evens_apart : forall neg f g u v, in_units neg f u true -> in_units neg g v true -> u < v -> exists w, double w /\ u < w < v.
Proof.
  intros neg f g u v I J L. apply units_parts in I as (m & e & M & E & C & U1 & V1 & _). apply units_parts in J as (m' & e' & M' & E' & C' & U2 & V2 & _).
  assert (P : 0 < 2 ^ e) by (apply pow2_pos; lia). assert (P' : 0 < 2 ^ e') by (apply pow2_pos; lia).
  assert (M1 : m + 1 < 2 ^ 53).
  { destruct (Z.eq_dec (m + 1) (2 ^ 53)) as [D|D]; [|lia]. assert (m = 2 ^ 53 - 1) by lia. subst m. discriminate V1. }
  assert (O : Z.even (m + 1) = false) by (rewrite Z.even_add, <- V1; reflexivity).
  destruct (Z_lt_ge_dec ((m + 1) * 2 ^ e) v) as [G|G].
  - exists ((m + 1) * 2 ^ e). split; [exists (m + 1), e; repeat split; lia|]. rewrite U1. split; [clear - P; nia|exact G].
  - destruct (Z.eq_dec v ((m + 1) * 2 ^ e)) as [D|D].
    + exfalso. assert (m' <> 0) by (intros ->; clear - U1 U2 P L M; nia).
      destruct (canonical (m + 1) e m' e') as [A B]; try lia. rewrite A, <- V2 in O. discriminate O.
    + (* v lies strictly between neighbours *)
      exfalso. assert (S : m * 2 ^ e < m' * 2 ^ e' < (m + 1) * 2 ^ e) by lia. clear - S P M M' C C' E E' L.
      destruct (Z_le_gt_dec e e') as [Q|Q].
      * assert (X : 2 ^ e' = 2 ^ (e' - e) * 2 ^ e) by (rewrite <- Z.pow_add_r by lia; f_equal; lia).
        rewrite X, Z.mul_assoc in S. set (k := m' * 2 ^ (e' - e)) in *. destruct S as [S1 S2].
        apply Z.mul_lt_mono_pos_r in S1; [|exact P]. apply Z.mul_lt_mono_pos_r in S2; [|exact P]. lia.
      * destruct C as [C|C]; [lia|].
        assert (X : 2 ^ e = 2 ^ (e - e') * 2 ^ e') by (rewrite <- Z.pow_add_r by lia; f_equal; lia).
        assert (P2 : 0 < 2 ^ e') by (apply pow2_pos; lia). destruct S as [S _]. rewrite X, Z.mul_assoc in S. apply Z.mul_lt_mono_pos_r in S; [|exact P2].
        assert (2 ^ 1 <= 2 ^ (e - e')) by (apply Z.pow_le_mono_r; lia). change (2 ^ 1) with 2 in *.
        assert (m * 2 <= m * 2 ^ (e - e')) by (apply Z.mul_le_mono_nonneg_l; lia).
        change (2 ^ 53) with 9007199254740992 in *. change (2 ^ 52) with 4503599627370496 in *. lia.
Qed.
Theorem C87_unique : forall neg p q f g, 0 < q -> rounds neg p q f -> rounds neg p q g -> f = g.
Proof.
  intros neg p q f g Q [[H F]|[H (u & a & I & N & T)]] [[K G]|[K (v & b & J & N' & T')]]; [congruence|contradiction|contradiction|].
  destruct (Z.eq_dec u v) as [<-|D]; [exact (units_fun _ _ _ _ _ _ I J)|exfalso].
  pose proof (units_double _ _ _ _ I) as DU. pose proof (units_double _ _ _ _ J) as DV.
  assert (EQ : off p q u = off p q v) by (pose proof (N v DV); pose proof (N' u DU); lia).
  pose proof (T v DV (not_eq_sym D) EQ) as ->. pose proof (T' u DU D (eq_sym EQ)) as ->.
  assert (W : exists w, double w /\ (u < w < v \/ v < w < u)).
  { destruct (Z_lt_ge_dec u v) as [L|L]; [destruct (evens_apart _ _ _ _ _ I J L) as (w & A & B)|destruct (evens_apart _ _ _ _ _ J I ltac:(lia)) as (w & A & B)]; eauto. }
  destruct W as (w & A & B). specialize (N w A). unfold off in *. set (V := p * 2 ^ 1074) in *. clearbody V.
  assert (q * u < q * w < q * v \/ q * v < q * w < q * u) by (destruct B as [[B1 B2]|[B1 B2]]; [left|right]; split; apply Z.mul_lt_mono_pos_l; lia). lia.
Qed.
Print Assumptions C87_unique.

Lemma literal_rounds : forall neg m (es : str) f, rounds neg (Z.of_N m) (10 ^ Z.of_nat (List.length es)) f <-> f = float_of_dec neg m (N.of_nat (List.length es)).
Proof.
  intros neg m es f. pose proof (C87_nearest neg m (N.of_nat (List.length es))) as R. rewrite nat_N_Z in R. split.
  - intros H. eapply C87_unique; [|exact H|exact R]. apply Z.pow_pos_nonneg; lia.
  - intros ->. exact R.
Qed.

(** 0.1 is not exact; 9007199254740993 (2^53 + 1) lies half way and goes to the even neighbour;
    400 nines are infinity; 1 over 10^400 is zero. *)
Example ex_literal :
  float_of_dec false 1 1 = S754_finite false 7205759403792794 (-56) /\
  float_of_dec true 9007199254740993 0 = S754_finite true 4503599627370496 1 /\
  float_of_dec false 9007199254740995 0 = S754_finite false 4503599627370498 1 /\
  float_of_dec false (10 ^ 400 - 1) 0 = S754_infinity false /\
  float_of_dec false 1 400 = S754_zero false.
Proof. vm_compute. auto. Qed.
Example ex_rounds : rounds false 1 10 (S754_finite false 7205759403792794 (-56)) /\
  ~ rounds false 1 10 (S754_finite false 7205759403792793 (-56)).
Proof.
  pose proof (C87_nearest false 1 1) as R. split; [exact R|]. intros K.
  pose proof (C87_unique false 1 10 _ _ eq_refl R K) as E. vm_compute in E. discriminate.
Qed.
