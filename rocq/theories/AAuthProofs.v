(** * AAuthProofs: lemmas about the attribute authority *)

From Coq Require Import NArith ZArith List Bool Permutation Lia String.
From Verif Require Import PyBase LexProofs Struct BytesProofs AttCert CertSpec CertProofs CertProofs2 CertProofs3 AAuth AAuthSpec.
Import ListNotations.
Open Scope Z_scope.

(** ** Integer literals *)

Section Int.
Variable U : unicode.
Hypothesis DO : decimals_ok U.

Lemma int_char_ascii : forall c, (c < 128)%N -> int_char U c = c.
Proof. intros c H. unfold int_char, asc. apply N.ltb_lt in H. now rewrite H. Qed.
Lemma int_char_other : forall c, (128 <= c)%N ->
  int_char U c = 32%N /\ u_space U c = true \/
  (exists d, int_char U c = (48 + d)%N /\ u_space U c = false /\ u_decimal U c = Some d /\ (d < 10)%N) \/
  int_char U c = 63%N /\ u_space U c = false /\ u_decimal U c = None.
Proof.
  intros c H. unfold int_char, asc. replace (c <? 128)%N with false by (symmetry; apply N.ltb_ge; lia).
  destruct (u_space U c); [auto|]. destruct (u_decimal U c) as [d|] eqn:E; [|auto].
  right. left. exists d. split; [reflexivity|]. split; [reflexivity|]. split; [reflexivity|]. exact (DO _ _ E).
Qed.

Lemma blank_char : forall c, blank U c <-> c_space (int_char U c) = true.
Proof.
  assert (S : forall c, c_space c = true <-> c = 32%N \/ (9 <= c <= 13)%N).
  { intros c. unfold c_space. rewrite orb_true_iff, andb_true_iff, !N.leb_le, N.eqb_eq. lia. }
  intros c. destruct (N.lt_ge_cases c 128) as [L|L].
  - rewrite (int_char_ascii c L), S. split.
    + intros H. inversion H; subst; auto. lia.
    + intros [->|H]; [constructor|now constructor].
  - destruct (int_char_other c L) as [[-> Sp]|[(d & -> & Sp & De & D)|(-> & Sp & De)]]; rewrite S.
    + split; [auto|]. intros _. now constructor.
    + split; [intros H; inversion H; subst; try lia; congruence|]. intros [H|H]; lia.
    + split; [intros H; inversion H; subst; try lia; congruence|]. intros [H|H]; lia.
Qed.

Lemma digit_in_spec : forall base c d, digit_in base c = Some d <->
  (d < base)%N /\ ((d < 10)%N /\ c = (48 + d)%N \/ (10 <= d < 36)%N /\ (c = (87 + d)%N \/ c = (55 + d)%N)).
Proof.
  intros base c d. unfold digit_in, low, up. split.
  - destruct ((48 <=? c) && (c <=? 57))%N eqn:A.
    + apply andb_true_iff in A as [A1 A2]. apply N.leb_le in A1, A2. destruct (c - 48 <? base)%N eqn:B; [|discriminate].
      apply N.ltb_lt in B. intros [= <-]. split; [exact B|]. left. lia.
    + destruct ((97 <=? c) && (c <=? 122))%N eqn:L.
      * apply andb_true_iff in L as [A1 A2]. apply N.leb_le in A1, A2. destruct (c - 87 <? base)%N eqn:B; [|discriminate].
        apply N.ltb_lt in B. intros [= <-]. split; [exact B|]. right. lia.
      * destruct ((65 <=? c) && (c <=? 90))%N eqn:P; [|discriminate].
        apply andb_true_iff in P as [A1 A2]. apply N.leb_le in A1, A2. destruct (c - 55 <? base)%N eqn:B; [|discriminate].
        apply N.ltb_lt in B. intros [= <-]. split; [exact B|]. right. lia.
  - intros [B [[D ->]|[D [->| ->]]]]; apply N.ltb_lt in B.
    + replace ((48 <=? 48 + d) && (48 + d <=? 57))%N with true by (symmetry; rewrite andb_true_iff, !N.leb_le; lia).
      replace (48 + d - 48)%N with d by lia. now rewrite B.
    + replace ((48 <=? 87 + d) && (87 + d <=? 57))%N with false by (symmetry; rewrite andb_false_iff, !N.leb_gt; lia).
      replace ((97 <=? 87 + d) && (87 + d <=? 122))%N with true by (symmetry; rewrite andb_true_iff, !N.leb_le; lia).
      replace (87 + d - 87)%N with d by lia. now rewrite B.
    + replace ((48 <=? 55 + d) && (55 + d <=? 57))%N with false by (symmetry; rewrite andb_false_iff, !N.leb_gt; lia).
      replace ((97 <=? 55 + d) && (55 + d <=? 122))%N with false by (symmetry; rewrite andb_false_iff, !N.leb_gt; lia).
      replace ((65 <=? 55 + d) && (55 + d <=? 90))%N with true by (symmetry; rewrite andb_true_iff, !N.leb_le; lia).
      replace (55 + d - 55)%N with d by lia. now rewrite B.
Qed.

Lemma digit_char_spec : forall base c d, digit_char U base c d <-> digit_in base (int_char U c) = Some d.
Proof.
  intros base c d. rewrite digit_in_spec. destruct (N.lt_ge_cases c 128) as [L|L].
  - rewrite (int_char_ascii c L). split.
    + intros H. inversion H; subst; try lia; (split; [assumption|]); lia.
    + intros [B [[D ->]|[D [->| ->]]]]; constructor; auto.
  - destruct (int_char_other c L) as [[-> Sp]|[(e & -> & Sp & De & D)|(-> & Sp & De)]].
    + split; [intros H; inversion H; subst; try lia; congruence|]. intros H; lia.
    + split.
      * intros H; inversion H; subst; try lia. assert (e = d) by congruence. subst e. split; [assumption|]. left. lia.
      * intros [B [[D1 D2]|[D1 [D2|D2]]]]; [|lia|lia]. apply dg_other; auto. rewrite De. f_equal. lia.
    + split; [intros H; inversion H; subst; try lia; congruence|]. intros H; lia.
Qed.

Notation im := (map (int_char U)).
Lemma int_char_id : forall c x, (x < 128)%N -> x <> 32%N -> x <> 63%N -> ~ (48 <= x <= 57)%N -> int_char U c = x -> c = x.
Proof.
  intros c x X N1 N2 N3 H. destruct (N.lt_ge_cases c 128) as [L|L]; [now rewrite (int_char_ascii c L) in H|].
  destruct (int_char_other c L) as [[E _]|[(d & E & _ & _ & D)|(E & _)]]; rewrite E in H; lia.
Qed.

Lemma not_digit : forall base, digit_in base 95 = None.
Proof.
  intros base. destruct (digit_in base 95) eqn:E; [|reflexivity]. apply digit_in_spec in E. lia.
Qed.
Lemma scan_step : forall base c d r acc seen us, digit_in base c = Some d ->
  scan_int base (c :: r) acc seen us = scan_int base r (acc * base + d)%N true false.
Proof.
  intros base c d r acc seen us D. cbn [scan_int]. destruct (c =? 95)%N eqn:E; [|now rewrite D].
  apply N.eqb_eq in E. subst c. rewrite not_digit in D. discriminate.
Qed.
Lemma scan_under : forall base r acc, scan_int base (95%N :: r) acc true false = scan_int base r acc true true.
Proof. reflexivity. Qed.
Lemma scan_numeral : forall base ds n, numeral U base ds n ->
  forall r, scan_int base (im ds ++ r) 0 false false = scan_int base r n true false.
Proof.
  intros base ds n H. induction H as [c d D|s n c d H IH D|s n c d H IH D]; intros r; apply digit_char_spec in D.
  - cbn [map app]. now rewrite (scan_step _ _ _ _ _ _ _ D).
  - rewrite map_app, <- app_assoc, IH. cbn [map app]. now rewrite (scan_step _ _ _ _ _ _ _ D).
  - rewrite map_app, <- app_assoc, IH. cbn [map app]. rewrite (int_char_ascii 95) by lia.
    rewrite scan_under. now rewrite (scan_step _ _ _ _ _ _ _ D).
Qed.
Lemma scan_sound : forall base s p acc us n r, numeral U base p acc -> scan_int base (im s) acc true us = Ok (n, r) ->
  exists q t, s = q ++ t /\ r = im t /\
    (if us then exists c q', q = c :: q' /\ numeral U base (p ++ 95%N :: q) n else numeral U base (p ++ q) n).
Proof.
  intros base. induction s as [|c s IH]; intros p acc us n r P H; cbn [map scan_int] in H.
  - destruct us; cbn [orb negb] in H; [discriminate|]. apply Ok_inj in H. injection H as <- <-. exists [], [].
    split; [reflexivity|]. split; [reflexivity|]. now rewrite app_nil_r.
  - destruct (int_char U c =? 95)%N eqn:E.
    + apply N.eqb_eq in E. apply int_char_id in E; try lia. subst c.
      destruct us; cbn [orb negb] in H; [discriminate|]. destruct (IH p acc true n r P H) as (q & t & -> & R & c & q' & -> & N).
      exists (95%N :: c :: q'), t. auto.
    + destruct (digit_in base (int_char U c)) as [d|] eqn:D.
      * apply digit_char_spec in D. destruct us.
        -- destruct (IH (p ++ [95%N; c]) _ false n r (nu_under _ _ _ _ _ _ P D) H) as (q & t & -> & R & N).
           exists (c :: q), t. split; [reflexivity|]. split; [exact R|]. exists c, q. split; [reflexivity|]. now rewrite <- app_assoc in N.
        -- destruct (IH (p ++ [c]) _ false n r (nu_more _ _ _ _ _ _ P D) H) as (q & t & -> & R & N).
           exists (c :: q), t. split; [reflexivity|]. split; [exact R|]. now rewrite <- app_assoc in N.
      * destruct us; cbn [orb negb] in H; [discriminate|]. apply Ok_inj in H. injection H as <- <-. exists [], (c :: s).
        split; [reflexivity|]. split; [reflexivity|]. now rewrite app_nil_r.
Qed.
Lemma scan_first : forall base s n r, scan_int base (im s) 0 false false = Ok (n, r) ->
  exists q t, s = q ++ t /\ r = im t /\ numeral U base q n.
Proof.
  intros base [|c s] n r H; cbn [map scan_int] in H; [discriminate|].
  destruct (int_char U c =? 95)%N eqn:E; [discriminate|].
  destruct (digit_in base (int_char U c)) as [d|] eqn:D; [|discriminate]. apply digit_char_spec in D.
  replace (0 * base + d)%N with d in H by lia.
  destruct (scan_sound base s [c] d false n r (nu_one _ _ _ _ D) H) as (q & t & -> & R & N). exists (c :: q), t. auto.
Qed.
Lemma numeral_head : forall base s n, numeral U base s n -> exists c s' d, s = c :: s' /\ digit_char U base c d.
Proof.
  intros base s n H. induction H as [c d D|s n c d H (c0 & s' & d0 & -> & D0) D|s n c d H (c0 & s' & d0 & -> & D0) D]; cbn [app]; eauto.
Qed.
Lemma digit_range : forall base c d, digit_char U base c d -> (48 <= int_char U c)%N /\ int_char U c <> 95%N.
Proof. intros base c d H. apply digit_char_spec, digit_in_spec in H. lia. Qed.
Lemma skip_lead : forall lead r, Forall (blank U) lead -> skip_space (im lead ++ r) = skip_space r.
Proof.
  intros lead r H. induction H as [|c l B _ IH]; [reflexivity|]. apply blank_char in B. cbn [map app skip_space]. now rewrite B.
Qed.
Lemma skip_sound : forall s, exists lead t, s = lead ++ t /\ Forall (blank U) lead /\ skip_space (im s) = im t.
Proof.
  induction s as [|c s (lead & t & -> & F & E)]; [exists [], []; auto|]. cbn [map skip_space].
  destruct (c_space (int_char U c)) eqn:B.
  - exists (c :: lead), t. split; [reflexivity|]. split; [constructor; [now apply blank_char|exact F]|exact E].
  - exists [], (c :: lead ++ t). auto.
Qed.
Lemma trail_spec : forall t, forallb c_space (im t) = true <-> Forall (blank U) t.
Proof.
  induction t as [|c t IH]; cbn [map forallb]; [split; auto|]. rewrite andb_true_iff, IH, <- blank_char, Forall_cons_iff. reflexivity.
Qed.
Lemma scan_trail : forall base t n, Forall (blank U) t -> scan_int base (im t) n true false = Ok (n, im t).
Proof.
  intros base [|c t] n H; [reflexivity|]. apply Forall_cons_iff in H as [B _]. apply blank_char in B. cbn [map scan_int].
  unfold c_space in B. rewrite orb_true_iff, andb_true_iff, !N.leb_le, N.eqb_eq in B.
  replace (int_char U c =? 95)%N with false by (symmetry; apply N.eqb_neq; lia).
  destruct (digit_in base (int_char U c)) as [d|] eqn:D; [|reflexivity]. apply digit_in_spec in D. lia.
Qed.

Lemma sign_sound : forall s neg r, int_sign (im s) = (neg, r) -> exists sg t, s = sg ++ t /\ sign_text sg neg /\ r = im t.
Proof.
  intros [|c s] neg r; cbn [map int_sign]; [intros [= <- <-]; exists [], []; repeat split; constructor|].
  destruct (int_char U c =? 45)%N eqn:E; [|destruct (int_char U c =? 43)%N eqn:F]; intros [= <- <-].
  - apply N.eqb_eq, int_char_id in E; try lia. subst c. exists [45%N], s. repeat split; constructor.
  - apply N.eqb_eq, int_char_id in F; try lia. subst c. exists [43%N], s. repeat split; constructor.
  - exists [], (c :: s). repeat split; constructor.
Qed.
Lemma sign_complete : forall sg neg r c, sign_text sg neg -> (48 <= int_char U c)%N ->
  int_sign (im sg ++ int_char U c :: r) = (neg, int_char U c :: r).
Proof.
  intros sg neg r c H D. destruct H; cbn [map app]; rewrite ?(int_char_ascii 43), ?(int_char_ascii 45) by lia; cbn [int_sign].
  - replace (int_char U c =? 45)%N with false by (symmetry; apply N.eqb_neq; lia).
    replace (int_char U c =? 43)%N with false by (symmetry; apply N.eqb_neq; lia). reflexivity.
  - reflexivity.
  - reflexivity.
Qed.
Lemma zero_char : forall z, digit_char U 10 z 0 <-> int_char U z = 48%N.
Proof. intros z. rewrite digit_char_spec, digit_in_spec. lia. Qed.
Lemma prefix_sound : forall base s, exists px t, s = px ++ t /\ prefix_text U base px /\ int_prefix base (im s) = im t.
Proof.
  intros base [|z [|x r]]; [exists [], []; repeat split; constructor|exists [], [z]; repeat split; constructor|].
  cbn [map int_prefix]. destruct ((base =? 16) && (int_char U z =? 48) && ((int_char U x =? 120) || (int_char U x =? 88)))%N eqn:E.
  - apply andb_true_iff in E as [E1 E3]. apply andb_true_iff in E1 as [E1 E2]. apply N.eqb_eq in E1, E2.
    apply zero_char in E2. assert (X : x = 120%N \/ x = 88%N).
    { apply orb_true_iff in E3 as [E3|E3]; apply N.eqb_eq, int_char_id in E3; auto; lia. }
    destruct r as [|u r]; cbn [map]; [exists [z; x], []; repeat split; now constructor|].
    destruct (int_char U u =? 95)%N eqn:F.
    + apply N.eqb_eq, int_char_id in F; try lia. subst u. exists [z; x; 95%N], r. repeat split. now constructor.
    + exists [z; x], (u :: r). repeat split. now constructor.
  - exists [], (z :: x :: r). repeat split. constructor.
Qed.
Lemma numeral_second : forall base s n, numeral U base s n -> forall a b t, s = a :: b :: t -> b = 95%N \/ exists e, digit_char U base b e.
Proof.
  intros base s n H. induction H as [c d D|s n c d H IH D|s n c d H IH D]; intros a b t E.
  - discriminate.
  - destruct s as [|s1 [|s2 s]]; [inversion H; destruct s; discriminate| |].
    + injection E as -> -> _. eauto.
    + injection E as -> -> _. exact (IH a b s eq_refl).
  - destruct s as [|s1 [|s2 s]]; [inversion H; destruct s; discriminate| |].
    + injection E as -> <- _. auto.
    + injection E as -> -> _. exact (IH a b s eq_refl).
Qed.
Lemma prefix_none : forall base ds n r, numeral U base ds n -> Forall (blank U) r ->
  int_prefix base (im ds ++ im r) = im ds ++ im r.
Proof.
  intros base ds n r N R. destruct (N.eq_dec base 16) as [->|B].
  2:{ apply N.eqb_neq in B. unfold int_prefix. rewrite B. destruct (im ds ++ im r) as [|z [|x t]]; reflexivity. }
  rewrite <- map_app. destruct (ds ++ r) as [|z [|x t]] eqn:E; [reflexivity|reflexivity|]. cbn [map int_prefix].
  assert (X : ((int_char U x =? 120) || (int_char U x =? 88))%N = false).
  { apply orb_false_iff. rewrite !N.eqb_neq. destruct (numeral_head _ _ _ N) as (c & s & d & -> & D). destruct s as [|s1 s].
    - cbn [app] in E. injection E as -> E. rewrite E in R. apply Forall_cons_iff in R as [B _]. apply blank_char in B. unfold c_space in B.
      rewrite orb_true_iff, andb_true_iff, !N.leb_le, N.eqb_eq in B. lia.
    - cbn [app] in E. injection E as -> -> _. destruct (numeral_second _ _ _ N _ _ _ eq_refl) as [->|[e Y]].
      + rewrite int_char_ascii by lia. lia.
      + apply digit_char_spec, digit_in_spec in Y. lia. }
  now rewrite X, andb_false_r.
Qed.
Lemma prefix_complete : forall base px ds n r, prefix_text U base px -> numeral U base ds n -> Forall (blank U) r ->
  int_prefix base (im px ++ im ds ++ im r) = im ds ++ im r.
Proof.
  intros base px ds n r P N R. destruct P as [|z x -> Z X|z x -> Z X].
  - exact (prefix_none _ _ _ _ N R).
  - destruct (numeral_head _ _ _ N) as (c & s & d & -> & D). destruct (digit_range _ _ _ D) as [_ D2].
    apply zero_char in Z. cbn [map app]. rewrite Z. cbn [int_prefix]. rewrite (N.eqb_refl 16), (N.eqb_refl 48). cbn [andb].
    replace ((int_char U x =? 120) || (int_char U x =? 88))%N with true
      by (destruct X as [->| ->]; rewrite int_char_ascii by lia; reflexivity).
    apply N.eqb_neq in D2. now rewrite D2.
  - apply zero_char in Z. cbn [map app]. rewrite Z. cbn [int_prefix]. rewrite (N.eqb_refl 16), (N.eqb_refl 48). cbn [andb].
    replace ((int_char U x =? 120) || (int_char U x =? 88))%N with true
      by (destruct X as [->| ->]; rewrite int_char_ascii by lia; reflexivity).
    rewrite (int_char_ascii 95) by lia. reflexivity.
Qed.

Lemma prefix_head : forall base px ds n r, prefix_text U base px -> numeral U base ds n ->
  exists c t, px ++ ds ++ r = c :: t /\ (48 <= int_char U c)%N.
Proof.
  intros base px ds n r P N. destruct P as [|z x _ Z _|z x _ Z _]; cbn [app].
  - destruct (numeral_head _ _ _ N) as (c & s & d & -> & D). destruct (digit_range _ _ _ D) as [D1 _]. cbn [app]. eauto.
  - apply zero_char in Z. exists z. eexists. split; [reflexivity|lia].
  - apply zero_char in Z. exists z. eexists. split; [reflexivity|lia].
Qed.

Theorem int_base_spec : forall base s z, int_base U base s = Ok z <-> int_literal U base s z.
Proof.
  intros base s z. unfold int_base. split.
  - destruct (skip_sound s) as (lead & t & -> & L & ->). destruct (int_sign (im t)) as [neg r] eqn:S.
    destruct (sign_sound _ _ _ S) as (sg & t2 & -> & SG & ->). destruct (prefix_sound base t2) as (px & t3 & -> & P & ->).
    destruct (scan_int base (im t3) 0 false false) as [[n r]|] eqn:C; cbn [bind]; [|discriminate].
    destruct (scan_first _ _ _ _ C) as (ds & t4 & -> & -> & N). destruct (forallb c_space (im t4)) eqn:T; [|discriminate].
    apply trail_spec in T. intros H. apply Ok_inj in H. exists lead, sg, neg, px, ds, n, t4. auto 10.
  - intros (lead & sg & neg & px & ds & n & trail & -> & L & T & S & P & N & ->).
    rewrite !map_app, (skip_lead lead _ L). destruct (prefix_head base px ds n trail P N) as (c & t & E & C).
    assert (Q : im px ++ im ds ++ im trail = int_char U c :: im t) by (rewrite <- !map_app, E; reflexivity).
    assert (K : skip_space (im sg ++ im px ++ im ds ++ im trail) = im sg ++ im px ++ im ds ++ im trail).
    { rewrite Q. assert (SC : forall x, (43 <= x)%N -> c_space x = false).
      { intros x X. unfold c_space. apply orb_false_iff. rewrite andb_false_iff, !N.leb_gt, N.eqb_neq. lia. }
      destruct S; cbn [map app skip_space]; rewrite ?(int_char_ascii 43), ?(int_char_ascii 45) by lia; rewrite SC by lia; reflexivity. }
    rewrite K, Q, (sign_complete sg neg _ c S C), <- Q, (prefix_complete base px ds n trail P N T).
    rewrite (scan_numeral base ds n N), (scan_trail base trail n T). cbn [bind]. apply trail_spec in T. now rewrite T.
Qed.
Lemma int_base_error : forall base s e, int_base U base s = Err e -> e = EValue.
Proof.
  intros base s e. unfold int_base. destruct (int_sign _) as [neg r].
  assert (G : forall s acc seen us e, scan_int base s acc seen us = Err e -> e = EValue).
  { clear. induction s as [|c s IH]; intros acc seen us e H; cbn [scan_int] in H.
    - destruct (us || negb seen); congruence.
    - destruct (c =? 95)%N; [destruct (us || negb seen); [congruence|eauto]|]. destruct (digit_in base c); [eauto|].
      destruct (us || negb seen); congruence. }
  destruct (scan_int base (int_prefix base r) 0 false false) as [[n t]|x] eqn:E; cbn [bind].
  - destruct (forallb c_space t); congruence.
  - intros [= <-]. eauto.
Qed.
End Int.

(** ** Parts *)

Lemma split_parts : forall c s, parts c s (split_on c s).
Proof.
  intros c. induction s as [|x s IH]; cbn [split_on]; [constructor; auto|].
  destruct (x =? c)%N eqn:E.
  - apply N.eqb_eq in E. subst x. exact (pt_more c [] s _ (fun H => H) IH).
  - apply N.eqb_neq in E. inversion IH as [w W Q1 Q2|w r l W P Q1 Q2]; subst.
    + apply pt_last. intros [H|H]; congruence.
    + apply (pt_more c (x :: w) r l); [|exact P]. intros [H|H]; congruence.
Qed.
Lemma parts_split : forall c s l, parts c s l -> l = split_on c s.
Proof.
  intros c s l H. induction H as [w W|w r l W _ IH].
  - induction w as [|x w IH]; [reflexivity|]. cbn [split_on]. destruct (x =? c)%N eqn:E.
    + apply N.eqb_eq in E. exfalso. apply W. now left.
    + rewrite <- IH; [reflexivity|]. intros I. apply W. now right.
  - rewrite (split_app c w r W). congruence.
Qed.

Lemma numbered_spec : forall U base prefix, decimals_ok U -> forall ps i,
  (exists l, numbered U base prefix i ps = Ok l) <-> Forall (fun p => exists z, int_literal U base p z) ps.
Proof.
  intros U base prefix DO. induction ps as [|p ps IH]; intros i; cbn [numbered].
  - split; [constructor|eauto].
  - rewrite Forall_cons_iff, <- (IH (i + 1)). split.
    + intros [l H]. destruct (int_base U base p) as [n|] eqn:E; cbn [bind] in H; [|discriminate].
      destruct (numbered U base prefix (i + 1) ps) as [m|] eqn:M; cbn [bind] in H; [|discriminate].
      split; [exists n; now apply int_base_spec|eauto].
    + intros [[z Z] [l L]]. apply (int_base_spec U DO) in Z. rewrite Z, L. cbn [bind]. eauto.
Qed.
Lemma numbered_error : forall U base prefix ps i e, numbered U base prefix i ps = Err e -> e = EValue.
Proof.
  intros U base prefix. induction ps as [|p ps IH]; intros i e H; cbn [numbered] in H; [discriminate|].
  destruct (int_base U base p) as [n|x] eqn:E; cbn [bind] in H; [|injection H as <-; eapply int_base_error; eauto].
  destruct (numbered U base prefix (i + 1) ps) as [m|x] eqn:M; cbn [bind] in H; [discriminate|]. injection H as <-. eauto.
Qed.
Lemma has_char_In : forall c s, has_char c s = true <-> In c s.
Proof.
  intros c s. unfold has_char. rewrite existsb_exists. split.
  - intros (x & I & E). apply N.eqb_eq in E. now subst.
  - intros I. exists c. split; [exact I|apply N.eqb_refl].
Qed.
Theorem address_spec : forall U addr, decimals_ok U -> ((exists l, address_atts U addr = Ok l) <-> address_ok U addr).
Proof.
  intros U addr DO. unfold address_atts, address_ok. destruct (has_char 46 addr) eqn:D.
  - apply has_char_In in D. pose proof (numbered_spec U 10 (lit "remote_addr_v4_oct") DO (split_on 46 addr) 0) as S.
    split.
    + intros [l H]. destruct (numbered U 10 _ 0 (split_on 46 addr)) as [m|] eqn:E; [|discriminate].
      split; [|contradiction]. intros _ k P. rewrite (parts_split _ _ _ P). apply S. eauto.
    + intros [H _]. destruct (proj2 S (H D _ (split_parts 46 addr))) as [m ->]. cbn [bind]. eauto.
  - assert (D' : ~ In 46%N addr) by (rewrite <- has_char_In, D; discriminate). destruct (has_char 58 addr) eqn:C.
    + apply has_char_In in C. pose proof (numbered_spec U 16 (lit "remote_addr_v6_hex") DO (split_on 58 addr) 0) as S.
      split.
      * intros [l H]. destruct (numbered U 16 _ 0 (split_on 58 addr)) as [m|] eqn:E; [|discriminate].
        split; [contradiction|]. intros _ _ k P. rewrite (parts_split _ _ _ P). apply S. eauto.
      * intros [_ H]. destruct (proj2 S (H D' C _ (split_parts 58 addr))) as [m ->]. cbn [bind]. eauto.
    + assert (C' : ~ In 58%N addr) by (rewrite <- has_char_In, C; discriminate). split; [|eauto]. intros _. split; contradiction.
Qed.
Lemma address_error : forall U addr e, address_atts U addr = Err e -> e = EValue.
Proof.
  intros U addr e. unfold address_atts. destruct (has_char 46 addr); [|destruct (has_char 58 addr); [|discriminate]].
  - destruct (numbered _ _ _ _ _) as [l|x] eqn:E; cbn [bind]; [discriminate|]. intros [= <-]. eapply numbered_error; eauto.
  - destruct (numbered _ _ _ _ _) as [l|x] eqn:E; cbn [bind]; [discriminate|]. intros [= <-]. eapply numbered_error; eauto.
Qed.

(** ** Dictionaries *)

Lemma str_eqb_false : forall a b, str_eqb a b = false <-> a <> b.
Proof.
  intros a b. split.
  - intros H E. apply str_eqb_eq in E. congruence.
  - intros H. destruct (str_eqb a b) eqn:E; [|reflexivity]. apply str_eqb_eq in E. contradiction.
Qed.
Lemma key_In : forall A (d : list (str * A)) k, existsb (fun p => str_eqb (fst p) k) d = true <-> In k (map fst d).
Proof.
  intros A d k. rewrite existsb_exists, in_map_iff. split.
  - intros (x & I & E). apply str_eqb_eq in E. eauto.
  - intros (x & E & I). exists x. split; [exact I|]. now apply str_eqb_eq.
Qed.
Lemma get_none : forall A (d : list (str * A)) k, dict_get k d = None <-> ~ In k (map fst d).
Proof.
  intros A d k. unfold dict_get. induction d as [|[a x] d IH]; cbn [find map fst In]; [split; auto; reflexivity|].
  destruct (str_eqb a k) eqn:E; cbn [option_map].
  - apply str_eqb_eq in E. split; [discriminate|]. intros H. exfalso. auto.
  - apply str_eqb_false in E. rewrite IH. tauto.
Qed.
Lemma get_In : forall A (d : list (str * A)) k v, NoDup (map fst d) -> (dict_get k d = Some v <-> In (k, v) d).
Proof.
  intros A d k v N. unfold dict_get. induction d as [|[a x] d IH]; cbn [find map fst In] in *; [split; [discriminate|tauto]|].
  apply NoDup_cons_iff in N as [N1 N2]. destruct (str_eqb a k) eqn:E; cbn [option_map snd].
  - apply str_eqb_eq in E. subst a. split; [intros [= <-]; now left|]. intros [[= <-]|I]; [reflexivity|].
    exfalso. apply N1. apply (in_map fst) in I. exact I.
  - apply str_eqb_false in E. rewrite (IH N2). split; [now right|]. intros [[= -> ->]|I]; [congruence|exact I].
Qed.
Lemma set_keys : forall A (d : list (str * A)) k v, NoDup (map fst d) -> NoDup (map fst (dict_set k v d)).
Proof.
  intros A d k v N. unfold dict_set. destruct (existsb _ d) eqn:E.
  - rewrite map_map. rewrite (map_ext _ fst); [exact N|]. intros [a x]. cbn [fst]. now destruct (str_eqb a k).
  - rewrite map_app. cbn [map fst]. apply NoDup_Add with (a := k) (l := map fst d); [|split; [exact N|]].
    + rewrite <- (app_nil_r (map fst d)) at 1. apply Add_app.
    + rewrite <- key_In, E. discriminate.
Qed.
Lemma set_In : forall A (d : list (str * A)) k v j w, NoDup (map fst d) ->
  (In (j, w) (dict_set k v d) <-> j = k /\ w = v \/ j <> k /\ In (j, w) d).
Proof.
  intros A d k v j w N. unfold dict_set. destruct (existsb _ d) eqn:E.
  - apply key_In in E. rewrite in_map_iff. split.
    + intros ([a x] & Q & I). cbn [fst] in Q. destruct (str_eqb a k) eqn:B; injection Q as -> ->.
      * apply str_eqb_eq in B. auto.
      * apply str_eqb_false in B. auto.
    + intros [[-> ->]|[B I]].
      * apply in_map_iff in E as ([a x] & Q & I). cbn [fst] in Q. subst a. exists (k, x). cbn [fst]. rewrite str_eqb_refl. auto.
      * exists (j, w). cbn [fst]. apply str_eqb_false in B. rewrite B. auto.
  - assert (E' : ~ In k (map fst d)) by (rewrite <- key_In, E; discriminate). rewrite in_app_iff. cbn [In]. split.
    + intros [I|[[= <- <-]|[]]]; [right|auto]. split; [|exact I]. intros ->. apply E'. exact (in_map fst _ _ I).
    + intros [[-> ->]|[_ I]]; auto.
Qed.

Definition last_with (key : att_row -> str) (rows : list valued) (n : str) (p : valued) : Prop :=
  exists l1 l2, rows = l1 ++ p :: l2 /\ key (fst p) = n /\ forall r, In r l2 -> key (fst r) <> n.
Lemma last_with_app : forall key rows a n p, last_with key (rows ++ [a]) n p <->
  key (fst a) = n /\ p = a \/ key (fst a) <> n /\ last_with key rows n p.
Proof.
  intros key rows a n p. split.
  - intros (l1 & l2 & E & Kp & L). destruct l2 as [|b l2'] eqn:Q using rev_ind.
    + apply app_inj_tail in E as [_ <-]. auto.
    + clear IHl2'. rewrite app_comm_cons, app_assoc in E. apply app_inj_tail in E as [-> ->]. right. split.
      * apply L. apply in_app_iff. right. now left.
      * exists l1, l2'. split; [reflexivity|]. split; [exact Kp|]. intros r I. apply L. apply in_app_iff. now left.
  - intros [[Kp ->]|[Kp (l1 & l2 & -> & K2 & L)]].
    + exists rows, []. split; [reflexivity|]. split; [exact Kp|]. intros r [].
    + exists l1, (l2 ++ [a]). rewrite <- app_assoc. split; [reflexivity|]. split; [exact K2|]. intros r I.
      apply in_app_iff in I as [I|[<-|[]]]; auto.
Qed.
Lemma by_snoc : forall key rows a, dict_by key (rows ++ [a]) = dict_set (key (fst a)) a (dict_by key rows).
Proof. intros key rows a. unfold dict_by. now rewrite fold_left_app. Qed.
Lemma by_spec : forall key rows, NoDup (map fst (dict_by key rows)) /\
  forall n p, In (n, p) (dict_by key rows) <-> last_with key rows n p.
Proof.
  intros key rows. induction rows as [|a rows [N S]] using rev_ind.
  - split; [constructor|]. intros n p. split; [intros []|]. intros (l1 & l2 & E & _). destruct l1; discriminate.
  - rewrite by_snoc. split; [now apply set_keys|]. intros n p. rewrite (set_In _ _ _ _ _ _ N), last_with_app, S. split; intros [[A B]|[A B]]; auto.
Qed.
Lemma by_get : forall key rows n p, dict_get n (dict_by key rows) = Some p <-> last_with key rows n p.
Proof. intros key rows n p. destruct (by_spec key rows) as [N S]. now rewrite (get_In _ _ _ _ N), S. Qed.
Lemma by_get_none : forall key rows n, dict_get n (dict_by key rows) = None <-> forall p, In p rows -> key (fst p) <> n.
Proof.
  intros key rows n. induction rows as [|a rows IH] using rev_ind; [split; [intros _ p []|reflexivity]|].
  rewrite by_snoc, get_none. destruct (by_spec key rows) as [N _].
  assert (G : In n (map fst (dict_set (key (fst a)) a (dict_by key rows))) <-> n = key (fst a) \/ In n (map fst (dict_by key rows))).
  { rewrite !in_map_iff. split.
    - intros ([j w] & <- & I). cbn [fst]. apply (set_In _ _ _ _ _ _ N) in I as [[-> _]|[_ I]]; [auto|]. right. exists (j, w). auto.
    - intros [->|([j w] & <- & I)].
      + exists (key (fst a), a). split; [reflexivity|]. apply (set_In _ _ _ _ _ _ N). auto.
      + cbn [fst]. destruct (str_eqb j (key (fst a))) eqn:E.
        * apply str_eqb_eq in E. subst j. exists (key (fst a), a). split; [reflexivity|]. apply (set_In _ _ _ _ _ _ N). auto.
        * apply str_eqb_false in E. exists (j, w). split; [reflexivity|]. apply (set_In _ _ _ _ _ _ N). auto. }
  rewrite G. rewrite get_none in IH. split.
  - intros H p I. apply in_app_iff in I as [I|[<-|[]]]; [apply IH; [tauto|exact I]|]. intros E. apply H. auto.
  - intros H [->|I]; [apply (H a); [apply in_app_iff; right; now left|reflexivity]|].
    revert I. apply IH. intros p I. apply H. apply in_app_iff. now left.
Qed.

(** ** The selection *)

Definition ids_of (rows : list valued) : list str := map (fun p : valued => ar_id (fst p)) rows.
Lemma id_unique : forall rows (p r : valued), NoDup (ids_of rows) -> In p rows -> In r rows -> ar_id (fst p) = ar_id (fst r) -> p = r.
Proof.
  intros rows p r N. induction rows as [|x rows IH]; [intros []|]. cbn [ids_of map] in N. apply NoDup_cons_iff in N as [N1 N2].
  intros [->|I] [->|J] E; auto; exfalso; apply N1; [rewrite E|rewrite <- E]; now apply (in_map (fun p : valued => ar_id (fst p))).
Qed.
Lemma last_id : forall rows i p, NoDup (ids_of rows) -> (last_with ar_id rows i p <-> In p rows /\ ar_id (fst p) = i).
Proof.
  intros rows i p N. split.
  - intros (l1 & l2 & -> & E & _). split; [apply in_app_iff; right; now left|exact E].
  - intros [I E]. apply in_split in I as (l1 & l2 & ->). exists l1, l2. split; [reflexivity|]. split; [exact E|].
    intros r I F. unfold ids_of in N. rewrite map_app in N. cbn [map] in N. apply NoDup_remove_2 in N. apply N.
    apply in_app_iff. right. rewrite E, <- F. now apply (in_map (fun p : valued => ar_id (fst p))).
Qed.
Lemma by_id_rows : forall rows, NoDup (ids_of rows) -> map snd (dict_by ar_id rows) = rows.
Proof.
  intros rows. induction rows as [|a rows IH] using rev_ind; [reflexivity|]. intros N.
  unfold ids_of in N. rewrite map_app in N. cbn [map] in N. apply NoDup_remove in N as [N1 N2]. rewrite app_nil_r in N1, N2.
  rewrite by_snoc. unfold dict_set. destruct (existsb _ _) eqn:E.
  - exfalso. apply key_In in E. apply N2. assert (Q : dict_get (ar_id (fst a)) (dict_by ar_id rows) <> None) by (rewrite get_none; tauto).
    destruct (dict_get (ar_id (fst a)) (dict_by ar_id rows)) as [p|] eqn:G; [|congruence].
    apply by_get, (last_id _ _ _ N1) in G as [I <-]. now apply (in_map (fun p : valued => ar_id (fst p))).
  - rewrite map_app, IH by exact N1. reflexivity.
Qed.

Definition good (rows : list valued) (d : list (str * valued)) : Prop :=
  NoDup (map fst d) /\ forall k p, In (k, p) d -> k = ar_id (fst p) /\ In p rows.
Lemma good_ids : forall rows d, good rows d -> map fst d = ids_of (map snd d).
Proof.
  intros rows d [_ G]. unfold ids_of. rewrite map_map. apply map_ext_in. intros [k p] I. cbn [fst snd]. now apply G.
Qed.
Lemma set_good : forall rows d p, NoDup (ids_of rows) -> good rows d -> In p rows ->
  good rows (dict_set (ar_id (fst p)) p d) /\
  forall q, In q (map snd (dict_set (ar_id (fst p)) p d)) <-> In q (map snd d) \/ q = p.
Proof.
  intros rows d p N [G1 G2] I. split.
  - split; [now apply set_keys|]. intros k q J. apply (set_In _ _ _ _ _ _ G1) in J as [[-> ->]|[_ J]]; auto.
  - intros q. rewrite !in_map_iff. split.
    + intros ([k x] & Q & J). cbn [snd] in Q. subst x. apply (set_In _ _ _ _ _ _ G1) in J as [[_ ->]|[_ J]]; [auto|].
      left. exists (k, q). auto.
    + intros [([k x] & Q & J)| ->].
      * cbn [snd] in Q. subst x. destruct (G2 _ _ J) as [-> J'].
        destruct (str_eqb (ar_id (fst q)) (ar_id (fst p))) eqn:E.
        -- apply str_eqb_eq in E. assert (q = p) by (apply (id_unique rows); auto). subst q.
           exists (ar_id (fst p), p). split; [reflexivity|]. apply (set_In _ _ _ _ _ _ G1). auto.
        -- apply str_eqb_false in E. exists (ar_id (fst q), q). split; [reflexivity|]. apply (set_In _ _ _ _ _ _ G1). auto.
      * exists (ar_id (fst p), p). split; [reflexivity|]. apply (set_In _ _ _ _ _ _ G1). auto.
Qed.

Lemma take_ids_spec : forall rows ids acc, NoDup (ids_of rows) -> good rows acc ->
  match take_ids (dict_by ar_id rows) ids acc with
  | Ok d => good rows d /\ (forall i, In i ids -> exists p, In p rows /\ ar_id (fst p) = i) /\
            forall q, In q (map snd d) <-> In q (map snd acc) \/ In q rows /\ In (ar_id (fst q)) ids
  | Err e => e = EClientFault /\ exists i, In i ids /\ forall p, In p rows -> ar_id (fst p) <> i
  end.
Proof.
  intros rows ids. induction ids as [|i ids IH]; intros acc N G; cbn [take_ids].
  - split; [exact G|]. split; [intros i []|]. intros q. cbn [In]. tauto.
  - destruct (dict_get i (dict_by ar_id rows)) as [p|] eqn:E.
    + apply by_get, (last_id _ _ _ N) in E as [I <-]. destruct (set_good rows acc p N G I) as [G' S].
      specialize (IH _ N G'). destruct (take_ids _ ids _) as [d|e].
      * destruct IH as (G2 & A & B). split; [exact G2|]. split; [intros j [<-|J]; eauto|]. intros q. rewrite B, S. cbn [In]. split.
        -- intros [[H| ->]|[H1 H2]]; auto.
        -- intros [H|[H1 [H2|H2]]]; auto. left. right. apply (id_unique rows); auto.
      * destruct IH as [-> (j & J & H)]. split; [reflexivity|]. exists j. split; [now right|exact H].
    + split; [reflexivity|]. exists i. split; [now left|]. now apply by_get_none.
Qed.
Lemma take_names_spec : forall rows names acc, NoDup (ids_of rows) -> good rows acc ->
  match take_names (dict_by ar_name rows) names acc with
  | Ok d => good rows d /\ (forall n, In n names -> exists p, In p rows /\ ar_name (fst p) = n) /\
            forall q, In q (map snd d) <-> In q (map snd acc) \/ exists n, In n names /\ last_named rows n q
  | Err e => e = EClientFault /\ exists n, In n names /\ forall p, In p rows -> ar_name (fst p) <> n
  end.
Proof.
  intros rows names. induction names as [|n names IH]; intros acc N G; cbn [take_names].
  - split; [exact G|]. split; [intros n []|]. intros q. split; [auto|]. intros [H|(n & [] & _)]. exact H.
  - destruct (dict_get n (dict_by ar_name rows)) as [p|] eqn:E.
    + apply by_get in E. assert (I : In p rows /\ ar_name (fst p) = n).
      { destruct E as (l1 & l2 & -> & Q & _). split; [apply in_app_iff; right; now left|exact Q]. }
      destruct I as [I Q].
      assert (U : forall q, last_named rows n q <-> q = p).
      { intros q. change (last_with ar_name rows n q <-> q = p). rewrite <- by_get. rewrite <- by_get in E. rewrite E. split; congruence. }
      set (acc' := match dict_get (ar_id (fst p)) acc with None => dict_set (ar_id (fst p)) p acc | Some _ => acc end).
      assert (S : good rows acc' /\ forall q, In q (map snd acc') <-> In q (map snd acc) \/ q = p).
      { unfold acc'. destruct (dict_get (ar_id (fst p)) acc) as [r|] eqn:D; [|now apply set_good].
        split; [exact G|]. intros q. split; [auto|]. intros [H| ->]; [exact H|]. destruct G as [G1 G2].
        apply (get_In _ _ _ _ G1) in D. destruct (G2 _ _ D) as [D1 D2]. assert (p = r) by (apply (id_unique rows); auto). subst r.
        apply in_map_iff. eexists. split; [|exact D]. reflexivity. }
      destruct S as [G' S]. specialize (IH acc' N G'). destruct (take_names _ names acc') as [d|e].
      * destruct IH as (G2 & A & B). split; [exact G2|]. split; [intros m [<-|M]; eauto|]. intros q. rewrite B, S. split.
        -- intros [[H| ->]|(m & M & L)]; [auto| |].
           ++ right. exists n. split; [now left|]. now apply U.
           ++ right. exists m. split; [now right|exact L].
        -- intros [H|(m & [<-|M] & L)]; [auto| |].
           ++ apply U in L. auto.
           ++ right. eauto.
      * destruct IH as [-> (j & J & H)]. split; [reflexivity|]. exists j. split; [now right|exact H].
    + split; [reflexivity|]. exists n. split; [now left|]. now apply by_get_none.
Qed.

Lemma wanted_spec : forall l s, In s (wanted l) <-> asks (Some l) s.
Proof.
  intros l s. unfold wanted, asks. rewrite in_flat_map. split.
  - intros ([x|] & I & J); [|destruct J]. destruct (str_eqb x [] || str_eqb x (lit "*")) eqn:E; [destruct J|].
    destruct J as [->|[]]. apply orb_false_iff in E as [E1 E2]. apply str_eqb_false in E1, E2. exists l. auto.
  - intros (m & [= <-] & I & E1 & E2). exists (Some s). split; [exact I|]. apply str_eqb_false in E1, E2. rewrite E1, E2. now left.
Qed.

Theorem select_spec : forall rows q ids names, NoDup (ids_of rows) -> rq_ids q = Some ids -> rq_names q = Some names ->
  match select rows (wanted ids) (wanted names) with
  | Ok sel => selection rows q sel /\ all_assigned rows q
  | Err e => e = EClientFault /\ ~ all_assigned rows q
  end.
Proof.
  intros rows q ids names N QI QN.
  assert (AI : forall s, asks (rq_ids q) s <-> In s (wanted ids)) by (intros; rewrite QI; symmetry; apply wanted_spec).
  assert (AN : forall s, asks (rq_names q) s <-> In s (wanted names)) by (intros; rewrite QN; symmetry; apply wanted_spec).
  assert (AA : asks_all q <-> wanted ids = [] /\ wanted names = []).
  { unfold asks_all. split.
    - intros H. split; [destruct (wanted ids) as [|x l] eqn:E|destruct (wanted names) as [|x l] eqn:E]; auto; exfalso.
      + apply (proj1 (H x)). apply AI. rewrite ?E. now left.
      + apply (proj2 (H x)). apply AN. rewrite ?E. now left.
    - intros [A B] s. rewrite AI, AN, A, B. split; intros []. }
  assert (G : match (acc <- take_ids (dict_by ar_id rows) (wanted ids) [] ;; acc <- take_names (dict_by ar_name rows) (wanted names) acc ;; Ok (map snd acc)) with
    | Ok sel => NoDup (ids_of sel) /\ (forall p, In p sel <-> In p rows /\ (asks (rq_ids q) (ar_id (fst p)) \/ exists n, asks (rq_names q) n /\ last_named rows n p)) /\ all_assigned rows q
    | Err e => e = EClientFault /\ ~ all_assigned rows q end).
  { pose proof (take_ids_spec rows (wanted ids) [] N) as T1. destruct (take_ids _ _ _) as [d1|e]; cbn [bind].
    2:{ destruct T1 as [-> (i & I & H)]; [split; [constructor|intros k p []]|]. split; [reflexivity|]. intros [A _].
        apply AI in I. destruct (A i I) as (p & P & Q). exact (H p P Q). }
    destruct T1 as (G1 & A1 & B1); [split; [constructor|intros k p []]|].
    pose proof (take_names_spec rows (wanted names) d1 N G1) as T2. destruct (take_names _ _ _) as [d2|e]; cbn [bind].
    2:{ destruct T2 as [-> (n & I & H)]. split; [reflexivity|]. intros [_ A]. apply AN in I. destruct (A n I) as (p & P & Q). exact (H p P Q). }
    destruct T2 as (G2 & A2 & B2). split; [rewrite <- (good_ids rows d2 G2); apply G2|]. split.
    - intros p. rewrite B2, B1. cbn [map In]. rewrite AI. split.
      + intros [[[]|[H1 H2]]|(n & H1 & H2)]; [auto|]. split; [|right; exists n; rewrite AN; auto].
        destruct H2 as (l1 & l2 & -> & _). apply in_app_iff. right. now left.
      + intros [H1 [H2|(n & H2 & H3)]]; [auto|]. right. exists n. rewrite <- AN. auto.
    - split; [intros i H; apply A1; now apply AI|intros n H; apply A2; now apply AN]. }
  unfold select. destruct (wanted ids) as [|i ids'] eqn:WI, (wanted names) as [|n names'] eqn:WN.
  - rewrite (by_id_rows rows N). split.
    + split; [exact N|]. intros p. assert (asks_all q) by (apply AA; auto). tauto.
    + split; intros s H; [apply AI in H|apply AN in H]; destruct H.
  - destruct (bind _ _) as [sel|e]; [|exact G]. destruct G as (G1 & G2 & G3). split; [|exact G3]. split; [exact G1|].
    intros p. rewrite G2. assert (~ asks_all q) by (rewrite AA; intros []; discriminate). tauto.
  - destruct (bind _ _) as [sel|e]; [|exact G]. destruct G as (G1 & G2 & G3). split; [|exact G3]. split; [exact G1|].
    intros p. rewrite G2. assert (~ asks_all q) by (rewrite AA; intros []; discriminate). tauto.
  - destruct (bind _ _) as [sel|e]; [|exact G]. destruct G as (G1 & G2 & G3). split; [|exact G3]. split; [exact G1|].
    intros p. rewrite G2. assert (~ asks_all q) by (rewrite AA; intros []; discriminate). tauto.
Qed.

(** ** The attributes of a user *)

Lemma user_atts_In : forall d uid a v, In (a, v) (user_atts d uid) <-> assigned d uid a v.
Proof.
  intros d uid a v. unfold user_atts, assigned. rewrite in_flat_map. split.
  - intros (b & I & J). apply in_flat_map in J as ([u i w] & J1 & J2). cbn [as_att as_user as_value] in J2.
    destruct (str_eqb i (ar_id b) && (u =? uid)) eqn:E; [|destruct J2]. destruct J2 as [[= -> ->]|[]].
    apply andb_true_iff in E as [E1 E2]. apply str_eqb_eq in E1. apply Z.eqb_eq in E2. subst. auto.
  - intros [I J]. exists a. split; [exact I|]. apply in_flat_map. exists (Assign uid (ar_id a) v). split; [exact J|].
    cbn [as_att as_user as_value]. rewrite str_eqb_refl, Z.eqb_refl. now left.
Qed.
Lemma user_atts_unique : forall d uid, tables_ok d -> NoDup (ids_of (user_atts d uid)).
Proof.
  intros d uid [TA _ TS]. unfold user_atts. revert TA. generalize (d_atts d) as atts.
  set (f := fun a => flat_map (fun s => if str_eqb (as_att s) (ar_id a) && (as_user s =? uid) then [(a, as_value s)] else []) (d_assigns d)).
  assert (F : forall a p, In p (f a) -> fst p = a).
  { intros a p I. unfold f in I. apply in_flat_map in I as (s & _ & I). destruct (_ && _); [|destruct I]. destruct I as [<-|[]]. reflexivity. }
  assert (S : forall a, NoDup (ids_of (f a))).
  { intros a. unfold f. clear f F. induction (d_assigns d) as [|s l IH]; [constructor|]. cbn [map] in TS. apply NoDup_cons_iff in TS as [T1 T2].
    cbn [flat_map]. destruct (str_eqb (as_att s) (ar_id a) && (as_user s =? uid)) eqn:E; [|exact (IH T2)].
    apply andb_true_iff in E as [E1 E2]. apply str_eqb_eq in E1. apply Z.eqb_eq in E2.
    replace (flat_map _ l) with (@nil valued); [cbn; repeat constructor; auto|]. symmetry.
    clear IH. induction l as [|t l IH]; [reflexivity|]. cbn [flat_map map In] in *.
    destruct (str_eqb (as_att t) (ar_id a) && (as_user t =? uid)) eqn:E'.
    - exfalso. apply T1. left. apply andb_true_iff in E' as [E3 E4]. apply str_eqb_eq in E3. apply Z.eqb_eq in E4. congruence.
    - apply IH; [|now apply NoDup_cons_iff in T2]. intros H. apply T1. now right. }
  induction atts as [|a atts IH]; intros TA; [constructor|]. cbn [map] in TA. apply NoDup_cons_iff in TA as [T1 T2].
  cbn [flat_map]. unfold ids_of. rewrite map_app.
  assert (D : forall l m : list str, NoDup l -> NoDup m -> (forall x, In x l -> ~ In x m) -> NoDup (l ++ m)).
  { clear. induction l as [|x l IH]; intros m L M H; [exact M|]. apply NoDup_cons_iff in L as [L1 L2]. cbn [app]. constructor.
    - rewrite in_app_iff. intros [I|I]; [auto|]. exact (H x (or_introl eq_refl) I).
    - apply IH; auto. intros y I. apply H. now right. }
  apply D; [apply S|exact (IH T2)|]. intros x I J. apply in_map_iff in I as (p & <- & I). apply F in I.
  apply in_map_iff in J as (r & E & J). apply in_flat_map in J as (b & B & J). apply F in J. subst.
  apply T1. rewrite <- E. now apply in_map.
Qed.
