(** * BytesProofs: round trips of integers, text and base64 *)

From Coq Require Import NArith ZArith List Bool Lia.
From Verif Require Import PyBase PyNum Struct.
Import ListNotations.
Open Scope Z_scope.

(** ** Integers *)

Lemma le_bytes_length : forall k n, List.length (le_bytes k n) = k.
Proof. induction k as [|k IH]; intros n; cbn; [reflexivity|now rewrite IH]. Qed.

Definition is_byte (b : N) : Prop := (b < 256)%N.

Lemma le_bytes_byte : forall k n, Forall is_byte (le_bytes k n).
Proof.
  induction k as [|k IH]; intros n; cbn; constructor; auto. unfold is_byte. apply N.mod_upper_bound. lia.
Qed.

Lemma le_val_bytes : forall k n, (n < 256 ^ N.of_nat k)%N -> le_val (le_bytes k n) = n.
Proof.
  induction k as [|k IH]; intros n H.
  - change (256 ^ N.of_nat 0)%N with 1%N in H. cbn. lia.
  - cbn [le_bytes le_val]. rewrite IH.
    + pose proof (N.div_mod n 256 ltac:(lia)). lia.
    + apply N.div_lt_upper_bound; [lia|]. replace (N.of_nat (S k)) with (N.succ (N.of_nat k)) in H by lia.
      rewrite N.pow_succ_r in H by lia. exact H.
Qed.

Lemma le_val_bound : forall b, Forall is_byte b -> (le_val b < 256 ^ N.of_nat (List.length b))%N.
Proof.
  induction b as [|x b IH]; intros H; [cbn; lia|].
  inversion H as [|? ? Hx Hb]; subst. specialize (IH Hb). unfold is_byte in Hx.
  cbn [le_val List.length]. replace (N.of_nat (S (List.length b))) with (N.succ (N.of_nat (List.length b))) by lia.
  rewrite N.pow_succ_r by lia. lia.
Qed.

Lemma le_bytes_val : forall b, Forall is_byte b -> le_bytes (List.length b) (le_val b) = b.
Proof.
  induction b as [|x b IH]; intros H; [reflexivity|].
  inversion H as [|? ? Hx Hb]; subst. unfold is_byte in Hx. cbn [List.length le_val le_bytes].
  rewrite (N.mul_comm 256), N.mod_add, N.div_add by lia.
  rewrite N.mod_small, (N.div_small x 256), N.add_0_l by lia. f_equal. now apply IH.
Qed.

Lemma pack_u_ok : forall k z b, pack_u k z = Ok b <-> (0 <= z < 256 ^ Z.of_nat k /\ b = le_bytes k (Z.to_N z)).
Proof.
  intros k z b. unfold pack_u. destruct (Z.leb_spec 0 z) as [L|L]; destruct (Z.ltb_spec z (256 ^ Z.of_nat k)) as [M|M]; cbn [andb];
    split; intros H; try discriminate; try (exfalso; lia).
  - injection H as <-. split; [lia|reflexivity].
  - destruct H as [_ ->]. reflexivity.
Qed.

Lemma pack_u_err : forall k z e, pack_u k z = Err e -> e = EStruct.
Proof. intros k z e. unfold pack_u. destruct (_ && _)%bool; intros H; congruence. Qed.

Lemma pack_u_length : forall k z b, pack_u k z = Ok b -> List.length b = k.
Proof. intros k z b H. apply pack_u_ok in H as [_ ->]. apply le_bytes_length. Qed.

Lemma pack_u_byte : forall k z b, pack_u k z = Ok b -> Forall is_byte b.
Proof. intros k z b H. apply pack_u_ok in H as [_ ->]. apply le_bytes_byte. Qed.

Lemma take_app : forall k x r, List.length x = k -> take k (x ++ r) = Ok (x, r).
Proof.
  intros k x r H. unfold take. rewrite app_length. destruct (Nat.ltb_spec (List.length x + List.length r) k) as [L|L]; [lia|].
  subst k. rewrite firstn_app, Nat.sub_diag, firstn_all, skipn_app, Nat.sub_diag, skipn_all.
  cbn. now rewrite app_nil_r.
Qed.

Lemma take_ok : forall k b x r, take k b = Ok (x, r) -> b = x ++ r /\ List.length x = k.
Proof.
  intros k b x r. unfold take. destruct (Nat.ltb_spec (List.length b) k) as [L|L]; intros H; [discriminate|].
  injection H as <- <-. split; [symmetry; apply firstn_skipn|]. rewrite firstn_length. lia.
Qed.

Lemma take_err : forall k b e, take k b = Err e -> e = EStruct /\ (List.length b < k)%nat.
Proof.
  intros k b e. unfold take. destruct (Nat.ltb_spec (List.length b) k) as [L|L]; intros H; [|discriminate].
  split; congruence.
Qed.

Lemma get_u_pack : forall k z b r, pack_u k z = Ok b -> get_u k (b ++ r) = Ok (z, r).
Proof.
  intros k z b r H. unfold get_u. rewrite take_app by (now apply (pack_u_length k z)).
  apply pack_u_ok in H as [[H1 H2] ->]. cbn [bind]. f_equal. f_equal.
  rewrite le_val_bytes; [lia|]. apply N2Z.inj_lt. rewrite N2Z.inj_pow, Z2N.id, nat_N_Z by lia. exact H2.
Qed.

Lemma get_u_ok : forall k b z r, Forall is_byte b -> get_u k b = Ok (z, r) ->
  exists x, b = x ++ r /\ pack_u k z = Ok x.
Proof.
  intros k b z r Hb H. unfold get_u in H. destruct (take k b) as [[x y]|e] eqn:T; cbn [bind] in H; [|discriminate].
  injection H as <- <-. apply take_ok in T as [-> L]. apply Forall_app in Hb as [Hx _].
  exists x. split; [reflexivity|]. apply pack_u_ok. rewrite N2Z.id.
  pose proof (le_val_bound x Hx) as B. rewrite <- L. split; [|now rewrite le_bytes_val].
  split; [lia|]. apply N2Z.inj_lt in B. rewrite N2Z.inj_pow, nat_N_Z in B. exact B.
Qed.

Lemma get_u_err : forall k b e, get_u k b = Err e -> e = EStruct.
Proof.
  intros k b e. unfold get_u. destruct (take k b) as [[x y]|e'] eqn:T; cbn [bind]; intros H; [discriminate|].
  apply take_err in T as [-> _]. congruence.
Qed.

Lemma pack_i32_ok : forall z b, pack_i32 z = Ok b <->
  (-2147483648 <= z < 2147483648 /\ b = le_bytes 4 (Z.to_N (z mod 4294967296))).
Proof.
  intros z b. unfold pack_i32. destruct (Z.leb_spec (-2147483648) z) as [L|L];
    destruct (Z.ltb_spec z 2147483648) as [M|M]; cbn [andb]; split; intros H; try discriminate; try (exfalso; lia).
  - injection H as <-. split; [lia|reflexivity].
  - destruct H as [_ ->]. reflexivity.
Qed.

Lemma unpack_pack_i32 : forall z b, pack_i32 z = Ok b -> List.length b = 4%nat /\ Forall is_byte b /\ unpack_i32 b = z.
Proof.
  intros z b H. apply pack_i32_ok in H as [B ->]. split; [apply le_bytes_length|]. split; [apply le_bytes_byte|].
  pose proof (Z.mod_pos_bound z 4294967296 ltac:(lia)) as MB.
  unfold unpack_i32. rewrite le_val_bytes by (change (256 ^ N.of_nat 4)%N with 4294967296%N; lia).
  rewrite Z2N.id by lia.
  assert (M : z mod 4294967296 = z \/ z mod 4294967296 = z + 4294967296).
  { destruct (Z_le_gt_dec 0 z) as [G|G].
    - left. apply Z.mod_small. lia.
    - right. symmetry. apply (Z.mod_unique z 4294967296 (-1)); lia. }
  destruct (Z.ltb_spec (z mod 4294967296) 2147483648); lia.
Qed.

(** ** UTF-8 *)

Lemma Ok_inj : forall {A} (a b : A), Ok a = Ok b -> a = b.
Proof. intros A a b H. congruence. Qed.

Definition scalar (c : N) : bool := negb (surrogate c) && (c <? 1114112)%N.

Lemma utf8_char_ok : forall c, (exists b, utf8_char c = Ok b) <-> scalar c = true.
Proof.
  intros c. unfold utf8_char, scalar, surrogate.
  destruct (N.ltb_spec c 128) as [A|A]; [|destruct (N.ltb_spec c 2048) as [B|B];
    [|destruct (N.leb_spec 55296 c) as [C|C]; [destruct (N.leb_spec c 57343) as [D|D]|]]];
    cbn [andb negb]; try (destruct (N.leb_spec 55296 c) as [C'|C']; [lia|]; cbn [andb negb]).
  - destruct (N.ltb_spec c 1114112); split; [reflexivity|eauto|lia|lia].
  - destruct (N.ltb_spec c 1114112); split; [reflexivity|eauto|lia|lia].
  - split; [intros (b & H); discriminate|discriminate].
  - destruct (N.ltb_spec c 65536) as [F|F]; destruct (N.ltb_spec c 1114112) as [G|G]; split;
      try reflexivity; eauto; try lia; try discriminate; intros (b & H); discriminate.
  - destruct (N.ltb_spec c 65536) as [F|F]; destruct (N.ltb_spec c 1114112) as [G|G]; split;
      try reflexivity; eauto; try lia; try discriminate; intros (b & H); discriminate.
Qed.

Lemma utf8_char_err : forall c e, utf8_char c = Err e -> e = EUnicodeEncode.
Proof.
  intros c e. unfold utf8_char. repeat match goal with |- context [if ?x then _ else _] => destruct x end; congruence.
Qed.

Lemma utf8_encode_ok : forall s, (exists b, utf8_encode s = Ok b) <-> forallb scalar s = true.
Proof.
  induction s as [|c s IH]; [split; [reflexivity|cbn; eauto]|].
  cbn [utf8_encode forallb]. rewrite andb_true_iff, <- IH, <- utf8_char_ok.
  destruct (utf8_char c) as [x|e]; cbn [bind].
  - destruct (utf8_encode s) as [y|e]; cbn [bind].
    + split; [intros _; eauto|eauto].
    + split; [intros (b & H); discriminate|intros [_ (b & H)]; discriminate].
  - split; [intros (b & H); discriminate|intros [(b & H) _]; discriminate].
Qed.

Lemma utf8_encode_err : forall s e, utf8_encode s = Err e -> e = EUnicodeEncode.
Proof.
  induction s as [|c s IH]; intros e H; [discriminate|]. cbn [utf8_encode] in H.
  destruct (utf8_char c) as [x|x] eqn:X; cbn [bind] in H.
  - destruct (utf8_encode s) as [y|y] eqn:Y; cbn [bind] in H; [discriminate|]. injection H as <-. now apply IH.
  - injection H as <-. now apply (utf8_char_err c).
Qed.

Lemma N_div64 : forall n, exists q r, (n = 64 * q + r /\ r < 64 /\ n / 64 = q /\ n mod 64 = r)%N.
Proof.
  intros n. exists (n / 64)%N, (n mod 64)%N. pose proof (N.div_mod n 64 ltac:(lia)).
  pose proof (N.mod_upper_bound n 64 ltac:(lia)). repeat split; lia.
Qed.

Lemma div4096 : forall c, (c / 4096 = c / 64 / 64)%N.
Proof. intros c. rewrite N.div_div by lia. reflexivity. Qed.
Lemma div262144 : forall c, (c / 262144 = c / 64 / 64 / 64)%N.
Proof. intros c. rewrite !N.div_div by lia. reflexivity. Qed.

Lemma cont_true : forall r, (r < 64)%N -> cont (128 + r) = true.
Proof. intros r H. unfold cont. apply andb_true_iff. split; apply N.leb_le; lia. Qed.

(** Decoding the encoding of a character followed by anything. *)
Lemma utf8_decode_char : forall c b r, utf8_char c = Ok b ->
  utf8_decode (b ++ r) = (s <- utf8_decode r ;; Ok (c :: s)).
Proof.
  intros c b r. unfold utf8_char.
  destruct (N.ltb_spec c 128) as [A|A].
  { intros H. apply Ok_inj in H. subst b. cbn [app utf8_decode]. destruct (N.ltb_spec c 128) as [_|C]; [reflexivity|lia]. }
  destruct (N.ltb_spec c 2048) as [B|B].
  { intros H. apply Ok_inj in H. subst b. destruct (N_div64 c) as (q & m & Hc & Hm & -> & ->). cbn [app utf8_decode].
    destruct (N.ltb_spec (192 + q) 128) as [C|_]; [lia|]. destruct (N.ltb_spec (192 + q) 194) as [C|_]; [lia|].
    destruct (N.ltb_spec (192 + q) 224) as [_|C]; [|lia]. rewrite cont_true by exact Hm.
    replace ((192 + q - 192) * 64 + (128 + m - 128))%N with c by lia. reflexivity. }
  destruct (surrogate c) eqn:S; [discriminate|].
  destruct (N.ltb_spec c 65536) as [D|D].
  { intros H. apply Ok_inj in H. subst b. rewrite div4096. destruct (N_div64 c) as (q & m & Hc & Hm & -> & ->).
    destruct (N_div64 q) as (q2 & m2 & Hc2 & Hm2 & -> & ->). cbn [app utf8_decode].
    destruct (N.ltb_spec (224 + q2) 128) as [C|_]; [lia|]. destruct (N.ltb_spec (224 + q2) 194) as [C|_]; [lia|].
    destruct (N.ltb_spec (224 + q2) 224) as [C|_]; [lia|]. destruct (N.ltb_spec (224 + q2) 240) as [_|C]; [|lia].
    rewrite !cont_true by assumption. cbv zeta.
    replace ((224 + q2 - 224) * 4096 + (128 + m2 - 128) * 64 + (128 + m - 128))%N with c by lia.
    rewrite S. destruct (N.leb_spec 2048 c) as [_|C]; [|lia]. reflexivity. }
  destruct (N.ltb_spec c 1114112) as [F|F]; [|discriminate].
  intros H. apply Ok_inj in H. subst b. rewrite div4096, div262144. destruct (N_div64 c) as (q & m & Hc & Hm & -> & ->).
  destruct (N_div64 q) as (q2 & m2 & Hc2 & Hm2 & -> & ->). destruct (N_div64 q2) as (q3 & m3 & Hc3 & Hm3 & -> & ->).
  cbn [app utf8_decode].
  destruct (N.ltb_spec (240 + q3) 128) as [C|_]; [lia|]. destruct (N.ltb_spec (240 + q3) 194) as [C|_]; [lia|].
  destruct (N.ltb_spec (240 + q3) 224) as [C|_]; [lia|]. destruct (N.ltb_spec (240 + q3) 240) as [C|_]; [lia|].
  destruct (N.ltb_spec (240 + q3) 245) as [_|C]; [|lia].
  rewrite !cont_true by assumption. cbv zeta.
  replace ((240 + q3 - 240) * 262144 + (128 + m3 - 128) * 4096 + (128 + m2 - 128) * 64 + (128 + m - 128))%N with c by lia.
  destruct (N.leb_spec 65536 c) as [_|C]; [|lia]. destruct (N.ltb_spec c 1114112) as [_|C]; [|lia]. reflexivity.
Qed.

Theorem utf8_round_trip : forall s b, utf8_encode s = Ok b -> utf8_decode b = Ok s.
Proof.
  induction s as [|c s IH]; intros b H; cbn [utf8_encode] in H.
  - injection H as <-. reflexivity.
  - destruct (utf8_char c) as [x|x] eqn:X; cbn [bind] in H; [|discriminate].
    destruct (utf8_encode s) as [y|y] eqn:Y; cbn [bind] in H; [|discriminate]. injection H as <-.
    rewrite (utf8_decode_char c x y X), (IH y eq_refl). reflexivity.
Qed.

Lemma utf8_char_byte : forall c b, utf8_char c = Ok b -> Forall is_byte b.
Proof.
  intros c b. unfold utf8_char, is_byte.
  destruct (N.ltb_spec c 128) as [A|A]; [intros H; apply Ok_inj in H; subst b; repeat constructor; lia|].
  destruct (N_div64 c) as (q & m & Hc & Hm & E1 & E2). destruct (N_div64 q) as (q2 & m2 & Hc2 & Hm2 & E3 & E4).
  destruct (N_div64 q2) as (q3 & m3 & Hc3 & Hm3 & E5 & E6). rewrite div4096, div262144, E1, E2, E3, E4, E5, E6.
  destruct (N.ltb_spec c 2048) as [B|B]; [intros H; apply Ok_inj in H; subst b; repeat constructor; lia|].
  destruct (surrogate c); [discriminate|].
  destruct (N.ltb_spec c 65536) as [D|D]; [intros H; apply Ok_inj in H; subst b; repeat constructor; lia|].
  destruct (N.ltb_spec c 1114112) as [F|F]; [intros H; apply Ok_inj in H; subst b; repeat constructor; lia|discriminate].
Qed.

Lemma utf8_byte : forall s b, utf8_encode s = Ok b -> Forall is_byte b.
Proof.
  induction s as [|c s IH]; intros b H; cbn [utf8_encode] in H.
  - injection H as <-. constructor.
  - destruct (utf8_char c) as [x|x] eqn:X; cbn [bind] in H; [|discriminate].
    destruct (utf8_encode s) as [y|y] eqn:Y; cbn [bind] in H; [|discriminate]. injection H as <-.
    apply Forall_app. split; [now apply (utf8_char_byte c)|now apply IH].
Qed.

Lemma cont_inv : forall y, cont y = true -> exists r, (y = 128 + r /\ r < 64)%N.
Proof.
  intros y H. unfold cont in H. apply andb_true_iff in H as [H1 H2]. apply N.leb_le in H1. apply N.leb_le in H2.
  exists (y - 128)%N. lia.
Qed.

Lemma div64_val : forall q r, (r < 64 -> (64 * q + r) / 64 = q /\ (64 * q + r) mod 64 = r)%N.
Proof.
  intros q r H. rewrite (N.add_comm (64 * q)), (N.mul_comm 64), N.div_add, N.mod_add by lia.
  rewrite N.div_small, N.mod_small by lia. lia.
Qed.

(** Only encodings decode. *)
Theorem utf8_decode_sound : forall n b s, (List.length b <= n)%nat -> utf8_decode b = Ok s -> utf8_encode s = Ok b.
Proof.
  induction n as [|n IH]; intros b s Hn H.
  { destruct b as [|x r]; [|cbn in Hn; lia]. cbn in H. injection H as <-. reflexivity. }
  destruct b as [|x r]; [cbn in H; injection H as <-; reflexivity|]. cbn [utf8_decode] in H. cbn [List.length] in Hn.
  destruct (N.ltb_spec x 128) as [A|A].
  { destruct (utf8_decode r) as [t|t] eqn:T; cbn [bind] in H; [|discriminate]. injection H as <-.
    cbn [utf8_encode]. unfold utf8_char. destruct (N.ltb_spec x 128) as [_|C]; [|lia]. cbn [bind].
    rewrite (IH r t ltac:(lia) T). reflexivity. }
  destruct (N.ltb_spec x 194) as [B|B]; [discriminate|].
  destruct (N.ltb_spec x 224) as [C|C].
  { destruct r as [|y r]; [discriminate|]. destruct (cont y) eqn:Cy; [|discriminate].
    destruct (utf8_decode r) as [t|t] eqn:T; cbn [bind] in H; [|discriminate]. injection H as <-.
    apply cont_inv in Cy as (m & -> & Hm). cbn [List.length] in Hn.
    cbn [utf8_encode]. rewrite (IH r t ltac:(lia) T).
    replace ((x - 192) * 64 + (128 + m - 128))%N with (64 * (x - 192) + m)%N by lia.
    unfold utf8_char. destruct (div64_val (x - 192) m Hm) as [-> ->].
    destruct (N.ltb_spec (64 * (x - 192) + m) 128) as [G|_]; [lia|].
    destruct (N.ltb_spec (64 * (x - 192) + m) 2048) as [_|G]; [|lia]. cbn [bind app].
    replace (192 + (x - 192))%N with x by lia. reflexivity. }
  destruct (N.ltb_spec x 240) as [D|D].
  { destruct r as [|y [|z r]]; [discriminate|discriminate|]. cbv zeta in H.
    destruct (cont y) eqn:Cy; [|discriminate]. destruct (cont z) eqn:Cz; [|discriminate]. cbn [andb] in H.
    apply cont_inv in Cy as (m2 & -> & Hm2). apply cont_inv in Cz as (m & -> & Hm).
    replace ((x - 224) * 4096 + (128 + m2 - 128) * 64 + (128 + m - 128))%N
      with (64 * (64 * (x - 224) + m2) + m)%N in H by lia.
    destruct (div64_val (64 * (x - 224) + m2) m Hm) as [E1 E2]. destruct (div64_val (x - 224) m2 Hm2) as [E3 E4].
    set (c := (64 * (64 * (x - 224) + m2) + m)%N) in *.
    destruct (N.leb_spec 2048 c) as [F|F]; [|discriminate]. destruct (surrogate c) eqn:S; [discriminate|]. cbn [negb andb] in H.
    destruct (utf8_decode r) as [t|t] eqn:T; cbn [bind] in H; [|discriminate]. injection H as <-.
    cbn [List.length] in Hn. cbn [utf8_encode]. rewrite (IH r t ltac:(lia) T).
    unfold utf8_char. rewrite S, div4096, E1, E2, E3, E4.
    destruct (N.ltb_spec c 128) as [G|_]; [lia|]. destruct (N.ltb_spec c 2048) as [G|_]; [lia|].
    destruct (N.ltb_spec c 65536) as [_|G]; [|unfold c in G; lia]. cbn [bind app].
    replace (224 + (x - 224))%N with x by lia. reflexivity. }
  destruct (N.ltb_spec x 245) as [E|E]; [|discriminate].
  destruct r as [|y [|z [|w r]]]; [discriminate|discriminate|discriminate|]. cbv zeta in H.
  destruct (cont y) eqn:Cy; [|discriminate]. destruct (cont z) eqn:Cz; [|discriminate].
  destruct (cont w) eqn:Cw; [|discriminate]. cbn [andb] in H.
  apply cont_inv in Cy as (m3 & -> & Hm3). apply cont_inv in Cz as (m2 & -> & Hm2). apply cont_inv in Cw as (m & -> & Hm).
  replace ((x - 240) * 262144 + (128 + m3 - 128) * 4096 + (128 + m2 - 128) * 64 + (128 + m - 128))%N
    with (64 * (64 * (64 * (x - 240) + m3) + m2) + m)%N in H by lia.
  destruct (div64_val (64 * (64 * (x - 240) + m3) + m2) m Hm) as [E1 E2].
  destruct (div64_val (64 * (x - 240) + m3) m2 Hm2) as [E3 E4]. destruct (div64_val (x - 240) m3 Hm3) as [E5 E6].
  set (c := (64 * (64 * (64 * (x - 240) + m3) + m2) + m)%N) in *.
  destruct (N.leb_spec 65536 c) as [F|F]; [|discriminate]. destruct (N.ltb_spec c 1114112) as [G|G]; [|discriminate].
  cbn [andb] in H.
  destruct (utf8_decode r) as [t|t] eqn:T; cbn [bind] in H; [|discriminate]. injection H as <-.
  cbn [List.length] in Hn. cbn [utf8_encode]. rewrite (IH r t ltac:(lia) T).
  unfold utf8_char. rewrite div4096, div262144, E1, E2, E3, E4, E5, E6.
  assert (S : surrogate c = false).
  { unfold surrogate. destruct (N.leb_spec c 57343) as [K|K]; [lia|]. apply andb_false_r. }
  rewrite S. destruct (N.ltb_spec c 128) as [K|_]; [lia|]. destruct (N.ltb_spec c 2048) as [K|_]; [lia|].
  destruct (N.ltb_spec c 65536) as [K|_]; [lia|]. destruct (N.ltb_spec c 1114112) as [_|K]; [|lia]. cbn [bind app].
  replace (240 + (x - 240))%N with x by lia. reflexivity.
Qed.

Lemma utf8_decode_err : forall n b e, (List.length b <= n)%nat -> utf8_decode b = Err e -> e = EUnicodeDecode.
Proof.
  induction n as [|n IH]; intros b e Hn H.
  { destruct b as [|x r]; [discriminate|cbn in Hn; lia]. }
  destruct b as [|x r]; [discriminate|]. cbn [utf8_decode] in H. cbn [List.length] in Hn. cbv zeta in H.
  repeat match type of H with
         | (if ?x then _ else _) = _ => destruct x
         | match ?r with [] => _ | _ :: _ => _ end = _ => destruct r as [|? ?]; cbn [List.length] in Hn
         | bind (utf8_decode ?r) _ = _ =>
             let T := fresh "T" in destruct (utf8_decode r) as [t|t] eqn:T; cbn [bind] in H;
             [discriminate|injection H as <-; refine (IH _ _ _ T); lia]
         end; congruence.
Qed.

(** ASCII text is its own encoding; other text needs more bytes than characters. *)
Lemma utf8_ascii : forall s, is_ascii s = true -> utf8_encode s = Ok s /\ utf8_decode s = Ok s.
Proof.
  intros s H. assert (X : utf8_encode s = Ok s).
  { induction s as [|c s IH]; [reflexivity|]. cbn [is_ascii forallb] in H. apply andb_true_iff in H as [H1 H2].
    cbn [utf8_encode]. rewrite (IH H2). unfold utf8_char. unfold asc in H1. rewrite H1. reflexivity. }
  split; [exact X|]. now apply utf8_round_trip.
Qed.

Lemma utf8_length : forall s b, utf8_encode s = Ok b ->
  (List.length s <= List.length b)%nat /\ (List.length b = List.length s -> is_ascii s = true).
Proof.
  induction s as [|c s IH]; intros b H; cbn [utf8_encode] in H.
  - injection H as <-. split; [lia|reflexivity].
  - destruct (utf8_char c) as [x|x] eqn:X; cbn [bind] in H; [|discriminate].
    destruct (utf8_encode s) as [y|y] eqn:Y; cbn [bind] in H; [|discriminate]. injection H as <-.
    destruct (IH y eq_refl) as [I1 I2]. rewrite app_length. cbn [List.length is_ascii forallb].
    assert (L : (1 <= List.length x)%nat /\ (List.length x = 1%nat -> asc c = true)).
    { unfold utf8_char in X. unfold asc.
      destruct (N.ltb_spec c 128) as [A|A]; [apply Ok_inj in X; subst x; split; [cbn; lia|reflexivity]|].
      destruct (N.ltb_spec c 2048); [apply Ok_inj in X; subst x; split; [cbn; lia|discriminate]|].
      destruct (surrogate c); [discriminate|].
      destruct (N.ltb_spec c 65536); [apply Ok_inj in X; subst x; split; [cbn; lia|discriminate]|].
      destruct (N.ltb_spec c 1114112); [apply Ok_inj in X; subst x; split; [cbn; lia|discriminate]|discriminate]. }
    destruct L as [L1 L2]. split; [lia|]. intros H. apply andb_true_iff. split; [apply L2; lia|apply I2; lia].
Qed.

(** ** Base64 *)

Lemma digit_char : forall n, (n < 64)%N -> b64_digit (b64_char n) = Some n /\ (b64_char n =? b64_pad)%N = false.
Proof.
  intros n H. unfold b64_char.
  assert (D : forall c, (c <> 61)%N -> (c =? b64_pad)%N = false) by (intros c Hc; apply N.eqb_neq; exact Hc).
  destruct (N.ltb_spec n 26) as [A|A]; [|destruct (N.ltb_spec n 52) as [B|B]; [|destruct (N.ltb_spec n 62) as [C|C];
    [|destruct (N.eqb_spec n 62) as [->|E]]]].
  - split; [|apply D; lia]. unfold b64_digit.
    destruct (N.leb_spec 65 (n + 65)) as [_|G]; [|lia]. destruct (N.leb_spec (n + 65) 90) as [_|G]; [|lia]. cbn [andb]. f_equal. lia.
  - split; [|apply D; lia]. unfold b64_digit.
    destruct (N.leb_spec (n + 71) 90) as [G|_]; [lia|]. rewrite andb_false_r.
    destruct (N.leb_spec 97 (n + 71)) as [_|G]; [|lia]. destruct (N.leb_spec (n + 71) 122) as [_|G]; [|lia]. cbn [andb]. f_equal. lia.
  - split; [|apply D; lia]. unfold b64_digit.
    destruct (N.leb_spec 65 (n - 4)) as [G|_]; [lia|]. destruct (N.leb_spec 97 (n - 4)) as [G|_]; [lia|]. cbn [andb].
    destruct (N.leb_spec 48 (n - 4)) as [_|G]; [|lia]. destruct (N.leb_spec (n - 4) 57) as [_|G]; [|lia]. cbn [andb]. f_equal. lia.
  - split; reflexivity.
  - replace n with 63%N by lia. split; reflexivity.
Qed.

Lemma N_split : forall k n, (0 < k)%N -> exists q r, (n = k * q + r /\ r < k /\ n / k = q /\ n mod k = r)%N.
Proof.
  intros k n H. exists (n / k)%N, (n mod k)%N. pose proof (N.div_mod n k ltac:(lia)).
  pose proof (N.mod_upper_bound n k ltac:(lia)). repeat split; lia.
Qed.
Lemma div_val : forall k q r, (r < k -> (k * q + r) / k = q /\ (k * q + r) mod k = r)%N.
Proof.
  intros k q r H. rewrite (N.add_comm (k * q)), (N.mul_comm k), N.div_add, N.mod_add by lia.
  rewrite N.div_small, N.mod_small by lia. lia.
Qed.

Lemma b64_round_trip_n : forall n b, (List.length b <= n)%nat -> Forall is_byte b -> b64_loop (b64encode b) 0 0 0 = Ok b.
Proof.
  induction n as [|n IH]; intros b Hn Hb.
  { destruct b; [reflexivity|cbn in Hn; lia]. }
  destruct b as [|x [|y [|z r]]]; [reflexivity| | |].
  - inversion Hb as [|? ? Hx _]; subst. unfold is_byte in Hx. cbn [b64encode].
    destruct (N_split 4 x ltac:(lia)) as (q & m & Ex & Hm & -> & ->).
    destruct (digit_char q ltac:(lia)) as [D1 P1]. destruct (digit_char (m * 16) ltac:(lia)) as [D2 P2].
    cbn [b64_loop]. rewrite P1, D1, P2, D2. cbn [N.eqb Pos.eqb].
    change (b64_pad =? b64_pad)%N with true. change (2 <=? 2)%N with true. change (4 <=? 2 + (0 + 1))%N with false.
    change (4 <=? 2 + (0 + 1 + 1))%N with true. cbn [bind]. f_equal. f_equal.
    rewrite N.div_mul by lia. lia.
  - inversion Hb as [|? ? Hx Hb1]; subst. inversion Hb1 as [|? ? Hy _]; subst. unfold is_byte in Hx, Hy. cbn [b64encode].
    destruct (N_split 4 x ltac:(lia)) as (q & m & Ex & Hm & -> & ->).
    destruct (N_split 16 y ltac:(lia)) as (q2 & m2 & Ey & Hm2 & -> & ->).
    replace (m * 16 + q2)%N with (16 * m + q2)%N by lia.
    destruct (digit_char q ltac:(lia)) as [D1 P1]. destruct (digit_char (16 * m + q2) ltac:(lia)) as [D2 P2].
    destruct (digit_char (m2 * 4) ltac:(lia)) as [D3 P3].
    destruct (div_val 16 m q2 ltac:(lia)) as [E1 E2].
    cbn [b64_loop]. rewrite P1, D1, P2, D2, P3, D3, E1, E2. cbn [N.eqb Pos.eqb].
    change (b64_pad =? b64_pad)%N with true. change (2 <=? 3)%N with true. change (4 <=? 3 + (0 + 1))%N with true.
    cbn [bind]. rewrite N.div_mul by lia. f_equal. f_equal; [lia|f_equal; lia].
  - inversion Hb as [|? ? Hx Hb1]; subst. inversion Hb1 as [|? ? Hy Hb2]; subst. inversion Hb2 as [|? ? Hz Hr]; subst.
    unfold is_byte in Hx, Hy, Hz. cbn [b64encode].
    destruct (N_split 4 x ltac:(lia)) as (q & m & Ex & Hm & -> & ->).
    destruct (N_split 16 y ltac:(lia)) as (q2 & m2 & Ey & Hm2 & -> & ->).
    destruct (N_split 64 z ltac:(lia)) as (q3 & m3 & Ez & Hm3 & -> & ->).
    replace (m * 16 + q2)%N with (16 * m + q2)%N by lia. replace (m2 * 4 + q3)%N with (4 * m2 + q3)%N by lia.
    destruct (digit_char q ltac:(lia)) as [D1 P1]. destruct (digit_char (16 * m + q2) ltac:(lia)) as [D2 P2].
    destruct (digit_char (4 * m2 + q3) ltac:(lia)) as [D3 P3]. destruct (digit_char m3 ltac:(lia)) as [D4 P4].
    destruct (div_val 16 m q2 ltac:(lia)) as [E1 E2]. destruct (div_val 4 m2 q3 ltac:(lia)) as [E3 E4].
    cbn [b64_loop]. rewrite P1, D1, P2, D2, P3, D3, P4, D4, E1, E2, E3, E4. cbn [N.eqb Pos.eqb].
    cbn [List.length] in Hn. rewrite (IH r ltac:(lia) Hr). cbn [bind]. f_equal. f_equal; [lia|f_equal; [lia|f_equal; lia]].
Qed.

Theorem b64_round_trip : forall b, Forall is_byte b -> b64decode (b64encode b) = Ok b.
Proof. intros b H. exact (b64_round_trip_n _ b (le_n _) H). Qed.

Lemma b64_loop_err : forall b q l p e, b64_loop b q l p = Err e -> e = EBinascii.
Proof.
  induction b as [|c r IH]; intros q l p e H; cbn [b64_loop] in H.
  - destruct (q =? 0)%N; congruence.
  - repeat match type of H with
           | (if ?x then _ else _) = _ => destruct x
           | match ?x with Some _ => _ | None => _ end = _ => destruct x
           | bind (b64_loop ?r ?a ?b ?c) _ = _ =>
               let T := fresh "T" in destruct (b64_loop r a b c) as [t|t] eqn:T; cbn [bind] in H;
               [discriminate|injection H as <-; exact (IH _ _ _ _ T)]
           | b64_loop _ _ _ _ = _ => exact (IH _ _ _ _ H)
           end; discriminate.
Qed.

(** Characters of encoded text are ASCII. *)
Lemma b64_char_ascii : forall n, (n < 64)%N -> asc (b64_char n) = true.
Proof.
  intros n H. unfold b64_char, asc.
  destruct (N.ltb_spec n 26); [apply N.ltb_lt; lia|]. destruct (N.ltb_spec n 52); [apply N.ltb_lt; lia|].
  destruct (N.ltb_spec n 62); [apply N.ltb_lt; lia|]. destruct (n =? 62)%N; reflexivity.
Qed.
