(** * ErrorProps: theorems about error contexts (C56, C64) *)

From Coq Require Import NArith ZArith List Bool Lia String.
From Verif Require Import PyBase AttCert Lexer LexSpec LexProofs LexProps Errors.
Import ListNotations.
Open Scope Z_scope.

(** The text is [a ++ s ++ b], where [a] is what is more than [n] before [pos] and [b] what is
    more than [n] after it. *)
Definition excerpt (t : str) (pos n : Z) (s : str) : Prop :=
  exists a b, t = a ++ s ++ b /\
    Z.of_nat (List.length a) = Z.min (Z.of_nat (List.length t)) (Z.max 0 (pos - n)) /\
    Z.of_nat (List.length b) = Z.max 0 (Z.of_nat (List.length t) - (pos + n + 1)).

Lemma excerpt_unique : forall t pos n s s', excerpt t pos n s -> excerpt t pos n s' -> s = s'.
Proof.
  intros t pos n s s' (a & b & E & A & B) (a' & b' & E' & A' & B').
  assert (La : List.length a = List.length a') by lia. rewrite E in E'.
  assert (Q : a = a' /\ s ++ b = s' ++ b').
  { clear - La E'. revert a' La E'. induction a as [|x a IH]; intros [|y a'] L E'; try discriminate; [now split|].
    cbn in E'. injection E' as -> E'. injection L as L. destruct (IH a' L E') as [-> ->]. now split. }
  destruct Q as [_ Q]. assert (Ls : List.length s = List.length s').
  { apply (f_equal (@List.length BinNums.N)) in Q. rewrite !app_length in Q. lia. }
  clear - Ls Q. revert s' Ls Q. induction s as [|x s IH]; intros [|y s'] L Q; try discriminate; [reflexivity|].
  cbn in Q. injection Q as -> Q. injection L as L. now rewrite (IH s' L Q).
Qed.

Lemma skipn_add : forall (t : str) a b, skipn a (skipn b t) = skipn (b + a) t.
Proof.
  intros t a b. revert t. induction b as [|b IH]; intros t; [reflexivity|].
  destruct t; [now rewrite !skipn_nil|]. apply IH.
Qed.

Lemma slice_parts : forall (t : str) a b, (a <= b)%nat -> (b <= List.length t)%nat ->
  t = firstn a t ++ firstn (b - a) (skipn a t) ++ skipn b t.
Proof.
  intros t a b L1 L2. rewrite <- (firstn_skipn a t) at 1. f_equal.
  rewrite <- (firstn_skipn (b - a) (skipn a t)) at 1. f_equal.
  rewrite skipn_add. f_equal. lia.
Qed.

Lemma slice_excerpt : forall t pos n, 0 <= pos -> 0 <= n ->
  let len := Z.of_nat (List.length t) in
  excerpt t pos n (py_slice t (if 0 <=? pos - n then pos - n else 0) (if pos + n + 1 <=? len then pos + n + 1 else len)).
Proof.
  intros t pos n P N len. unfold excerpt, py_slice, py_index. fold len.
  set (a := if 0 <=? pos - n then pos - n else 0).
  set (b := if pos + n + 1 <=? len then pos + n + 1 else len).
  assert (Ha : a = Z.max 0 (pos - n)) by (unfold a; destruct (Z.leb_spec 0 (pos - n)); lia).
  assert (Hb : b = Z.min (pos + n + 1) len) by (unfold b; destruct (Z.leb_spec (pos + n + 1) len); lia).
  assert (L : 0 <= len) by lia.
  destruct (Z.ltb_spec a 0); [lia|]. destruct (Z.ltb_spec b 0); [lia|].
  replace (Z.min len (Z.max 0 a)) with (Z.min len a) by lia.
  replace (Z.min len (Z.max 0 b)) with b by lia.
  assert (O : (Z.to_nat (Z.min len a) <= Z.to_nat b)%nat).
  { apply Z2Nat.inj_le; lia. }
  exists (firstn (Z.to_nat (Z.min len a)) t), (skipn (Z.to_nat b) t). split; [|split].
  - apply slice_parts; [exact O|]. unfold len in *. lia.
  - rewrite firstn_length. unfold len in *. lia.
  - rewrite skipn_length. unfold len in *. lia.
Qed.

(** With a text and a position: the excerpt of [n] characters around it. *)
Theorem C56_near : forall t pos n s, t <> [] -> 0 <= pos -> 0 <= n ->
  (near (Some t) pos n = Some s <-> excerpt t pos n s).
Proof.
  intros t pos n s T P N. pose proof (slice_excerpt t pos n P N) as E. cbv zeta in E.
  unfold near. destruct t as [|x t]; [congruence|]. destruct (Z.leb_spec 0 pos); [|lia]. cbv zeta.
  split.
  - intros H1. injection H1 as <-. exact E.
  - intros X. f_equal. exact (excerpt_unique _ _ _ _ _ E X).
Qed.
Print Assumptions C56_near.

Theorem C56_none : forall text pos n, near text pos n = None <-> text = None \/ text = Some [] \/ pos < 0.
Proof.
  intros [[|x t]|] pos n; cbn [near]; try tauto. destruct (Z.leb_spec 0 pos).
  - split; [discriminate|]. intros [Q|[Q|Q]]; try discriminate; lia.
  - tauto.
Qed.
Print Assumptions C56_none.

(** At most 2n+1 characters, and the one at the position is among them. *)
Theorem C56_size : forall t pos n s, 0 <= n -> near (Some t) pos n = Some s -> Z.of_nat (List.length s) <= 2 * n + 1.
Proof.
  intros t pos n s N H. assert (T : t <> []) by (intros ->; discriminate).
  assert (P : 0 <= pos). { destruct (Z.leb_spec 0 pos); [assumption|]. unfold near in H. destruct t; [discriminate|].
    destruct (Z.leb_spec 0 pos); [lia|discriminate]. }
  apply (C56_near t pos n s T P N) in H as (a & b & E & A & B).
  apply (f_equal (@List.length BinNums.N)) in E. rewrite !app_length in E. lia.
Qed.
Print Assumptions C56_size.

Theorem C56_centre : forall t pos n s c, 0 <= n -> 0 <= pos -> nth_error t (Z.to_nat pos) = Some c ->
  near (Some t) pos n = Some s -> nth_error s (Z.to_nat (Z.min pos n)) = Some c.
Proof.
  intros t pos n s c N P C H. assert (T : t <> []) by (intros ->; discriminate).
  assert (L : (Z.to_nat pos < List.length t)%nat) by (apply nth_error_Some; congruence).
  apply (C56_near t pos n s T P N) in H as (a & b & E & A & B).
  rewrite E in C. rewrite nth_error_app2 in C by lia.
  replace (Z.to_nat pos - List.length a)%nat with (Z.to_nat (Z.min pos n)) in C by lia.
  rewrite nth_error_app1 in C; [exact C|].
  apply (f_equal (@List.length BinNums.N)) in E. rewrite !app_length in E. lia.
Qed.
Print Assumptions C56_centre.
Example ex_near : near (Some (lit "user.age >= 18 AND user.role = 'x'")) 15 5 = Some (lit "= 18 AND us")
  /\ near (Some (lit "user.age")) 7 3 = Some (lit ".age").
Proof. split; vm_compute; reflexivity. Qed.

(** With a negative length the end can become negative, which Python counts from the end of
    the text. *)
Theorem C56_negative_refuted : exists t pos n s, near (Some t) pos n = Some s /\ s <> [] /\ n < 0.
Proof.
  exists (lit "user.age >= 18 AND user.role = 'x'"), 1, (-5), (py_slice (lit "user.age >= 18 AND user.role = 'x'") 6 (-3)). split; [vm_compute; reflexivity|].
  split; [vm_compute; discriminate|lia].
Qed.
Print Assumptions C56_negative_refuted.

(** ** C64: the text of an error *)

(** The text begins with the message and names the position and the excerpt whenever there
    is one. *)
Theorem C64_text : forall m text pos,
  err_str m text pos =
    m ++ (if 0 <=? pos then lit " @ char " ++ str_of_Z pos else []) ++
    (match near text pos 10 with Some s => lit " near '" ++ s ++ lit "'" | None => [] end).
Proof.
  intros m text pos. unfold err_str, default_near. destruct (Z.leb_spec 0 pos) as [P|P].
  - destruct (near text pos 10); rewrite ?app_nil_r, <- ?app_assoc; reflexivity.
  - rewrite (proj2 (C56_none text pos 10)) by auto. now rewrite !app_nil_r.
Qed.
Print Assumptions C64_text.

(** Every LexerError of a text names a position and, unless the text is empty, an excerpt of
    at most 21 characters around it. *)
Theorem C64_lexer : forall U text p m, unicode_ok U -> lex_text U text = Err (ELexer p) -> text <> [] ->
  exists s, excerpt text p 10 s /\
    err_str m (Some text) p = m ++ lit " @ char " ++ str_of_Z p ++ lit " near '" ++ s ++ lit "'".
Proof.
  intros U text p m O H T. apply (C06_error_position U text p O) in H as [P _].
  destruct (near (Some text) p 10) as [s|] eqn:E.
  - exists s. split; [apply (C56_near text p 10 s T P); [lia|exact E]|].
    rewrite C64_text, E. destruct (Z.leb_spec 0 p); [|lia]. now rewrite <- !app_assoc.
  - apply C56_none in E as [E|[E|E]]; [discriminate|congruence|lia].
Qed.
Print Assumptions C64_lexer.
