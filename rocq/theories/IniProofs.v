(** * IniProofs: lemmas about the reader of configuration files *)

From Coq Require Import NArith List Bool Lia String PeanoNat.
From Verif Require Import PyBase LexSpec LexProofs LexCase Config Ini IniSpec.
Import ListNotations.
Open Scope N_scope.

(** ** Lines *)

Lemma newlines_free : forall l s, ~ In 13 l -> newlines (l ++ s) = l ++ newlines s.
Proof.
  induction l as [|c l IH]; intros s H; [reflexivity|]. cbn [app newlines].
  destruct (c =? 13) eqn:E; [apply N.eqb_eq in E as ->; destruct H; now left|].
  rewrite IH; [reflexivity|]. intros I. apply H. now right.
Qed.

Lemma split_line : forall l s, ~ In 10 l -> split_lf (l ++ 10 :: s) = l :: split_lf s.
Proof.
  induction l as [|c l IH]; intros s H; cbn [app split_lf]; [reflexivity|].
  destruct (c =? 10) eqn:E; [apply N.eqb_eq in E as ->; destruct H; now left|].
  rewrite IH; [reflexivity|]. intros I. apply H. now right.
Qed.
Lemma split_last : forall l, ~ In 10 l -> split_lf l = [l].
Proof.
  induction l as [|c l IH]; intros H; cbn [split_lf]; [reflexivity|].
  destruct (c =? 10) eqn:E; [apply N.eqb_eq in E as ->; destruct H; now left|].
  rewrite IH; [reflexivity|]. intros I. apply H. now right.
Qed.
Lemma split_some : forall s, split_lf s <> [].
Proof.
  intros [|c s]; cbn [split_lf]; [discriminate|]. destruct (c =? 10); [discriminate|].
  destruct (split_lf s); discriminate.
Qed.

Lemma lines_line : forall l s, ~ In 10 l -> lines_of (l ++ 10 :: s) = l :: lines_of s.
Proof.
  intros l s H. unfold lines_of. rewrite (split_line l s H). cbn [rev].
  destruct (rev (split_lf s)) as [|x r] eqn:E.
  - apply (f_equal (@rev str)) in E. rewrite rev_involutive in E. now apply split_some in E.
  - cbn [app]. destruct x; [|reflexivity]. now rewrite rev_app_distr.
Qed.
Lemma lines_last : forall l, l <> [] -> ~ In 10 l -> lines_of l = [l].
Proof. intros [|c l] N H; [now destruct N|]. unfold lines_of. now rewrite (split_last _ H). Qed.

Lemma file_lines_read : forall s ls, file_lines s ls -> lines_of (newlines s) = ls.
Proof.
  induction 1 as [|l N [A B]|l s ls [A B] _ IH|l s ls [A B] _ IH|l s ls [A B] C _ IH].
  - reflexivity.
  - rewrite <- (app_nil_r l) at 1. rewrite (newlines_free l [] B). cbn [newlines]. rewrite app_nil_r. now apply lines_last.
  - rewrite (newlines_free l _ B). cbn [newlines]. change (10 =? 13) with false. cbn match.
    rewrite lines_line by exact A. now rewrite IH.
  - rewrite (newlines_free l _ B). cbn [newlines]. change (13 =? 13) with true. change (10 =? 10) with true. cbn match.
    rewrite lines_line by exact A. now rewrite IH.
  - rewrite (newlines_free l _ B). cbn [newlines]. change (13 =? 13) with true. cbn match.
    transitivity (lines_of (l ++ 10 :: newlines s)); [|rewrite (lines_line l _ A); now rewrite IH].
    destruct s as [|d r]; [reflexivity|].
    destruct (d =? 10) eqn:E; [|reflexivity]. apply N.eqb_eq in E as ->. now destruct (C r).
Qed.

(** Every text has lines. *)
Lemma first_break : forall s : str, (one_line s) \/ exists l c r, s = l ++ c :: r /\ one_line l /\ (c = 10 \/ c = 13).
Proof.
  induction s as [|c s IH]; [left; split; intros []|].
  destruct (N.eq_dec c 10) as [->|N1]; [right; exists [], 10, s; split; [reflexivity|split; [split; intros []|now left]]|].
  destruct (N.eq_dec c 13) as [->|N2]; [right; exists [], 13, s; split; [reflexivity|split; [split; intros []|now right]]|].
  destruct IH as [[A B]|(l & d & r & -> & [A B] & D)].
  - left. split; intros [E|I]; congruence || auto.
  - right. exists (c :: l), d, r. split; [reflexivity|]. split; [|exact D]. split; intros [E|I]; congruence || auto.
Qed.
Lemma file_lines_all : forall s, exists ls, file_lines s ls.
Proof.
  intros s. remember (List.length s) as n eqn:E. assert (L : (List.length s <= n)%nat) by lia. clear E. revert s L.
  induction n as [|n IH]; intros s L.
  - destruct s; [|cbn in L; lia]. exists []. constructor.
  - destruct (first_break s) as [O|(l & c & r & -> & O & [->| ->])].
    + destruct s as [|c s]; [exists []; constructor|]. exists [c :: s]. constructor; [discriminate|exact O].
    + rewrite app_length in L. cbn in L. destruct (IH r) as [ls F]; [lia|]. exists (l :: ls). now constructor.
    + rewrite app_length in L. cbn in L. destruct r as [|d r'].
      * exists [l]. apply fl_cr; [exact O|discriminate|constructor].
      * destruct (N.eq_dec d 10) as [->|D].
        -- cbn in L. destruct (IH r') as [ls F]; [lia|]. exists (l :: ls). now constructor.
        -- destruct (IH (d :: r')) as [ls F]; [lia|]. exists (l :: ls). apply fl_cr; [exact O|congruence|exact F].
Qed.
Lemma file_lines_iff : forall s ls, lines_of (newlines s) = ls <-> file_lines s ls.
Proof.
  intros s ls. split; [|apply file_lines_read]. intros <-. destruct (file_lines_all s) as [ls F].
  now rewrite (file_lines_read s ls F).
Qed.

Section WithUnicode.
Variable U : unicode.
Notation spaces := (spaces U). Notation starts := (starts U). Notation ends := (ends U).
Notation trims := (trims U). Notation header := (header U). Notation comment := (comment U).
Notation setting := (setting U). Notation words := (words U). Notation more := (more U).
Notation entries := (entries U). Notation parts := (parts U). Notation filler := (filler U).

(** ** Spaces *)

Lemma spaces_cons : forall c w, spaces (c :: w) <-> isspace U c = true /\ spaces w.
Proof.
  intros c w. split.
  - intros H. split; [apply H; now left|]. intros d I. apply H. now right.
  - intros [A B] d [<-|I]; auto.
Qed.
Lemma spaces_rev : forall w, spaces w -> spaces (rev w).
Proof. intros w H c I. apply H. now apply in_rev. Qed.
Lemma spaces_nil : spaces []. Proof. intros c []. Qed.

Lemma lstrip_spec : forall s, exists w, s = w ++ lstrip U s /\ spaces w /\ starts (lstrip U s) /\ List.length w = (List.length s - List.length (lstrip U s))%nat.
Proof.
  induction s as [|c s (w & E & W & S0 & L)]; cbn [lstrip].
  - exists []. repeat split; [apply spaces_nil|intros ? ? D; discriminate].
  - destruct (isspace U c) eqn:C.
    + exists (c :: w). repeat split.
      * cbn. now rewrite <- E.
      * apply spaces_cons. now split.
      * exact S0.
      * apply (f_equal (@List.length N)) in E. rewrite app_length in E. cbn [List.length]. lia.
    + exists []. repeat split; [apply spaces_nil| |cbn; lia]. intros d r D. injection D as <- _. exact C.
Qed.
Lemma lstrip_app : forall w x, spaces w -> starts x -> lstrip U (w ++ x) = x.
Proof.
  induction w as [|c w IH]; intros x W S0.
  - destruct x as [|d x]; [reflexivity|]. cbn. now rewrite (S0 d x eq_refl).
  - apply spaces_cons in W as [C W]. cbn. rewrite C. now apply IH.
Qed.
Lemma starts_rev : forall x, starts (rev x) <-> ends x.
Proof.
  intros x. split.
  - intros H r c ->. apply (H c (rev r)). now rewrite rev_app_distr.
  - intros H c r E. apply (H (rev r) c). rewrite <- (rev_involutive x), E. reflexivity.
Qed.
Lemma rstrip_app : forall x t, spaces t -> ends x -> rstrip U (x ++ t) = x.
Proof.
  intros x t T E. unfold rstrip. rewrite rev_app_distr, lstrip_app.
  - apply rev_involutive.
  - now apply spaces_rev.
  - now apply starts_rev.
Qed.
Lemma rstrip_spec : forall s, exists t, s = rstrip U s ++ t /\ spaces t /\ ends (rstrip U s).
Proof.
  intros s. destruct (lstrip_spec (rev s)) as (w & E & W & S0 & _). exists (rev w). repeat split.
  - unfold rstrip. rewrite <- rev_app_distr, <- E. now rewrite rev_involutive.
  - now apply spaces_rev.
  - apply starts_rev. unfold rstrip. now rewrite rev_involutive.
Qed.
Lemma rstrip_iff : forall s v, rstrip U s = v <-> exists t, s = v ++ t /\ spaces t /\ ends v.
Proof.
  intros s v. split.
  - intros <-. apply rstrip_spec.
  - intros (t & -> & T & E). now apply rstrip_app.
Qed.
Lemma starts_app : forall x t, starts (x ++ t) -> starts x.
Proof. intros x t H c r ->. now apply (H c (r ++ t)). Qed.

Lemma strip_trims : forall l, exists n, trims l n (strip U l).
Proof.
  intros l. destruct (lstrip_spec l) as (w & E & W & S0 & L). destruct (rstrip_spec (lstrip U l)) as (t & E2 & T & N).
  exists (List.length w), w, t. unfold strip. repeat split; auto.
  - rewrite <- E2. exact E.
  - rewrite E2 in S0. now apply starts_app in S0.
Qed.
Lemma trims_strip : forall l n x, trims l n x -> strip U l = x.
Proof.
  intros l n x (w & t & -> & W & T & S0 & N & _). unfold strip. destruct x as [|c x].
  - cbn [app]. assert (V : spaces (w ++ t)) by (intros c I; apply in_app_or in I as [I|I]; auto).
    rewrite <- (app_nil_r (w ++ t)), (lstrip_app (w ++ t) [] V); [reflexivity|intros ? ? D; discriminate].
  - rewrite lstrip_app; auto; [now apply rstrip_app|]. intros d r D. cbn in D. injection D as <- _. now apply (S0 c x).
Qed.
Lemma trims_indent : forall l n c x, trims l n (c :: x) -> indent U l = n.
Proof.
  intros l n c x (w & t & -> & W & T & S0 & N & <-). induction w as [|d w IH]; cbn.
  - now rewrite (S0 c x eq_refl).
  - apply spaces_cons in W as [D W]. rewrite D. f_equal. now apply IH.
Qed.
Lemma trims_of : forall l c x, strip U l = c :: x -> trims l (indent U l) (c :: x).
Proof.
  intros l c x E. destruct (strip_trims l) as [n T]. rewrite E in T. now rewrite (trims_indent l n c x T).
Qed.
Lemma strip_nil : forall l, strip U l = [] <-> spaces l.
Proof.
  intros l. split.
  - intros E. destruct (strip_trims l) as [n (w & t & L & W & T & _)]. rewrite E in L. cbn in L. subst l.
    intros c I. apply in_app_or in I as [I|I]; auto.
  - intros S0. apply (trims_strip l (List.length l)). exists l, []. rewrite !app_nil_r.
    repeat split; auto; [apply spaces_nil| |]; [intros c r D; discriminate|intros r c D; now destruct r].
Qed.

(** ** Kinds of lines *)

Lemma is_comment_iff : forall l, is_comment (strip U l) = true <-> comment l.
Proof.
  intros l. split.
  - intros H. destruct (strip U l) as [|c x] eqn:E; [discriminate|]. apply trims_of in E. exists (indent U l), c, x.
    split; [exact E|]. cbn in H. apply orb_true_iff in H as [H|H]; apply N.eqb_eq in H; auto.
  - intros (n & c & x & T & H). rewrite (trims_strip _ _ _ T). cbn. destruct H as [->| ->]; reflexivity.
Qed.
Lemma not_comment : forall l, is_comment (strip U l) = false <-> ~ comment l.
Proof. intros l. rewrite <- is_comment_iff. destruct (is_comment (strip U l)); split; congruence. Qed.

Lemma before_last_iff : forall s x, before_last s = Some x <-> exists r, s = x ++ 93 :: r /\ ~ In 93 r.
Proof.
  assert (N0 : forall s, before_last s = None <-> ~ In 93 s).
  { induction s as [|c s IH]; cbn [before_last]; [split; auto|].
    destruct (before_last s) as [y|] eqn:E.
    - split; [discriminate|]. intros H. destruct IH as [_ IH]. assert (Some y = None) as D; [|discriminate].
      apply IH. intros I. apply H. now right.
    - destruct (c =? 93) eqn:C.
      + apply N.eqb_eq in C as ->. split; [discriminate|]. intros H. destruct H. now left.
      + apply N.eqb_neq in C. split; [|reflexivity]. intros _ [I|I]; [congruence|]. now apply IH in I. }
  induction s as [|c s IH]; intros x; cbn [before_last].
  - split; [discriminate|]. intros (r & E & _). now destruct x.
  - destruct (before_last s) as [y|] eqn:E.
    + split.
      * intros H. injection H as <-. destruct (proj1 (IH y) eq_refl) as (r & -> & N1). exists r. now split.
      * intros (r & D & N1). destruct x as [|d x]; cbn in D.
        -- injection D as -> ->. apply N0 in N1. congruence.
        -- injection D as -> D. assert (Q : Some y = Some x) by (apply IH; exists r; now split). now injection Q as ->.
    + destruct (c =? 93) eqn:C.
      * apply N.eqb_eq in C as ->. split.
        -- intros H. injection H as <-. exists s. split; [reflexivity|]. now apply N0.
        -- intros (r & D & N1). destruct x as [|d x]; [reflexivity|]. cbn in D. injection D as <- D.
           apply N0 in E. destruct E. rewrite D. apply in_or_app. right. now left.
      * apply N.eqb_neq in C. split; [discriminate|]. intros (r & D & N1). destruct x as [|d x]; cbn in D.
        -- injection D as -> _. congruence.
        -- injection D as _ D. apply N0 in E. destruct E. rewrite D. apply in_or_app. right. now left.
Qed.
Lemma header_of_iff : forall x name, header_of x = Some name <-> exists r, x = 91 :: name ++ 93 :: r /\ name <> [] /\ ~ In 93 r.
Proof.
  intros [|c s] name; cbn [header_of].
  - split; [discriminate|]. intros (r & D & _). discriminate.
  - destruct (c =? 91) eqn:C.
    + apply N.eqb_eq in C as ->. destruct (before_last s) as [y|] eqn:E.
      * apply before_last_iff in E as E'. destruct E' as (r & -> & N1). split.
        -- intros H. destruct y as [|d y]; [discriminate|]. injection H as <-. exists r. repeat split; auto. discriminate.
        -- intros (r' & D & N2 & N3). injection D as D.
           assert (Q : before_last (y ++ 93 :: r) = Some name) by (apply before_last_iff; exists r'; now split).
           rewrite E in Q. injection Q as ->. now destruct name.
      * split; [discriminate|]. intros (r & D & N2 & N3). injection D as D.
        assert (Q : before_last s = Some name) by (apply before_last_iff; exists r; now split). congruence.
    + split; [discriminate|]. intros (r & D & _). injection D as -> _. discriminate.
Qed.
Lemma option_of_iff : forall x k y, option_of x = Some (k, y) <->
  exists d, x = k ++ d :: y /\ (d = 61 \/ d = 58) /\ ~ In 61 k /\ ~ In 58 k.
Proof.
  induction x as [|c x IH]; intros k y; cbn [option_of].
  - split; [discriminate|]. intros (d & D & _). now destruct k.
  - destruct ((c =? 61) || (c =? 58)) eqn:C.
    + assert (C' : c = 61 \/ c = 58) by (apply orb_true_iff in C as [C|C]; apply N.eqb_eq in C; auto). split.
      * intros H. injection H as <- <-. exists c. repeat split; auto.
      * intros (d & D & _ & N1 & N2). destruct k as [|e k]; cbn in D; [now injection D as _ <-|].
        injection D as <- _. exfalso. destruct C' as [->| ->]; [apply N1|apply N2]; now left.
    + apply orb_false_iff in C as [C1 C2]. apply N.eqb_neq in C1, C2. split.
      * intros H. destruct (option_of x) as [[k' y']|] eqn:E; [|discriminate]. injection H as <- <-.
        destruct (proj1 (IH k' y') eq_refl) as (d & -> & D & N1 & N2). exists d. repeat split; auto.
        -- intros [I|I]; auto.
        -- intros [I|I]; auto.
      * intros (d & D & D' & N1 & N2). destruct k as [|e k]; cbn in D.
        -- injection D as -> _. now destruct D'.
        -- injection D as -> D. assert (Q : option_of x = Some (k, y)).
           { apply IH. exists d. repeat split; auto; intros I; [apply N1|apply N2]; now right. }
           now rewrite Q.
Qed.

Lemma header_iff : forall l name, (strip U l <> [] /\ header_of (strip U l) = Some name) <-> header (indent U l) name l.
Proof.
  intros l name. split.
  - intros [N0 H]. apply header_of_iff in H as (r & E & N1 & N2). exists r. repeat split; auto. now apply trims_of.
  - intros (r & T & N1 & N2). rewrite (trims_strip _ _ _ T). split; [discriminate|]. apply header_of_iff. now exists r.
Qed.
Lemma header_at : forall n l name, header n name l -> n = indent U l.
Proof. intros n l name (r & T & _). symmetry. exact (trims_indent _ _ _ _ T). Qed.

(** A setting as the reader sees it. *)
Lemma setting_iff : forall n key v l, setting n key v l <->
  exists k y, strip U l <> [] /\ is_comment (strip U l) = false /\ header_of (strip U l) = None /\
    option_of (strip U l) = Some (k, y) /\ rstrip U k <> [] /\ key = py_lower U (rstrip U k) /\ v = strip U y /\ n = indent U l.
Proof.
  intros n key v l. split.
  - intros (k & w & d & y & m & T & D & N1 & N2 & W & K & E & V & -> & NC & NH).
    exists (k ++ w), y. assert (S0 : strip U l = k ++ w ++ d :: y) by now rewrite (trims_strip _ _ _ T).
    assert (I0 : indent U l = n).
    { destruct (k ++ w ++ d :: y) as [|c x] eqn:Q; [now destruct k|]. exact (trims_indent _ _ _ _ T). }
    assert (R : rstrip U (k ++ w) = k) by now apply rstrip_app.
    rewrite R. repeat split; auto.
    + rewrite S0. now destruct k.
    + now apply not_comment.
    + destruct (header_of (strip U l)) as [name|] eqn:H; [|reflexivity]. exfalso. apply (NH name). rewrite <- I0.
      apply header_iff. split; [|exact H]. rewrite S0. now destruct k.
    + rewrite S0. apply option_of_iff. exists d. rewrite <- app_assoc. repeat split; auto; intros I; apply in_app_or in I as [I|I]; auto.
      * apply W in I. discriminate.
      * apply W in I. discriminate.
    + symmetry. exact (trims_strip _ _ _ V).
  - intros (k & y & N0 & NC & NH & O & K & -> & -> & ->). apply option_of_iff in O as (d & E & D & N1 & N2).
    destruct (rstrip_spec k) as (w & Ek & W & En). destruct (strip_trims y) as [m T].
    exists (rstrip U k), w, d, y, m. repeat split; auto.
    + rewrite app_assoc, <- Ek, <- E. destruct (strip U l) as [|c x] eqn:S0; [now destruct N0|]. now apply trims_of.
    + intros I. apply N1. rewrite Ek. apply in_or_app. now left.
    + intros I. apply N2. rewrite Ek. apply in_or_app. now left.
    + now apply not_comment.
    + intros name H. apply header_iff in H as [_ H]. congruence.
Qed.
Lemma words_iff : forall n x l, words n x l <-> strip U l = x /\ x <> [] /\ is_comment (strip U l) = false /\ n = indent U l.
Proof.
  intros n x l. split.
  - intros (N0 & T & NC). repeat split; auto.
    + exact (trims_strip _ _ _ T).
    + now apply not_comment.
    + destruct x as [|c x]; [now destruct N0|]. symmetry. exact (trims_indent _ _ _ _ T).
  - intros (E & N0 & NC & ->). repeat split; auto; [|now apply not_comment].
    destruct x as [|c x]; [now destruct N0|]. now apply trims_of.
Qed.

End WithUnicode.
