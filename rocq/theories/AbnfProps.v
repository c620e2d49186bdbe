(** * AbnfProps: the texts that parse() accepts, in terms of the documented grammar *)

From Coq Require Import NArith ZArith List Bool String Lia.
From Verif Require Import PyBase PyNum Lexer Values Ast Parser LexSpec LexProofs LexProofs2 LexProps Grammar ParseProps Abnf AbnfProofs AbnfProofs2 AbnfProofs3.
Import ListNotations.
Open Scope Z_scope.

(** C96.  An ASCII text is accepted exactly when it is a policy of the documented grammar
    with the two missing additions taken back, blanks allowed anywhere between the parts
    of the rules that are not names or literals, and needed only where a keyword or an
    attribute name would run into a following letter, digit or underscore. *)
Theorem C96_exact (U : unicode) (text : str) (last : Z) : unicode_ok U ->
  (is_ascii text = true /\ exists a n', parse_text U text last = Ok (a, n')) <-> policy_text true implemented text.
Proof.
  intros uok. split.
  - intros (Ha & a & n' & H). apply (C08_text_sound U text last a n' uok) in H as (u & e & Hl & He & Hg).
    apply (lex_text_iff U uok) in Hl as (ts & E & Ht). injection E as <-.
    apply tiles_segmented in Ht as (it & lst & tvs & -> & Hs & Hm).
    rewrite map_app in Hm. cbn [map] in Hm. apply app_inj_tail in Hm as [Hm _]. subst tvs.
    apply segmented_segs in Hs as [Hs Hb]. rewrite layout_nil in Ha |- *. apply ascii_app2 in Ha as [A1 A2].
    destruct (writes_phrases U uok) as (_ & _ & W). apply W in Hg as [Hn Hg]. specialize (Hg it lst Hs A1).
    exists (lead it), (core it), lst. rewrite lead_core, <- app_assoc in *. split; [reflexivity|].
    apply ascii_app2 in A1 as [A1 _]. split; [|split; [|exact Hg]].
    + apply (ws_blank U); auto. destruct Hs; [constructor|assumption].
    + now apply (ws_blank U).
  - intros (w1 & s & w2 & -> & H1 & H2 & (n & H)). split.
    + apply ascii_app2. split; [now apply ascii_ws|]. apply ascii_app2. split; [eapply derived_ascii; eauto|now apply ascii_ws].
    + destruct (reads_phrases U uok n) as (_ & _ & R). apply R in H. apply (reads_pre U _ _ w1) in H; auto.
      pose proof (blank_ws U _ H2) as B2.
      assert (S : forall D, (forall c, isspace U c = true -> D c = false) -> not_starts D w2).
      { intros D HD. destruct B2; cbn; auto. }
      destruct (H w2) as (it & tvs & E & Hs & _ & HP).
      { split; [|intros _]; apply S.
        - intros c Hc. destruct (N.eqb_spec 46 c) as [<-|]; [discriminate Hc|auto].
        - intros c Hc. unfold id_charb. rewrite (space_alpha U uok), (space_digit U uok) by auto. apply N.eqb_neq. intros ->. discriminate Hc. }
      { apply S. intros c Hc. now apply (space_digit U uok). }
      assert (Sg : segmented U it w2 tvs) by (apply segmented_segs; auto).
      destruct (segmented_tiles U _ _ _ Sg 0) as (ts & Ht & Hm).
      rewrite app_assoc, E, <- layout_nil.
      assert (Hl : lex_text U (layout it w2) = Ok (start_token :: ts)) by (apply (lex_text_iff U uok); eauto).
      apply map_eq_app in Hm as (u & e & -> & Hu & He). destruct e as [|e [|? ?]]; try discriminate He.
      cbn in He. injection He as He1 _. destruct (HP u Hu) as (p & Hp).
      destruct (C09_text_complete U (layout it w2) _ p last uok Hl) as (a & n' & Hr & _); [|eauto].
      exists start_token, u, e, []. repeat split; auto.
Qed.

(** What has no backslash is in the documented grammar itself. *)
Lemma den_documented (L M : rule -> str -> Prop) t e : (forall r s, L r s -> ~ In 92%N s -> M r s) ->
  forall s, den true L t e s -> ~ In 92%N s -> den false M t e s.
Proof.
  intros HL.
  assert (LI : forall (P Q : str -> Prop), (forall s, P s -> ~ In 92%N s -> Q s) -> forall l, Forall P l -> ~ In 92%N (List.concat l) -> Forall Q l).
  { intros P Q HPQ l H. induction H as [|x l Hx H IH]; cbn; intros Hn; constructor; rewrite in_app_iff in Hn; auto. }
  induction e as [x|lo hi|a IHa b IHb|a IHa b IHb|a IHa|a IHa|a IHa|r]; cbn [den]; intros s H Hn; auto.
  - destruct H as (x & w & y & -> & Ha & Hb & Hg). rewrite !in_app_iff in Hn. exists x, w, y. split; [auto|]. split; [apply IHa; tauto|]. split; [apply IHb; tauto|].
    destruct t; cbn in *; auto. destruct Hg as [Hg _]. split; [auto|discriminate].
  - destruct H; auto.
  - destruct H; auto.
  - destruct H as (l & -> & H). exists l. split; auto. eapply LI; eauto.
  - destruct H as (l & Hl & -> & H). exists l. repeat split; auto. eapply LI; eauto.
Qed.
Lemma impl_documented n : forall r s, derived true implemented n r s -> ~ In 92%N s -> derived false documented n r s.
Proof.
  induction n as [|n IH]; intros r s H Hn; [contradiction|].
  assert (D : forall e, den true (derived true implemented n) (tight r) e s -> den false (derived false documented n) (tight r) e s).
  { intros e He. eapply den_documented; eauto. }
  destruct r; try exact (D _ H).
  - left. exact (D _ H).
  - cbn [derived implemented tight] in *.
    destruct H as (x & w & y & -> & Hq & (x2 & w2 & y2 & -> & (l & -> & Hl) & Hq2 & Hg2) & Hg).
    cbn in Hg, Hg2. subst. exists x, [], (List.concat l ++ y2). repeat split; auto.
    exists (List.concat l), [], y2. repeat split; auto. exists l. split; auto.
    cbn [app] in Hn. rewrite !in_app_iff in Hn.
    assert (Hc : ~ In 92%N (List.concat l)) by auto. clear - Hl Hc.
    induction Hl as [|a l Ha Hl IH]; constructor.
    + cbn in Hc. rewrite in_app_iff in Hc. destruct Ha as [(c & -> & Hr)|(c & -> & Hr)].
      * do 4 left. exists c. auto.
      * cbn in Hc. destruct (N_le_dec c 91); [do 3 left; right|do 2 left; right]; exists c; (split; [reflexivity|lia]).
    + apply IH. cbn in Hc. rewrite in_app_iff in Hc. auto.
Qed.
Theorem C96_documented (U : unicode) (text : str) (last : Z) (a : ast) (n' : Z) : unicode_ok U ->
  is_ascii text = true -> ~ In 92%N text -> parse_text U text last = Ok (a, n') -> policy_text false documented text.
Proof.
  intros uok Ha Hn H. assert (X : policy_text true implemented text) by (apply (C96_exact U text last); eauto).
  destruct X as (w1 & s & w2 & -> & H1 & H2 & (n & Hs)). rewrite !in_app_iff in Hn.
  exists w1, s, w2. repeat split; auto. exists n. apply impl_documented; auto.
Qed.

(** Conversely, what is in the documented grammar is accepted, unless it has a boolean as a
    constant, a backslash or words written together. *)
Lemma den_plain (L M : rule -> str -> Prop) t e : (forall r s, L r s -> ~ In 92%N s -> M r s) ->
  forall s, den true L t e s -> ~ In 92%N s -> den true M t e s.
Proof.
  intros HL.
  assert (LI : forall (P Q : str -> Prop), (forall s, P s -> ~ In 92%N s -> Q s) -> forall l, Forall P l -> ~ In 92%N (List.concat l) -> Forall Q l).
  { intros P Q HPQ l H. induction H as [|x l Hx H IH]; cbn; intros Hn; constructor; rewrite in_app_iff in Hn; auto. }
  induction e as [x|lo hi|a IHa b IHb|a IHa b IHb|a IHa|a IHa|a IHa|r]; cbn [den]; intros s H Hn; auto.
  - destruct H as (x & w & y & -> & Ha & Hb & Hg). rewrite !in_app_iff in Hn. exists x, w, y. split; [auto|]. split; [apply IHa; tauto|]. split; [apply IHb; tauto|]. exact Hg.
  - destruct H; auto.
  - destruct H; auto.
  - destruct H as (l & -> & H). exists l. split; auto. eapply LI; eauto.
  - destruct H as (l & Hl & -> & H). exists l. repeat split; auto. eapply LI; eauto.
Qed.
Lemma plain_impl n : forall r s, derived true no_boolean_constants n r s -> ~ In 92%N s -> derived true implemented n r s.
Proof.
  induction n as [|n IH]; intros r s H Hn; [contradiction|].
  assert (D : forall e, den true (derived true no_boolean_constants n) (tight r) e s -> den true (derived true implemented n) (tight r) e s).
  { intros e He. eapply den_plain; eauto. }
  destruct r; try exact (D _ H).
  cbn [derived implemented tight] in *.
  destruct H as (x & w & y & -> & Hq & (x2 & w2 & y2 & -> & (l & -> & Hl) & Hq2 & Hg2) & Hg).
  cbn in Hg, Hg2. subst. exists x, [], (List.concat l ++ y2). repeat split; auto.
  exists (List.concat l), [], y2. repeat split; auto. exists l. split; auto.
  cbn [app] in Hn. rewrite !in_app_iff in Hn.
  assert (Hc : ~ In 92%N (List.concat l)) by auto. clear - Hl Hc.
  induction Hl as [|a l Ha Hl IH]; constructor.
  - cbn in Hc. rewrite in_app_iff in Hc.
    assert (E : forall q, den true (derived true no_boolean_constants n) true (Seq (chr 92) q) a -> False).
    { intros q (x & w & y & -> & (c & -> & Hx) & _). apply Hc. left. cbn. left. lia. }
    destruct Ha as [[[[(c & -> & Hr)|(c & -> & Hr)]|(c & -> & Hr)]|H]|H]; [| | |destruct (E _ H)|destruct (E _ H)].
    + left. exists c. auto.
    + right. exists c. split; [reflexivity|lia].
    + right. exists c. split; [reflexivity|lia].
  - apply IH. cbn in Hc. rewrite in_app_iff in Hc. auto.
Qed.
Theorem C96_converse (U : unicode) (text : str) (last : Z) : unicode_ok U ->
  policy_text true no_boolean_constants text -> ~ In 92%N text -> exists a n', parse_text U text last = Ok (a, n').
Proof.
  intros uok (w1 & s & w2 & -> & H1 & H2 & (n & Hs)) Hn. rewrite !in_app_iff in Hn.
  apply (C96_exact U _ last uok). exists w1, s, w2. repeat split; auto. exists n. apply plain_impl; auto.
Qed.

(** ** Where the document and the code differ *)

Lemma doc_seq (L : rule -> str -> Prop) a b x w y : den false L false a x -> Forall ws w -> den false L false b y -> den false L false (Seq a b) (x ++ w ++ y).
Proof. intros Ha Hw Hb. exists x, w, y. repeat split; auto. discriminate. Qed.
Lemma doc_user s : s <> [] -> Forall name_char s -> text_of false documented Ratt_name (lit "user." ++ s).
Proof.
  intros Hn H. apply text_of_fold. do 4 left. apply text_of_fold. exists (lit "user."), [], s. repeat split.
  apply text_of_fold. exists (map (fun c => [c]) s). repeat split.
  - now destruct s.
  - now rewrite singles.
  - apply singles_all. eapply Forall_impl; [|exact H]. intros c [[Hc|Hc]|[Hc| ->]].
    + left; left; left. exists c; auto.
    + left; left; right. exists c; auto.
    + left; right. exists c; auto.
    + right. reflexivity.
Qed.
Lemma doc_whole s : text_of false documented Rpolicy s -> policy_text false documented s.
Proof. intros H. exists [], s, []. rewrite app_nil_r. auto. Qed.
Lemma doc_exp s : text_of false documented Rexp s -> text_of false documented Rpolicy s.
Proof. intros H. apply text_of_fold. right. apply text_of_fold. right. exact H. Qed.
Lemma doc_eq x w y : text_of false documented Rvar x -> Forall ws w -> text_of false documented Rvar y -> text_of false documented Rexp (x ++ [] ++ lit "=" ++ w ++ y).
Proof.
  intros Hx Hw Hy. apply text_of_fold. left. left. apply (doc_seq _ Rvar (Seq Rop Rvar)); [exact Hx|constructor|].
  apply (doc_seq _ Rop Rvar); [|exact Hw|exact Hy]. apply text_of_fold. do 5 left. right. reflexivity.
Qed.
Lemma name_a : Forall name_char (lit "a").
Proof. constructor; [left; right; split; vm_compute; discriminate|constructor]. Qed.
Lemma name_b : Forall name_char (lit "b").
Proof. constructor; [left; right; split; vm_compute; discriminate|constructor]. Qed.

(** A boolean as a constant, *)
Theorem C96_boolean_refuted : exists text, policy_text false documented text /\
  forall last, parse_text ascii_only text last = Err (EParser 8).
Proof.
  exists (lit "user.a= TRUE"). split; [|intros; vm_compute; reflexivity]. apply doc_whole, doc_exp.
  apply (doc_eq (lit "user.a") [32%N] (lit "TRUE")).
  - apply text_of_fold. right. apply (doc_user (lit "a")); [discriminate|apply name_a].
  - constructor; [right; split; vm_compute; discriminate|constructor].
  - apply text_of_fold. left. apply text_of_fold. left. apply text_of_fold. right. apply text_of_fold. left. left. reflexivity.
Qed.
(** a quotation mark in a string, *)
Theorem C96_escape_refuted : exists text, policy_text false documented text /\
  forall last, exists p, parse_text ascii_only text last = Err (ELexer p).
Proof.
  exists (lit "user.a=" ++ [34; 92; 34; 34]%N). split; [|intros; eexists; vm_compute; reflexivity]. apply doc_whole, doc_exp.
  apply (doc_eq (lit "user.a") [] [34; 92; 34; 34]%N).
  - apply text_of_fold. right. apply (doc_user (lit "a")); [discriminate|apply name_a].
  - constructor.
  - apply text_of_fold. left. apply text_of_fold. left. apply text_of_fold. left. left. right. apply text_of_fold.
    exists [34%N], [], [92; 34; 34]%N. repeat split; [exists 34%N; split; [auto|lia]|].
    exists [92; 34]%N, [], [34]%N. repeat split; [|exists 34%N; split; [auto|lia]].
    exists [[92; 34]%N]. split; auto. constructor; [|constructor]. left. right.
    exists [92]%N, [], [34]%N. repeat split; [exists 92%N|exists 34%N]; (split; [auto|lia]).
Qed.
(** and words written together are documented and refused; *)
Theorem C96_blanks_refuted : exists text, policy_text false documented text /\
  forall last, exists p, parse_text ascii_only text last = Err (ELexer p).
Proof.
  exists (lit "user.aANDuser.b"). split; [|intros; eexists; vm_compute; reflexivity]. apply doc_whole.
  apply text_of_fold. right. apply text_of_fold. left.
  apply (doc_seq _ Rterm (Seq (Txt "AND") Rexp) (lit "user.a") [] (lit "ANDuser.b")); [|constructor|].
  2: apply (doc_seq _ (Txt "AND") Rexp (lit "AND") [] (lit "user.b")); [reflexivity|constructor|].
  - apply text_of_fold. right. apply text_of_fold. left. right. exists [], [], (lit "user.a"). repeat split; try discriminate; auto.
    + now left.
    + apply text_of_fold. right. apply (doc_user (lit "a")); [discriminate|apply name_a].
  - apply text_of_fold. left. right. exists [], [], (lit "user.b"). repeat split; try discriminate; auto.
    + now left.
    + apply text_of_fold. right. apply (doc_user (lit "b")); [discriminate|apply name_b].
Qed.

(** a lone backslash is accepted and is not documented. *)
Inductive paired : str -> Prop :=
| pa_nil : paired []
| pa_char c s : c <> 92%N -> paired s -> paired (c :: s)
| pa_pair c s : c = 34%N \/ c = 92%N -> paired s -> paired (92%N :: c :: s).
Lemma paired_app a b : paired a -> paired b -> paired (a ++ b).
Proof. induction 1; cbn; intros; [auto|apply pa_char|apply pa_pair]; auto. Qed.
Lemma paired_plain s : ~ In 92%N s -> paired s.
Proof. induction s as [|c s IH]; cbn; intros H; [constructor|]. apply pa_char; auto. Qed.
Lemma paired_concat l : Forall paired l -> paired (List.concat l).
Proof. induction 1; cbn; [constructor|now apply paired_app]. Qed.
Fixpoint no_escape (e : abnf) : bool :=
  match e with
  | Txt t => negb (existsb (N.eqb 92) (map lower_c (lit t))) | Rng lo hi => (hi <? 92)%N || (92 <? lo)%N
  | Seq a b | Alt a b => no_escape a && no_escape b
  | Opt a | Star a | Plus a => no_escape a
  | Ref _ => true
  end.
Lemma lower_92 s : In 92%N s -> In 92%N (map lower_c s).
Proof. intros H. change 92%N with (lower_c 92). now apply in_map. Qed.
Lemma den_paired (L : rule -> str -> Prop) t e : (forall r s, L r s -> paired s) -> no_escape e = true -> forall s, den false L t e s -> paired s.
Proof.
  intros HL. induction e as [x|lo hi|a IHa b IHb|a IHa b IHb|a IHa|a IHa|a IHa|r]; cbn [no_escape den]; intros Hx s H.
  - apply paired_plain. intros Hin. apply negb_true_iff in Hx. apply lower_92 in Hin. unfold same_text in H. rewrite H in Hin.
    assert (X : existsb (N.eqb 92) (map lower_c (lit x)) = true) by (apply existsb_exists; exists 92%N; auto). congruence.
  - destruct H as (c & -> & H). apply pa_char; [|constructor]. apply orb_true_iff in Hx. rewrite !N.ltb_lt in Hx. lia.
  - apply andb_true_iff in Hx as [Xa Xb]. destruct H as (x & w & y & -> & Ha & Hb & Hg). apply paired_app; auto. apply paired_app; auto.
    destruct t; cbn in Hg; [subst; constructor|]. destruct Hg as [Hg _]. apply paired_plain. intros Hin.
    rewrite Forall_forall in Hg. apply Hg in Hin. unfold ws in Hin. lia.
  - apply andb_true_iff in Hx as [Xa Xb]. destruct H; auto.
  - destruct H as [->|H]; [constructor|auto].
  - destruct H as (l & -> & H). apply paired_concat. eapply Forall_impl; [|exact H]. auto.
  - destruct H as (l & _ & -> & H). apply paired_concat. eapply Forall_impl; [|exact H]. auto.
  - now apply HL in H.
Qed.
Lemma derived_paired n : forall r s, derived false documented n r s -> paired s.
Proof.
  induction n as [|n IH]; intros r s H; [contradiction|]. cbn [derived] in H.
  assert (D : no_escape (documented r) = true -> paired s) by (intros D; exact (den_paired _ _ _ IH D s H)).
  destruct r; try (apply D; reflexivity). clear D.
  destruct H as (x & w & y & -> & (q & -> & Hq) & (x2 & w2 & y2 & -> & (l & -> & Hl) & (q2 & -> & Hq2) & Hg2) & Hg).
  cbn in Hg, Hg2. subst. cbn [app]. apply pa_char; [lia|]. apply paired_app; [|apply pa_char; [lia|constructor]].
  apply paired_concat. eapply Forall_impl; [|exact Hl]. clear.
  intros s [[[[(c & -> & H)|(c & -> & H)]|(c & -> & H)]|H]|H].
  1-3: apply pa_char; [lia|constructor].
  - destruct H as (x & w & y & -> & (c & -> & Hc) & (d & -> & Hd) & Hg). cbn in Hg. subst. cbn [app].
    assert (c = 92 /\ d = 34)%N as [-> ->] by lia. apply pa_pair; auto. constructor.
  - destruct H as (x & w & y & -> & (c & -> & Hc) & (d & -> & Hd) & Hg). cbn in Hg. subst. cbn [app].
    assert (c = 92 /\ d = 92)%N as [-> ->] by lia. apply pa_pair; auto. constructor.
Qed.
Theorem C96_backslash_refuted : exists text, is_ascii text = true /\ ~ policy_text false documented text /\
  forall last, exists a n', parse_text ascii_only text last = Ok (a, n').
Proof.
  exists (lit "user.a=" ++ [34; 92; 120; 34]%N). split; [reflexivity|]. split.
  - intros (w1 & s & w2 & E & H1 & H2 & (n & H)). apply derived_paired in H.
    assert (P : paired (w1 ++ s ++ w2)).
    { assert (B : forall w, Forall ws w -> paired w).
      { intros w Hw. apply paired_plain. intros Hin. rewrite Forall_forall in Hw. apply Hw in Hin. unfold ws in Hin. lia. }
      apply paired_app; auto. apply paired_app; auto. }
    rewrite <- E in P. cbn in P.
    repeat match goal with H : paired (_ :: _) |- _ => inversion H; subst; clear H end; try congruence.
    match goal with H : _ \/ _ |- _ => destruct H; discriminate end.
  - intros last. eexists. eexists. vm_compute. reflexivity.
Qed.

(** ** Examples *)

(** A text with a blank only where one is needed; and the same with one blank less. *)
Definition ex_dense : string := "not(user.a IN{1,-2.5,NULL})AND TRUE OR object.c>=5AND not env.d".
Example ex_accepted : policy_text true implemented (lit ex_dense) /\ policy_text false documented (lit ex_dense) /\ ~ In 92%N (lit ex_dense).
Proof.
  assert (N : ~ In 92%N (lit ex_dense)).
  { intros H. assert (X : existsb (N.eqb 92) (lit ex_dense) = true) by (apply existsb_exists; exists 92%N; auto). vm_compute in X. discriminate X. }
  assert (P : exists a n', parse_text ascii_only (lit ex_dense) 0 = Ok (a, n')) by (eexists; eexists; vm_compute; reflexivity).
  split; [apply (C96_exact ascii_only _ 0 ascii_only_ok); split; [vm_compute; reflexivity|exact P]|].
  split; [|exact N]. destruct P as (a & n' & P). eapply C96_documented; [exact ascii_only_ok|vm_compute; reflexivity|exact N|exact P].
Qed.
Example ex_refused : ~ policy_text true implemented (lit "not(user.a IN{1,-2.5,NULL})AND TRUE OR object.c>=5ANDnot env.d").
Proof. intros H. apply (C96_exact ascii_only _ 0 ascii_only_ok) in H as (_ & a & n' & H). vm_compute in H. discriminate H. Qed.

Print Assumptions C96_exact.
Print Assumptions C96_documented.
Print Assumptions C96_converse.
Print Assumptions C96_boolean_refuted.
Print Assumptions C96_escape_refuted.
Print Assumptions C96_blanks_refuted.
Print Assumptions C96_backslash_refuted.
