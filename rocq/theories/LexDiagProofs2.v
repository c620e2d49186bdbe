(** * LexDiagProofs2: every fault of the specification is found; whole texts and histories of calls *)

From Coq Require Import NArith ZArith List Bool String Lia.
From Verif Require Import PyBase PyNum Lexer LexSpec LexProofs LexProofs2 LexDiag LexDiagSpec LexDiagProofs.
Import ListNotations.
Open Scope Z_scope.

Section WithUnicode.
Variable U : unicode.
Hypothesis uok : unicode_ok U.
Notation digit := (digit U).
Notation id_char := (id_char U).

(** ** Numbers *)

Lemma digit_first neg ds x :
  ds <> [] -> Forall digit ds ->
  exists c ds', sign_of neg ++ ds ++ x = c :: ds' ++ x /\ num_start U c (ds' ++ x) /\ Forall digit ds' /\ c :: ds' = sign_of neg ++ ds /\
  (forall y, strip_sign (c :: ds' ++ y) = (neg, ds ++ y)) /\ special c = false /\ isspace U c = false.
Proof.
  intros Hne Hd. destruct ds as [|d ds]; [congruence|]. inversion Hd as [|? ? Hd1 Hd2]; subst.
  destruct neg; cbn [sign_of app].
  - exists 45%N, (d :: ds). repeat split; auto. right. split; auto. exists d, (ds ++ x). auto.
  - exists d, ds. unfold LexSpec.digit in Hd1. repeat split; auto.
    + now left.
    + intros y. cbn. destruct (N.eqb_spec d 45) as [->|_]; [now rewrite digit_not_minus in Hd1|reflexivity].
    + now apply (digit_not_special U).
    + destruct (isspace U d) eqn:E; auto. apply (space_digit U uok) in E. congruence.
Qed.

Lemma ld_char_number p c rest : special c = false -> num_start U c rest -> ld_char U p c rest = ld_number U p c rest.
Proof. intros Hs Hn. rewrite ld_char_plain by auto. apply num_startb in Hn. now rewrite Hn. Qed.

Lemma shown_char_eq r w : shown_as r w -> w = char_text r.
Proof. intros [(c & r' & -> & ->)|[-> ->]]; reflexivity. Qed.

Lemma last_digits c ds' neg ds d : c :: ds' = sign_of neg ++ ds ++ [d] -> List.last ds' c = d.
Proof.
  intros E. destruct (last_snoc_cons c ds') as (w & F). rewrite F, app_assoc in E. now apply app_inj_tail in E as [_ ->].
Qed.

Lemma letter_first c : letter U c -> special c = false /\ isspace U c = false /\
  forall p rest, ld_char U p c rest = ld_word U p c rest.
Proof.
  intros Hc. unfold letter in Hc. pose proof (alpha_not_special U c Hc) as Hs. split; auto.
  assert (D : isdigit U c = false).
  { destruct (isdigit U c) eqn:E; auto. apply (digit_alpha_ascii U uok) in E. congruence. }
  split. { destruct (isspace U c) eqn:E; auto. apply (space_alpha U uok) in E. congruence. }
  intros p rest. rewrite ld_char_plain by auto. rewrite D, Hc.
  destruct (N.eqb_spec c 45) as [->|_]; [discriminate|]. reflexivity.
Qed.

Definition found (p : Z) (text : str) (x : raised) (r : str) : Prop :=
  exists c rest, text = c :: rest /\ isspace U c = false /\
    ld_char U p c rest = LRaise x (p + len text - len r) r.

Lemma char_fault p text m q t r :
  fault U p text m q t r -> found p text (RSyn (LErr m q (blamed p t))) r.
Proof.
  destruct 1 as [r Hn|body Hb|body c r Hb Hc Hq|neg ds r w Hne Hd Hn Hw|neg ds es d r Hne Hd He|c w id d r Hc Hw Hi Hn Hk
                |c w d r Hc Hw Hd|w d r Hw Hn Hk|c r (Hs & Hd & Hl & Hp & Hm)].
  - exists 33%N, r. repeat split; auto. rewrite Z.add_simpl_r. unfold ld_char. cbn [N.eqb Pos.eqb].
    destruct r as [|d r]; [reflexivity|]. unfold not_starts in Hn. rewrite N.eqb_sym in Hn. cbn [head_is]. rewrite Hn. reflexivity.
  - exists 34%N, body. repeat split; auto. unfold ld_char. cbn [N.eqb Pos.eqb].
    pose proof (ld_string_run p (p + 1) body [] Hb) as E. rewrite app_nil_r in E. rewrite E. cbn [ld_string lbind].
    rewrite len_nil, len_cons. f_equal. lia.
  - exists 34%N, (body ++ c :: r). repeat split; auto. unfold ld_char. cbn [N.eqb Pos.eqb].
    rewrite (ld_string_run p (p + 1) body (c :: r) Hb). cbn [ld_string]. apply N.eqb_neq in Hq as Hq'. rewrite Hq'.
    destruct (string_char c) eqn:E. { exfalso. apply Hc, string_okb. auto. }
    cbn [lbind blamed option_map]. rewrite !len_cons, len_app, !len_cons.
    f_equal; [|lia]. do 2 f_equal. lia.
  - destruct (digit_first neg ds (46%N :: r) Hne Hd) as (c & ds' & E & Hs & Hd' & Ec & Ex & Hsp & Hb). rewrite E.
    exists c, (ds' ++ 46%N :: r). repeat split; auto. rewrite ld_char_number by auto. unfold ld_number.
    rewrite ld_num_run, ld_num_dot by auto. cbn [lbind blamed option_map]. rewrite (shown_char_eq r w Hw).
    rewrite <- Ec. rewrite !len_cons, len_app, len_cons. unfold dot_msg.
    f_equal; [|lia]. do 2 f_equal. lia.
  - destruct (digit_first neg ds (46%N :: es ++ d :: 46%N :: r) Hne Hd) as (c & ds' & E & Hs & Hd' & Ec & Ex & Hsp & Hb). rewrite E.
    exists c, (ds' ++ 46%N :: es ++ d :: 46%N :: r). repeat split; auto. rewrite ld_char_number by auto. unfold ld_number.
    rewrite ld_num_run by auto. replace (es ++ d :: 46%N :: r) with ((es ++ [d]) ++ 46%N :: r) by now rewrite <- app_assoc.
    rewrite ld_num_frac; auto; [|destruct es; discriminate]. rewrite last_snoc, ld_num_dots. cbn [lbind blamed option_map].
    rewrite (app_assoc (sign_of neg)), <- Ec. cbn [app].
    repeat (rewrite ?len_cons, ?len_app, ?len_nil). unfold dots_msg.
    f_equal; [|lia]. do 2 f_equal. lia.
  - destruct (letter_first c Hc) as (_ & Hb & L). exists c, (w ++ 46%N :: id ++ d :: r). repeat split; auto. rewrite L.
    pose proof (ld_word_att U p c w id d r Hw Hi Hn) as E. destruct (att_prefix (py_lower U (c :: w))) as [ty|] eqn:A.
    { apply att_prefix_spec in A. now apply Hk in A. }
    rewrite E. unfold bad_category. cbn [app blamed option_map]. repeat (rewrite ?len_cons, ?len_app). f_equal. lia.
  - destruct (letter_first c Hc) as (_ & Hb & L). exists c, (w ++ 46%N :: d :: r). repeat split; auto. rewrite L.
    rewrite ld_word_noname by auto. cbn [app blamed option_map]. repeat (rewrite ?len_cons, ?len_app). f_equal. lia.
  - destruct Hw as (c & w' & E & Hc & Hw). destruct (letter_first c Hc) as (_ & Hb & L).
    replace (w ++ d :: r) with ((w ++ [d]) ++ r) by now rewrite <- app_assoc. rewrite E in *. exists c, (w' ++ r).
    repeat split; auto. rewrite L. pose proof (ld_word_plain U p c w' r Hw Hn) as F.
    destruct (is_keyword (py_lower U (c :: w'))) eqn:K. { apply is_keyword_spec in K as (ty & v & K). now apply Hk in K. }
    rewrite F. unfold unknown_word. destruct (last_snoc_cons c w') as (v & Ev). rewrite Ev in E. apply app_inj_tail in E as [_ ->].
    cbn [app blamed option_map]. repeat (rewrite ?len_cons, ?len_app). f_equal. lia.
  - exists c, r. unfold space, LexSpec.digit, letter in *. apply not_true_is_false in Hs, Hd, Hl. repeat split; auto.
    rewrite <- special_in in Hp. apply not_true_is_false in Hp. rewrite ld_char_plain by auto. rewrite Hd, Hl.
    replace (((c =? 45)%N && _)) with false; [cbn [orb blamed option_map]; f_equal; rewrite !len_cons; lia|].
    symmetry. destruct (N.eqb_spec c 45) as [->|_]; auto. specialize (Hm eq_refl). destruct r; auto.
Qed.

Lemma char_crash p text y r : crash U text y r -> found p text (RExc y) r.
Proof.
  destruct 1 as [c w Hc Hw|neg ds d r Hd Hv Hn|neg ds es d r Hne Hd He Hv Hn].
  - destruct (letter_first c Hc) as (_ & Hb & L). exists c, (w ++ [46%N]). repeat split; auto. rewrite L.
    rewrite ld_word_end by auto. cbn [app]. repeat (rewrite ?len_cons, ?len_app, ?len_nil). f_equal. lia.
  - destruct (digit_first neg (ds ++ [d]) r) as (c & ds' & E & Hs & Hd' & Ec & Ex & Hsp & Hb); auto; [destruct ds; discriminate|].
    rewrite <- app_assoc in E. cbn [app] in E. rewrite E. exists c, (ds' ++ r). repeat split; auto.
    rewrite ld_char_number by auto. unfold ld_number. rewrite ld_num_run, ld_num_stop by auto. cbn [lbind].
    unfold py_int. rewrite (Ex []). rewrite !app_nil_r. apply no_decval in Hv. rewrite Hv. cbn [at_last lbind].
    rewrite (last_digits c ds' neg ds d Ec). repeat (rewrite ?len_cons, ?len_app). f_equal. lia.
  - destruct (digit_first neg ds (46%N :: es ++ d :: r) Hne Hd) as (c & ds' & E & Hs & Hd' & Ec & Ex & Hsp & Hb). rewrite E.
    exists c, (ds' ++ 46%N :: es ++ d :: r). repeat split; auto. rewrite ld_char_number by auto. unfold ld_number.
    rewrite ld_num_run by auto. replace (es ++ d :: r) with ((es ++ [d]) ++ r) by now rewrite <- app_assoc.
    rewrite ld_num_frac; auto; [|destruct es; discriminate]. rewrite ld_num_stop by auto. cbn [lbind]. rewrite app_nil_r.
    unfold py_float. rewrite Ex, (split_dot_run U) by auto. apply no_decval in Hv. rewrite Hv. cbn [at_last lbind].
    replace (List.last (ds' ++ 46%N :: es ++ [d]) c) with d by (change (46%N :: es ++ [d]) with ((46%N :: es) ++ [d]); now rewrite app_assoc, last_snoc).
    repeat (rewrite ?len_cons, ?len_app, ?len_nil). f_equal. lia.
Qed.

(** ** next() *)

(** What is wrong behind the blanks [ws] of a text at [p]. *)
Definition wrong (p : Z) (text : str) (x : raised) (r : str) : Prop :=
  exists ws s, text = ws ++ s /\ Forall (space U) ws /\
  match x with
  | RSyn e => exists t, fault U (p + len ws) s (le_msg e) (le_pos e) t r /\ le_tok e = blamed (p + len ws) t
  | RExc y => crash U s y r
  end.

Lemma next_raised l x l' :
  ld_next U l = (Raised x, l') <->
  exists r, wrong (lx_pos l) (lx_rest l) x r /\
    l' = Lx (lx_pos l + len (lx_rest l) - len r) r (lx_toks l) (lx_atts l).
Proof.
  split.
  - unfold ld_next. destruct (skip_ws U (lx_pos l) (lx_rest l)) as [p r0] eqn:Es.
    apply skip_ws_ok in Es as (ws & Er & Hw & -> & Hn). destruct r0 as [|c r1].
    { destruct (last_type (lx_toks l)) as [[]|]; discriminate. }
    destruct (ld_char U (lx_pos l + len ws) c r1) as [[[t p'] r']|x' q r] eqn:E; [discriminate|].
    intros [= <- <-]. apply char_raise in E; auto. destruct E as (pre & Et & -> & H). exists r. split.
    + exists ws, (c :: r1). auto.
    + f_equal. rewrite Er, Et, !len_app. lia.
  - intros (r & (ws & s & Er & Hw & H) & ->). unfold ld_next.
    assert (F : found (lx_pos l + len ws) s x r).
    { destruct x as [[m q t]|y]; [|now apply char_crash]. destruct H as (t' & H & E). cbn in H, E. subst t. now apply char_fault. }
    destruct F as (c & rest & -> & Hc & E). rewrite Er, skip_ws_run by auto. rewrite E. f_equal. f_equal. rewrite len_app. lia.
Qed.

Lemma next_gave l ot l' :
  ld_next U l = (Gave ot, l') <-> lex_next U l = Ok (ot, l').
Proof.
  rewrite forget_next. destruct (ld_next U l) as [[t|x] l1]; split; try discriminate; intros [= -> ->]; auto.
Qed.

(** ** tokenize() *)

Lemma reads_snoc p text ts q ws s rest ty v :
  reads U p text ts q (ws ++ s ++ rest) -> Forall (space U) ws -> lexeme U s rest ty v ->
  reads U p text (ts ++ [Tok ty (q + len ws) v]) (q + len ws + len s) rest.
Proof.
  intros H. remember (ws ++ s ++ rest) as x eqn:Ex. revert Ex.
  induction H as [p text|p ws' s' rest' ty' v' ts q rest'' Hw' Hl' H IH]; intros -> Hw Hl.
  - cbn [app]. apply rd_token; auto. apply rd_none.
  - cbn [app]. apply rd_token; auto.
Qed.

Lemma att_tokens_app a b : att_tokens (a ++ b) = att_tokens a ++ att_tokens b.
Proof. apply filter_app. Qed.

Lemma loop_raised_sound fuel : forall l x l', (List.length (lx_rest l) + 2 <= fuel)%nat ->
  ld_loop U fuel l = (Some x, l') ->
  exists ts q rest r, reads U (lx_pos l) (lx_rest l) ts q rest /\ wrong q rest x r /\
    l' = Lx (lx_pos l + len (lx_rest l) - len r) r (lx_toks l ++ ts) (lx_atts l ++ att_tokens ts).
Proof.
  induction fuel as [|f IH]; intros l x l' Hf; [lia|]. cbn [ld_loop].
  destruct (ld_next U l) as [[ot|x1] l1] eqn:E.
  - apply next_gave in E as E'. apply lex_next_cases in E'; auto.
    destruct E' as [(-> & _)|[(t & -> & Et & Hw & _ & ->)|(t & ws & s & -> & Er & Hne & Hw & Hp & Hx & Hp' & Ht & Ha)]]; [discriminate| |].
    + destruct f as [|f]; [lia|]. cbn [ld_loop]. pose proof (lex_next_none U (lx_pos l + len (lx_rest l) + 1) (lx_toks l ++ [t]) (lx_atts l)) as N.
      rewrite last_type_snoc in N. subst t. specialize (N eq_refl). apply next_gave in N. rewrite N. discriminate.
    + intros H. apply IH in H.
      2:{ rewrite Er, !app_length in Hf. destruct s; [congruence|]. cbn [List.length] in Hf. lia. }
      destruct H as (ts & q & rest & r & Hr & Hwr & ->). exists (t :: ts), q, rest, r. repeat split; auto.
      * rewrite Er. destruct t as [ty tp tv]. cbn in Hp, Hx. subst tp. apply rd_token; auto. now rewrite <- Hp'.
      * rewrite Hp', Ht, Ha, Er, <- !app_assoc, !len_app. f_equal; [lia|]. f_equal. symmetry. apply (att_tokens_app [t] ts).
  - intros [= <- <-]. apply next_raised in E as (r & Hw & ->). exists [], (lx_pos l), (lx_rest l), r.
    rewrite !app_nil_r. repeat split; auto. apply rd_none.
Qed.

Lemma loop_raised_complete p text ts q rest x r : reads U p text ts q rest -> wrong q rest x r ->
  forall fuel toks atts, (List.length text + 2 <= fuel)%nat ->
  ld_loop U fuel (Lx p text toks atts) = (Some x, Lx (p + len text - len r) r (toks ++ ts) (atts ++ att_tokens ts)).
Proof.
  induction 1 as [p text|p ws s rest ty v ts q rest' Hw Hl H IH]; intros Hx fuel toks atts Hf; (destruct fuel as [|f]; [lia|]); cbn [ld_loop].
  - assert (E : ld_next U (Lx p text toks atts) = (Raised x, Lx (p + len text - len r) r toks atts)) by (apply next_raised; eauto).
    rewrite E. cbn [app att_tokens filter]. now rewrite !app_nil_r.
  - pose proof (lex_next_run U uok p ws s rest ty v toks atts Hw Hl) as E. apply next_gave in E. rewrite E.
    rewrite IH; auto.
    + rewrite <- !app_assoc, !len_app. f_equal. f_equal; [lia|]. f_equal. symmetry. apply (att_tokens_app [_] ts).
    + destruct (lexeme_start U uok _ _ _ _ Hl) as (c & s' & -> & _). rewrite !app_length in Hf. cbn [List.length] in Hf. lia.
Qed.

Lemma tokenize_raised text x l' :
  ld_tokenize U (lexer_init text) = (Some x, l') <->
  exists ts q rest r, reads U 0 text ts q rest /\ wrong q rest x r /\
    l' = Lx (len text - len r) r (start_token :: ts) (att_tokens ts).
Proof.
  unfold ld_tokenize. cbn [lexer_init lx_rest]. split.
  - intros H. now apply loop_raised_sound in H.
  - intros (ts & q & rest & r & Hr & Hw & ->). unfold lexer_init. rewrite (loop_raised_complete 0 text ts q rest x r); auto.
Qed.

(** ** Histories of calls *)


Lemma picks_skip p pre text ts : picks U (p + len pre) text ts -> picks U p (pre ++ text) ts.
Proof.
  revert p; induction pre as [|c pre IH]; intros p H; [now rewrite len_nil, Z.add_0_r in H|].
  cbn [app]. apply pk_skip, IH. now rewrite len_cons, Z.add_assoc in H.
Qed.

(** A lexer on this text: the tokens so far lie before the current position. *)
Definition kept (text : str) (l : lexer) : Prop :=
  lx_atts l = att_tokens (lx_toks l) /\
  exists ts, lx_toks l = start_token :: ts /\
  ((lx_rest l = [] /\ last_type (lx_toks l) = Some END /\ picks U 0 text ts) \/
   (last_type (lx_toks l) <> Some END /\
    exists pre, text = pre ++ lx_rest l /\ lx_pos l = len pre /\
    forall ts', picks U (len pre) (lx_rest l) ts' -> picks U 0 text (ts ++ ts'))).

Lemma kept_init text : kept text (lexer_init text).
Proof.
  split; [reflexivity|]. exists []. split; [reflexivity|]. right. split; [discriminate|]. exists []. auto.
Qed.

Lemma kept_next text l : kept text l -> kept text (snd (ld_next U l)).
Proof.
  intros (Ha & ts & Ht & H). destruct (ld_next U l) as [[ot|x] l'] eqn:E; cbn [snd].
  - apply next_gave in E. destruct H as [(Hr & Hl & Hp)|(Hl & pre & Et & Hp & Hk)].
    { destruct l as [p r toks atts]. cbn in *. subst r. rewrite lex_next_none in E by auto. injection E as <- <-.
      split; auto. exists ts. auto. }
    apply lex_next_cases in E; auto.
    destruct E as [(-> & _ & B & _)|[(t & -> & -> & Hw & _ & ->)|(t & ws & s & -> & Er & Hne & Hw & Hp1 & Hx & Hp' & Ht' & Ha')]]; [congruence| |].
    + set (t := Tok END (lx_pos l + len (lx_rest l)) TNone). split.
      { cbn [lx_toks lx_atts]. rewrite att_tokens_app, <- Ha. cbn. now rewrite app_nil_r. }
      exists (ts ++ [t]). split; [cbn [lx_toks]; now rewrite Ht|]. left. cbn [lx_rest lx_toks]. split; [reflexivity|].
      split; [apply last_type_snoc|]. apply Hk. rewrite <- (app_nil_r (lx_rest l)). apply picks_skip. unfold t.
      rewrite Hp. apply pk_end.
    + split. { rewrite Ha', Ht', att_tokens_app. now rewrite Ha. }
      exists (ts ++ [t]). split; [rewrite Ht', Ht; reflexivity|]. right. split.
      { rewrite Ht', last_type_snoc. apply lexeme_type in Hx. intros [= B]. tauto. }
      exists (pre ++ ws ++ s). rewrite Et, Er, <- !app_assoc. split; [reflexivity|]. split; [rewrite Hp', Hp, !len_app; lia|].
      intros ts' Hts. rewrite <- Er, <- Et, <- app_assoc. apply Hk. rewrite Er. apply picks_skip.
      destruct t as [ty tp tv]. cbn in Hp1, Hx. subst tp. rewrite Hp. cbn [app]. apply pk_token; auto.
      now rewrite !len_app, !Z.add_assoc in Hts.
  - apply next_raised in E as (r & Hw & ->). unfold wrong in Hw.
    assert (S : exists pre', lx_rest l = pre' ++ r /\ lx_rest l <> []).
    { destruct Hw as (ws & s & Er & Hws & Hx). 
      assert (F : found (lx_pos l + len ws) s x r).
      { destruct x as [[m q t]|y]; [|now apply char_crash]. destruct Hx as (t' & Hx & Et). cbn in Hx, Et. subst t. now apply char_fault. }
      destruct F as (c & rest & -> & Hc & F). apply char_raise in F as (pr & Epr & _); auto. exists (ws ++ pr).
      rewrite Er, <- app_assoc, <- Epr. split; auto. destruct ws; discriminate. }
    destruct S as (pre' & Er & Hne). split; [exact Ha|]. exists ts. split; [exact Ht|]. cbn [lx_rest lx_toks lx_pos].
    destruct H as [(Hr & _)|(Hl & pre & Et & Hp & Hk)]; [congruence|]. right. split; auto.
    exists (pre ++ pre'). split; [rewrite Et, Er, app_assoc; reflexivity|]. split; [rewrite Hp, Er, !len_app; lia|].
    intros ts' Hts. apply Hk. rewrite Er. apply picks_skip. now rewrite len_app in Hts.
Qed.

Lemma kept_loop text fuel l : kept text l -> kept text (snd (ld_loop U fuel l)).
Proof.
  revert l; induction fuel as [|f IH]; intros l H; cbn [ld_loop]; auto. apply kept_next in H.
  destruct (ld_next U l) as [[[t|]|x] l']; cbn [snd] in *; auto.
Qed.

Lemma kept_after text cs l : kept text l -> kept text (after U cs l).
Proof.
  revert l; induction cs as [|c cs IH]; intros l H; cbn [after]; auto.
  destruct c; apply IH; [now apply kept_next|now apply kept_loop].
Qed.

Lemma kept_picks text l : kept text l -> exists ts, lx_toks l = start_token :: ts /\ picks U 0 text ts.
Proof.
  intros (_ & ts & Ht & [(_ & _ & H)|(_ & pre & Et & _ & H)]); exists ts; split; auto.
  rewrite <- (app_nil_r ts). apply H, pk_none.
Qed.

(** A call of next() makes progress or changes nothing. *)
Definition todo (l : lexer) : nat :=
  List.length (lx_rest l) + match last_type (lx_toks l) with Some END => 0 | _ => 1 end.

Lemma next_progress text l : kept text l ->
  (todo (snd (ld_next U l)) < todo l)%nat \/ snd (ld_next U l) = l.
Proof.
  intros K. pose proof K as (Ha & ts & Ht & H). destruct (ld_next U l) as [[ot|x] l'] eqn:E; cbn [snd].
  - apply next_gave in E. destruct H as [(Hr & Hl & Hp)|(Hl & pre & Et & Hp & Hk)].
    { destruct l as [p r toks atts]. cbn in *. subst r. rewrite lex_next_none in E by auto. injection E as <- <-. auto. }
    apply lex_next_cases in E; auto. left. unfold todo.
    destruct E as [(-> & _ & B & _)|[(t & -> & -> & Hw & _ & ->)|(t & ws & s & -> & Er & Hne & Hw & Hp1 & Hx & Hp' & Ht' & Ha')]]; [congruence| |].
    + cbn [lx_rest lx_toks]. rewrite last_type_snoc. cbn. destruct (last_type (lx_toks l)) as [[]|]; try lia. congruence.
    + rewrite Ht', last_type_snoc, Er, !app_length. apply lexeme_type in Hx. destruct s; [congruence|]. cbn [List.length].
      destruct (t_type t), (last_type (lx_toks l)) as [[]|]; try lia; congruence.
  - apply next_raised in E as (r & Hw & ->).
    assert (S : exists pre', lx_rest l = pre' ++ r).
    { destruct Hw as (ws & s & Er & Hws & Hx).
      assert (F : found (lx_pos l + len ws) s x r).
      { destruct x as [[m q t]|y]; [|now apply char_crash]. destruct Hx as (t' & Hx & Et). cbn in Hx, Et. subst t. now apply char_fault. }
      destruct F as (c & rest & -> & Hc & F). apply char_raise in F as (pr & Epr & _); auto. exists (ws ++ pr).
      now rewrite Er, <- app_assoc, <- Epr. }
    destruct S as (pre' & Er). destruct pre' as [|c pre'].
    + right. cbn in Er. rewrite Er. destruct l as [p rr tk at0]. cbn in *. subst rr. f_equal. lia.
    + left. unfold todo. cbn [lx_rest lx_toks]. rewrite Er. cbn [app List.length]. rewrite app_length. lia.
Qed.

Lemma iter_next_settles n : forall text l, kept text l -> (todo l <= n)%nat ->
  exists k, (k <= n)%nat /\ snd (ld_next U (calls U k l)) = calls U k l.
Proof.
  induction n as [|n IH]; intros text l K Hn; (destruct (next_progress text l K) as [P|P]; [|exists 0%nat; split; [lia|exact P]]); [lia|].
  destruct (IH text (snd (ld_next U l))) as (k & Hk & E); [now apply kept_next|lia|]. exists (S k). split; [lia|exact E].
Qed.

End WithUnicode.
