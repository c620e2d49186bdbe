(** * LexDiagProps: the contents of a LexerError and the lexer after it (C108, C109) *)

From Coq Require Import NArith ZArith List Bool String Lia.
From Verif Require Import PyBase PyNum Lexer LexSpec LexProofs LexProofs2 LexProps LexDiag LexDiagSpec LexDiagProofs LexDiagProofs2.
Import ListNotations.
Open Scope Z_scope.

(** C108.  The lexer with the contents of errors is the lexer of C01-C07. *)
Theorem C108_same (U : unicode) (l : lexer) :
  lex_next U l = match ld_next U l with (Gave t, l') => Ok (t, l') | (Raised x, _) => Err (plain x) end /\
  tokenize U l = match ld_tokenize U l with (None, l') => Ok l' | (Some x, _) => Err (plain x) end.
Proof. split; [apply forget_next|apply forget_loop]. Qed.

(** C108.  tokenize() raises a LexerError exactly if behind some lexemes and blanks there is a fault;
    message, position and token are those of the fault. *)
Theorem C108_error (U : unicode) (text : str) (e : lerror) (l : lexer) : unicode_ok U ->
  (ld_tokenize U (lexer_init text) = (Some (RSyn e), l) <->
   exists ts q ws s t r, reads U 0 text ts q (ws ++ s) /\ Forall (space U) ws /\
     fault U (q + len ws) s (le_msg e) (le_pos e) t r /\ le_tok e = blamed (q + len ws) t /\
     l = Lx (len text - len r) r (start_token :: ts) (att_tokens ts)).
Proof.
  intros uok. rewrite tokenize_raised by auto. split.
  - intros (ts & q & rest & r & Hr & (ws & s & -> & Hw & t & Hf & Ht) & ->). exists ts, q, ws, s, t, r. repeat split; auto.
  - intros (ts & q & ws & s & t & r & Hr & Hw & Hf & Ht & ->). exists ts, q, (ws ++ s), r. repeat split; auto.
    exists ws, s. repeat split; eauto.
Qed.

(** C108.  It raises something else exactly if there is one of the two other faults. *)
Theorem C108_crash (U : unicode) (text : str) (y : exc) (l : lexer) : unicode_ok U ->
  (ld_tokenize U (lexer_init text) = (Some (RExc y), l) <->
   exists ts q ws s r, reads U 0 text ts q (ws ++ s) /\ Forall (space U) ws /\ crash U s y r /\
     l = Lx (len text - len r) r (start_token :: ts) (att_tokens ts)).
Proof.
  intros uok. rewrite tokenize_raised by auto. split.
  - intros (ts & q & rest & r & Hr & (ws & s & -> & Hw & Hf) & ->). exists ts, q, ws, s, r. repeat split; auto.
  - intros (ts & q & ws & s & r & Hr & Hw & Hf & ->). exists ts, q, (ws ++ s), r. repeat split; auto.
    exists ws, s. repeat split; eauto.
Qed.

(** The text from a position on. *)
Definition from (text : str) (p : Z) : str := skipn (Z.to_nat p) text.

Lemma skipn_app_len (a b : str) : skipn (Z.to_nat (len a)) (a ++ b) = b.
Proof. unfold len. rewrite Nat2Z.id, skipn_app, skipn_all, Nat.sub_diag. reflexivity. Qed.

Lemma from_app (pre s : str) (n : Z) : 0 <= n -> from (pre ++ s) (len pre + n) = from s n.
Proof.
  intros Hn. unfold from. rewrite Z2Nat.inj_add by (try apply len_nonneg; auto).
  rewrite skipn_app, skipn_all2 by (unfold len; lia). cbn [app]. f_equal. unfold len. lia.
Qed.

Lemma reads_at U p text ts q rest : reads U p text ts q rest -> exists pre, text = pre ++ rest /\ q = p + len pre.
Proof.
  induction 1 as [p text|p ws s rest ty v ts q rest' Hw Hl H (pre & -> & ->)].
  - exists []. rewrite len_nil. split; [reflexivity|lia].
  - exists (ws ++ s ++ pre). rewrite <- !app_assoc, !len_app. split; [reflexivity|lia].
Qed.

(** A message naming a character, or None at the end of the text. *)
Inductive names_char : str -> str -> Prop :=
| nc_digit w : names_char (lit "Syntax error encountered while reading floating point number. '.' should be followed by a digit and not '" ++ w ++ lit "'.") w
| nc_string w : names_char (lit "Syntax error encountered while reading string. Invalid character, '" ++ w ++ lit "', found in string.") w
| nc_name w : names_char (lit "Syntax error encountered while reading attribute name. '.' needs to be followed by an identifier and not '" ++ w ++ lit "'.") w
| nc_other w : names_char (lit "Syntax error, encountered an unexpected character, '" ++ w ++ lit "'.") w.

(** A message naming a word. *)
Inductive names_word : str -> str -> Prop :=
| nw_category w : w <> lit "." -> names_word (lit "Syntax error encountered while reading attribute name. '" ++ w ++ lit "' is not a valid attribute type.") w
| nw_word w : names_word (lit "Syntax error, encountered an unknown identifier, '" ++ w ++ lit "'.") w.

(** What a fault names is in the text at the position reported. *)
Definition points (p : Z) (s : str) (m : str) (q : Z) : Prop :=
  p <= q <= p + len s /\
  (m = lit "Syntax error, found '!' without matching '='. Found '!' in place of '='." \/
   m = lit "Syntax error encountered while reading string. End of policy encountered before matching ""." \/
   m = lit "Syntax error encountered while reading floating point number. Found multiple '.'s in number." /\ hd_error (from s (q - p)) = Some 46%N \/
   (exists w, names_char m w /\ shown_as (from s (q - p)) w) \/
   (exists w r, names_word m w /\ from s (q - p) = w ++ r)).

Lemma from_len (a b : str) n : n = len a -> from (a ++ b) n = b.
Proof. intros ->. apply skipn_app_len. Qed.

Lemma fault_points U p s m q t r : fault U p s m q t r -> points p s m q.
Proof.
  pose proof len_nonneg as L0.
  destruct 1 as [r Hn|body Hb|body c r Hb Hc Hq|neg ds r w Hne Hd Hn Hw|neg ds es d r Hne Hd He|c w id d r Hc Hw Hi Hn Hk
                |c w d r Hc Hw Hd|w d r Hw Hn Hk|c r Ho].
  - split; [rewrite len_cons; pose proof (L0 r); lia|auto].
  - split; [pose proof (L0 (34%N :: body)); lia|auto].
  - split; [change (34%N :: body ++ c :: r) with ((34%N :: body) ++ c :: r); rewrite len_app; pose proof (L0 (34%N :: body)); pose proof (L0 (c :: r)); lia|].
    do 3 right. left. exists [c]. split; [constructor|]. left. exists c, r. split; [|reflexivity].
    change (34%N :: body ++ c :: r) with ((34%N :: body) ++ c :: r). apply from_len. lia.
  - split; [rewrite (app_assoc (sign_of neg)), (len_app (sign_of neg ++ ds)), len_cons; pose proof (L0 (sign_of neg ++ ds)); pose proof (L0 r); lia|].
    do 3 right. left. exists w. split; [constructor|].
    replace (sign_of neg ++ ds ++ 46%N :: r) with (((sign_of neg ++ ds) ++ [46%N]) ++ r) by now rewrite <- !app_assoc.
    rewrite from_len; auto. rewrite (len_app (sign_of neg ++ ds)), len_cons, len_nil. lia.
  - replace (sign_of neg ++ ds ++ 46%N :: es ++ d :: 46%N :: r) with ((sign_of neg ++ ds ++ 46%N :: es ++ [d]) ++ 46%N :: r).
    2:{ rewrite <- !app_assoc. cbn [app]. now rewrite <- app_assoc. }
    set (a := sign_of neg ++ ds ++ 46%N :: es ++ [d]). split; [rewrite len_app; pose proof (L0 a); pose proof (L0 (46%N :: r)); lia|].
    do 2 right. left. split; [reflexivity|]. rewrite from_len by lia. reflexivity.
  - split; [pose proof (L0 ((c :: w) ++ 46%N :: id ++ d :: r)); lia|]. do 4 right.
    exists (c :: w), (46%N :: id ++ d :: r). split; [|now rewrite Z.sub_diag]. constructor. unfold lit. cbn. intros [= -> ->]. discriminate.
  - split; [rewrite len_app, !len_cons; pose proof (L0 w); pose proof (L0 r); lia|]. do 3 right. left. exists [d]. split; [constructor|].
    left. exists d, r. split; [|reflexivity]. replace ((c :: w) ++ 46%N :: d :: r) with (((c :: w) ++ [46%N]) ++ d :: r) by now rewrite <- app_assoc.
    apply from_len. rewrite (len_app (c :: w)), (len_cons 46%N), len_nil. lia.
  - split; [pose proof (L0 (w ++ d :: r)); lia|]. do 4 right. exists (w ++ [d]), r. split; [constructor|].
    rewrite Z.sub_diag. unfold from. cbn [Z.to_nat skipn]. now rewrite <- app_assoc.
  - split; [pose proof (L0 (c :: r)); lia|]. do 3 right. left. exists [c]. split; [constructor|]. rewrite Z.sub_diag. left. exists c, r. auto.
Qed.

(** C108.  The position lies in the text; what the message names (the character found, None at the
    end, or a word) is in the text at the position reported.  The message about "!" is the
    exception, see C108_bang_refuted. *)
Theorem C108_points (U : unicode) (text : str) (e : lerror) (l : lexer) : unicode_ok U ->
  ld_tokenize U (lexer_init text) = (Some (RSyn e), l) -> points 0 text (le_msg e) (le_pos e).
Proof.
  intros uok H. apply C108_error in H as (ts & q & ws & s & t & r & Hr & _ & Hf & _); auto.
  apply fault_points in Hf. apply reads_at in Hr as (pre & -> & ->). destruct Hf as (Hq & Hm).
  rewrite app_assoc. set (a := pre ++ ws). assert (La : 0 + len pre + len ws = len a) by (unfold a; rewrite len_app; lia).
  rewrite La in *. pose proof (len_nonneg a) as L0. split; [rewrite len_app; lia|].
  assert (Ef : from (a ++ s) (le_pos e) = from s (le_pos e - len a)).
  { rewrite <- (from_app a s (le_pos e - len a)) by lia. f_equal. lia. }
  rewrite Z.sub_0_r, Ef. exact Hm.
Qed.

(** C108.  The message about "!" names the "!" and not what is in place of the "=". *)
Theorem C108_bang_refuted : exists text e l,
  ld_tokenize ascii_only (lexer_init text) = (Some (RSyn e), l) /\
  le_msg e = lit "Syntax error, found '!' without matching '='. Found '!' in place of '='." /\
  from text (le_pos e) = lit "5".
Proof. do 3 eexists. split; [|split]; [instantiate (3 := lit "user.a !5"); vm_compute; reflexivity|reflexivity|vm_compute; reflexivity]. Qed.

(** C108.  The token of the error begins where the fault does, not after the position reported; only
    an unexpected character comes without one. *)
Theorem C108_token (U : unicode) (text : str) (e : lerror) (l : lexer) : unicode_ok U ->
  ld_tokenize U (lexer_init text) = (Some (RSyn e), l) ->
  match le_tok e with
  | Some t => In (t_type t) [OP; STRING; FLOAT; UNK_ATT; UNK_ID] /\ 0 <= t_pos t <= le_pos e
  | None => exists c r, from text (le_pos e) = c :: r /\ no_start U c r
  end.
Proof.
  intros uok H. apply C108_error in H as (ts & q & ws & s & t & r & Hr & _ & Hf & -> & _); auto.
  apply reads_at in Hr as (pre & -> & ->). pose proof (fault_points _ _ _ _ _ _ _ Hf) as (Hq & _).
  pose proof (len_nonneg pre). pose proof (len_nonneg ws).
  destruct t as [[ty v]|]; cbn [blamed option_map].
  - cbn [t_type t_pos]. split; [|lia]. inversion Hf; subst; cbn; auto 6.
  - inversion Hf; subst. exists c, r0. split; [|auto]. rewrite app_assoc. apply from_len. rewrite len_app. lia.
Qed.

(** C109.  Whatever is called and whatever is raised, the token list is START followed by lexemes of
    the text at their positions, in order and without overlap, and END only at the end; the attribute
    list is its attribute tokens. *)
Theorem C109_tokens (U : unicode) (text : str) (cs : list call) : unicode_ok U ->
  let l := after U cs (lexer_init text) in
  (exists ts, lx_toks l = Tok START 0 TNone :: ts /\ picks U 0 text ts) /\
  lx_atts l = filter (fun t => is_att_type (t_type t)) (lx_toks l).
Proof.
  intros uok. cbv zeta. pose proof (kept_after U uok text cs _ (kept_init U text)) as K.
  split; [now apply kept_picks in K|]. now destruct K as (Ha & _).
Qed.

(** C109.  An exception leaves the token and attribute lists as they are. *)
Theorem C109_kept (U : unicode) (l l' : lexer) (x : raised) : unicode_ok U ->
  ld_next U l = (Raised x, l') -> lx_toks l' = lx_toks l /\ lx_atts l' = lx_atts l /\ exists pre, lx_rest l = pre ++ lx_rest l' /\ lx_pos l' = lx_pos l + len pre.
Proof.
  intros uok. unfold ld_next. destruct (skip_ws U (lx_pos l) (lx_rest l)) as [p r0] eqn:Es.
  apply skip_ws_ok in Es as (ws & Er & Hw & -> & Hn). destruct r0 as [|c r1].
  { destruct (last_type (lx_toks l)) as [[]|]; discriminate. }
  destruct (ld_char U (lx_pos l + len ws) c r1) as [[[t p'] r']|x' q r] eqn:E; [discriminate|].
  intros [= <- <-]. apply char_raise in E; auto. destruct E as (pre & Et & -> & _). repeat split.
  exists (ws ++ pre). cbn [lx_rest lx_pos]. rewrite Er, Et, <- app_assoc, len_app. split; [reflexivity|lia].
Qed.

(** C109.  Repeated calls of next() settle after at most one call more than there are characters: from
    then on every call does the same and nothing changes. *)
Theorem C109_settles (U : unicode) (text : str) (cs : list call) : unicode_ok U ->
  exists k, (k <= List.length text + 1)%nat /\
  forall j, (k <= j)%nat -> calls U j (after U cs (lexer_init text)) = calls U k (after U cs (lexer_init text)) /\
    ld_next U (calls U j (after U cs (lexer_init text))) = ld_next U (calls U k (after U cs (lexer_init text))).
Proof.
  intros uok. set (l := after U cs (lexer_init text)). pose proof (kept_after U uok text cs _ (kept_init U text)) as K. fold l in K.
  assert (T : (todo l <= List.length text + 1)%nat).
  { unfold todo. destruct K as (_ & ts & _ & [(Er & El & _)|(_ & pre & Et & _ & _)]); [rewrite Er, El; cbn; lia|].
    apply (f_equal (@List.length N)) in Et. rewrite app_length in Et. destruct (last_type (lx_toks l)) as [[]|]; lia. }
  destruct (iter_next_settles U uok _ text l K T) as (k & Hk & E). exists k. split; auto.
  assert (G : forall d l0, snd (ld_next U l0) = l0 -> calls U d l0 = l0).
  { induction d as [|d IH]; intros l0 H0; cbn [calls]; auto. rewrite H0. auto. }
  assert (A : forall a b l0, calls U (a + b) l0 = calls U b (calls U a l0)).
  { induction a as [|a IH]; intros b l0; cbn [calls Nat.add]; auto. }
  intros j Hj. assert (Ej : calls U j l = calls U k l).
  { replace j with (k + (j - k))%nat by lia. rewrite A. now apply G. }
  rewrite Ej. auto.
Qed.

(** The text read next is the one with the fault, or shorter. *)
Lemma fault_rest U p s m q t r : fault U p s m q t r ->
  if match t with None => true | Some (OP, _) => true | Some (UNK_ID, TStr [d]) => true | _ => false end
  then r = s else (List.length r < List.length s)%nat.
Proof.
  destruct 1 as [r Hn|body Hb|body c r Hb Hc Hq|neg ds r w Hne Hd Hn Hw|neg ds es d r Hne Hd He|c w id d r Hc Hw Hi Hn Hk
                |c w d r Hc Hw Hd|w d r Hw Hn Hk|c r Ho]; cbn [List.length]; rewrite ?app_length; cbn [List.length]; try lia; auto.
  - destruct ds; [congruence|]. cbn [List.length]. lia.
  - rewrite app_length. cbn. lia.
  - rewrite app_length. cbn. lia.
  - destruct w as [|a [|b w]]; cbn; auto; rewrite ?app_length; cbn; lia.
Qed.

(** C109.  The same error is raised again, and by every later call, exactly if it is about "!", an
    unexpected character or an unknown identifier of one character. *)
Theorem C109_permanent (U : unicode) (l l' : lexer) (e : lerror) : unicode_ok U ->
  ld_next U l = (Raised (RSyn e), l') ->
  (ld_next U l' = (Raised (RSyn e), l') <->
   match le_tok e with
   | None => True
   | Some t => t_type t = OP \/ (t_type t = UNK_ID /\ exists d, t_val t = TStr [d])
   end).
Proof.
  intros uok H. apply next_raised in H as (r & (ws & s & Er & Hw & t & Hf & Ht) & ->); auto. rewrite Ht.
  pose proof (fault_rest _ _ _ _ _ _ _ Hf) as Hr. set (p := lx_pos l + len ws) in *.
  assert (Again : r = s -> ld_next U (Lx (lx_pos l + len (lx_rest l) - len r) r (lx_toks l) (lx_atts l)) =
                  (Raised (RSyn e), Lx (lx_pos l + len (lx_rest l) - len r) r (lx_toks l) (lx_atts l))).
  { intros ->. apply next_raised; auto. exists s. cbn [lx_pos lx_rest lx_toks lx_atts]. split; [|f_equal; lia].
    exists [], s. rewrite len_nil, Z.add_0_r, Er, len_app. repeat split; auto. exists t.
    replace (lx_pos l + (len ws + len s) - len s) with p by (unfold p; lia). auto. }
  destruct t as [[ty v]|]; cbn [blamed option_map t_type t_val]; [|split; auto].
  assert (D : (if match ty with OP => true | UNK_ID => match v with TStr [_] => true | _ => false end | _ => false end then True else False)
              <-> (ty = OP \/ (ty = UNK_ID /\ exists d, v = TStr [d]))).
  { split.
    - destruct ty; try tauto. destruct v as [|[|a [|b w]]| |]; try tauto. eauto.
    - intros [->|(-> & d & ->)]; exact I. }
  rewrite <- D. cbv iota in Hr.
  destruct (match ty with OP => true | UNK_ID => match v with TStr [_] => true | _ => false end | _ => false end) eqn:B.
  - assert (r = s) by (destruct ty; try discriminate; auto; destruct v as [|[|a [|b w]]| |]; try discriminate; auto). split; auto.
  - assert (L : (List.length r < List.length s)%nat) by (destruct ty; try discriminate; auto; destruct v as [|[|a [|b w]]| |]; try discriminate; auto).
    split; [|tauto]. intros A. apply next_raised in A as (r' & (ws' & s' & _ & _ & t' & Hf' & Ht') & _); auto.
    cbn [lx_pos] in Ht'. rewrite Ht in Ht'. destruct t' as [[ty' v']|]; [|discriminate]. cbn in Ht'. injection Ht' as _ E _.
    rewrite Er, len_app in E. unfold p, len in E. pose proof (len_nonneg ws'). unfold len in *. lia.
Qed.

Lemma reads_last U p text ts q rest : reads U p text ts q rest -> forall t0, t_type t0 <> END -> last_type (t0 :: ts) <> Some END.
Proof.
  induction 1 as [|p ws s rest ty v ts q rest' Hw Hl H IH]; intros t0 H0; [intros [= B]; tauto|].
  assert (E : last_type (t0 :: Tok ty (p + len ws) v :: ts) = last_type (Tok ty (p + len ws) v :: ts)).
  { unfold last_type. cbn [rev]. destruct (rev ts ++ [Tok ty (p + len ws) v]) as [|y ys] eqn:B; [destruct (rev ts); discriminate|reflexivity]. }
  rewrite E. apply IH. apply lexeme_type in Hl. cbn. tauto.
Qed.

(** C109.  If the text ends within a string, a second tokenize() succeeds; the string is left out. *)
Theorem C109_unterminated (U : unicode) (text : str) (ts : list token) (q : Z) (ws body : str) : unicode_ok U ->
  reads U 0 text ts q (ws ++ 34%N :: body) -> Forall (space U) ws -> Forall string_ok body ->
  exists e l l', ld_tokenize U (lexer_init text) = (Some (RSyn e), l) /\ ld_tokenize U l = (None, l') /\
    lx_toks l' = Tok START 0 TNone :: ts ++ [Tok END (len text) TNone].
Proof.
  intros uok Hr Hw Hb. set (l := Lx (len text - len []) [] (start_token :: ts) (att_tokens ts)).
  exists (LErr (lit "Syntax error encountered while reading string. End of policy encountered before matching "".") (q + len ws)
            (blamed (q + len ws) (Some (STRING, TNone)))), l.
  eexists. split; [|split].
  - apply C108_error; auto. exists ts, q, ws, (34%N :: body). do 2 eexists. repeat split; eauto. now apply fl_open.
  - assert (Hl : last_type (start_token :: ts) <> Some END).
    { apply (reads_last U 0 text ts q (ws ++ 34%N :: body)); [exact Hr|discriminate]. }
    unfold ld_tokenize, l. cbn [lx_rest List.length Nat.add ld_loop]. unfold ld_next at 1. cbn [skip_ws lx_pos lx_rest lx_toks lx_atts].
    destruct (last_type (start_token :: ts)) as [[]|] eqn:EL; try congruence;
    (cbv zeta; cbn [ld_loop]; unfold ld_next; cbn [skip_ws lx_pos lx_rest lx_toks lx_atts]; rewrite last_type_snoc; cbn [t_type]; reflexivity).
  - cbn [lx_toks]. rewrite len_nil, Z.sub_0_r. reflexivity.
Qed.

(** C109.  Other errors disappear by calling tokenize() again as well; what is read then need not be
    what is written. *)
Theorem C109_again_refuted : exists text e l l',
  ld_tokenize ascii_only (lexer_init text) = (Some (RSyn e), l) /\ ld_tokenize ascii_only l = (None, l') /\
  map t_type (lx_toks l') = [START; USR_ATT; OP; INT; END] /\ map t_val (lx_toks l') = [TNone; TStr (lit "a"); TStr (lit "="); TInt 3; TNone] /\
  text = lit "user.a = role3".
Proof.
  exists (lit "user.a = role3"). destruct (ld_tokenize ascii_only (lexer_init (lit "user.a = role3"))) as [[[e|]|] l] eqn:E;
  try (exfalso; apply (f_equal fst) in E; vm_compute in E; discriminate).
  exists e, l. destruct (ld_tokenize ascii_only l) as [o l'] eqn:E'. exists l'.
  assert (El : l = snd (ld_tokenize ascii_only (lexer_init (lit "user.a = role3")))) by now rewrite E.
  assert (El' : l' = snd (ld_tokenize ascii_only l)) by now rewrite E'.
  assert (Eo : o = fst (ld_tokenize ascii_only l)) by now rewrite E'.
  rewrite El in Eo, El'. vm_compute in Eo. vm_compute in El'. subst. repeat split.
Qed.

(** str(e) of one text per message. *)
Definition shown (text : string) : option str :=
  match ld_tokenize ascii_only (lexer_init (lit text)) with (Some (RSyn e), _) => Some (lerror_str (lit text) e) | _ => None end.
Example ex_shown :
  map shown ["user.a !> 5"; "user.a = ""x"; "user.a = ""x{	}"""; "5. = user.a"; "1.2.3 = 4"; "usr.a"; "user. a"; "user.a & b"; "maybe"; "5."; "user."; "TRUE"]%string
  = map (option_map lit)
    [Some "Syntax error, found '!' without matching '='. Found '!' in place of '='. @ char 8 near 'user.a !> 5'";
     Some "Syntax error encountered while reading string. End of policy encountered before matching "". @ char 9 near 'user.a = ""x'";
     Some "Syntax error encountered while reading string. Invalid character, '	', found in string. @ char 12 near 'er.a = ""x{	}""'";
     Some "Syntax error encountered while reading floating point number. '.' should be followed by a digit and not ' '. @ char 2 near '5. = user.a'";
     Some "Syntax error encountered while reading floating point number. Found multiple '.'s in number. @ char 3 near '1.2.3 = 4'";
     Some "Syntax error encountered while reading attribute name. 'usr' is not a valid attribute type. @ char 0 near 'usr.a'";
     Some "Syntax error encountered while reading attribute name. '.' needs to be followed by an identifier and not ' '. @ char 5 near 'user. a'";
     Some "Syntax error, encountered an unexpected character, '&'. @ char 7 near 'user.a & b'";
     Some "Syntax error, encountered an unknown identifier, 'maybe'. @ char 0 near 'maybe'";
     Some "Syntax error encountered while reading floating point number. '.' should be followed by a digit and not 'None'. @ char 2 near '5.'";
     None; None]%string.
Proof. vm_compute. reflexivity. Qed.

(** A case of C109_unterminated: the second tokenize() of TRUE OR FALSE followed by an open string reads TRUE OR FALSE. *)
Example ex_unterminated :
  let l1 := snd (ld_tokenize ascii_only (lexer_init (lit "TRUE OR FALSE ""AND user.a"))) in
  let l2 := ld_tokenize ascii_only l1 in
  fst l2 = None /\ map t_type (lx_toks (snd l2)) = [START; BOOL; BOOL_OP; BOOL; END].
Proof. vm_compute. auto. Qed.

(** A case of C109_settles and C109_permanent: next() called seven times on [5 ! 6]. *)
Example ex_calls : map (fun k => match fst (ld_next ascii_only (calls ascii_only k (lexer_init (lit "5 ! 6")))) with Gave (Some t) => Some (t_pos t) | _ => None end) [0; 1; 2; 6]%nat
  = [Some 0; None; None; None].
Proof. vm_compute. reflexivity. Qed.

Print Assumptions C108_same.
Print Assumptions C108_error.
Print Assumptions C108_crash.
Print Assumptions C108_points.
Print Assumptions C108_bang_refuted.
Print Assumptions C108_token.
Print Assumptions C109_tokens.
Print Assumptions C109_kept.
Print Assumptions C109_settles.
Print Assumptions C109_permanent.
Print Assumptions C109_unterminated.
Print Assumptions C109_again_refuted.
