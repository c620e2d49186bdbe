(** * DemoCases: concrete cases for C97 - C100, and guesses about the demo that are wrong *)

From Coq Require Import NArith ZArith List Bool String Lia Permutation.
From Verif Require Import PyBase PyNum Lexer LexSpec LexProofs LexProofs2 LexProps Values Ast Parser Grammar
  ParseProofs ParseProofs2 Syntax PrintProofs ParseProps AbsProofs Symbols Interp EvalSpec EvalProofs EvalProofs2 EvalProps
  SymbolProps TypeCheck TypeSpec TypeProofs TypeProps AttCert AAuth AAuthSpec AAuthProofs Demo DemoProofs DemoProps.
Import ListNotations.
Open Scope Z_scope.

(** ** Concrete cases and wrong guesses *)

Definition P0 : pytext := PyText (fun _ => lit "3.14") (fun s => if str_eqb s (lit "3.14") then Some (float_of_dec false 314 2) else None)
  (fun l => l) (fun s => s) (fun _ => []).
Definition U0 : unicode := ascii_only.
Lemma U0_ok : unicode_ok U0.
Proof. exact ascii_only_ok. Qed.
Lemma U0_decimals : decimals_ok U0.
Proof. intros c d. discriminate. Qed.

(** The demo as it is started by its main(). *)
Definition default_builder : builder := match load_mixed (builder_new default_types) default_values with Ok b => b | Err _ => builder_new [] end.
Definition empty_frame : frame := Frame [] true [] [] None None None true false false false false [] [] [] [] [] 0.
Definition demo : frame :=
  let '(h, tb) := build_table U0 default_builder [] in match frame_new h tb 0 with Ok f => f | Err _ => empty_frame end.
Example default_table_builder : default_table U0 = Ok (build_table U0 default_builder []).
Proof. vm_compute. reflexivity. Qed.
Lemma values_ok (b : builder) :
  forallb (fun e => match snd (snd e) with VSet l => forallb hashable l | _ => true end) (entries b) = true ->
  Forall (fun e => value_ok (snd (snd e))) (entries b).
Proof.
  intros H. apply Forall_forall. intros x Hx. rewrite forallb_forall in H. apply H in Hx.
  destruct x as [t [n v]]. cbn [snd] in *. destruct v; try exact I. exact Hx.
Qed.
Lemma types_ok (l : list (str * symtype)) : forallb (fun e => match snd e with ST_NONE => false | _ => true end) l = true ->
  forall n t, assoc n l = Some t -> t <> ST_NONE.
Proof. intros H n t Ha ->. apply assoc_in in Ha. rewrite forallb_forall in H. apply H in Ha. discriminate. Qed.
Lemma start_reachable (b : builder) (d : frame) : 
  forallb (fun e => match snd e with ST_NONE => false | _ => true end) (b_types b) = true ->
  forallb (fun e => match snd (snd e) with VSet l => forallb hashable l | _ => true end) (entries b) = true ->
  reachable U0 P0 (let '(h, tb) := build_table U0 b [] in match frame_new h tb 0 with Ok f => f | Err _ => d end).
Proof.
  intros Ht Hv. pose proof (C97_start U0 P0 b 0 (types_ok _ Ht) (values_ok _ Hv)) as H.
  destruct (build_table U0 b []) as [h tb]. destruct H as (f & E & R & _). now rewrite E.
Qed.
Lemma demo_reachable : reachable U0 P0 demo.
Proof. apply start_reachable; vm_compute; reflexivity. Qed.

Definition run_policy (text : str) : list event := [PressReset; EnterPolicy text; PressTokenize; PressParse; PressTypeCheck; PressInterpret].
Definition last_line (f : frame) : option line := last (map Some (f_console f)) None.
Definition row_named (f : frame) (n : str) : nat :=
  (fix go (i : nat) (l : list att_row) := match l with [] => i | r :: q => if str_eqb (group_prefix (r_group r) ++ r_name r) n then i else go (S i) q end) O (f_att_rows f).
Definition shown_text (f : frame) (n : str) : str :=
  match nth_error (f_att_rows f) (row_named f n) with Some r => dialog_text U0 P0 (r_value r) | None => [] end.
Definition value_in (f : frame) (n : str) : option pyval :=
  match st_lookup U0 (f_table f) n with Some l => Some (sy_value (hget (f_heap f) l)) | None => None end.

Example C97_pipeline_example :
  last_line (use U0 P0 demo (run_policy (nth 0 default_policies []))) = Some (LResult (lit "TRUE")) /\
  last_line (use U0 P0 demo (run_policy (nth 1 default_policies []))) = Some (LResult (lit "TRUE")) /\
  last_line (use U0 P0 demo (run_policy (nth 2 default_policies []))) = Some (LResult (lit "TRUE")) /\
  last_line (use U0 P0 demo (run_policy (lit "user.age < 18"))) = Some (LResult (lit "FALSE")) /\
  last_line (use U0 P0 demo (run_policy (lit "user.missing > 3"))) = Some (LResult (lit "UNDEF")).
Proof. repeat split; vm_compute; reflexivity. Qed.
(** For a bare attribute the line names the attribute. *)
Example C98_bare_example : last_line (use U0 P0 demo (run_policy (lit "user.id"))) = Some (LResult (lit "user.id")).
Proof. vm_compute. reflexivity. Qed.
(** A constant alone is an error of the interpreter. *)
Example C98_constant_example : last_line (use U0 P0 demo (run_policy (lit "TRUE"))) = Some (LError (EInterp 0)).
Proof. vm_compute. reflexivity. Qed.
Example C99_submit_example :
  let f := fst (step U0 P0 demo (SubmitValue (row_named demo (lit "user.age")) (lit " 1_7"))) in
  last_line (use U0 P0 f (run_policy (nth 1 default_policies []))) = Some (LResult (lit "FALSE")) /\
  fst (step U0 P0 demo (SubmitValue (row_named demo (lit "user.age")) (lit "seventeen"))) = demo.
Proof. split; vm_compute; reflexivity. Qed.
Example C99_resubmit_example :
  nth_error (f_att_rows demo) (row_named demo (lit "user.teaching")) =
    Some (AttRow USR_ATT (lit "teaching") ST_SET (VSet (map VStr [lit "CS3090"; lit "CS1032"]))) /\
  shown_text demo (lit "user.teaching") = lit "{'CS3090', 'CS1032'}" /\
  survives U0 P0 ST_SET (VSet (map VStr [lit "CS3090"; lit "CS1032"])).
Proof.
  split; [vm_compute; reflexivity|]. split; [vm_compute; reflexivity|]. constructor; [discriminate| |reflexivity].
  assert (G : forall m, forallb (fun c => (33 <=? c) && (c <=? 126) && negb (existsb (N.eqb c) [34; 39; 44; 92; 123; 125]))%N m = true -> simple_member m).
  { intros m H. rewrite forallb_forall in H. assert (K : forall c, In c m -> (33 <= c <= 126)%N /\ ~ In c [34; 39; 44; 92; 123; 125]%N).
    { intros c Hc. apply H in Hc. apply andb_true_iff in Hc as [Hc Hd]. apply andb_true_iff in Hc as [Ha Hb].
      apply N.leb_le in Ha, Hb. split; auto. intros Hi. apply negb_true_iff in Hd. assert (existsb (N.eqb c) [34; 39; 44; 92; 123; 125]%N = true); [|congruence].
      apply existsb_exists. exists c. split; auto. apply N.eqb_refl. }
    split; [|split].
    - intros c Hc. destruct (K c Hc). split; auto. lia.
    - intros c r ->. destruct (K c (or_introl eq_refl)). lia.
    - intros r c ->. destruct (K c) as [? _]; [apply in_or_app; right; now left|]. lia. }
  constructor; [apply G; vm_compute; reflexivity|]. constructor; [apply G; vm_compute; reflexivity|constructor].
Qed.

(** Not every value survives: the members of a set of numbers become texts, and the second of
    the policies offered is not satisfied any more, although nothing was changed in the dialog, *)
Theorem C99_resubmit_refuted : exists f i r, reachable U0 P0 f /\ nth_error (f_att_rows f) i = Some r /\
  let f' := fst (step U0 P0 f (SubmitValue i (dialog_text U0 P0 (r_value r)))) in
  last_line (use U0 P0 f (run_policy (nth 1 default_policies []))) = Some (LResult (lit "TRUE")) /\
  last_line (use U0 P0 f' (run_policy (nth 1 default_policies []))) = Some (LResult (lit "FALSE")).
Proof.
  exists demo, (row_named demo (lit "user.perms")). eexists. split; [exact demo_reachable|]. split; [vm_compute; reflexivity|].
  split; vm_compute; reflexivity.
Qed.
(** a text that is a numeral is rewritten, *)
Theorem C99_numeral_refuted : exists f i r, reachable U0 P0 f /\ nth_error (f_att_rows f) i = Some r /\
  r_type r = ST_STRING /\ r_value r = VStr (lit "007") /\
  let f' := fst (step U0 P0 f (SubmitValue i (dialog_text U0 P0 (r_value r)))) in
  value_in f' (lit "user.role") = Some (VStr (lit "7")).
Proof.
  exists (use U0 P0 demo [SubmitValue (row_named demo (lit "user.role")) (lit "007")]), (row_named demo (lit "user.role")). eexists.
  split; [apply reachable_use; exact demo_reachable|]. split; [vm_compute; reflexivity|]. repeat split; vm_compute; reflexivity.
Qed.
(** and an empty set gets a member. *)
Definition small_builder (v : pyval) (t : symtype) : builder := Bld [(lit "user.a", t)] [(lit "a", v)] [] [] [] [].
Definition small (v : pyval) (t : symtype) : frame :=
  let '(h, tb) := build_table U0 (small_builder v t) [] in match frame_new h tb 0 with Ok f => f | Err _ => empty_frame end.
Theorem C99_empty_set_refuted : exists f i r, reachable U0 P0 f /\ nth_error (f_att_rows f) i = Some r /\
  r_type r = ST_SET /\ r_value r = VSet [] /\
  let f' := fst (step U0 P0 f (SubmitValue i (dialog_text U0 P0 (r_value r)))) in
  value_in f' (lit "user.a") = Some (VSet [VStr (lit "set()")]).
Proof.
  exists (small (VSet []) ST_SET), O. eexists. split; [apply (start_reachable (small_builder _ _)); vm_compute; reflexivity|].
  split; [vm_compute; reflexivity|]. repeat split; vm_compute; reflexivity.
Qed.
(** UNDEF becomes FALSE. *)
Theorem C99_undef_refuted : exists f i r, reachable U0 P0 f /\ nth_error (f_att_rows f) i = Some r /\
  r_type r = ST_BOOL /\ r_value r = VTri UNDEF /\
  let f' := fst (step U0 P0 f (SubmitValue i (dialog_text U0 P0 (r_value r)))) in
  value_in f' (lit "user.a") = Some (VTri FALSE).
Proof.
  exists (small (VTri UNDEF) ST_BOOL), O. eexists. split; [apply (start_reachable (small_builder _ _)); vm_compute; reflexivity|].
  split; [vm_compute; reflexivity|]. repeat split; vm_compute; reflexivity.
Qed.
(** A symbol without a category is shown, but submitting a value for it changes the panel only
    and leaves the callback with an exception. *)
Theorem C99_uncategorised_refuted : exists h tb f r, frame_new h tb 0 = Ok f /\ nth_error (f_att_rows f) 0 = Some r /\
  exists x, snd (step U0 P0 f (SubmitValue 0 (lit "5"))) = Some x /\
  let f' := fst (step U0 P0 f (SubmitValue 0 (lit "5"))) in
  map r_value (f_att_rows f') = [VInt 5] /\ map (fun e => sy_value (hget (f_heap f') (snd e))) (f_table f') = [VInt 4].
Proof.
  exists [symbol_new U0 (lit "a") None (Some ST_INT) (VInt 4)], [(lit "unkown.a", O)]. eexists. eexists.
  split; [vm_compute; reflexivity|]. split; [vm_compute; reflexivity|]. eexists. repeat split; vm_compute; reflexivity.
Qed.

(** Exceptions that leave a callback. *)
Example C100_examples :
  snd (step U0 P0 (use U0 P0 demo [EnterPolicy (lit "TRUE OR user.")]) PressTokenize) = Some EAttribute /\
  snd (step U0 P0 (use U0 P0 demo [PressTokenize]) PressParse) = Some EIndex /\
  snd (step U0 P0 (use U0 P0 demo [EnterPolicy (lit "TRUE AND ("); PressTokenize]) PressParse) = Some EIndex /\
  f_console (use U0 P0 demo [EnterPolicy (lit "TRUE AND )"); PressTokenize; PressParse]) =
    [LTokenizing (lit "TRUE AND )"); LTokenized 5; LParsing; LError (EParser 9)] /\
  snd (step U0 P0 (use U0 P0 demo [EnterPolicy (lit "user.id AND TRUE"); PressTokenize; PressParse; PressTypeCheck]) PressInterpret) = None.
Proof. repeat split; vm_compute; reflexivity. Qed.
(** NULL cannot be looked for in a set. *)
Example C100_null_example : forall t, In t [lit "NULL IN user.perms"; lit "{NULL, 1} SUBSET user.perms"] ->
  snd (step U0 P0 (use U0 P0 demo [EnterPolicy t; PressTokenize; PressParse; PressTypeCheck]) PressInterpret) = Some EType.
Proof. intros t [<-|[<-|[]]]; vm_compute; reflexivity. Qed.
(** A capital sigma in a name. *)
Example C100_sigma_example :
  snd (step sigma P0 (use sigma P0 demo [EnterPolicy sigma_text; PressTokenize; PressParse]) PressTypeCheck) = Some EGeneric.
Proof. vm_compute. reflexivity. Qed.
Example C100_stuck_example :
  let f := use U0 P0 demo [EnterPolicy (lit "TRUE AND"); PressTokenize] in
  reachable U0 P0 f /\ f_box f = false /\ (forall last a n, parse_text U0 (f_text f) last <> Ok (a, n)) /\
  f_text (use U0 P0 f [PressParse; EnterPolicy (lit "TRUE AND FALSE"); PressTokenize]) = lit "TRUE AND" /\
  f_text (use U0 P0 f [PressParse; PressReset; EnterPolicy (lit "TRUE AND FALSE"); PressTokenize]) = lit "TRUE AND FALSE".
Proof.
  split; [apply reachable_use; exact demo_reachable|]. split; [vm_compute; reflexivity|]. split; [|split; vm_compute; reflexivity].
  intros last a n. set (t := f_text _). assert (t = lit "TRUE AND") as -> by (vm_compute; reflexivity).
  assert (exists ts, lex_text U0 (lit "TRUE AND") = Ok ts /\ parse U0 ts 0 = Err EIndex) as (ts & E & H) by (eexists; split; vm_compute; reflexivity).
  unfold parse_text. rewrite E. cbn [bind]. apply (C11_index_error U0 _ _ 0 U0_ok E) in H.
  apply (C11_index_error U0 _ _ last U0_ok E) in H. congruence.
Qed.

Print Assumptions C97_phases.
Print Assumptions C97_one_button.
Print Assumptions C97_locked.
Print Assumptions C97_type_check.
Print Assumptions C97_ascii_text.
Print Assumptions C97_run.
Print Assumptions C97_start.
Print Assumptions C98_interpret.
Print Assumptions C98_again.
Print Assumptions C99_panel.
Print Assumptions C99_submit.
Print Assumptions C99_sets_of_texts.
Print Assumptions C99_resubmit.
Print Assumptions C99_resubmit_refuted.
Print Assumptions C99_numeral_refuted.
Print Assumptions C99_empty_set_refuted.
Print Assumptions C99_undef_refuted.
Print Assumptions C99_uncategorised_refuted.
Print Assumptions C100_uncaught.
Print Assumptions C100_stops_short.
Print Assumptions C100_stuck.
