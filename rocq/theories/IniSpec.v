(** * IniSpec: what a configuration file says, written without reference to the reader *)

From Coq Require Import NArith List Bool String.
From Verif Require Import PyBase Config.
Import ListNotations.
Open Scope N_scope.

(** ** Lines of a file *)

Definition one_line (l : str) : Prop := ~ In 10 l /\ ~ In 13 l.
(** Lines end with LF, CR LF or CR; the last one may end with the file. *)
Inductive file_lines : str -> list str -> Prop :=
| fl_nil : file_lines [] []
| fl_last : forall l, l <> [] -> one_line l -> file_lines l [l]
| fl_lf : forall l s ls, one_line l -> file_lines s ls -> file_lines (l ++ 10 :: s) (l :: ls)
| fl_crlf : forall l s ls, one_line l -> file_lines s ls -> file_lines (l ++ 13 :: 10 :: s) (l :: ls)
| fl_cr : forall l s ls, one_line l -> (forall r, s <> 10 :: r) -> file_lines s ls -> file_lines (l ++ 13 :: s) (l :: ls).

Section WithUnicode.
Variable U : unicode.

(** ** Spaces *)

Definition spaces (w : str) : Prop := forall c, In c w -> isspace U c = true.
Definition starts (x : str) : Prop := forall c r, x = c :: r -> isspace U c = false.
Definition ends (x : str) : Prop := forall r c, x = r ++ [c] -> isspace U c = false.
(** [l] is [x] with [n] spaces before it and some behind it. *)
Definition trims (l : str) (n : nat) (x : str) : Prop :=
  exists w t, l = w ++ x ++ t /\ spaces w /\ spaces t /\ starts x /\ ends x /\ List.length w = n.

(** ** Kinds of lines *)

Definition comment (l : str) : Prop := exists n c x, trims l n (c :: x) /\ (c = 35 \/ c = 59).
(** Blank lines and comments. *)
Definition filler (l : str) : Prop := spaces l \/ comment l.
(** [[name]], and anything without ']' behind it. *)
Definition header (n : nat) (name l : str) : Prop :=
  exists r, trims l n (91 :: name ++ 93 :: r) /\ name <> [] /\ ~ In 93 r.
(** [key = value] or [key: value]; the key ends at the first delimiter. *)
Definition setting (n : nat) (key v l : str) : Prop :=
  exists k w d y m, trims l n (k ++ w ++ d :: y) /\ (d = 61 \/ d = 58) /\ ~ In 61 k /\ ~ In 58 k /\ spaces w /\
    k <> [] /\ ends k /\ trims y m v /\ key = py_lower U k /\ ~ comment l /\ forall name, ~ header n name l.
(** Any other text than a comment. *)
Definition words (n : nat) (x l : str) : Prop := x <> [] /\ trims l n x /\ ~ comment l.

(** ** Files *)

(** A setting with the lines below it that carry on its value. *)
Record entry : Type := Entry { e_line : str; e_more : list str }.
(** A header, the lines without meaning behind it, and its settings. *)
Record part : Type := Part { p_line : str; p_skip : list str; p_entries : list entry }.
Definition entry_lines (e : entry) : list str := e_line e :: e_more e.
Definition part_lines (p : part) : list str := p_line p :: p_skip p ++ flat_map entry_lines (p_entries p).

(** The lines of a value below the first: those indented deeper than the key, and empty ones. *)
Inductive more (n : nat) : list str -> list str -> Prop :=
| m_nil : more n [] []
| m_blank : forall l ls xs, spaces l -> more n ls xs -> more n (l :: ls) ([] :: xs)
| m_comment : forall l ls xs, comment l -> more n ls xs -> more n (l :: ls) xs
| m_words : forall l ls m x xs, words m x l -> (n < m)%nat -> more n ls xs -> more n (l :: ls) (x :: xs).

(** A line at most as deep as the setting before it, if there is one. *)
Definition below (b : option nat) (n : nat) : Prop := match b with Some m => (n <= m)%nat | None => True end.

(** The settings of a section: names and lines of values, and how deep the last one is. *)
Inductive entries : option nat -> list entry -> list (str * list str) -> option nat -> Prop :=
| es_nil : forall b, entries b [] [] b
| es_cons : forall b e n k x xs es os b',
    below b n -> setting n k x (e_line e) -> more n (e_more e) xs -> entries (Some n) es os b' ->
    entries b (e :: es) ((k, x :: xs) :: os) b'.
Inductive parts : option nat -> list part -> list (str * list (str * list str)) -> option nat -> Prop :=
| ps_nil : forall b, parts b [] [] b
| ps_cons : forall b p n name os b' ps l b'',
    below b n -> header n name (p_line p) -> Forall filler (p_skip p) ->
    entries None (p_entries p) os b' -> parts b' ps l b'' -> parts b (p :: ps) ((name, os) :: l) b''.

Definition named_default {A} (p : str * A) : bool := str_eqb (fst p) s_default.
Definition defaults {A} (l : list (str * list A)) : list A := flat_map snd (filter named_default l).
Definition others {A} (l : list (str * A)) : list (str * A) := filter (fun p => negb (named_default p)) l.

(** The value of a setting: its lines, joined, without spaces at the end. *)
Definition glue (l : list str) : str := match l with [] => [] | x :: r => x ++ flat_map (cons 10) r end.
Definition valued (p : str * list str) (q : str * str) : Prop :=
  fst p = fst q /\ exists t, glue (snd p) = snd q ++ t /\ spaces t /\ ends (snd q).

(** No setting twice in a section (all parts named DEFAULT are one), no section twice. *)
Definition distinct (l : list (str * list (str * list str))) : Prop :=
  NoDup (map fst (defaults l)) /\ NoDup (map fst (others l)) /\ Forall (fun p => NoDup (map fst (snd p))) (others l).

(** What a file says. *)
Inductive says (s : str) (F : conf_file) : Prop :=
| says_intro : forall pre ps l b,
    file_lines s (pre ++ flat_map part_lines ps) -> Forall filler pre -> parts None ps l b -> distinct l ->
    Forall2 valued (defaults l) (f_default F) ->
    Forall2 (fun p q => fst p = fst q /\ Forall2 valued (snd p) (snd q)) (others l) (f_sections F) ->
    says s F.

End WithUnicode.

(** Lower case of a name is a name. *)
Definition names_stay (U : unicode) : Prop := forall s, s <> [] -> py_lower U s <> [].
