(** * Ini: model of the reading of services.ini and clients.ini, hgaa/config.py 42-53

    ConfigParser.read of CPython 3.11 (Lib/configparser.py, RawConfigParser._read) with the
    default settings used by hgaa/config.py: delimiters '=' and ':', comments on lines of their
    own behind '#' or ';', no comments behind values, strict, empty lines in values.  The file is
    given as the decoded text; the locale's encoding is not modelled. *)

From Coq Require Import NArith List Bool String.
From Verif Require Import PyBase Config.
Import ListNotations.
Open Scope N_scope.

(** ** Lines *)

(** Text files are opened with universal newlines: CR LF and CR become LF. *)
Fixpoint newlines (s : str) : str :=
  match s with
  | [] => []
  | c :: r =>
      if c =? 13 then
        10 :: match r with
              | d :: r' => if d =? 10 then newlines r' else newlines r
              | [] => []
              end
      else c :: newlines r
  end.
Fixpoint split_lf (s : str) : list str :=
  match s with
  | [] => [[]]
  | c :: r => if c =? 10 then [] :: split_lf r
              else match split_lf r with l :: ls => (c :: l) :: ls | [] => [[c]] end
  end.
(** The lines of a file without their LF; no line begins behind a LF at the end. *)
Definition lines_of (s : str) : list str :=
  match rev (split_lf s) with [] :: r => rev r | _ => split_lf s end.

(** ** Spaces *)

(** Options with the lines of their values, in the order they were set. *)
Notation raw_options := (list (str * list str)).

Section WithUnicode.
Variable U : unicode.

Fixpoint lstrip (s : str) : str :=
  match s with c :: r => if isspace U c then lstrip r else s | [] => [] end.
Definition rstrip (s : str) : str := rev (lstrip (rev s)).
Definition strip (s : str) : str := rstrip (lstrip s).
(** NONSPACECRE.search(line).start() *)
Fixpoint indent (s : str) : nat :=
  match s with c :: r => if isspace U c then S (indent r) else O | [] => O end.

(** ** The two regular expressions, on a text without LF *)

(** What comes before the last ']' of a text. *)
Fixpoint before_last (s : str) : option str :=
  match s with
  | [] => None
  | c :: r => match before_last r with
              | Some x => Some (c :: x)
              | None => if c =? 93 then Some [] else None
              end
  end.
(** SECTCRE.match(value): the group 'header' of [\[(?P<header>.+)\]], which is greedy. *)
Definition header_of (s : str) : option str :=
  match s with
  | c :: r => if c =? 91 then match before_last r with Some (x :: n) => Some (x :: n) | _ => None end else None
  | [] => None
  end.
(** OPTCRE.match(value): an option of as few characters as possible, spaces, '=' or ':', spaces
    and the value.  So the option is what comes before the first delimiter, stripped at the
    end; the value is stripped later. *)
Fixpoint option_of (s : str) : option (str * str) :=
  match s with
  | [] => None
  | c :: r => if (c =? 61) || (c =? 58) then Some ([], r)
              else match option_of r with Some (k, v) => Some (c :: k, v) | None => None end
  end.

(** ** _read *)

(** MissingSectionHeaderError, DuplicateSectionError, DuplicateOptionError, ParsingError *)
Inductive ini_err : Type := INoHeader | ISection | IOption | IParsing.

Record reader : Type := Reader {
  n_default : raw_options; n_sections : list (str * raw_options);
  n_sect : option str;      (* sectname; None: cursect is None *)
  n_opt : str;              (* optname; None in Python is the empty name here, both are false *)
  n_indent : nat;           (* indent_level *)
  n_bad : bool }.           (* e is not None *)

Fixpoint has {A} (k : str) (l : list (str * A)) : bool :=
  match l with [] => false | (x, _) :: r => str_eqb x k || has k r end.
Fixpoint update {A} (k : str) (f : A -> A) (l : list (str * A)) : list (str * A) :=
  match l with [] => [] | (x, v) :: r => if str_eqb x k then (x, f v) :: r else (x, v) :: update k f r end.

(** The options of cursect changed. *)
Definition in_sect (n : str) (f : raw_options -> raw_options) (st : reader) : reader :=
  if str_eqb n s_default
  then Reader (f (n_default st)) (n_sections st) (n_sect st) (n_opt st) (n_indent st) (n_bad st)
  else Reader (n_default st) (update n f (n_sections st)) (n_sect st) (n_opt st) (n_indent st) (n_bad st).
Definition cur_opts (n : str) (st : reader) : raw_options :=
  if str_eqb n s_default then n_default st else match assoc n (n_sections st) with Some o => o | None => [] end.
(** cursect[optname].append(x) *)
Definition append_line (x : str) (st : reader) : reader :=
  match n_sect st with
  | Some n => in_sect n (update (n_opt st) (fun l => l ++ [x])) st
  | None => st
  end.

Definition is_nil {A} (l : list A) : bool := match l with [] => true | _ => false end.
Definition in_value (st : reader) : bool :=
  match n_sect st with Some _ => negb (is_nil (n_opt st)) | None => false end.
Definition is_comment (v : str) : bool := match v with c :: _ => (c =? 35) || (c =? 59) | [] => false end.

(** The body of the loop for one line.  [elements_added] holds the sections and the options
    that are there already, because the parser is new. *)
Definition read_line (st : reader) (line : str) : reader + ini_err :=
  let v := strip line in
  if is_comment v then inl st
  else if is_nil v then inl (if in_value st then append_line [] st else st)
  else if in_value st && Nat.ltb (n_indent st) (indent line) then inl (append_line v st)
  else
    let st := Reader (n_default st) (n_sections st) (n_sect st) (n_opt st) (indent line) (n_bad st) in
    match header_of v with
    | Some name =>
        if has name (n_sections st) then inr ISection
        else inl (Reader (n_default st)
                      (if str_eqb name s_default then n_sections st else n_sections st ++ [(name, [])])
                      (Some name) [] (n_indent st) (n_bad st))
    | None =>
        match n_sect st with
        | None => inr INoHeader
        | Some n =>
            match option_of v with
            | None => inl (Reader (n_default st) (n_sections st) (n_sect st) (n_opt st) (n_indent st) true)
            | Some (k, x) =>
                let bad := is_nil (rstrip k) || n_bad st in
                let key := py_lower U (rstrip k) in
                if has key (cur_opts n st) then inr IOption
                else inl (in_sect n (fun o => o ++ [(key, [strip x])])
                            (Reader (n_default st) (n_sections st) (n_sect st) key (n_indent st) bad))
            end
        end
    end.
Fixpoint read_lines (st : reader) (ls : list str) : reader + ini_err :=
  match ls with
  | [] => inl st
  | l :: r => match read_line st l with inl st => read_lines st r | inr e => inr e end
  end.

(** _join_multiline_values *)
Fixpoint join_lines (l : list str) : str :=
  match l with [] => [] | [x] => x | x :: r => x ++ 10 :: join_lines r end.
Definition join_value (l : list str) : str := rstrip (join_lines l).
Definition join_options (o : raw_options) : options := map (fun p => (fst p, join_value (snd p))) o.

Definition ini_start : reader := Reader [] [] None [] 0 false.
Definition read_text (s : str) : conf_file + ini_err :=
  match read_lines ini_start (lines_of (newlines s)) with
  | inr e => inr e
  | inl st =>
      if n_bad st then inr IParsing
      else inl {| f_default := join_options (n_default st);
                  f_sections := map (fun p => (fst p, join_options (snd p))) (n_sections st) |}
  end.
(** ConfigParser.read: a file that cannot be opened ([None]) is ignored. *)
Definition read_file (f : option str) : conf_file + ini_err :=
  match f with None => inl {| f_default := []; f_sections := [] |} | Some s => read_text s end.

End WithUnicode.
