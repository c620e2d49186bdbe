(** * Abnf: the documented grammar of policies, over characters (specification)

    hgpl/docs/HGPL_ABNF_V2.txt 1-22 as data, rule by rule, with what its notation
    means.  Independent of the lexer, of the parser and of the token grammar. *)

From Coq Require Import NArith List Bool String.
From Verif Require Import PyBase.
Import ListNotations.
Open Scope N_scope.

(** The rule names of the document. *)
Inductive rule : Type :=
| Rpolicy | Rterm | Rexp | Rvar | Rbool_var | Rop | Ratt_name
| Ruser_att_name | Robject_att_name | Renv_att_name | Radmin_att_name | Rconnect_att_name
| Ratomic | Rconst | Rboolean | Rset | Rsetval | Rid | Rint | Rfloat | Rstring.

(** The notation: quoted text, a range of characters (%x20-21, ALPHA, DIGIT),
    juxtaposition, "/", "[ ]", "*( )", "+( )" and rule names. *)
Inductive abnf : Type :=
| Txt (t : string) | Rng (lo hi : N)
| Seq (a b : abnf) | Alt (a b : abnf)
| Opt (a : abnf) | Star (a : abnf) | Plus (a : abnf)
| Ref (r : rule).

Declare Scope abnf_scope.
Delimit Scope abnf_scope with abnf.
Notation "a / b" := (Alt a b) (at level 40, left associativity) : abnf_scope.
Notation "a # b" := (Seq a b) (at level 35, right associativity) : abnf_scope.
Coercion Ref : rule >-> abnf.
Coercion Txt : string >-> abnf.

Definition ALPHA : abnf := (Rng 65 90 / Rng 97 122)%abnf.
Definition DIGIT : abnf := Rng 48 57.
Definition DQUOTE : abnf := Rng 34 34.
Definition chr (c : N) : abnf := Rng c c.

(** HGPL_ABNF_V2.txt 1-22. *)
Definition documented (r : rule) : abnf :=
  (match r with
   | Rpolicy => Rpolicy # "OR"%string # Rterm / Rterm
   | Rterm => Rterm # "AND"%string # Rexp / Rexp
   | Rexp => Rvar # Rop # Rvar
           / Opt "NOT"%string # Rbool_var
           / Opt "NOT"%string # "("%string # Rpolicy # ")"%string
   | Rvar => Rconst / Ratt_name
   | Rbool_var => Rboolean / Ratt_name
   | Rop => ">"%string / "<"%string / "="%string / ">="%string / "<="%string / "!="%string / "IN"%string / "SUBSET"%string
   | Ratt_name => Ruser_att_name / Robject_att_name / Renv_att_name / Radmin_att_name / Rconnect_att_name
   | Ruser_att_name => "user."%string # Rid
   | Robject_att_name => "object."%string # Rid
   | Renv_att_name => "env."%string # Rid
   | Radmin_att_name => "admin."%string # Rid
   | Rconnect_att_name => "connect."%string # Rid
   | Ratomic => Rint / Rfloat / Rstring / "NULL"%string / Rboolean
   | Rconst => Ratomic / Rset
   | Rboolean => "TRUE"%string / "FALSE"%string / "UNDEF"%string
   | Rset => "{"%string # "}"%string / "{"%string # Rsetval # "}"%string
   | Rsetval => Ratomic / Ratomic # ","%string # Rsetval
   | Rid => Plus (ALPHA / DIGIT / "_"%string)
   | Rint => Opt "-"%string # Plus DIGIT
   | Rfloat => Rint # "."%string # Plus DIGIT
   | Rstring => DQUOTE # Star (Rng 32 33 / Rng 35 91 / Rng 93 126 / chr 92 # DQUOTE / chr 92 # chr 92) # DQUOTE
   end)%abnf.

(** The same grammar with the two additions the document lists as still to be made
    in the code (lines 38-39) taken back: booleans are not constants, and a backslash in a string is a
    character like any other. *)
Definition implemented (r : rule) : abnf :=
  (match r with
   | Ratomic => Rint / Rfloat / Rstring / "NULL"%string
   | Rstring => DQUOTE # Star (Rng 32 33 / Rng 35 126) # DQUOTE
   | _ => documented r
   end)%abnf.

(** The documented grammar with the first of the two taken back only. *)
Definition no_boolean_constants (r : rule) : abnf :=
  (match r with
   | Ratomic => Rint / Rfloat / Rstring / "NULL"%string
   | _ => documented r
   end)%abnf.

(** The rules whose parts are written without blanks between them: names and literals.
    "Whitespace is ignored" (document, notes) between the parts of the others. *)
Definition tight (r : rule) : bool :=
  match r with
  | Ruser_att_name | Robject_att_name | Renv_att_name | Radmin_att_name | Rconnect_att_name
  | Rid | Rint | Rfloat | Rstring => true
  | _ => false
  end.

(** Blanks, and the characters of words. *)
Definition ws (c : N) : Prop := 9 <= c <= 13 \/ 28 <= c <= 32.
Definition alpha (c : N) : Prop := 65 <= c <= 90 \/ 97 <= c <= 122.
Definition name_char (c : N) : Prop := alpha c \/ 48 <= c <= 57 \/ c = 95.

(** A text that ends inside a word (a keyword or an attribute name, not a number), *)
Definition ends_in_word (x : str) : Prop :=
  exists pre run, x = pre ++ run /\ Forall (fun c => name_char c \/ c = 46) run /\ Exists alpha run.
(** and a text that would carry on a word. *)
Definition carries_on (y : str) : Prop := exists c r, y = c :: r /\ name_char c.

(** What may be written between two parts: nothing but blanks; under [strict], not
    nothing at all where a word would run into the next. *)
Definition gap (strict tight : bool) (x w y : str) : Prop :=
  if tight then w = [] else
  Forall ws w /\ (strict = true -> ends_in_word x -> carries_on y -> w <> []).

(** Quoted text is case-insensitive. *)
Definition same_text (s : str) (t : string) : Prop := map lower_c s = map lower_c (lit t).

Section Meaning.
Variable strict : bool.

(** The texts of a right-hand side, given those of the rules. *)
Fixpoint den (L : rule -> str -> Prop) (tight : bool) (e : abnf) (s : str) : Prop :=
  match e with
  | Txt t => same_text s t
  | Rng lo hi => exists c, s = [c] /\ lo <= c <= hi
  | Seq a b => exists x w y, s = x ++ w ++ y /\ den L tight a x /\ den L tight b y /\ gap strict tight x w y
  | Alt a b => den L tight a s \/ den L tight b s
  | Opt a => s = [] \/ den L tight a s
  | Star a => exists l, s = List.concat l /\ Forall (den L tight a) l
  | Plus a => exists l, l <> [] /\ s = List.concat l /\ Forall (den L tight a) l
  | Ref r => L r s
  end.

(** The texts of the rules: those with a derivation, of any height. *)
Fixpoint derived (G : rule -> abnf) (n : nat) (r : rule) (s : str) : Prop :=
  match n with O => False | S m => den (derived G m) (tight r) (G r) s end.
Definition text_of (G : rule -> abnf) (r : rule) (s : str) : Prop := exists n, derived G n r s.

(** Blanks around the whole are ignored too. *)
Definition policy_text (G : rule -> abnf) (text : str) : Prop :=
  exists w1 s w2, text = w1 ++ s ++ w2 /\ Forall ws w1 /\ Forall ws w2 /\ text_of G Rpolicy s.
End Meaning.
