(** * Errors: model of hgpl/errors.py, the context and the text of an error *)

From Coq Require Import NArith ZArith List Bool String.
From Verif Require Import PyBase AttCert.
Import ListNotations.
Open Scope Z_scope.

(** [s[a:b]] with integer bounds: a negative bound counts from the end, and both are
    limited to the string. *)
Definition py_index (n : Z) (i : Z) : Z := Z.min n (Z.max 0 (if i <? 0 then i + n else i)).
Definition py_slice (s : str) (a b : Z) : str :=
  let n := Z.of_nat (List.length s) in
  let a := Z.to_nat (py_index n a) in
  let b := Z.to_nat (py_index n b) in
  firstn (b - a) (skipn a s).

(** hgpl/errors.py 22-29, HGPLError.near; None and the empty text are both false. *)
Definition near (text : option str) (pos n : Z) : option str :=
  match text with
  | None | Some [] => None
  | Some t =>
      if 0 <=? pos then
        let len := Z.of_nat (List.length t) in
        let a := if 0 <=? pos - n then pos - n else 0 in
        let b := if pos + n + 1 <=? len then pos + n + 1 else len in
        Some (py_slice t a b)
      else None
  end.

(** hgpl/errors.py 14, default_near_length *)
Definition default_near : Z := 10.

(** hgpl/errors.py 31-37, HGPLError.__str__ *)
Definition err_str (message : str) (text : option str) (pos : Z) : str :=
  if 0 <=? pos then
    let s := message ++ lit " @ char " ++ str_of_Z pos in
    match near text pos default_near with
    | None => s
    | Some x => s ++ lit " near '" ++ x ++ lit "'"
    end
  else message.

(** hgpl/errors.py 52-57, ParserError.__str__; the rule is in ASCII. *)
Definition parser_err_str (U : unicode) (message : str) (text : option str) (pos : Z) (rule : option str) : str :=
  let s := err_str message text pos in
  match rule with
  | None | Some [] => s
  | Some r => s ++ lit " while parsing " ++ py_upper U r ++ lit " rule."
  end.
