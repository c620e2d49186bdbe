(** * Struct: the parts of Python's struct, str.encode/bytes.decode and base64
    modules used by the encoders.

    Bytes are [list N] with elements below 256.  The formats are little endian
    without alignment ('<'). *)

From Coq Require Import NArith ZArith List Bool String.
From Coq Require Import Floats.SpecFloat.
From Verif Require Import PyBase PyNum.
Import ListNotations.
Open Scope Z_scope.

(** ** Integers *)

Fixpoint le_bytes (k : nat) (n : N) : bytes :=
  match k with
  | O => []
  | S k => (n mod 256)%N :: le_bytes k (n / 256)%N
  end.
Fixpoint le_val (b : bytes) : N :=
  match b with [] => 0%N | x :: r => (x + 256 * le_val r)%N end.

(** 'B', 'H', 'I': [k] bytes; struct.error outside 0 .. 256^k - 1. *)
Definition pack_u (k : nat) (z : Z) : res bytes :=
  if (0 <=? z) && (z <? 256 ^ Z.of_nat k) then Ok (le_bytes k (Z.to_N z)) else Err EStruct.
(** 'i'; struct.error outside -2^31 .. 2^31 - 1. *)
Definition pack_i32 (z : Z) : res bytes :=
  if (-2147483648 <=? z) && (z <? 2147483648) then Ok (le_bytes 4 (Z.to_N (z mod 4294967296))) else Err EStruct.

(** The first [k] bytes and the rest; unpacking a slice that is too short is a
    struct.error. *)
Definition take (k : nat) (b : bytes) : res (bytes * bytes) :=
  if (List.length b <? k)%nat then Err EStruct else Ok (firstn k b, skipn k b).
Definition get_u (k : nat) (b : bytes) : res (Z * bytes) :=
  '(x, r) <- take k b ;; Ok (Z.of_N (le_val x), r).
Definition unpack_i32 (b : bytes) : Z :=
  let n := Z.of_N (le_val b) in if n <? 2147483648 then n else n - 4294967296.

(** 'Ns': cut to [n] bytes or filled with zero bytes. *)
Definition pack_s (n : nat) (b : bytes) : bytes := firstn n b ++ repeat 0%N (n - List.length b).

(** ** Floats: 'f' *)

(** Bit pattern of a binary32 number in canonical form.  All NaNs are packed as one
    (CPython keeps sign and payload, which Python code cannot observe through =). *)
Definition f32_bits (f : spec_float) : N :=
  let sign (s : bool) : N := if s then 2147483648%N else 0%N in
  match f with
  | S754_zero s => sign s
  | S754_infinity s => (sign s + 255 * 8388608)%N
  | S754_nan => (255 * 8388608 + 4194304)%N
  | S754_finite s m e =>
      (sign s + if (N.pos m <? 8388608)%N then N.pos m
                else Z.to_N (e + 150) * 8388608 + (N.pos m - 8388608))%N
  end.
(** Rounded to the nearest binary32 number, ties to even; OverflowError when a finite
    number would become infinite. *)
Definition pack_f32 (f : pyfloat) : res bytes :=
  match f with
  | S754_finite s m e =>
      match binary_round 24 128 s m e with
      | S754_infinity _ => Err EOverflow
      | x => Ok (le_bytes 4 (f32_bits x))
      end
  | x => Ok (le_bytes 4 (f32_bits x))
  end.
(** The binary64 number with the value of a binary32 bit pattern. *)
Definition unpack_f32 (b : bytes) : pyfloat :=
  let n := le_val b in
  let s := (2147483648 <=? n)%N in
  let e := ((n / 8388608) mod 256)%N in
  let m := (n mod 8388608)%N in
  if (e =? 255)%N then (if (m =? 0)%N then S754_infinity s else S754_nan)
  else if (e =? 0)%N then
    match m with N0 => S754_zero s | Npos p => binary_round 53 1024 s p (-149) end
  else binary_round 53 1024 s (N.succ_pos (m + 8388607)) (Z.of_N e - 150).

(** ** UTF-8 *)

Definition surrogate (c : N) : bool := (55296 <=? c)%N && (c <=? 57343)%N.
(** bytes(s, 'utf-8'); surrogates cannot be encoded (and there is nothing above U+10FFFF). *)
Definition utf8_char (c : N) : res bytes :=
  if (c <? 128)%N then Ok [c]
  else if (c <? 2048)%N then Ok [192 + c / 64; 128 + c mod 64]%N
  else if surrogate c then Err EUnicodeEncode
  else if (c <? 65536)%N then Ok [224 + c / 4096; 128 + c / 64 mod 64; 128 + c mod 64]%N
  else if (c <? 1114112)%N then
    Ok [240 + c / 262144; 128 + c / 4096 mod 64; 128 + c / 64 mod 64; 128 + c mod 64]%N
  else Err EUnicodeEncode.
Fixpoint utf8_encode (s : str) : res bytes :=
  match s with
  | [] => Ok []
  | c :: r => b <- utf8_char c ;; t <- utf8_encode r ;; Ok (b ++ t)
  end.

Definition cont (b : N) : bool := (128 <=? b)%N && (b <=? 191)%N.
(** b.decode('utf-8'): shortest forms only, no surrogates, at most U+10FFFF. *)
Fixpoint utf8_decode (b : bytes) : res str :=
  match b with
  | [] => Ok []
  | x :: r =>
      if (x <? 128)%N then s <- utf8_decode r ;; Ok (x :: s)
      else if (x <? 194)%N then Err EUnicodeDecode
      else if (x <? 224)%N then
        match r with
        | y :: r => if cont y then s <- utf8_decode r ;; Ok ((x - 192) * 64 + (y - 128) :: s)%N
                    else Err EUnicodeDecode
        | [] => Err EUnicodeDecode
        end
      else if (x <? 240)%N then
        match r with
        | y :: z :: r =>
            let c := ((x - 224) * 4096 + (y - 128) * 64 + (z - 128))%N in
            if cont y && cont z && (2048 <=? c)%N && negb (surrogate c)
            then s <- utf8_decode r ;; Ok (c :: s)
            else Err EUnicodeDecode
        | _ => Err EUnicodeDecode
        end
      else if (x <? 245)%N then
        match r with
        | y :: z :: w :: r =>
            let c := ((x - 240) * 262144 + (y - 128) * 4096 + (z - 128) * 64 + (w - 128))%N in
            if cont y && cont z && cont w && (65536 <=? c)%N && (c <? 1114112)%N
            then s <- utf8_decode r ;; Ok (c :: s)
            else Err EUnicodeDecode
        | _ => Err EUnicodeDecode
        end
      else Err EUnicodeDecode
  end.

(** ** Base64 *)

Definition b64_char (n : N) : N :=
  if (n <? 26)%N then (n + 65)%N
  else if (n <? 52)%N then (n + 71)%N
  else if (n <? 62)%N then (n - 4)%N
  else if (n =? 62)%N then 43%N else 47%N.
Definition b64_digit (c : N) : option N :=
  if (65 <=? c)%N && (c <=? 90)%N then Some (c - 65)%N
  else if (97 <=? c)%N && (c <=? 122)%N then Some (c - 71)%N
  else if (48 <=? c)%N && (c <=? 57)%N then Some (c + 4)%N
  else if (c =? 43)%N then Some 62%N
  else if (c =? 47)%N then Some 63%N
  else None.
Definition b64_pad : N := 61%N.

(** base64.b64encode. *)
Fixpoint b64encode (b : bytes) : bytes :=
  match b with
  | [] => []
  | [x] => [b64_char (x / 4); b64_char (x mod 4 * 16); b64_pad; b64_pad]%N
  | [x; y] => [b64_char (x / 4); b64_char (x mod 4 * 16 + y / 16); b64_char (y mod 16 * 4); b64_pad]%N
  | x :: y :: z :: r =>
      (b64_char (x / 4) :: b64_char (x mod 4 * 16 + y / 16) ::
       b64_char (y mod 16 * 4 + z / 64) :: b64_char (z mod 64) :: b64encode r)%N
  end.

(** base64.b64decode without validation (CPython 3.11, Modules/binascii.c, a2b_base64):
    characters outside the alphabet are skipped, decoding stops at a completed padding;
    [q] counts the digits of the current group, [left] keeps the bits not yet written,
    [pads] the pad characters since the last digit. *)
Fixpoint b64_loop (b : bytes) (q left pads : N) : res bytes :=
  match b with
  | [] => if (q =? 0)%N then Ok [] else Err EBinascii
  | c :: r =>
      if (c =? b64_pad)%N then
        if (2 <=? q)%N then
          if (4 <=? q + (pads + 1))%N then Ok [] else b64_loop r q left (pads + 1)%N
        else b64_loop r q left pads
      else
        match b64_digit c with
        | None => b64_loop r q left pads
        | Some d =>
            if (q =? 0)%N then b64_loop r 1 d 0
            else if (q =? 1)%N then t <- b64_loop r 2 (d mod 16) 0 ;; Ok (left * 4 + d / 16 :: t)%N
            else if (q =? 2)%N then t <- b64_loop r 3 (d mod 4) 0 ;; Ok (left * 16 + d / 4 :: t)%N
            else t <- b64_loop r 0 0 0 ;; Ok (left * 64 + d :: t)%N
        end
  end.
Definition b64decode (b : bytes) : res bytes := b64_loop b 0 0 0.

(** The str argument of b64decode is encoded as ASCII first (ValueError otherwise). *)
Definition b64decode_str (s : str) : res bytes :=
  if is_ascii s then b64decode s else Err EValue.
