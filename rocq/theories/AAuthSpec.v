(** * AAuthSpec: specification of the attribute authority (C50-C54, C68, C69) *)

From Coq Require Import NArith ZArith List Bool Permutation String.
From Verif Require Import PyBase Struct AttCert CertSpec AAuth.
Import ListNotations.
Open Scope Z_scope.

(** ** Integer literals of Python's int(text, base) *)

Inductive blank (U : unicode) : N -> Prop :=
| bl_space : blank U 32
| bl_control : forall c, (9 <= c <= 13)%N -> blank U c
| bl_other : forall c, (128 <= c)%N -> u_space U c = true -> blank U c.
Inductive digit_char (U : unicode) (base : N) : N -> N -> Prop :=
| dg_ascii : forall d, (d < 10)%N -> (d < base)%N -> digit_char U base (48 + d) d
| dg_lower : forall d, (10 <= d < 36)%N -> (d < base)%N -> digit_char U base (87 + d) d
| dg_upper : forall d, (10 <= d < 36)%N -> (d < base)%N -> digit_char U base (55 + d) d
| dg_other : forall c d, (128 <= c)%N -> u_space U c = false -> u_decimal U c = Some d -> (d < base)%N -> digit_char U base c d.
(** Digits, with single underscores between them. *)
Inductive numeral (U : unicode) (base : N) : str -> N -> Prop :=
| nu_one : forall c d, digit_char U base c d -> numeral U base [c] d
| nu_more : forall s n c d, numeral U base s n -> digit_char U base c d -> numeral U base (s ++ [c]) (n * base + d)
| nu_under : forall s n c d, numeral U base s n -> digit_char U base c d -> numeral U base (s ++ [95%N; c]) (n * base + d).
Inductive sign_text : str -> bool -> Prop :=
| sg_none : sign_text [] false
| sg_plus : sign_text [43%N] false
| sg_minus : sign_text [45%N] true.
Inductive prefix_text (U : unicode) (base : N) : str -> Prop :=
| px_none : prefix_text U base []
| px_hex : forall z x, base = 16%N -> digit_char U 10 z 0 -> x = 120%N \/ x = 88%N -> prefix_text U base [z; x]
| px_under : forall z x, base = 16%N -> digit_char U 10 z 0 -> x = 120%N \/ x = 88%N -> prefix_text U base [z; x; 95%N].
Definition int_literal (U : unicode) (base : N) (s : str) (z : Z) : Prop :=
  exists lead sg neg px ds n trail, s = lead ++ sg ++ px ++ ds ++ trail /\
    Forall (blank U) lead /\ Forall (blank U) trail /\ sign_text sg neg /\ prefix_text U base px /\
    numeral U base ds n /\ z = (if neg then - Z.of_N n else Z.of_N n).
(** Decimal digits have a value below ten. *)
Definition decimals_ok (U : unicode) : Prop := forall c d, u_decimal U c = Some d -> (d < 10)%N.

(** The parts of a text between separators. *)
Inductive parts (c : N) : str -> list str -> Prop :=
| pt_last : forall w, ~ In c w -> parts c w [w]
| pt_more : forall w r l, ~ In c w -> parts c r l -> parts c (w ++ c :: r) (w :: l).

(** Addresses that connection attributes can be made of. *)
Definition address_ok (U : unicode) (addr : str) : Prop :=
  (In 46%N addr -> forall l, parts 46 addr l -> Forall (fun p => exists z, int_literal U 10 p z) l) /\
  (~ In 46%N addr -> In 58%N addr -> forall l, parts 58 addr l -> Forall (fun p => exists z, int_literal U 16 p z) l).

(** ** Users and attributes *)

Record tables_ok (d : adb) : Prop := {
  tb_atts : NoDup (map ar_id (d_atts d));
  tb_users : NoDup (map us_id (d_users d));
  tb_assigns : NoDup (map (fun s => (as_user s, as_att s)) (d_assigns d))
}.
Definition assigned (d : adb) (uid : Z) (a : att_row) (v : option str) : Prop :=
  In a (d_atts d) /\ In (Assign uid (ar_id a) v) (d_assigns d).

Section WithCrypto.
Variable K : crypto.
Variable U : unicode.
Variable checkpw : bytes -> bytes -> res bool.

(** A missing password is the password None. *)
Definition authenticated (au : authority K) (d : adb) (q : request) (user : user_row) (name : str) : Prop :=
  rq_type q = 0 /\ rq_username q = Some name /\ In user (d_users d) /\ us_name user = py_lower U name /\
  exists pw hash, utf8_encode ((match rq_password q with Some p => p | None => lit "None" end) ++
                               (match au_pepper au with Some p => p | None => lit "None" end)) = Ok pw /\
    utf8_encode (us_password user) = Ok hash /\ checkpw pw hash = Ok true.
End WithCrypto.

(** What a list of names asks for. *)
Definition asks (o : option (list (option str))) (s : str) : Prop :=
  exists l, o = Some l /\ In (Some s) l /\ s <> [] /\ s <> lit "*".
Definition asks_all (q : request) : Prop := forall s, ~ asks (rq_ids q) s /\ ~ asks (rq_names q) s.

(** The last row with a name. *)
Definition last_named (rows : list valued) (n : str) (p : valued) : Prop :=
  exists l1 l2, rows = l1 ++ p :: l2 /\ ar_name (fst p) = n /\ forall r, In r l2 -> ar_name (fst r) <> n.

(** The selection of the request among the rows of the user. *)
Definition selection (rows : list valued) (q : request) (sel : list valued) : Prop :=
  NoDup (map (fun p => ar_id (fst p)) sel) /\
  forall p, In p sel <-> In p rows /\
    (asks_all q \/ asks (rq_ids q) (ar_id (fst p)) \/ exists n, asks (rq_names q) n /\ last_named rows n p).
Definition all_assigned (rows : list valued) (q : request) : Prop :=
  (forall i, asks (rq_ids q) i -> exists p, In p rows /\ ar_id (fst p) = i) /\
  (forall n, asks (rq_names q) n -> exists p, In p rows /\ ar_name (fst p) = n).

(** The attribute of a certificate that stands for an assigned one. *)
Definition stands_for (p : valued) (t : atype) : ac_att :=
  Att (ar_id (fst p)) t
      (match snd p with None => Some (lit "None") | Some [] => None | Some v => Some v end)
      (match ar_name (fst p) with [] => None | n => Some n end) None.
