(** * BytesRepr: bytes in a record can be read back (C114, C117, C118) *)

From Coq Require Import NArith ZArith List Bool String Lia.
From Verif Require Import PyBase CertSpec Show AAuthLog.
Import ListNotations.
Open Scope N_scope.

(** ** Specification: reading a bytes literal of Python *)

Definition hex_read (c : N) : option N :=
  if (48 <=? c) && (c <=? 57) then Some (c - 48) else if (97 <=? c) && (c <=? 102) then Some (c - 87) else if (65 <=? c) && (c <=? 70) then Some (c - 55) else None.
(** What stands before the closing quote [q], which ends the text. *)
Fixpoint read_body (q : N) (s : str) : option bytes :=
  match s with
  | [] => None
  | c :: s =>
      if c =? q then match s with [] => Some [] | _ => None end
      else if c =? 92 then
        match s with
        | [] => None
        | e :: s =>
            if e =? 120 then
              match s with
              | a :: b :: s => match hex_read a, hex_read b with Some x, Some y => option_map (cons (16 * x + y)) (read_body q s) | _, _ => None end
              | _ => None
              end
            else if e =? 116 then option_map (cons 9) (read_body q s)
            else if e =? 110 then option_map (cons 10) (read_body q s)
            else if e =? 114 then option_map (cons 13) (read_body q s)
            else if (e =? 92) || (e =? 39) || (e =? 34) then option_map (cons e) (read_body q s)
            else None
        end
      else if (32 <=? c) && (c <=? 126) then option_map (cons c) (read_body q s) else None
  end.
Definition read_bytes (s : str) : option bytes :=
  match s with b :: q :: s => if (b =? 98) && ((q =? 39) || (q =? 34)) then read_body q s else None | _ => None end.

(** ** Proofs *)

Lemma below_256 : forall p : N -> bool, forallb p (map N.of_nat (seq 0 256)) = true -> forall c, c < 256 -> p c = true.
Proof.
  intros p H c L. rewrite forallb_forall in H. apply H. apply in_map_iff. exists (N.to_nat c). split; [apply N2Nat.id|]. apply in_seq. lia.
Qed.
Definition two_digits (c : N) : bool :=
  match hex 2 c with [a; b] => match hex_read a, hex_read b with Some x, Some y => 16 * x + y =? c | _, _ => false end && forallb (fun d => (32 <=? d) && (d <=? 126)) [a; b] | _ => false end.
Lemma hex_two : forall c, c < 256 -> exists a b x y, hex 2 c = [a; b] /\ hex_read a = Some x /\ hex_read b = Some y /\ 16 * x + y = c /\ 32 <= a <= 126 /\ 32 <= b <= 126.
Proof.
  intros c L. assert (T : two_digits c = true) by (apply below_256; [vm_compute; reflexivity|exact L]). unfold two_digits in T.
  destruct (hex 2 c) as [|a [|b [|]]]; try discriminate. apply andb_true_iff in T as [T F]. cbn [forallb] in F.
  destruct (hex_read a) as [x|] eqn:A; [|discriminate]. destruct (hex_read b) as [y|] eqn:B; [|discriminate]. apply N.eqb_eq in T.
  rewrite !andb_true_iff, !N.leb_le in F. exists a, b, x, y. repeat split; tauto.
Qed.
Lemma escape_read : forall q c s, q = 39 \/ q = 34 -> c < 256 ->
  read_body q (byte_escape q c ++ s) = option_map (cons c) (read_body q s) /\ Forall (fun d => 32 <= d <= 126) (byte_escape q c).
Proof.
  intros q c s Q L. assert (QN : (92 =? q) = false) by (destruct Q; subst q; reflexivity). unfold byte_escape.
  destruct (N.eqb_spec c q) as [->|N1]; cbn [orb].
  { cbn [app read_body]. rewrite QN. cbn [N.eqb Pos.eqb]. destruct Q as [-> | ->]; (split; [reflexivity|repeat constructor; lia]). }
  destruct (N.eqb_spec c 92) as [->|N2].
  { cbn [app read_body]. rewrite QN. split; [reflexivity|repeat constructor; lia]. }
  destruct (N.eqb_spec c 9) as [->|N3]; [cbn [app read_body]; rewrite QN; split; [reflexivity|repeat constructor; lia]|].
  destruct (N.eqb_spec c 10) as [->|N4]; [cbn [app read_body]; rewrite QN; split; [reflexivity|repeat constructor; lia]|].
  destruct (N.eqb_spec c 13) as [->|N5]; [cbn [app read_body]; rewrite QN; split; [reflexivity|repeat constructor; lia]|].
  destruct (N.ltb_spec c 32); [|destruct (N.leb_spec 127 c)]; cbn [orb].
  3: { cbn [app read_body]. apply N.eqb_neq in N1, N2. rewrite N1, N2. assert (X : (32 <=? c) && (c <=? 126) = true) by (rewrite andb_true_iff, !N.leb_le; lia).
       rewrite X. split; [reflexivity|repeat constructor; lia]. }
  all: destruct (hex_two c L) as (a & b & x & y & -> & A & B & E & RA & RB); cbn [app read_body]; rewrite QN, A, B, E; (split; [reflexivity|repeat constructor; lia]).
Qed.
Lemma quote_either : forall s, quote s = 39 \/ quote s = 34.
Proof. intros s. unfold quote. destruct (existsb (N.eqb 39) s && negb (existsb (N.eqb 34) s)); auto. Qed.
(** Bytes are recorded as one line of printable ASCII that reads back as the same bytes. *)
Theorem C114_bytes : forall b, octets b -> read_bytes (bytes_str b) = Some b /\ Forall (fun d => 32 <= d <= 126) (bytes_str b).
Proof.
  intros b O. unfold bytes_str. pose proof (quote_either b) as Q. generalize dependent (quote b). intros q Q.
  assert (G : read_body q (flat_map (byte_escape q) b ++ [q]) = Some b /\ Forall (fun d => 32 <= d <= 126) (flat_map (byte_escape q) b)).
  { induction O as [|c b L O IH]; cbn [flat_map].
    - cbn [app read_body]. rewrite N.eqb_refl. auto.
    - destruct IH as [R F]. rewrite <- app_assoc. destruct (escape_read q c (flat_map (byte_escape q) b ++ [q]) Q L) as [E1 E2]. rewrite E1, R.
      split; [reflexivity|]. apply Forall_app. auto. }
  destruct G as [R F]. split.
  - cbn [lit app read_bytes]. change (lit "b") with [98]. cbn [app read_bytes]. rewrite R. destruct Q as [-> | ->]; reflexivity.
  - change (lit "b") with [98]. cbn [app]. constructor; [lia|]. constructor; [destruct Q; lia|]. apply Forall_app. split; [exact F|]. repeat constructor; destruct Q; lia.
Qed.
Theorem C114_bytes_tell : forall a b, octets a -> octets b -> bytes_str a = bytes_str b -> a = b.
Proof. intros a b A B E. apply C114_bytes in A as [A _]. apply C114_bytes in B as [B _]. rewrite E in A. congruence. Qed.
Print Assumptions C114_bytes.
Print Assumptions C114_bytes_tell.

Example ex_bytes : map bytes_str [lit "it's"; [10; 34; 39; 92; 0; 255]] = [lit "b""it's"""; lit "b'\n""\'\\\x00\xff'"] /\
  read_bytes (lit "b'\n""\'\\\x00\xff'") = Some [10; 34; 39; 92; 0; 255].
Proof. vm_compute. auto. Qed.
