(** * PAuthLogProofs: the records and faults of the policy authority *)

From Coq Require Import NArith ZArith List Bool String Lia.
From Verif Require Import PyBase LexProofs Struct AttCert CertSpec CertProps2 BytesProofs PAuth PAuthSpec PAuthProofs AAuthLog AAuthLogSpec AAuthLogProofs
  PAuthLog PAuthLogSpec.
Import ListNotations.
Open Scope Z_scope.

Lemma blame_some : forall A a log t, @blame (Some a) A log t = ([LRec 40 (log ++ a)], inr (Fault t)).
Proof. reflexivity. Qed.
Lemma blame_none : forall A log t, @blame None A log t = ([], inr (Crash EKey)).
Proof. reflexivity. Qed.
Lemma err_bind : forall A B e (f : A -> lw B), lw_bind (lw_of (Err e)) f = ([], inr (Crash e)).
Proof. reflexivity. Qed.

(** ** One certificate *)

Lemma format_le : forall n f, format_of n = Ok f -> 0 <= n <= 4.
Proof. intros n f H. apply format_cases in H. destruct f; lia. Qed.
Lemma format_some : forall n, 0 <= n <= 4 -> exists f, format_of n = Ok f.
Proof.
  intros n H. assert (C : n = 0 \/ n = 1 \/ n = 2 \/ n = 3 \/ n = 4) by lia.
  destruct C as [->|[->|[->|[->| ->]]]]; eexists; reflexivity.
Qed.
Lemma full_unread : forall K b v, exists e, ac_import K (InArray b) FBase64Full v = Err e.
Proof. intros K b v. eexists. reflexivity. Qed.

Lemma unread : forall K r f, format_of (rw_format r) = Ok f -> f <> FText -> f <> FXml ->
  ((forall c, ~ readable K r c) <-> exists e, ac_import K (InArray (rw_data r)) f true = Err e).
Proof.
  intros K r f F N1 N2. split.
  - intros H. destruct (ac_import K (InArray (rw_data r)) f true) as [c|e] eqn:I; [|eauto]. exfalso.
    destruct f; try congruence.
    + apply C38_verified in I as [I V]. apply (H c). split; [|exact V]. exists FBytes. split; [|exact I].
      apply format_cases in F. rewrite F. constructor.
    + apply C38_verified in I as [I V]. apply (H c). split; [|exact V]. exists FBase64. split; [|exact I].
      apply format_cases in F. rewrite F. constructor.
    + destruct (full_unread K (rw_data r) true) as [e E]. congruence.
  - intros [e E] c ((g & G & I) & V). pose proof (format_good _ _ G) as Q. rewrite F in Q. apply Ok_inj in Q. subst g.
    rewrite (proj2 (C38_verified _ _ _ _) (conj I V)) in E. discriminate.
Qed.
Lemma readable_import : forall K r c, readable K r c <-> exists f, good_format (rw_format r) f /\ ac_import K (InArray (rw_data r)) f true = Ok c.
Proof.
  intros K r c. unfold readable. split.
  - intros ((f & G & I) & V). exists f. split; [exact G|]. now apply C38_verified.
  - intros (f & G & I). apply C38_verified in I as [I V]. split; [exists f; auto|exact V].
Qed.

Section WithAddr.
Variable K : crypto.
Variable a : str.
Notation check := (l_check_cert K (Some a)).

Lemma check_same : forall r f rows now, forget (check r f rows now) = check_cert K r f rows now.
Proof.
  intros r f rows now. unfold l_check_cert, check_cert. cbv zeta. destruct (negb _); [reflexivity|].
  destruct f; try reflexivity; destruct (ac_import _ _ _ _) as [c|e]; try reflexivity;
    destruct (aauth_get _ _) as [x|]; try reflexivity; destruct (aa_trust x <=? 0); try reflexivity; destruct (negb _); reflexivity.
Qed.

Lemma check_told : forall r f rows now, NoDup (map aa_uid rows) -> format_of (rw_format r) = Ok f ->
  (exists c, check r f rows now = ([], inl c) /\ accepted K rows r now c) \/
  (exists log t, check r f rows now = ([LRec 40 (log ++ a)], inr (Fault t)) /\ bad_cert K rows now r log t).
Proof.
  intros r f rows now N F. pose proof (check_same r f rows now) as S. pose proof (format_le _ _ F) as FL. pose proof (format_cases _ _ F) as FC.
  assert (OK : forall c, check r f rows now = ([], inl c) -> accepted K rows r now c).
  { intros c E. rewrite E in S. apply (check_spec K r rows now c N). exists f. split; [exact F|]. now rewrite <- S. }
  revert S OK. unfold l_check_cert. cbv zeta. change ac_version with 1.
  destruct (Z.eqb_spec (rw_version r) 1) as [V|V]; cbn [negb]; intros S OK.
  2: { right. eexists _, _. split; [reflexivity|]. now constructor. }
  assert (G : forall g, (g = FBytes \/ g = FBase64 \/ g = FBase64Full) -> f = g -> In (rw_format r) [0; 3; 4]).
  { intros g [->|[->| ->]] ->; rewrite FC; cbn; auto. }
  assert (T : forall c g, ac_import K (InArray (rw_data r)) f true = Ok c -> f = g -> (g = FBytes \/ g = FBase64) -> readable K r c).
  { intros c g I -> Q. apply readable_import. exists g. split; [|exact I]. destruct Q as [->| ->]; rewrite FC; constructor. }
  assert (M : f = FBytes \/ f = FBase64 ->
    let x := match ac_import K (InArray (rw_data r)) f true with
      | Ok c =>
          match aauth_get rows (is_uid (c_issuer c)) with
          | Some x =>
              if aa_trust x <=? 0
              then blame (Some a) (lit "ClientFault: aauth in ac is not trusted in request from ")
                     (lit "An attribute authority in an attribute certificate in your certificate set is not trusted.")
              else if negb (verify_time c now)
                   then blame (Some a) (lit "ClientFault: ac is expired in evaluate from ") (lit "An attribute certificate in your certificate set is expired.")
                   else lw_ret c
          | None => blame (Some a) (lit "ClientFault: aauth in ac is not trusted in request from ")
                     (lit "An attribute authority in an attribute certificate in your certificate set is not trusted.")
          end
      | Err _ => blame (Some a) (lit "ClientFault: Could not verify ac in request from ")
            (lit "Could to verify signature of attribute certificate in certificate set.")
      end in
    (exists c, x = ([], inl c)) \/ (exists log t, x = ([LRec 40 (log ++ a)], inr (Fault t)) /\ bad_cert K rows now r log t)).
  { intros Q. cbv zeta. destruct (ac_import K (InArray (rw_data r)) f true) as [c|e] eqn:I.
    - pose proof (T c f eq_refl eq_refl Q) as R. destruct (aauth_get rows (is_uid (c_issuer c))) as [x|] eqn:A.
      + destruct (Z.leb_spec (aa_trust x) 0) as [L|L].
        * right. eexists _, _. split; [reflexivity|]. apply (bc_trust K rows now r c V R). rewrite trusted_get by exact N.
          intros (y & Y & Z0). rewrite A in Y. injection Y as <-. lia.
        * destruct (verify_time c now) eqn:W; cbn [negb]; [left; exists c; reflexivity|].
          right. eexists _, _. split; [reflexivity|]. apply (bc_time K rows now r c V R).
          -- apply trusted_get; [exact N|]. exists x. split; [exact A|lia].
          -- intros [W1 W2]. unfold verify_time in W. apply andb_false_iff in W as [W|W]; apply Z.ltb_ge in W; lia.
      + right. eexists _, _. split; [reflexivity|]. apply (bc_trust K rows now r c V R). rewrite trusted_get by exact N.
        intros (y & Y & Z0). rewrite A in Y. discriminate.
    - right. eexists _, _. split; [reflexivity|]. apply bc_read; [exact V|apply (G f); tauto|].
      apply (unread K r f F); [destruct Q as [->| ->]; discriminate|destruct Q as [->| ->]; discriminate|eauto]. }
  destruct f; cbv zeta in M.
  - destruct (M (or_introl eq_refl)) as [[c E]|E]; [|right; exact E]. left. exists c. split; [exact E|]. apply OK. exact E.
  - right. eexists _, _. split; [reflexivity|]. apply bc_format; [exact V|lia].
  - right. eexists _, _. split; [reflexivity|]. apply bc_format; [exact V|lia].
  - destruct (M (or_intror eq_refl)) as [[c E]|E]; [|right; exact E]. left. exists c. split; [exact E|]. apply OK. exact E.
  - right. destruct (full_unread K (rw_data r) true) as [e E]. rewrite E. eexists _, _. split; [reflexivity|].
    apply bc_read; [exact V|apply (G FBase64Full); tauto|]. apply (unread K r FBase64Full F); [discriminate|discriminate|eauto].
Qed.

Lemma told_accepted : forall r rows now c, NoDup (map aa_uid rows) -> accepted K rows r now c ->
  exists f, format_of (rw_format r) = Ok f /\ good_format (rw_format r) f /\ check r f rows now = ([], inl c).
Proof.
  intros r rows now c N A. pose proof A as (_ & (f & G & _) & _). exists f. split; [now apply format_good|]. split; [exact G|].
  apply (check_spec K r rows now c N) in A as (g & F & H). pose proof (format_good _ _ G) as Q. rewrite F in Q. apply Ok_inj in Q. subst g.
  destruct (check_told r f rows now N F) as [(c' & E & _)|(log & t & E & _)]; pose proof (check_same r f rows now) as S; rewrite E, H in S.
  - unfold forget in S. cbn [snd] in S. apply Ok_inj in S. now subst c'.
  - discriminate.
Qed.

Lemma told_bad : forall r rows now log t, NoDup (map aa_uid rows) -> bad_cert K rows now r log t ->
  exists f, format_of (rw_format r) = Ok f /\ check r f rows now = ([LRec 40 (log ++ a)], inr (Fault t)).
Proof.
  intros r rows now log t N B.
  assert (R : forall c, readable K r c -> rw_version r = 1 -> exists f, format_of (rw_format r) = Ok f /\
    check r f rows now = match aauth_get rows (is_uid (c_issuer c)) with
          | Some x =>
              if aa_trust x <=? 0
              then blame (Some a) (lit "ClientFault: aauth in ac is not trusted in request from ")
                     (lit "An attribute authority in an attribute certificate in your certificate set is not trusted.")
              else if negb (verify_time c now)
                   then blame (Some a) (lit "ClientFault: ac is expired in evaluate from ") (lit "An attribute certificate in your certificate set is expired.")
                   else lw_ret c
          | None => blame (Some a) (lit "ClientFault: aauth in ac is not trusted in request from ")
                     (lit "An attribute authority in an attribute certificate in your certificate set is not trusted.")
          end).
  { intros c H V. apply readable_import in H as (f & G & I). exists f. split; [now apply format_good|]. unfold l_check_cert. rewrite V. cbv zeta.
    change (negb (1 =? ac_version)) with false. cbv iota. destruct G; rewrite I; reflexivity. }
  destruct B as [V F|V F|V F H|c V H T|c V H T W].
  - destruct (format_some _ F) as [f E]. exists f. split; [exact E|]. unfold l_check_cert. change ac_version with 1. apply Z.eqb_neq in V. rewrite V. reflexivity.
  - assert (C : rw_format r = 1 \/ rw_format r = 2) by lia. unfold l_check_cert. rewrite V.
    destruct C as [C|C]; [exists FText|exists FXml]; rewrite C; split; reflexivity.
  - assert (E : exists f, format_of (rw_format r) = Ok f /\ (f = FBytes \/ f = FBase64 \/ f = FBase64Full)).
    { destruct F as [F|[F|[F|[]]]]; rewrite <- F; eexists; (split; [reflexivity|tauto]). }
    destruct E as (f & E & Q). exists f. split; [exact E|].
    destruct (proj1 (unread K r f E ltac:(destruct Q as [->|[->| ->]]; discriminate) ltac:(destruct Q as [->|[->| ->]]; discriminate)) H) as [e I].
    unfold l_check_cert. rewrite V. cbv zeta. change (negb (1 =? ac_version)) with false. cbv iota.
    destruct Q as [->|[->| ->]]; rewrite I; reflexivity.
  - destruct (R c H V) as (f & E & X). exists f. split; [exact E|]. rewrite X. clear X. rewrite trusted_get in T by exact N.
    destruct (aauth_get rows (is_uid (c_issuer c))) as [x|]; [|reflexivity]. destruct (Z.leb_spec (aa_trust x) 0); [reflexivity|].
    exfalso. apply T. exists x. split; [reflexivity|lia].
  - destruct (R c H V) as (f & E & X). exists f. split; [exact E|]. rewrite X. clear X. apply trusted_get in T as (x & -> & T); [|exact N].
    destruct (Z.leb_spec (aa_trust x) 0); [lia|].
    replace (verify_time c now) with false; [reflexivity|]. symmetry. apply not_true_is_false. intros Q. apply W. unfold verify_time in Q.
    apply andb_true_iff in Q as [Q1 Q2]. apply Z.ltb_lt in Q1, Q2. lia.
Qed.

(** ** All certificates *)

Variable d : pdb.
Hypothesis keys : keys_ok d.
Variable sx : str.
Variable now : nat -> Z.
Notation loop := (l_session_loop K (Some a) d sx now).

Lemma loop_same : forall l i st, forget (loop i l st) = session_loop K d sx now i l st.
Proof.
  induction l as [|r l IH]; intros i st; cbn [l_session_loop session_loop]; [reflexivity|].
  rewrite forget_bind, forget_of. destruct (format_of (rw_format r)) as [f|]; cbn [bind]; [|reflexivity].
  rewrite forget_bind, check_same. destruct (check_cert _ _ _ _ _) as [c|]; cbn [bind]; [|reflexivity]. cbv zeta.
  rewrite forget_bind, forget_of. destruct (int_to_b64 _) as [s|]; cbn [bind]; [|reflexivity].
  rewrite forget_bind. destruct (find _ (d_certs d)) as [row|]; [|apply IH]. destruct (str_eqb _ _); [apply IH|reflexivity].
Qed.

(** A step of the loop. *)
Lemma loop_step : forall r l i st c, accepted K (d_aauths d) r (now (S i)) c ->
  (forall row, In row (d_certs d) -> cr_serial row = serial_text c -> cr_hash row = hash_of K r) ->
  exists st', ls_done st' <> [] /\ loop i (r :: l) st = loop (S i) l st'.
Proof.
  intros r l i st c A H. destruct keys as (N1 & N2 & _).
  destruct (told_accepted r (d_aauths d) (now (S i)) c N1 A) as (f & F & G & E). cbn [l_session_loop].
  rewrite F, ok_bind, (bind_inl _ _ _ _ _ _ E). cbv zeta. pose proof (accepted_serial _ _ _ _ _ A) as SO. rewrite (id_ok _ SO), ok_bind.
  change (id_text (i_serial (c_info c))) with (serial_text c). rewrite (hash_left K r f G).
  pose proof (find_row d (serial_text c) N2) as P. destruct (find _ (d_certs d)) as [row|].
  - destruct P as (I & S0 & _). rewrite (H row I S0), str_eqb_refl, ret_bind. cbn [app fst snd].
    match goal with |- context [loop (S i) l ?s] => exists s end. split; [discriminate|]. destruct (loop (S i) l _); reflexivity.
  - rewrite ret_bind. cbn [app fst snd].
    match goal with |- context [loop (S i) l ?s] => exists s end. split; [discriminate|]. destruct (loop (S i) l _); reflexivity.
Qed.
Lemma loop_serial : forall r l i st c row, accepted K (d_aauths d) r (now (S i)) c ->
  In row (d_certs d) -> cr_serial row = serial_text c -> cr_hash row <> hash_of K r ->
  loop i (r :: l) st =
    ([LRec 40 (lit "ClientFault: Cert with serial " ++ serial_text c ++ lit " in request from " ++ a ++
               lit " is already in database but hash does not match!")], inr (Fault (lit "Certificate serial already in use."))).
Proof.
  intros r l i st c row A I S0 H. destruct keys as (N1 & N2 & _).
  destruct (told_accepted r (d_aauths d) (now (S i)) c N1 A) as (f & F & G & E). cbn [l_session_loop].
  rewrite F, ok_bind, (bind_inl _ _ _ _ _ _ E). cbv zeta. pose proof (accepted_serial _ _ _ _ _ A) as SO. rewrite (id_ok _ SO), ok_bind.
  change (id_text (i_serial (c_info c))) with (serial_text c). rewrite (hash_left K r f G).
  pose proof (find_row d (serial_text c) N2) as P. destruct (find _ (d_certs d)) as [row'|].
  - destruct P as (_ & _ & P). rewrite <- (P row I S0). destruct (str_eqb (cr_hash row) (hash_of K r)) eqn:Q; [apply str_eqb_eq in Q; congruence|]. reflexivity.
  - exfalso. apply P. unfold stored. rewrite <- S0. now apply in_map.
Qed.

Inductive stops : nat -> list raw_cert -> str -> str -> Prop :=
| so_cert : forall i r l log t, bad_cert K (d_aauths d) (now (S i)) r log t -> stops i (r :: l) (log ++ a) t
| so_serial : forall i r l c row, accepted K (d_aauths d) r (now (S i)) c ->
    In row (d_certs d) -> cr_serial row = serial_text c -> cr_hash row <> hash_of K r ->
    stops i (r :: l) (lit "ClientFault: Cert with serial " ++ serial_text c ++ lit " in request from " ++ a ++
       lit " is already in database but hash does not match!") (lit "Certificate serial already in use.")
| so_later : forall i r l log t, passes K d (now (S i)) r -> stops (S i) l log t -> stops i (r :: l) log t.

Lemma stops_loop : forall i l log t, stops i l log t -> forall st, loop i l st = ([LRec 40 log], inr (Fault t)).
Proof.
  intros i l log t H. induction H as [i r l log t B|i r l c row A I S0 H|i r l log t (c & A & H) _ IH]; intros st.
  - destruct keys as (N & _). destruct (told_bad r _ _ log t N B) as (f & F & E). cbn [l_session_loop].
    rewrite F, ok_bind, (bind_inr _ _ _ _ _ _ E). reflexivity.
  - now apply (loop_serial r l i st c row).
  - destruct (loop_step r l i st c A H) as (st' & _ & ->). apply IH.
Qed.
Lemma loop_stops : forall l i st recs x, loop i l st = (recs, x) ->
  match x with
  | inl st' => recs = [] /\ (l = [] /\ st' = st \/ ls_done st' <> []) /\ forall j r, nth_error l j = Some r -> passes K d (now (S (i + j))) r
  | inr (Fault t) => exists log, recs = [LRec 40 log] /\ stops i l log t
  | inr (Crash e) => recs = [] /\ e = EValue
  end.
Proof.
  induction l as [|r l IH]; intros i st recs x H.
  - cbn [l_session_loop] in H. apply lw_inj in H as [<- <-]. split; [reflexivity|]. split; [now left|]. intros [|j] r J; discriminate.
  - destruct (format_of (rw_format r)) as [f|e] eqn:F.
    2: { cbn [l_session_loop] in H. rewrite F, err_bind in H. apply lw_inj in H as [<- <-]. split; [reflexivity|].
         unfold format_of in F. repeat (destruct (_ =? _) in F; [discriminate|]). congruence. }
    destruct keys as (N & N2 & _). destruct (check_told r f (d_aauths d) (now (S i)) N F) as [(c & E & A)|(log & t & E & B)].
    2: { cbn [l_session_loop] in H. rewrite F, ok_bind, (bind_inr _ _ _ _ _ _ E) in H. apply lw_inj in H as [<- <-].
         eexists. split; [reflexivity|]. now constructor. }
    destruct (find (fun row => str_eqb (cr_serial row) (serial_text c)) (d_certs d)) as [row|] eqn:W.
    + apply find_some in W as [W1 W2]. apply str_eqb_eq in W2. destruct (str_eqb (cr_hash row) (hash_of K r)) eqn:Q.
      * apply str_eqb_eq in Q.
        assert (P : forall row, In row (d_certs d) -> cr_serial row = serial_text c -> cr_hash row = hash_of K r).
        { intros row' I S0. pose proof (find_row d (serial_text c) N2) as P. destruct (find _ (d_certs d)) as [y|].
          - destruct P as (_ & _ & P). now rewrite (P row' I S0), <- (P row W1 W2).
          - exfalso. apply P. unfold stored. rewrite <- S0. now apply in_map. }
        destruct (loop_step r l i st c A P) as (st' & D & Z0). rewrite Z0 in H. apply IH in H. destruct x as [st2|[t|e]].
        -- destruct H as (-> & H & H2). split; [reflexivity|]. split; [right; destruct H as [[_ ->]|H]; assumption|].
           intros [|j] y J; [injection J as <-; rewrite Nat.add_0_r; exists c; auto|]. rewrite <- Nat.add_succ_comm. now apply H2.
        -- destruct H as (log & -> & H). exists log. split; [reflexivity|]. apply so_later; [exists c; auto|exact H].
        -- exact H.
      * rewrite (loop_serial r l i st c row A W1 W2) in H by (intros X; rewrite X, str_eqb_refl in Q; discriminate).
        apply lw_inj in H as [<- <-]. eexists. split; [reflexivity|]. apply (so_serial i r l c row A W1 W2).
        intros X. rewrite X, str_eqb_refl in Q. discriminate.
    + assert (P : forall row, In row (d_certs d) -> cr_serial row = serial_text c -> cr_hash row = hash_of K r).
      { intros row' I S0. apply (find_none _ _ W) in I. rewrite S0, str_eqb_refl in I. discriminate. }
      destruct (loop_step r l i st c A P) as (st' & D & Z0). rewrite Z0 in H. apply IH in H. destruct x as [st2|[t|e]].
      -- destruct H as (-> & H & H2). split; [reflexivity|]. split; [right; destruct H as [[_ ->]|H]; assumption|].
         intros [|j] y J; [injection J as <-; rewrite Nat.add_0_r; exists c; auto|]. rewrite <- Nat.add_succ_comm. now apply H2.
      -- destruct H as (log & -> & H). exists log. split; [reflexivity|]. apply so_later; [exists c; auto|exact H].
      -- exact H.
Qed.

Lemma stops_split : forall i l log t, stops i l log t <->
  exists l1 r l2, l = l1 ++ r :: l2 /\ (forall j x, nth_error l1 j = Some x -> passes K d (now (S (i + j))) x) /\
    ((exists log0, bad_cert K (d_aauths d) (now (S (i + List.length l1))) r log0 t /\ log = log0 ++ a) \/
     (exists c row, accepted K (d_aauths d) r (now (S (i + List.length l1))) c /\ In row (d_certs d) /\ cr_serial row = serial_text c /\
        cr_hash row <> hash_of K r /\ t = lit "Certificate serial already in use." /\
        log = lit "ClientFault: Cert with serial " ++ serial_text c ++ lit " in request from " ++ a ++ lit " is already in database but hash does not match!")).
Proof.
  intros i l log t. split.
  - intros H. induction H as [i r l log t B|i r l c row A I S0 H|i r l log t P _ IH].
    + exists [], r, l. split; [reflexivity|]. split; [intros [|j] x J; discriminate|]. left. exists log. cbn [List.length]. now rewrite Nat.add_0_r.
    + exists [], r, l. split; [reflexivity|]. split; [intros [|j] x J; discriminate|]. right. exists c, row. cbn [List.length]. rewrite Nat.add_0_r. repeat (split; [assumption|]). auto.
    + destruct IH as (l1 & r' & l2 & -> & P' & IH). exists (r :: l1), r', l2. split; [reflexivity|].
      split.
      * intros [|j] x J; [injection J as <-; now rewrite Nat.add_0_r|]. rewrite <- Nat.add_succ_comm. now apply P'.
      * cbn [List.length]. rewrite <- Nat.add_succ_comm. exact IH.
  - intros (l1 & r & l2 & -> & P & H). revert i P H. induction l1 as [|x l1 IH]; intros i P H.
    + cbn [List.length] in H. rewrite Nat.add_0_r in H. cbn [app]. destruct H as [(log0 & B & ->)|(c & row & A & I & S0 & Q & -> & ->)].
      * now constructor.
      * exact (so_serial i r l2 c row A I S0 Q).
    + cbn [app]. apply so_later.
      * specialize (P 0%nat x eq_refl). now rewrite Nat.add_0_r in P.
      * apply IH.
        -- intros j y J. rewrite Nat.add_succ_comm. now apply P.
        -- cbn [List.length] in H. rewrite <- Nat.add_succ_comm in H. exact H.
Qed.
End WithAddr.

(** ** start_session *)

Lemma start_same : forall K a d service set sid now,
  forget (l_start_session K (Some a) d service set sid now) = start_session_res K d service set sid now a.
Proof.
  intros K a d service set sid now. unfold l_start_session, start_session_res. cbv zeta. destruct set as [[[|r l]|]|]; try reflexivity.
  rewrite forget_bind, forget_of. destruct (int_to_b64 sid) as [b|]; cbn [bind]; [|reflexivity].
  rewrite forget_bind, loop_same. destruct (session_loop _ _ _ _ _ _ _) as [st|]; cbn [bind]; [|reflexivity].
  destruct (ls_done st); [reflexivity|]. rewrite forget_bind. change (forget (remote (Some a))) with (Ok a). cbn [bind]. rewrite forget_say.
  destruct service as [uid|]; [|reflexivity]. rewrite forget_bind, forget_of. destruct (commit _ _ _ _) as [d'|]; reflexivity.
Qed.

Lemma start_told : forall K a d service set sid now recs x, keys_ok d -> sid_ok sid ->
  l_start_session K (Some a) d service set sid now = (recs, x) ->
  match x with
  | inl _ => recs = [LRec 20 (lit "Adding session and attribute certs as result of start_session request from " ++ a)]
  | inr (Fault t) => exists log, recs = [LRec 40 log] /\ not_started K d now a set log t
  | inr (Crash e) => e = EValue /\ recs = [] \/
      e = EIntegrity /\ recs = [LRec 20 (lit "Adding session and attribute certs as result of start_session request from " ++ a)]
  end.
Proof.
  intros K a d service set sid now recs x KO SO H. unfold l_start_session in H. cbv zeta in H.
  assert (E : set = None \/ set = Some None \/ set = Some (Some []) \/ exists r l, set = Some (Some (r :: l))).
  { destruct set as [[[|r l]|]|]; eauto 8. }
  assert (B : forall s, s = None \/ s = Some None \/ s = Some (Some []) ->
    @blame (Some a) (pdb * session_ret) (lit "ClientFault: No att cert set in start_session request from ")
      (lit "Need attribute certificate set to start session.") = (recs, x) ->
    match x with
    | inl _ => False
    | inr (Fault t) => exists log, recs = [LRec 40 log] /\ not_started K d now a s log t
    | inr (Crash e) => False
    end).
  { intros s S0 Q. rewrite blame_some in Q. apply lw_inj in Q as [<- <-]. eexists. split; [reflexivity|]. now constructor. }
  destruct E as [->|[->|[->|(r & l & ->)]]]; [apply (B None) in H; [destruct x as [|[]]; [destruct H|exact H|destruct H]|tauto]
  |apply (B (Some None)) in H; [destruct x as [|[]]; [destruct H|exact H|destruct H]|tauto]
  |apply (B (Some (Some []))) in H; [destruct x as [|[]]; [destruct H|exact H|destruct H]|tauto]|].
  rewrite (id_ok sid SO), ok_bind in H.
  destruct (l_session_loop K (Some a) d (id_text sid) now 0 (r :: l) (LS (-1) (-1) [] [] [])) as [rl [st|s]] eqn:L;
    pose proof (loop_stops K a d KO (id_text sid) now _ _ _ _ _ L) as P.
  - destruct P as (-> & [[Q _]|D] & _); [discriminate|]. rewrite (bind_inl _ _ _ _ _ _ eq_refl) in H. cbv beta zeta in H. cbn [app] in H.
    destruct (ls_done st) as [|x0 dn]; [congruence|]. cbn [remote] in H. rewrite ret_bind, say_bind in H. cbn [fst snd] in H.
    destruct service as [uid|].
    + destruct (commit _ _ _ _) as [d'|e] eqn:C.
      * rewrite ok_bind in H. cbn [fst snd lw_ret] in H. apply lw_inj in H as [<- <-]. reflexivity.
      * rewrite err_bind in H. cbn [fst snd] in H. apply lw_inj in H as [<- <-]. right. split; [|reflexivity].
        unfold commit in C. destruct (_ || _); congruence.
    + cbn [fst snd lw_stop] in H. apply lw_inj in H as [<- <-]. right. auto.
  - rewrite (bind_inr _ _ _ _ _ _ eq_refl) in H. apply lw_inj in H as [<- <-]. destruct s as [t|e]; [|left; tauto].
    destruct P as (log & -> & P). exists log. split; [reflexivity|].
    apply stops_split in P as (l1 & r' & l2 & -> & P & [(log0 & B0 & ->)|(c & row & A & I & S0 & Q & -> & ->)]).
    + now apply ns_cert.
    + now apply (ns_serial K d now a l1 r' l2 c row).
Qed.
Lemma not_started_told : forall K a d service set sid now log t, keys_ok d -> sid_ok sid -> not_started K d now a set log t ->
  l_start_session K (Some a) d service set sid now = ([LRec 40 log], inr (Fault t)).
Proof.
  intros K a d service set sid now log t KO SO H.
  assert (G : forall l, l <> [] -> stops K a d now 0 l log t -> l_start_session K (Some a) d service (Some (Some l)) sid now = ([LRec 40 log], inr (Fault t))).
  { intros [|r l] N S; [congruence|]. unfold l_start_session. cbv zeta. rewrite (id_ok sid SO), ok_bind.
    rewrite (bind_inr _ _ _ _ _ _ (stops_loop K a d KO (id_text sid) now _ _ _ _ S _)). reflexivity. }
  destruct H as [set [->|[->| ->]]|l1 r l2 log t P B|l1 r l2 c row P A I S0 Q]; try reflexivity.
  - apply G; [destruct l1; discriminate|]. apply stops_split. exists l1, r, l2. split; [reflexivity|]. split; [exact P|]. left. eauto.
  - apply G; [destruct l1; discriminate|]. apply stops_split. exists l1, r, l2. split; [reflexivity|]. split; [exact P|]. right. exists c, row. auto 8.
Qed.

(** Without an address. *)
Lemma loop_no_addr : forall K d sx now l i st recs x, l_session_loop K None d sx now i l st = (recs, x) ->
  recs = [] /\ forall t, x <> inr (Fault t).
Proof.
  intros K d sx now. induction l as [|r l IH]; intros i st recs x H; cbn [l_session_loop] in H.
  - apply lw_inj in H as [<- <-]. split; [reflexivity|discriminate].
  - destruct (format_of (rw_format r)) as [f|e]; [rewrite ok_bind in H|rewrite err_bind in H; apply lw_inj in H as [<- <-]; split; [reflexivity|discriminate]].
    assert (C : exists y, l_check_cert K None r f (d_aauths d) (now (S i)) = ([], y) /\ forall t, y <> inr (Fault t)).
    { unfold l_check_cert. cbv zeta. destruct (negb _); [eexists; split; [reflexivity|discriminate]|].
      destruct f; try (eexists; split; [reflexivity|discriminate]); (destruct (ac_import _ _ _ _) as [c|e]; [|eexists; split; [reflexivity|discriminate]]);
      (destruct (aauth_get _ _) as [y|]; [|eexists; split; [reflexivity|discriminate]]); (destruct (aa_trust y <=? 0); [eexists; split; [reflexivity|discriminate]|]);
      destruct (negb _); eexists; (split; [reflexivity|discriminate]). }
    destruct C as ([c|s] & C & Cf).
    2: { rewrite (bind_inr _ _ _ _ _ _ C) in H. apply lw_inj in H as [<- <-]. split; [reflexivity|]. intros t Q. apply inr_inj in Q. subst s. now apply (Cf t). }
    rewrite (bind_inl _ _ _ _ _ _ C) in H. cbv zeta in H.
    assert (G : forall y : lw loop_state, (forall rs z, y = (rs, z) -> rs = [] /\ forall t, z <> inr (Fault t)) -> ([] ++ fst y, snd y) = (recs, x) -> recs = [] /\ forall t, x <> inr (Fault t)).
    { intros [rs z] Y Q. apply lw_inj in Q as [<- <-]. exact (Y rs z eq_refl). }
    refine (G _ _ H). intros rs z Q. destruct (int_to_b64 _) as [s|e]; [rewrite ok_bind in Q|rewrite err_bind in Q; apply lw_inj in Q as [<- <-]; split; [reflexivity|discriminate]].
    destruct (find _ (d_certs d)) as [row|]; [|rewrite ret_bind in Q; now apply IH in Q].
    destruct (str_eqb _ _); [rewrite ret_bind in Q; now apply IH in Q|]. cbn [remote] in Q. apply lw_inj in Q as [<- <-]. split; [reflexivity|discriminate].
Qed.
