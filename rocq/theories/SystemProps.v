(** * SystemProps: what the policy authority's sessions say about the attribute authority (C120) *)

From Coq Require Import NArith ZArith List Bool Lia Permutation String.
From Verif Require Import PyBase LexProofs Struct BytesProofs AttCert CertSpec CertProofs CertProofs2 CertProofs3 CertProps CertProps2 PAuth PAuthSpec PAuthProofs PAuthProps
  AAuth AAuthSpec AAuthProofs AAuthProps System.
Import ListNotations.
Open Scope Z_scope.

(** ** Runs *)

Section WithCrypto.
Variable K : crypto.
Variable U : unicode.
Variable au : authority K.
Variable checkpw : bytes -> bytes -> res bool.
Variable order : list valued -> list valued.
Hypothesis ordered : forall l, Permutation (order l) l.
(** The public key of the attribute authority. *)
Variable pk : pub K.
Notation step := (step K U au checkpw order).

(** Nobody but the attribute authority can sign under its key: where a certificate carries that key
    and a signature the key accepts, the authority has signed these bytes before.  Nothing is
    assumed of certificates with other keys. *)
Definition unforged (s : system) (r : raw_cert) : Prop :=
  forall f c, good_format (rw_format r) f -> ac_import K (InArray (rw_data r)) f false = Ok c ->
  verified K c -> k_import K (is_key (c_issuer c)) = Ok pk ->
  exists g, In g (sy_grants s) /\ encode_body (is_cert (gr_issued g)) = encode_body c.
Definition possible (s : system) (e : event) : Prop :=
  match e with
  | EAdmin d => tables_ok d
  | EAsk _ _ => True
  | EStart _ set sid _ _ => sid_ok sid /\ forall l r, set = Some (Some l) -> In r l -> unforged s r
  end.
Inductive run (s0 : system) : system -> Prop :=
| run_start : run s0 s0
| run_event : forall s e, run s0 s -> possible s e -> run s0 (step s e).
Definition begins (s : system) : Prop := tables_ok (sy_adb s) /\ fresh_db (sy_pdb s) /\ sy_grants s = [].

(** A certificate issued by the authority, and what it says: it was asked for by someone with the
    password of a user; its attributes are those asked for among those assigned to the user at that
    time, and attributes of the connection. *)
Definition answers (g : grant) (c : cert) : Prop :=
  (exists dir dir', attribute_request K U au checkpw order dir (gr_db g) (gr_request g) (gr_chance g) = (dir', Ok (gr_issued g))) /\
  same_content c (normal (is_cert (gr_issued g))).
Definition entitled (g : grant) (c : cert) : Prop :=
  exists user name, authenticated K U checkpw au (gr_db g) (gr_request g) user name /\
    ho_uid (c_holder c) = au_uri au ++ lit "/user/" ++ name /\ ho_key (c_holder c) = rq_key (gr_request g) /\
    is_uid (c_issuer c) = au_uri au /\
    c_info c = Info 1 (ch_serial (gr_chance g)) (ch_issued (gr_chance g)) /\
    rv_after (c_rev c) = ch_issued (gr_chance g) /\ rv_before (c_rev c) = ch_issued (gr_chance g) + au_length au /\
    forall l a, c_atts c = Some l -> In a l -> connection_id (at_id a) \/
      exists p t, assigned (gr_db g) (us_id user) (fst p) (snd p) /\ ar_type (fst p) = Some t /\ a = stands_for p t /\
        (asks_all (gr_request g) \/ asks (rq_ids (gr_request g)) (ar_id (fst p)) \/ asks (rq_names (gr_request g)) (ar_name (fst p))).

(** ** Invariants *)

Lemma step_grants : forall s e g, In g (sy_grants s) -> In g (sy_grants (step s e)).
Proof.
  intros s e g I. destruct e as [d|q h|service set sid now ip]; cbn [System.step sy_grants]; auto.
  destruct (attribute_request _ _ _ _ _ _ _ _ _) as [dir [r|e]]; cbn [sy_grants]; [now right|exact I].
Qed.
Lemma run_tables : forall s0 s, begins s0 -> run s0 s ->
  tables_ok (sy_adb s) /\ forall g, In g (sy_grants s) -> tables_ok (gr_db g) /\
    exists dir dir', attribute_request K U au checkpw order dir (gr_db g) (gr_request g) (gr_chance g) = (dir', Ok (gr_issued g)).
Proof.
  intros s0 s (B1 & B2 & B3) R. induction R as [|s e R (IH1 & IH2) P]; [rewrite B3; split; [exact B1|intros g []]|].
  destruct e as [d|q h|service set sid now ip]; cbn [System.step sy_grants sy_adb]; [split; [exact P|exact IH2]| |split; [exact IH1|exact IH2]].
  destruct (attribute_request K U au checkpw order (sy_dir s) (sy_adb s) q h) as [dir [r|e]] eqn:E; cbn [sy_grants sy_adb]; (split; [exact IH1|]); [|exact IH2].
  intros g [<-|I]; [|auto]. cbn [gr_db gr_request gr_chance gr_issued]. split; [exact IH1|eauto].
Qed.
Lemma run_history : forall s0 s, run s0 s -> history K (sy_pdb s0) (sy_pdb s).
Proof.
  intros s0 s R. induction R as [|s e R IH P]; [constructor|]. destruct e as [d|q h|service set sid now ip]; cbn [System.step sy_pdb]; [exact IH| |].
  - destruct (attribute_request _ _ _ _ _ _ _ _ _) as [dir r]. exact IH.
  - constructor; [exact IH|apply P].
Qed.
Lemma format_one : forall n f f', good_format n f -> good_format n f' -> f = f'.
Proof. intros n f f' A B. inversion A; subst; inversion B; congruence. Qed.
(** The certificate a stored row or a sent one contains, if it carries the authority's key. *)
Lemma run_rows : forall s0 s, begins s0 -> run s0 s -> forall row f c, In row (d_certs (sy_pdb s)) ->
  good_format (cr_format row) f -> ac_import K (InArray (cr_cert row)) f false = Ok c -> verified K c -> k_import K (is_key (c_issuer c)) = Ok pk ->
  exists g, In g (sy_grants s) /\ encode_body (is_cert (gr_issued g)) = encode_body c.
Proof.
  intros s0 s B R. pose proof (run_history s0) as RH. destruct B as (B1 & B2 & B3).
  induction R as [|s e R IH P]; [destruct B2 as (_ & -> & _); intros row f c []|].
  intros row f c I G M V KI.
  assert (OLD : In row (d_certs (sy_pdb s)) -> exists g, In g (sy_grants (step s e)) /\ encode_body (is_cert (gr_issued g)) = encode_body c).
  { intros J. destruct (IH row f c J G M V KI) as (g & J1 & J2). exists g. split; [now apply step_grants|exact J2]. }
  destruct e as [d|q h|service set sid now ip].
  - exact (OLD I).
  - apply OLD. cbn [System.step] in I. destruct (attribute_request _ _ _ _ _ _ _ _ _) as [dir r]. exact I.
  - destruct P as [SO UF]. cbn [System.step sy_pdb] in I. destruct (start_session K (sy_pdb s) service set sid now ip) as [d' [ret|e]] eqn:E; cbn [fst] in I.
    2:{ apply (C46_failure _ _ _ _ _ _ _ _ _ SO) in E as [-> _]. exact (OLD I). }
    pose proof (C47_well_formed K _ _ B2 (RH s R)) as W.
    apply (C46_success K _ service set sid now ip d' ret (wf_keys _ W) SO) in E as (l & cs & -> & ST).
    destruct ST as [S1 S2 S3 S4 S5 S6 (uid & -> & ->) S8]. cbn [d_certs] in I. apply in_app_iff in I as [I|I]; [exact (OLD I)|].
    unfold new_rows in I. apply filter_In in I as [I _]. apply in_map_iff in I as ([r c1] & <- & I). apply in_combine_l in I.
    cbn [fst snd row_of cr_format cr_cert] in G, M. exact (UF l r eq_refl I f c G M V KI).
Qed.

(** ** Content *)

Lemma decode_content : forall b c w c0, ac_decode K b false = Ok c -> encode_body c = Ok w -> encode_body c0 = Ok w -> body_ascii c0 ->
  same_content c (normal c0).
Proof.
  intros b c w c0 D B B0 A.
  pose proof (body_app c w [] B) as D1. rewrite (body_app c0 w [] B0), (recv_normal c0 A) in D1. cbn [bind] in D1.
  destruct (body_recv c) as [x|] eqn:X; cbn [bind] in D1; [|discriminate]. apply Ok_inj in D1. injection D1 as <-.
  assert (An : body_ascii (normal c0)) by (apply (body_recv_ascii c0 (normal c0) (recv_normal c0 A)); exact A).
  assert (Ac : body_ascii c) by (apply (body_recv_ascii c _ X); exact An).
  unfold ac_decode in D. destruct (decode_body b) as [[y r]|] eqn:Db; cbn [bind] in D; [|discriminate].
  destruct (sig_decode r) as [[g r']|] eqn:Dr; cbn [bind] in D; [|discriminate].
  destruct r'; [|discriminate]. apply Ok_inj in D. subst c.
  assert (Ky : body_kept (with_sig y (match g with Sig None None => None | _ => Some g end))).
  { apply (decode_body_kept b y r Db (sig_decode_nonempty _ _ Dr)). exact Ac. }
  rewrite (recv_normal _ Ac) in X. apply Ok_inj in X. rewrite <- X, (kept_normal _ Ky).
  unfold same_content, no_sig. cbn. auto 10.
Qed.
Lemma import_content : forall r n f c c0, good_format n f -> ac_import K (InArray r) f false = Ok c -> verified K c ->
  encode_body c0 = encode_body c -> body_ascii c0 -> same_content c (normal c0).
Proof.
  intros r n f c c0 G M (_ & _ & _ & w & _ & _ & B & _) E A. rewrite B in E. destruct G; cbn [ac_import] in M.
  - exact (decode_content r c w c0 M B E A).
  - destruct (b64decode r) as [b|]; cbn [bind] in M; [|discriminate]. exact (decode_content b c w c0 M B E A).
Qed.
Lemma stands_normal : forall p t, let a := stands_for p t in
  Att (at_id a) (at_type a) (absent (at_value a)) (absent (at_name a)) (absent (at_extra a)) = a.
Proof. intros [a [[|x v]|]] t; unfold stands_for; cbn [fst snd]; destruct (ar_name a); reflexivity. Qed.
Lemma answers_entitled : forall g c, tables_ok (gr_db g) -> answers g c -> entitled g c.
Proof.
  intros g c T ((dir & dir' & A) & SC).
  destruct (C51_exact K U au checkpw order ordered dir _ _ _ dir' _ T A) as (user & name & rows & sel & us & cons & AU & RW & _ & SE & CA & ST & CO).
  destruct (C52_content K U au checkpw order dir _ _ _ dir' _ A) as (name' & cons' & us' & N & CI & CU & _ & CK & CF & RA & RB & _).
  assert (name' = name) by (destruct AU as (_ & AU & _); congruence). subst name'.
  destruct SC as (S1 & S2 & S3 & S4 & S5 & _). destruct (is_cert (gr_issued g)) as [is ho inf atts rv de exts sg]. cbn [normal c_issuer c_holder c_info c_atts c_rev] in *.
  exists user, name. split; [exact AU|]. rewrite S1, S2, S3, S4, S5. cbn [ho_uid ho_key is_uid rv_after rv_before].
  split; [exact CU|]. split; [exact CK|]. split; [now rewrite CI|]. split; [exact CF|]. split; [exact RA|]. split; [exact RB|].
  intros l a [= <-] I. rewrite CA in I. apply in_map_iff in I as (x & <- & I). apply in_app_iff in I as [I|I].
  2:{ left. rewrite Forall_forall in CO. exact (CO x I). }
  right. assert (Q : exists p t, In p sel /\ ar_type (fst p) = Some t /\ x = stands_for p t).
  { clear - ST I. induction ST as [|p y sel us (t & Q1 & Q2) ST IH]; [destruct I|]. destruct I as [->|I]; [exists p, t; split; [now left|auto]|].
    destruct (IH I) as (p' & t' & Q3 & Q4). exists p', t'. split; [now right|exact Q4]. }
  destruct Q as (p & t & J & TY & ->). exists p, t. rewrite (stands_normal p t). destruct SE as [_ SE]. apply SE in J as [J W].
  split; [apply RW; destruct p; exact J|]. split; [exact TY|]. split; [reflexivity|].
  destruct W as [W|[W|(n & W & l1 & l2 & _ & <- & _)]]; auto.
Qed.

(** ** C120 *)

Definition all_ascii (s : system) : Prop := forall g, In g (sy_grants s) -> body_ascii (is_cert (gr_issued g)).

(** Whatever certificate with the authority's key the policy authority has stored: the authority issued it
    before, to someone entitled to all it says. *)
Theorem C120_stored : forall s0 s row, begins s0 -> run s0 s -> all_ascii s -> In row (d_certs (sy_pdb s)) ->
  exists f c, good_format (cr_format row) f /\ ac_import K (InArray (cr_cert row)) f true = Ok c /\
    cr_serial row = serial_text c /\ cr_till row = rv_before (c_rev c) /\
    (k_import K (is_key (c_issuer c)) = Ok pk -> exists g, In g (sy_grants s) /\ answers g c /\ entitled g c).
Proof.
  intros s0 s row B R AA I. pose proof (run_history s0 s R) as H. pose proof (run_tables s0 s B R) as (_ & TB).
  destruct (C62_vouched K _ _ row (proj1 (proj2 B)) H I) as (c & f & G & M & _ & SE & TI & _ & _).
  exists f, c. split; [exact G|]. split; [exact M|]. split; [exact SE|]. split; [exact TI|]. intros KI.
  apply C38_verified in M as [M V]. destruct (run_rows s0 s B R row f c I G M V KI) as (g & J & Q). exists g. split; [exact J|].
  destruct (TB g J) as [T A]. assert (AN : answers g c) by (split; [exact A|exact (import_content _ _ _ _ _ G M V Q (AA g J))]).
  split; [exact AN|now apply answers_entitled].
Qed.

Lemma timed_nth : forall now l i r, nth_error l i = Some r -> nth_error (timed now l) i = Some (r, now (S i)).
Proof.
  intros now l i r. unfold timed. assert (G : forall l k i, nth_error l i = Some r ->
    nth_error (combine l (map (fun j => now (S j)) (seq k (List.length l)))) i = Some (r, now (S (k + i)))).
  { clear. induction l as [|x l IH]; intros k i E; [destruct i; discriminate|]. destruct i as [|i]; cbn [nth_error List.length seq map combine] in *.
    - injection E as ->. now rewrite Nat.add_0_r.
    - rewrite (IH (S k) i E). f_equal. f_equal. f_equal. lia. }
  exact (G l O i).
Qed.
Lemma least_le : forall l x, In x l -> least l <= x.
Proof.
  induction l as [|y l IH]; intros x I; [destruct I|]. cbn [least]. destruct l as [|z l]; [destruct I as [->|[]]; lia|].
  destruct I as [->|I]; [lia|]. specialize (IH x I). lia.
Qed.
(** A session that starts: each certificate with the authority's key was issued before, is checked within its
    lifetime, and the session ends no later than the certificate. *)
Theorem C120_session : forall s0 s service l sid now ip d' ret, begins s0 -> run s0 s -> all_ascii s ->
  possible s (EStart service (Some (Some l)) sid now ip) ->
  start_session K (sy_pdb s) service (Some (Some l)) sid now ip = (d', Ok ret) ->
  forall i r, nth_error l i = Some r ->
  exists f c, good_format (rw_format r) f /\ ac_import K (InArray (rw_data r)) f true = Ok c /\
    (k_import K (is_key (c_issuer c)) = Ok pk -> exists g, In g (sy_grants s) /\ answers g c /\ entitled g c /\
      ch_issued (gr_chance g) < now (S i) < ch_issued (gr_chance g) + au_length au /\ sr_till ret <= ch_issued (gr_chance g) + au_length au).
Proof.
  intros s0 s service l sid now ip d' ret B R AA [SO UF] E i r N.
  pose proof (run_tables s0 s B R) as (_ & TB). pose proof (C47_well_formed K _ _ (proj1 (proj2 B)) (run_history s0 s R)) as W.
  apply (C46_success K _ service _ sid now ip d' ret (wf_keys _ W) SO) in E as (l' & cs & [= <-] & ST).
  destruct ST as [S1 S2 S3 S4 S5 S6 S7 S8]. pose proof (timed_nth now l i r N) as TN.
  assert (Q : exists c, In c cs /\ accepted K (d_aauths (sy_pdb s)) r (now (S i)) c).
  { clear - S2 TN. revert TN. generalize (now (S i)) as t. intros t. revert i. induction S2 as [|p c ps cs A S2 IH]; intros i TN; [destruct i; discriminate|].
    destruct i as [|i]; cbn [nth_error] in TN; [injection TN as ->; exists c; split; [now left|exact A]|].
    destruct (IH i TN) as (c' & J & Q). exists c'. split; [now right|exact Q]. }
  destruct Q as (c & J & (_ & (f & G & M) & V & _ & TI)). exists f, c. split; [exact G|]. split; [apply C38_verified; auto|].
  intros KI. destruct (UF l r eq_refl (nth_error_In _ _ N) f c G M V KI) as (g & I & Q). exists g. split; [exact I|].
  destruct (TB g I) as [T A]. assert (AN : answers g c) by (split; [exact A|exact (import_content _ _ _ _ _ G M V Q (AA g I))]).
  pose proof (answers_entitled g c T AN) as EN. split; [exact AN|]. split; [exact EN|].
  destruct EN as (user & name & _ & _ & _ & _ & _ & RA & RB & _). rewrite RA, RB in TI. split; [exact TI|].
  rewrite S8. cbn [sr_till]. rewrite <- RB. pose proof (least_le (ends cs) (rv_before (c_rev c)) (in_map (fun c => rv_before (c_rev c)) _ _ J)). lia.
Qed.
End WithCrypto.
Print Assumptions C120_stored.
Print Assumptions C120_session.

(** ** Examples and refutations *)

(** Signatures that cannot be forged: the key and the text. *)
Definition strict : crypto := {|
  pub := N; prv := N;
  k_import := fun b => match b with [x] => Ok x | _ => Err EValue end;
  k_hash := fun b => b;
  k_sign := fun k h => Ok (k :: h);
  k_verify := fun k h s => bytes_eqb s (k :: h) |}.
Definition ex_authority : authority strict :=
  Authority strict (lit "Authority") (lit "/aauth/1") (lit "http://localhost:80/rev") (lit "http://localhost:80/") (Some (lit "pepper")) 3600 7%N [7]%N 2048.
Definition ex_step := step strict ascii_only ex_authority ex_checkpw (fun l => l).
Definition ex_run := run strict ascii_only ex_authority ex_checkpw (fun l => l) 7%N.
(** Level is a letter that is not ASCII and a digit. *)
Definition ex_levels : adb :=
  ADB [AttRow (lit "/a/level") (lit "level") (Some AString)] [UserRow 1 (lit "alice") (lit "secretpepper")]
      [Assign 1 (lit "/a/level") (Some [233; 49]%N)].
Definition ex_sys (d : adb) : system := Sys [] d ex_db [].
Definition ex_asks : event := EAsk (ex_request (lit "alice") (lit "secret") [] [] (lit "10.0.0.1")) ex_chance.
Definition ex_starts (b : bytes) : event := EStart (Some (lit "svc")) (Some (Some [Raw b 1 0])) 77 (ex_now 1500) (lit "10.0.0.1").
Definition ex_issued (s : system) : bytes := match sy_grants s with g :: _ => is_data (gr_issued g) | [] => [] end.
Definition ex_rows (s : system) : list cert_row := d_certs (sy_pdb s).

Lemma ex_begins : forall d, tables_ok d -> begins (ex_sys d).
Proof. intros d T. split; [exact T|]. split; [exact ex_fresh|reflexivity]. Qed.
Lemma ex_users_ok : tables_ok ex_users.
Proof. constructor; repeat constructor; cbn; intros H; repeat (destruct H as [H|H]; [discriminate H|]); exact H. Qed.
Lemma ex_levels_ok : tables_ok ex_levels.
Proof. constructor; repeat constructor; cbn; intros H; repeat (destruct H as [H|H]; [discriminate H|]); exact H. Qed.

(** Whether the certificates sent are covered can be computed. *)
Lemma ex_unforged : forall s b, 
  match ac_decode strict b false with
  | Ok c => bytes_eqb (is_key (c_issuer c)) [7]%N = true ->
            existsb (fun g => match encode_body (is_cert (gr_issued g)), encode_body c with Ok x, Ok y => bytes_eqb x y | _, _ => false end) (sy_grants s) = true
  | Err _ => True
  end -> unforged strict 7%N s (Raw b 1 0).
Proof.
  intros s b H f c G M V KI. cbn [rw_format rw_data] in *. inversion G; subst. cbn [ac_import] in M. rewrite M in H.
  assert (Q : is_key (c_issuer c) = [7]%N).
  { change (match is_key (c_issuer c) with [x] => Ok x | _ => Err EValue end = Ok 7%N) in KI. destruct (is_key (c_issuer c)) as [|x [|y l]]; try discriminate KI. injection KI as ->. reflexivity. }
  specialize (H ltac:(rewrite Q; reflexivity)). apply existsb_exists in H as (g & I & H). exists g. split; [exact I|].
  destruct (encode_body (is_cert (gr_issued g))) as [x|]; [|discriminate]. destruct (encode_body c) as [y|]; [|discriminate]. apply str_eqb_eq in H. now subst.
Qed.

(** A run: alice gets a certificate, a session is started with it. *)
Definition ex_asked : system := ex_step (ex_sys ex_users) ex_asks.
Definition ex_started : system := ex_step ex_asked (ex_starts (ex_issued ex_asked)).
Example ex_running : begins (ex_sys ex_users) /\ ex_run (ex_sys ex_users) ex_started /\ all_ascii ex_started /\
  List.length (ex_rows ex_started) = 1%nat /\ List.length (sy_grants ex_started) = 1%nat /\ List.length (d_sessions (sy_pdb ex_started)) = 1%nat.
Proof.
  split; [apply ex_begins, ex_users_ok|]. split; [|split; [|vm_compute; auto]].
  - unfold ex_started. apply run_event.
    + unfold ex_asked. apply run_event; [constructor|exact I].
    + split; [unfold sid_ok; lia|]. intros l r [= <-] [<-|[]]. apply ex_unforged. vm_compute. auto.
  - intros g J. assert (Q : sy_grants ex_started = sy_grants ex_asked) by reflexivity. rewrite Q in J. clear Q.
    vm_compute in J. destruct J as [<-|[]]. cbv [gr_issued is_cert].
    unfold body_ascii, opt_ascii, if_some, ascii. cbn [c_issuer c_holder c_rev c_atts c_exts is_algo is_uid is_name is_url ho_algo ho_uid ho_name rv_url at_id at_value at_name ex_id].
    repeat (cbn beta iota delta [at_id at_value at_name];
            match goal with |- _ /\ _ => split | |- True => exact I | |- Forall _ _ => constructor | |- (_ < _)%N => reflexivity end).
Qed.

(** The key matters: the policy authority stores a certificate that names the attribute authority although
    that has never issued any. *)
Definition ex_own : cert := Cert (Issuer [8]%N (lit "RSA") (lit "/aauth/1") None None) (Holder [9]%N (lit "RSA") (lit "/aauth/1/user/root") None)
  (Info 1 5 1000) (Some [Att (lit "/a/level") AString (Some (lit "9")) (Some (lit "level")) None]) (Rev 1000 5000 None None) None None None.
Definition ex_own_bytes : bytes := out_bytes (ac_export strict ex_own FBytes true (Some 8%N) default_algo).
Theorem C120_key_refuted : exists s0 s row c, begins s0 /\ ex_run s0 s /\ sy_grants s = [] /\ In row (ex_rows s) /\
  ac_import strict (InArray (cr_cert row)) FBytes true = Ok c /\ is_uid (c_issuer c) = au_uri ex_authority.
Proof.
  pose (s := ex_step (ex_sys ex_users) (ex_starts ex_own_bytes)).
  assert (L : List.length (ex_rows s) = 1%nat) by (vm_compute; reflexivity). destruct (ex_rows s) as [|row [|]] eqn:R; try discriminate L.
  assert (D : match ac_import strict (InArray (cr_cert row)) FBytes true with Ok c => str_eqb (is_uid (c_issuer c)) (au_uri ex_authority) | Err _ => false end = true).
  { replace row with (hd row (ex_rows s)) by (rewrite R; reflexivity). unfold s. vm_compute. reflexivity. }
  destruct (ac_import strict (InArray (cr_cert row)) FBytes true) as [c|] eqn:M; [|discriminate]. apply str_eqb_eq in D.
  exists (ex_sys ex_users), s, row, c. split; [apply ex_begins, ex_users_ok|]. split.
  - apply run_event; [constructor|]. split; [unfold sid_ok; lia|]. intros l r [= <-] [<-|[]]. apply ex_unforged. vm_compute. discriminate.
  - split; [reflexivity|]. rewrite R. split; [now left|]. split; [exact M|exact D].
Qed.
Print Assumptions C120_key_refuted.

(** And so does the text: with a letter outside ASCII in a value, whoever holds the certificate can change the
    end of that value, and the signature of the authority still holds. *)
Fixpoint swap (a b : bytes) (s : bytes) : bytes :=
  match s with
  | [] => []
  | x :: r => if bytes_eqb (firstn (List.length a) s) a then b ++ skipn (List.length a) s else x :: swap a b r
  end.
Definition ex_other_value (v : str) (c : cert) : cert :=
  Cert (c_issuer c) (c_holder c) (c_info c)
       (option_map (map (fun a => if str_eqb (at_id a) (lit "/a/level") then Att (at_id a) (at_type a) (Some v) (at_name a) (at_extra a) else a)) (c_atts c))
       (c_rev c) (c_del c) (c_exts c) (c_sig c).
Definition ex_leveled : system := ex_step (ex_sys ex_levels) ex_asks.
(** The certificate with the value @@@ in place of é1, and then with the bytes of é9 in place of @@@. *)
Definition ex_changed : bytes :=
  match sy_grants ex_leveled with
  | g :: _ => swap [64; 64; 64]%N [195; 169; 57]%N (out_bytes (ac_export strict (ex_other_value (lit "@@@") (is_cert (gr_issued g))) FBytes false None default_algo))
  | [] => []
  end.
Theorem C120_text_refuted : exists s0 s row c l, begins s0 /\ ex_run s0 s /\ In row (ex_rows s) /\
  ac_import strict (InArray (cr_cert row)) FBytes true = Ok c /\ is_key (c_issuer c) = au_pub ex_authority /\
  c_atts c = Some l /\ In (Att (lit "/a/level") AString (Some [233; 57]%N) (Some (lit "level")) None) l /\
  forall g uid a v, In g (sy_grants s) -> assigned (gr_db g) uid a v -> v = Some [233; 49]%N.
Proof.
  pose (s := ex_step ex_leveled (ex_starts ex_changed)).
  assert (L : List.length (ex_rows s) = 1%nat) by (vm_compute; reflexivity). destruct (ex_rows s) as [|row [|]] eqn:R; try discriminate L.
  assert (D : match ac_import strict (InArray (cr_cert row)) FBytes true with
              | Ok c => bytes_eqb (is_key (c_issuer c)) [7]%N = true /\ exists l, c_atts c = Some l /\ In (Att (lit "/a/level") AString (Some [233; 57]%N) (Some (lit "level")) None) l
              | Err _ => False end).
  { replace row with (hd row (ex_rows s)) by (rewrite R; reflexivity). unfold s. vm_compute. split; [reflexivity|]. eexists. split; [reflexivity|]. now left. }
  destruct (ac_import strict (InArray (cr_cert row)) FBytes true) as [c|] eqn:M; [|contradiction]. destruct D as [D1 (l & D2 & D3)]. apply str_eqb_eq in D1.
  exists (ex_sys ex_levels), s, row, c, l. split; [apply ex_begins, ex_levels_ok|]. split.
  - apply run_event; [unfold ex_leveled; apply run_event; [constructor|exact I]|]. split; [unfold sid_ok; lia|].
    intros l' r [= <-] [<-|[]]. apply ex_unforged. vm_compute. auto.
  - rewrite R. split; [now left|]. split; [exact M|]. split; [exact D1|]. split; [exact D2|]. split; [exact D3|].
    intros g uid a v J (_ & A). assert (Q : gr_db g = ex_levels).
    { assert (X : map gr_db (sy_grants s) = [ex_levels]) by (vm_compute; reflexivity). apply (in_map gr_db) in J. rewrite X in J. destruct J as [J|[]]. now symmetry. }
    rewrite Q in A. destruct A as [A|[]]. now injection A.
Qed.
Print Assumptions C120_text_refuted.
