(** * PAuthProps: theorems about the policy authority (C43-C49, C62, C63, C67) *)

From Coq Require Import NArith ZArith List Bool Lia String.
From Verif Require Import PyBase Parser TypeCheck LexProofs Struct BytesProofs AttCert CertSpec CertProofs CertProofs3 CertProps CertProps2 ConfigProps PAuth PAuthSpec PAuthProofs.
Import ListNotations.
Open Scope Z_scope.

(** ** A concrete authority and request *)

Definition ex_row : aauth_row := AAuth (lit "/aauth/1") (lit "A") (lit "http://a") (lit "RSA") 2048 (lit "key one") 1.
Definition ex_bad_row : aauth_row := AAuth (lit "/aauth/2") (lit "B") (lit "http://b") (lit "RSA") 2048 (lit "key two") 0.
Definition ex_db : pdb := PDB [ex_row; ex_bad_row] [] [] [] [].
Definition ex_with (serial before : Z) : cert :=
  Cert (c_issuer ex_cert) (c_holder ex_cert) (Info 0 serial 1000) (c_atts ex_cert) (Rev 1000 before None None)
       (c_del ex_cert) (c_exts ex_cert) None.
Definition out_bytes (p : cert * res pyout) : bytes := match snd p with Ok (OutBytes b) => b | _ => [] end.
Definition ex_raw (f : xformat) (n serial before : Z) : raw_cert :=
  Raw (out_bytes (ac_export toy (ex_with serial before) f true (Some 7%N) default_algo)) 1 n.
Definition ex_now (t : Z) (i : nat) : Z := t.

(** ** C43: acceptance *)

Theorem C43_exact : forall K r rows now c, NoDup (map aa_uid rows) ->
  ((exists f, format_of (rw_format r) = Ok f /\ check_cert K r f rows now = Ok c) <-> accepted K rows r now c).
Proof. exact check_spec. Qed.
Print Assumptions C43_exact.

Theorem C43_refused : forall K r f rows now e, check_cert K r f rows now = Err e -> e = EClientFault.
Proof.
  intros K r f rows now e. unfold check_cert. destruct (negb (rw_version r =? ac_version)); [congruence|].
  assert (G : match ac_import K (InArray (rw_data r)) f true with
              | Ok c => match aauth_get rows (is_uid (c_issuer c)) with
                        | Some a => if aa_trust a <=? 0 then Err EClientFault else if negb (verify_time c now) then Err EClientFault else Ok c
                        | None => Err EClientFault end
              | Err _ => Err EClientFault end = Err e -> e = EClientFault).
  { destruct (ac_import K (InArray (rw_data r)) f true) as [c|]; [|congruence].
    destruct (aauth_get rows (is_uid (c_issuer c))) as [a|]; [|congruence].
    destruct (aa_trust a <=? 0); [congruence|]. destruct (negb (verify_time c now)); congruence. }
  destruct f; solve [exact G|congruence].
Qed.
Print Assumptions C43_refused.

(** The format BASE64FULL passes the list of formats but is never accepted. *)
Theorem C43_base64full : forall K r rows now c, NoDup (map aa_uid rows) -> rw_format r = 4 -> ~ accepted K rows r now c.
Proof. intros K r rows now c N F (_ & (f & G & _) & _). rewrite F in G. inversion G. Qed.
Print Assumptions C43_base64full.

(** Nothing depends on the version inside the certificate, only on the one in the request. *)
Example ex_accepted :
  accepted toy (d_aauths ex_db) (ex_raw FBytes 0 5 2000) 1500 (fst (ac_export toy (ex_with 5 2000) FBytes true (Some 7%N) default_algo)) /\
  i_version (c_info (ex_with 5 2000)) = 0.
Proof.
  split; [|reflexivity]. apply C43_exact.
  - repeat constructor; cbn [In map aa_uid]; intros H; repeat (destruct H as [H|H]; try (vm_compute in H; discriminate)); auto.
  - exists FBytes. split; vm_compute; reflexivity.
Qed.

(** ** C44: anyone can sign for a trusted authority *)

(** Whoever has some key pair of their own can make an accepted certificate with any content
    naming a trusted authority. *)
Theorem C44_forged : forall K rows c f n sk pk algo c' b now,
  trusted rows (is_uid (c_issuer c)) ->
  key_pair K sk pk -> k_import K (is_key (c_issuer c)) = Ok pk ->
  body_kept c -> cert_octets c -> text_kept algo -> good_format n f ->
  rv_after (c_rev c) < now < rv_before (c_rev c) ->
  ac_export K c f true (Some sk) algo = (c', Ok (OutBytes b)) ->
  same_content c' c /\ accepted K rows (Raw b 1 n) now c'.
Proof.
  intros K rows c f n sk pk algo c' b now T P I B O A G W E.
  assert (R : reads f (OutBytes b) (InArray b)) by (destruct G; cbn; auto).
  assert (F : f <> FText) by (destruct G; discriminate).
  destruct (C39_signed K c f sk pk algo c' _ _ F B O A P I E R) as [SC IM]. split; [exact SC|].
  apply C38_verified in IM as [IM V]. destruct SC as (S1 & _ & S3 & _ & S5 & _).
  unfold accepted. cbn [rw_version rw_format rw_data]. rewrite S1, S5. split; [reflexivity|].
  split; [exists f; auto|]. auto.
Qed.
Print Assumptions C44_forged.
(** With every such content there is such a request (the signature has to fit its field). *)
Theorem C44_possible : forall K rows c n f sk pk algo s now,
  trusted rows (is_uid (c_issuer c)) ->
  key_pair K sk pk -> k_import K (is_key (c_issuer c)) = Ok pk ->
  body_kept c -> body_fits c -> cert_octets c -> text_kept algo -> text_fits algo -> good_format n f ->
  (forall w, encode_body c = Ok w -> k_sign K sk (k_hash K w) = Ok s) -> small s ->
  rv_after (c_rev c) < now < rv_before (c_rev c) ->
  exists b c', same_content c' c /\ accepted K rows (Raw b 1 n) now c'.
Proof.
  intros K rows c n f sk pk algo s now T P I B BF O A AF G S SS W.
  assert (F : f = FBytes \/ f = FBase64 \/ f = FBase64Full) by (destruct G; auto).
  destruct (C39_exported K c f sk algo s F BF AF S SS) as [o E].
  assert (Q : exists b, o = OutBytes b).
  { unfold ac_export in E. destruct G; cbv beta iota in E; destruct (ac_encode K c true (Some sk) algo) as [x [y|e]]; cbn [bind] in E; try discriminate;
      apply out_inj in E as [_ <-]; eauto. }
  destruct Q as [b ->]. exists b. eexists. exact (C44_forged K rows c f n sk pk algo _ b now T P I B O A G W E).
Qed.
Print Assumptions C44_possible.

(** The keys in the database make no difference to any request. *)
Definition rekey (g : aauth_row -> str) (d : pdb) : pdb :=
  PDB (map (fun a => AAuth (aa_uid a) (aa_name a) (aa_url a) (aa_cipher a) (aa_size a) (g a) (aa_trust a)) (d_aauths d))
      (d_policies d) (d_certs d) (d_links d) (d_sessions d).
Theorem C44_keys_unused : forall K g d service set sid now ip,
  start_session K (rekey g d) service set sid now ip =
  (rekey g (fst (start_session K d service set sid now ip)), snd (start_session K d service set sid now ip)).
Proof.
  intros K g d service set sid now ip.
  set (h := fun a => AAuth (aa_uid a) (aa_name a) (aa_url a) (aa_cipher a) (aa_size a) (g a) (aa_trust a)).
  assert (G : forall rows uid, aauth_get (map h rows) uid = option_map h (aauth_get rows uid)).
  { intros rows uid. unfold aauth_get.
    assert (Q : forall rows acc, fold_left (fun a r => if str_eqb (aa_uid r) uid then Some r else a) (map h rows) (option_map h acc) =
      option_map h (fold_left (fun a r => if str_eqb (aa_uid r) uid then Some r else a) rows acc)).
    { clear rows. induction rows as [|r rows IH]; intros acc; [reflexivity|]. cbn [map fold_left].
      change (aa_uid (h r)) with (aa_uid r). rewrite <- IH. now destruct (str_eqb (aa_uid r) uid). }
    exact (Q rows None). }
  assert (C : forall r f rows t, check_cert K r f (map h rows) t = check_cert K r f rows t).
  { intros r f rows t. unfold check_cert. destruct (negb (rw_version r =? ac_version)); [reflexivity|].
    destruct f; try reflexivity; destruct (ac_import K (InArray (rw_data r)) _ true) as [c|]; try reflexivity; rewrite G;
      destruct (aauth_get rows (is_uid (c_issuer c))) as [a|]; reflexivity. }
  assert (L : forall sx l i st, session_loop K (rekey g d) sx now i l st = session_loop K d sx now i l st).
  { intros sx. induction l as [|r l IH]; intros i st; [reflexivity|]. cbn [session_loop].
    destruct (format_of (rw_format r)) as [f|]; cbn [bind]; [|reflexivity].
    change (d_aauths (rekey g d)) with (map h (d_aauths d)). rewrite C.
    destruct (check_cert K r f (d_aauths d) (now (S i))) as [c|]; cbn [bind]; [|reflexivity].
    destruct (int_to_b64 (i_serial (c_info c))) as [s|]; cbn [bind]; [|reflexivity].
    change (d_certs (rekey g d)) with (d_certs d).
    destruct (match find _ (d_certs d) with Some _ => _ | None => _ end) as [n|]; cbn [bind]; [|reflexivity]. apply IH. }
  unfold start_session. assert (R : start_session_res K (rekey g d) service set sid now ip =
    match start_session_res K d service set sid now ip with Ok (d', r) => Ok (rekey g d', r) | Err e => Err e end).
  { unfold start_session_res. destruct set as [[[|r l]|]|]; try reflexivity.
    destruct (int_to_b64 sid) as [sx|]; cbn [bind]; [|reflexivity]. rewrite L.
    destruct (session_loop K d sx now 0 (r :: l) (LS (-1) (-1) [] [] [])) as [st|]; cbn [bind]; [|reflexivity].
    destruct (ls_done st); [reflexivity|]. destruct service as [uid|]; [|reflexivity].
    unfold commit. change (d_certs (rekey g d)) with (d_certs d). change (d_links (rekey g d)) with (d_links d).
    change (d_sessions (rekey g d)) with (d_sessions d). destruct (_ || _ || _); reflexivity. }
  rewrite R. destruct (start_session_res K d service set sid now ip) as [[d' r]|e]; reflexivity.
Qed.
Print Assumptions C44_keys_unused.

(** ** C46: all or nothing *)

Theorem C46_success : forall K d service set sid now ip d' ret, keys_ok d -> sid_ok sid ->
  (start_session K d service set sid now ip = (d', Ok ret) <->
   exists l cs, set = Some (Some l) /\ started K d service l sid now ip cs d' ret).
Proof.
  intros K d service set sid now ip d' ret KO SO. unfold start_session. destruct set as [[l|]|].
  - pose proof (start_spec K d service l sid now ip d' ret KO SO) as S.
    destruct (start_session_res K d service (Some (Some l)) sid now ip) as [[d1 r1]|e] eqn:E; split.
    + intros Q. apply out_inj in Q as [<- <-]. destruct (proj1 S eq_refl) as [cs X]. exists l, cs. auto.
    + intros (l' & cs & [= <-] & X). assert (Q : Ok (d1, r1) = Ok (d', ret)) by (apply S; eauto). now injection Q as -> ->.
    + discriminate.
    + intros (l' & cs & [= <-] & X). assert (Q : Err e = Ok (d', ret)) by (apply S; eauto). discriminate.
  - split; [discriminate|]. intros (l & cs & Q & _). discriminate.
  - split; [discriminate|]. intros (l & cs & Q & _). discriminate.
Qed.
Print Assumptions C46_success.

Theorem C46_failure : forall K d service set sid now ip d' e, sid_ok sid ->
  start_session K d service set sid now ip = (d', Err e) ->
  d' = d /\ (e = EClientFault \/ e = EValue \/ e = EIntegrity \/ e = EOverflow).
Proof.
  intros K d service set sid now ip d' e SO H. unfold start_session in H.
  destruct (start_session_res K d service set sid now ip) as [[d1 r]|x] eqn:E; [discriminate|].
  injection H as <- <-. split; [reflexivity|]. unfold start_session_res in E.
  destruct set as [[[|r l]|]|]; try (injection E as <-; auto).
  rewrite (id_ok sid SO) in E. cbn [bind] in E.
  assert (L : forall l i st x, session_loop K d (id_text sid) now i l st = Err x -> x = EClientFault \/ x = EValue \/ x = EOverflow).
  { clear. induction l as [|r l IH]; intros i st x H; [discriminate|]. cbn [session_loop] in H.
    destruct (format_of (rw_format r)) as [f|y] eqn:F; cbn [bind] in H.
    2: { injection H as <-. unfold format_of in F. destruct (_ =? 0); [discriminate|]. destruct (_ =? 1); [discriminate|].
         destruct (_ =? 2); [discriminate|]. destruct (_ =? 3); [discriminate|]. destruct (_ =? 4); [discriminate|]. injection F as <-. auto. }
    destruct (check_cert K r f (d_aauths d) (now (S i))) as [c|y] eqn:C; cbn [bind] in H.
    2: { injection H as <-. apply C43_refused in C. auto. }
    destruct (int_to_b64 (i_serial (c_info c))) as [s|y] eqn:I; cbn [bind] in H.
    2: { injection H as <-. unfold int_to_b64 in I. destruct (_ && _); [discriminate|]. injection I as <-. auto. }
    destruct (match find _ (d_certs d) with Some _ => _ | None => _ end) as [n|y] eqn:N; cbn [bind] in H; [exact (IH _ _ _ H)|].
    injection H as <-. destruct (find _ _) as [row|]; [|discriminate]. destruct (str_eqb _ _); [discriminate|]. injection N as <-. auto. }
  destruct (session_loop K d (id_text sid) now 0 (r :: l) (LS (-1) (-1) [] [] [])) as [st|y] eqn:S; cbn [bind] in E.
  2: { injection E as <-. apply L in S. tauto. }
  destruct (ls_done st); [injection E as <-; auto|]. destruct service as [uid|]; [|injection E as <-; auto].
  unfold commit in E. destruct (_ || _ || _); [|discriminate]. injection E as <-. auto.
Qed.
Print Assumptions C46_failure.

(** One session, one assignment for each certificate, and rows for the new serials. *)
Theorem C46_rows : forall K d service l sid now ip d' ret, keys_ok d -> sid_ok sid ->
  start_session K d service (Some (Some l)) sid now ip = (d', Ok ret) ->
  d_aauths d' = d_aauths d /\ d_policies d' = d_policies d /\
  (exists s, d_sessions d' = d_sessions d ++ [s]) /\
  (exists ks, d_links d' = d_links d ++ ks /\ List.length ks = List.length l) /\
  (exists rows, d_certs d' = d_certs d ++ rows /\ (forall row, In row rows -> ~ stored d (cr_serial row))).
Proof.
  intros K d service l sid now ip d' ret KO SO H. apply (C46_success K d service _ sid now ip d' ret KO SO) in H as (l' & cs & [= <-] & S).
  destruct S as [S1 S2 S3 S4 S5 S6 (uid & -> & ->) S8]. cbn [d_aauths d_policies d_certs d_links d_sessions].
  repeat split; eauto.
  - eexists. split; [reflexivity|]. rewrite map_length. clear - S3. induction S3; cbn; congruence.
  - eexists. split; [reflexivity|]. intros row I St. unfold new_rows in I. apply filter_In in I as [_ I].
    apply storedb_spec in St. rewrite St in I. discriminate.
Qed.
Print Assumptions C46_rows.
Example ex_start :
  let '(d', r) := start_session toy ex_db (Some (lit "svc")) (Some (Some [ex_raw FBytes 0 5 2000; ex_raw FBase64 3 6 3000])) 77 (ex_now 1500) (lit "10.0.0.1") in
  r = Ok (SessionRet 77 2000 1500) /\ List.length (d_certs d') = 2%nat /\ List.length (d_links d') = 2%nat.
Proof. vm_compute. auto. Qed.
Example ex_keys : keys_ok ex_db.
Proof.
  unfold keys_ok. cbn [ex_db d_aauths d_certs d_links d_sessions map aa_uid]. split; [|repeat split; constructor].
  constructor; [|constructor; [intros []|constructor]]. intros [H|[]]. vm_compute in H. discriminate.
Qed.
(** The same certificate twice in a request is an IntegrityError. *)
Example ex_twice :
  start_session toy ex_db (Some (lit "svc")) (Some (Some [ex_raw FBytes 0 5 2000; ex_raw FBytes 0 5 2000])) 77 (ex_now 1500) (lit "10.0.0.1")
  = (ex_db, Err EIntegrity).
Proof. vm_compute. reflexivity. Qed.

(** ** C45: lifetimes *)

Theorem C45_lifetime : forall K d service l sid now ip d' ret, keys_ok d -> sid_ok sid ->
  start_session K d service (Some (Some l)) sid now ip = (d', Ok ret) ->
  exists cs s, Forall2 (fun p c => accepted K (d_aauths d) (fst p) (snd p) c) (timed now l) cs /\
    d_sessions d' = d_sessions d ++ [s] /\
    sr_start ret = now O /\ se_start s = now O /\ se_till s = sr_till ret /\
    sr_till ret <= now O + 86400 /\ (forall c, In c cs -> sr_till ret <= rv_before (c_rev c)) /\
    (sr_till ret = now O + 86400 \/ exists c, In c cs /\ sr_till ret = rv_before (c_rev c)) /\
    (forall c, In c cs -> se_cert_till s <= rv_before (c_rev c)) /\ (exists c, In c cs /\ se_cert_till s = rv_before (c_rev c)) /\
    (forall c, In c cs -> i_issued (c_info c) <= se_cert_start s) /\ (exists c, In c cs /\ se_cert_start s = i_issued (c_info c)).
Proof.
  intros K d service l sid now ip d' ret KO SO H. apply (C46_success K d service _ sid now ip d' ret KO SO) in H as (l' & cs & [= <-] & S).
  destruct S as [S1 S2 S3 S4 S5 S6 (uid & -> & ->) ->]. cbn [d_sessions].
  assert (CN : cs <> []). { intros ->. inversion S3; subst. congruence. }
  assert (LE : forall c, In c cs -> least (ends cs) <= rv_before (c_rev c)).
  { intros c I. apply least_le. unfold ends. apply in_map_iff. eauto. }
  assert (LI : exists c, In c cs /\ least (ends cs) = rv_before (c_rev c)).
  { assert (I : In (least (ends cs)) (ends cs)) by (apply least_in; unfold ends; destruct cs; [congruence|discriminate]).
    unfold ends in I at 2. apply in_map_iff in I as (c & E & I). exists c. auto. }
  assert (GE : forall c, In c cs -> i_issued (c_info c) <= greatest (issues cs)).
  { intros c I. apply greatest_ge. unfold issues. apply in_map_iff. eauto. }
  assert (GI : exists c, In c cs /\ greatest (issues cs) = i_issued (c_info c)).
  { assert (I : In (greatest (issues cs)) (issues cs)) by (apply greatest_in; unfold issues; destruct cs; [congruence|discriminate]).
    unfold issues in I at 2. apply in_map_iff in I as (c & E & I). exists c. auto. }
  exists cs. eexists. split; [exact S2|]. split; [reflexivity|]. unfold session_of.
  cbn [sr_start sr_till se_start se_till se_cert_till se_cert_start]. repeat split; auto; try lia.
  - intros c I. specialize (LE c I). lia.
  - destruct (Z.min_spec (now 0%nat + 86400) (least (ends cs))) as [[_ ->]|[_ ->]]; [now left|right; exact LI].
Qed.
Print Assumptions C45_lifetime.

(** If the clock does not run backwards the session is not over when it starts. *)
Theorem C45_alive : forall K d service l sid now ip d' ret, keys_ok d -> sid_ok sid ->
  (forall i, now O <= now i) ->
  start_session K d service (Some (Some l)) sid now ip = (d', Ok ret) -> sr_start ret < sr_till ret.
Proof.
  intros K d service l sid now ip d' ret KO SO M H.
  destruct (C45_lifetime K d service l sid now ip d' ret KO SO H) as (cs & s & A & _ & -> & _ & _ & _ & _ & [->|(c & I & ->)] & _); [lia|].
  assert (T : forall n ps cs, Forall2 (fun p c => accepted K (d_aauths d) (fst p) (snd p) c) (combine ps (map (fun i => now (S i)) (seq n (List.length ps)))) cs ->
    forall c, In c cs -> now O < rv_before (c_rev c)).
  { clear - M. intros n ps. revert n. induction ps as [|p ps IH]; intros n cs A c I; inversion A as [|x y xs ys A1 A2]; subst; [destruct I|].
    destruct I as [->|I]; [|exact (IH (S n) _ A2 c I)]. destruct A1 as (_ & _ & _ & _ & W). cbn [snd] in W. specialize (M (S n)). lia. }
  exact (T O l cs A c I).
Qed.
Print Assumptions C45_alive.

(** ** C47, C62: any history *)

Inductive history (K : crypto) (d0 : pdb) : pdb -> Prop :=
| h_start : history K d0 d0
| h_request : forall d service set sid now ip, history K d0 d -> sid_ok sid ->
    history K d0 (fst (start_session K d service set sid now ip)).

(** No certificates, assignments and sessions yet; any authorities and policies. *)
Definition fresh_db (d : pdb) : Prop :=
  NoDup (map aa_uid (d_aauths d)) /\ d_certs d = [] /\ d_links d = [] /\ d_sessions d = [].

Record well_formed (d : pdb) : Prop := {
  wf_keys : keys_ok d;
  wf_link_cert : forall k, In k (d_links d) -> exists row, In row (d_certs d) /\ cr_serial row = lk_serial k;
  wf_link_session : forall k, In k (d_links d) -> exists s, In s (d_sessions d) /\ se_id s = lk_session k;
  wf_session_link : forall s, In s (d_sessions d) -> exists k, In k (d_links d) /\ lk_session k = se_id s;
  wf_cert_link : forall row, In row (d_certs d) -> exists k, In k (d_links d) /\ lk_serial k = cr_serial row;
  wf_lifetime : forall s, In s (d_sessions d) -> se_till s <= se_start s + 86400 /\ se_till s <= se_cert_till s
}.

Lemma combine_map_snd : forall A B (l : list A) (m : list B), List.length l = List.length m -> map snd (combine l m) = m.
Proof. induction l as [|x l IH]; intros [|y m] E; try discriminate; [reflexivity|]. cbn. f_equal. apply IH. now injection E. Qed.

Lemma started_length : forall K d service l sid now ip cs d' ret, started K d service l sid now ip cs d' ret -> List.length l = List.length cs.
Proof. intros K d service l sid now ip cs d' ret S. pose proof (st_hash _ _ _ _ _ _ _ _ _ _ S) as H. clear - H. induction H; cbn; congruence. Qed.

Lemma NoDup_app : forall A (l m : list A), NoDup l -> NoDup m -> (forall x, In x m -> ~ In x l) -> NoDup (l ++ m).
Proof.
  intros A l m L M D. induction L as [|x l I L IH]; [exact M|]. cbn [app]. constructor.
  - intros J. apply in_app_iff in J as [J|J]; [auto|]. apply (D x J). now left.
  - apply IH. intros y J K. apply (D y J). now right.
Qed.

Lemma step_wf : forall K d service l sid now ip cs d' ret, well_formed d ->
  started K d service l sid now ip cs d' ret -> well_formed d'.
Proof.
  intros K d service l sid now ip cs d' ret W ST. pose proof (started_length _ _ _ _ _ _ _ _ _ _ ST) as LC.
  destruct W as [(W1 & W2 & W3 & W4) WA WB WC WD WE].
  destruct ST as [S1 S2 S3 S4 S5 S6 (uid & -> & ->) S8].
  assert (Fs : Forall (fun c => 0 <= i_serial (c_info c) < 2 ^ 160) cs) by (apply (Forall_impl _ (fun c X => proj1 X) (accepted_all _ _ _ _ S2))).
  assert (CN : exists c, In c cs). { destruct cs as [|c cs]; [inversion S3; subst; congruence|]. exists c. now left. }
  assert (ND : NoDup (map (fun c => Link (serial_text c) (id_text sid)) cs)) by (apply serials_distinct; auto).
  assert (NS : NoDup (map serial_text cs)).
  { rewrite <- (map_map serial_text (fun s => Link s (id_text sid))) in ND. exact (NoDup_map_inv _ _ ND). }
  assert (NR : forall row, In row (new_rows K d l cs) -> ~ stored d (cr_serial row) /\ exists c, In c cs /\ cr_serial row = serial_text c).
  { intros row I. unfold new_rows in I. apply filter_In in I as [I N]. split.
    - intros St. apply storedb_spec in St. rewrite St in N. discriminate.
    - apply in_map_iff in I as ([r c] & <- & I). exists c. split; [exact (in_combine_r _ _ _ _ I)|reflexivity]. }
  assert (HC : forall c, In c cs -> exists row, In row (d_certs d ++ new_rows K d l cs) /\ cr_serial row = serial_text c).
  { intros c I. destruct (storedb d (serial_text c)) eqn:St.
    - apply storedb_spec in St. apply in_map_iff in St as (row & Q & J). exists row. split; [apply in_app_iff; now left|exact Q].
    - assert (J : In c (map snd (combine l cs))) by (rewrite combine_map_snd; auto).
      apply in_map_iff in J as ([r c'] & Q & J). cbn [snd] in Q. subst c'. exists (row_of K r c). split; [|reflexivity].
      apply in_app_iff. right. unfold new_rows. apply filter_In. split.
      + apply in_map_iff. exists (r, c). auto.
      + change (cr_serial (row_of K r c)) with (serial_text c). now rewrite St. }
  constructor; cbn [d_aauths d_certs d_links d_sessions].
  - unfold keys_ok. cbn [d_aauths d_certs d_links d_sessions]. split; [exact W1|]. rewrite !map_app. repeat split.
    + apply NoDup_app; [exact W2| |].
      * rewrite (new_rows_serials K d l cs LC). now apply NoDup_filter'.
      * intros x I J. apply in_map_iff in I as (row & <- & I). apply NR in I as [I _]. auto.
    + apply NoDup_app; auto. intros x I. apply in_map_iff in I as (c & <- & I). now apply S6.
    + apply NoDup_app; [exact W4|constructor; [auto|constructor]|]. intros x [<-|[]]. exact S5.
  - intros k I. apply in_app_iff in I as [I|I].
    + destruct (WA k I) as (row & J & Q). exists row. split; [apply in_app_iff; now left|exact Q].
    + apply in_map_iff in I as (c & <- & I). exact (HC c I).
  - intros k I. apply in_app_iff in I as [I|I].
    + destruct (WB k I) as (s & J & Q). exists s. split; [apply in_app_iff; now left|exact Q].
    + apply in_map_iff in I as (c & <- & I). eexists. split; [apply in_app_iff; right; now left|reflexivity].
  - intros s I. apply in_app_iff in I as [I|[<-|[]]].
    + destruct (WC s I) as (k & J & Q). exists k. split; [apply in_app_iff; now left|exact Q].
    + destruct CN as [c I]. exists (Link (serial_text c) (id_text sid)). split; [|reflexivity].
      apply in_app_iff. right. apply in_map_iff. eauto.
  - intros row I. apply in_app_iff in I as [I|I].
    + destruct (WD row I) as (k & J & Q). exists k. split; [apply in_app_iff; now left|exact Q].
    + apply NR in I as (_ & c & I & Q). exists (Link (serial_text c) (id_text sid)). split; [|auto].
      apply in_app_iff. right. apply in_map_iff. eauto.
  - intros s I. apply in_app_iff in I as [I|[<-|[]]]; [auto|]. unfold session_of. cbn [se_till se_start se_cert_till]. lia.
Qed.

Lemma history_ind' : forall K d0 (P : pdb -> Prop), keys_ok d0 -> P d0 ->
  (forall d, P d -> keys_ok d) ->
  (forall d service l sid now ip cs d' ret, P d -> sid_ok sid -> started K d service l sid now ip cs d' ret -> P d') ->
  forall d, history K d0 d -> P d.
Proof.
  intros K d0 P K0 P0 PK PS d H. induction H as [|d service set sid now ip H IH SO]; [exact P0|].
  destruct (start_session K d service set sid now ip) as [d' [ret|e]] eqn:E; cbn [fst].
  - apply (C46_success K d service set sid now ip d' ret (PK d IH) SO) in E as (l & cs & _ & S). exact (PS _ _ _ _ _ _ _ _ _ IH SO S).
  - apply (C46_failure _ _ _ _ _ _ _ _ _ SO) in E as [-> _]. exact IH.
Qed.

Lemma fresh_wf : forall d, fresh_db d -> well_formed d.
Proof.
  intros d (F1 & F2 & F3 & F4). constructor; unfold keys_ok; rewrite ?F2, ?F3, ?F4; try (intros ? []).
  repeat split; auto; constructor.
Qed.

Theorem C47_well_formed : forall K d0 d, fresh_db d0 -> history K d0 d -> well_formed d.
Proof.
  intros K d0 d F H. pose proof (fresh_wf d0 F) as W. apply (history_ind' K d0 well_formed); auto.
  - exact (wf_keys d0 W).
  - exact wf_keys.
  - intros. eapply step_wf; eauto.
Qed.
Print Assumptions C47_well_formed.
Example ex_fresh : fresh_db ex_db.
Proof. destruct ex_keys as (A & _). repeat split. exact A. Qed.

(** Every stored certificate was verified, in the format and version stored, when it was
    stored; its serial, end and hash are those of the row; its issuer is trusted. *)
Definition vouched (K : crypto) (rows : list aauth_row) (row : cert_row) : Prop :=
  exists c f, good_format (cr_format row) f /\ ac_import K (InArray (cr_cert row)) f true = Ok c /\
    cr_version row = 1 /\ cr_serial row = serial_text c /\ cr_till row = rv_before (c_rev c) /\
    cr_hash row = b64encode (k_hash K (if cr_format row =? 0 then [] else cr_cert row)) /\
    trusted rows (is_uid (c_issuer c)).
Theorem C62_vouched : forall K d0 d row, fresh_db d0 -> history K d0 d -> In row (d_certs d) -> vouched K (d_aauths d0) row.
Proof.
  intros K d0 d row F H. revert row.
  assert (G : well_formed d /\ d_aauths d = d_aauths d0 /\ forall row, In row (d_certs d) -> vouched K (d_aauths d0) row).
  { pose proof (fresh_wf d0 F) as W.
    apply (history_ind' K d0 (fun d => well_formed d /\ d_aauths d = d_aauths d0 /\ forall row, In row (d_certs d) -> vouched K (d_aauths d0) row)); auto.
    - exact (wf_keys d0 W).
    - split; [exact W|]. split; [reflexivity|]. destruct F as (_ & -> & _). intros ? [].
    - intros d1 (W1 & _). exact (wf_keys d1 W1).
    - intros d1 service l sid now ip cs d' ret (W1 & AA & V) SO S. split; [eapply step_wf; eauto|].
      destruct S as [S1 S2 S3 S4 S5 S6 (uid & -> & ->) S8]. cbn [d_aauths d_certs]. split; [exact AA|].
      intros row I. apply in_app_iff in I as [I|I]; [auto|]. unfold new_rows in I. apply filter_In in I as [I _].
      assert (Q : exists r c t, accepted K (d_aauths d1) r t c /\ row = row_of K r c).
      { unfold timed in S2. clear - S2 I. revert cs S2 I. generalize (map (fun i => now (S i)) (seq 0 (List.length l))) as ts.
        induction l as [|r l IH]; intros ts cs S2 I; [destruct I|]. destruct cs as [|c cs]; [destruct I|].
        destruct ts as [|t ts]; cbn [combine] in S2; [inversion S2|]. inversion S2; subst. cbn [combine map] in I.
        destruct I as [<-|I]; [exists r, c, t; auto|]. exact (IH ts cs H4 I). }
      destruct Q as (r & c & t & (A1 & (f & A2 & A3) & A4 & A5 & A6) & ->). exists c, f. rewrite AA in A5.
      unfold row_of. cbn [cr_format cr_cert cr_version cr_serial cr_till cr_hash]. repeat split; auto. apply C38_verified. auto. }
  apply G.
Qed.
Print Assumptions C62_vouched.

(** ** C48: serial numbers in use *)

(** A stored BYTES certificate does not protect its serial: any other accepted BYTES
    certificate with that serial starts a session and is recorded as the stored one. *)
Theorem C48_reused : forall K d uid row r c sid now ip, keys_ok d -> sid_ok sid ->
  In row (d_certs d) -> cr_hash row = b64encode (k_hash K []) ->
  rw_format r = 0 -> accepted K (d_aauths d) r (now 1%nat) c -> serial_text c = cr_serial row ->
  ~ In (id_text sid) (map se_id (d_sessions d)) -> ~ In (Link (cr_serial row) (id_text sid)) (d_links d) ->
  exists d' ret, start_session K d (Some uid) (Some (Some [r])) sid now ip = (d', Ok ret) /\
    d_certs d' = d_certs d /\ d_links d' = d_links d ++ [Link (cr_serial row) (id_text sid)] /\
    sr_till ret = Z.min (now O + 86400) (rv_before (c_rev c)).
Proof.
  intros K d uid row r c sid now ip KO SO I H F A S N1 N2.
  assert (NR : new_rows K d [r] [c] = []).
  { unfold new_rows. cbn [combine map fst snd filter]. change (cr_serial (row_of K r c)) with (serial_text c).
    rewrite (proj2 (storedb_spec d (serial_text c))); [reflexivity|]. unfold stored. rewrite S. now apply in_map. }
  eexists. eexists. split.
  - apply C46_success; auto. exists [r], [c]. split; [reflexivity|]. constructor.
    + discriminate.
    + constructor; [exact A|constructor].
    + constructor; [|constructor]. intros row' I' Q'. destruct KO as (_ & U & _).
      pose proof (find_row d (cr_serial row) U) as FR. destruct (find _ _) as [x|].
      * destruct FR as (_ & _ & Un). rewrite (Un row' I'), <- (Un row I eq_refl) by congruence.
        unfold hash_of. now rewrite F.
      * exfalso. apply FR. unfold stored. now apply in_map.
    + constructor; [auto|constructor].
    + exact N1.
    + intros c' [<-|[]]. now rewrite S.
    + exists uid. split; [reflexivity|]. rewrite NR. cbn [map]. rewrite S. reflexivity.
    + reflexivity.
  - cbn [d_certs d_links sr_till ends map least]. now rewrite app_nil_r.
Qed.
Print Assumptions C48_reused.

(** By C62 that is the hash of every stored BYTES certificate. *)
Theorem C48_hash : forall K d0 d row, fresh_db d0 -> history K d0 d -> In row (d_certs d) -> cr_format row = 0 ->
  cr_hash row = b64encode (k_hash K []).
Proof.
  intros K d0 d row F H I Q. destruct (C62_vouched K d0 d row F H I) as (c & f & _ & _ & _ & _ & _ & R & _). now rewrite Q in R.
Qed.
Print Assumptions C48_hash.

(** A request with a certificate whose serial is stored with another hash is refused. *)
Theorem C48_refused : forall K d service r c row sid now ip, keys_ok d -> sid_ok sid ->
  In row (d_certs d) -> accepted K (d_aauths d) r (now 1%nat) c -> cr_serial row = serial_text c ->
  cr_hash row <> hash_of K r ->
  start_session K d service (Some (Some [r])) sid now ip = (d, Err EClientFault).
Proof.
  intros K d service r c row sid now ip KO SO I A S H. unfold start_session, start_session_res.
  rewrite (id_ok sid SO). cbn [bind session_loop].
  assert (AU : NoDup (map aa_uid (d_aauths d))) by apply KO. assert (CU : NoDup (map cr_serial (d_certs d))) by apply KO.
  pose proof A as A'. apply check_spec in A' as (f & F & C); auto. rewrite F. cbn [bind]. rewrite C. cbn [bind].
  rewrite (id_ok _ (accepted_serial _ _ _ _ _ A)). cbn [bind]. fold (serial_text c).
  assert (G : good_format (rw_format r) f).
  { destruct A as (_ & (f' & G & _) & _). pose proof (format_good _ _ G). congruence. }
  rewrite (hash_left K r f G). pose proof (find_row d (serial_text c) CU) as FR. destruct (find _ _) as [x|].
  - destruct FR as (_ & _ & Un). rewrite <- (Un row I S). destruct (str_eqb (cr_hash row) (hash_of K r)) eqn:E; [|reflexivity].
    apply str_eqb_eq in E. contradiction.
  - exfalso. apply FR. unfold stored. rewrite <- S. now apply in_map.
Qed.
Print Assumptions C48_refused.

Definition ex_db1 : pdb := fst (start_session toy ex_db (Some (lit "svc")) (Some (Some [ex_raw FBytes 0 5 2000])) 77 (ex_now 1500) (lit "10.0.0.1")).
Definition ex_db2 : pdb := fst (start_session toy ex_db1 (Some (lit "svc")) (Some (Some [ex_raw FBytes 0 5 9000])) 78 (ex_now 1600) (lit "10.0.0.2")).
Example ex_reused :
  snd (start_session toy ex_db1 (Some (lit "svc")) (Some (Some [ex_raw FBytes 0 5 9000])) 78 (ex_now 1600) (lit "10.0.0.2")) = Ok (SessionRet 78 9000 1600)
  /\ d_certs ex_db2 = d_certs ex_db1.
Proof. vm_compute. auto. Qed.

(** ** C63: a session and the certificates recorded for it *)

(** It can outlive every certificate recorded for it. *)
Theorem C63_outlives_refuted : exists K d0 d s k row, fresh_db d0 /\ history K d0 d /\ In s (d_sessions d) /\
  In k (d_links d) /\ lk_session k = se_id s /\ In row (d_certs d) /\ cr_serial row = lk_serial k /\
  cr_till row < se_till s /\ (forall k', In k' (d_links d) -> lk_session k' = se_id s -> k' = k).
Proof.
  exists toy, ex_db, ex_db2, (nth 1 (d_sessions ex_db2) (Sess [] 0 0 0 [] [] 0)), (nth 1 (d_links ex_db2) (Link [] [])),
    (nth 0 (d_certs ex_db2) (CertRow [] [] 0 0 0 [])).
  split; [exact ex_fresh|]. split; [|split; [|split; [|split; [|split; [|split; [|split]]]]]].
  - unfold ex_db2. constructor; [|unfold sid_ok; lia]. unfold ex_db1. constructor; [constructor|unfold sid_ok; lia].
  - apply nth_In. vm_compute. lia.
  - apply nth_In. vm_compute. lia.
  - vm_compute. reflexivity.
  - apply nth_In. vm_compute. lia.
  - vm_compute. reflexivity.
  - vm_compute. reflexivity.
  - intros k' I Q. vm_compute in I. destruct I as [<-|[<-|[]]]; [vm_compute in Q; discriminate|vm_compute; reflexivity].
Qed.
Print Assumptions C63_outlives_refuted.

(** With BASE64 certificates it cannot, as long as the hash has no collision among the
    certificates sent ([P] holds of them and of the empty text). *)
Definition sent (P : bytes -> Prop) (set : option (option (list raw_cert))) : Prop :=
  forall l r, set = Some (Some l) -> In r l -> P (rw_data r).
Inductive history_of (K : crypto) (P : bytes -> Prop) (d0 : pdb) : pdb -> Prop :=
| hp_start : history_of K P d0 d0
| hp_request : forall d service set sid now ip, history_of K P d0 d -> sid_ok sid -> sent P set ->
    history_of K P d0 (fst (start_session K d service set sid now ip)).
Lemma history_of_history : forall K P d0 d, history_of K P d0 d -> history K d0 d.
Proof. intros K P d0 d H. induction H; constructor; auto. Qed.
Lemma empty_refused : forall K v, exists e, ac_import K (InArray []) FBase64 v = Err e.
Proof. intros K v. eexists. vm_compute. reflexivity. Qed.
Lemma row_request : forall K rows now l cs c, Forall2 (fun p c => accepted K rows (fst p) (snd p) c) (timed now l) cs ->
  In c cs -> exists r t, In (r, c) (combine l cs) /\ accepted K rows r t c.
Proof.
  intros K rows now l cs c. unfold timed. generalize (map (fun i => now (S i)) (seq 0 (List.length l))) as ts. revert cs.
  induction l as [|r l IH]; intros cs ts A I; cbn [combine] in A; [inversion A; subst; destruct I|].
  destruct ts as [|t ts]; inversion A as [|? ? ? ? A1 A2]; subst; [destruct I|]. cbn [combine].
  destruct I as [->|I]; [exists r, t; split; [now left|exact A1]|]. destruct (IH _ _ A2 I) as (r' & t' & J & Q). exists r', t'. split; [now right|exact Q].
Qed.
Theorem C63_base64 : forall K (P : bytes -> Prop) d0 d s k row, fresh_db d0 ->
  (forall w, P w -> octets (k_hash K w)) -> P [] -> (forall a b, P a -> P b -> k_hash K a = k_hash K b -> a = b) ->
  history_of K P d0 d ->
  In s (d_sessions d) -> In k (d_links d) -> lk_session k = se_id s -> In row (d_certs d) -> cr_serial row = lk_serial k ->
  cr_format row = 3 -> se_till s <= cr_till row.
Proof.
  intros K P d0 d s k row F HO P0 PI H.
  cut (well_formed d /\ (forall row, In row (d_certs d) -> P (cr_cert row)) /\
       forall s k row, In s (d_sessions d) -> In k (d_links d) -> lk_session k = se_id s -> In row (d_certs d) -> cr_serial row = lk_serial k ->
       cr_format row = 3 -> se_till s <= cr_till row).
  { intros (_ & _ & G). apply G. }
  clear s k row. induction H as [|d service set sid now ip H IH SO SP].
  - split; [now apply fresh_wf|]. destruct F as (_ & F2 & F3 & F4). rewrite F2, F4. split; [intros ? []|intros s k row []].
  - destruct IH as (W & PC & G). pose proof (history_of_history _ _ _ _ H) as HH.
    destruct (start_session K d service set sid now ip) as [d' [ret|e]] eqn:E; cbn [fst].
    2: { apply (C46_failure _ _ _ _ _ _ _ _ _ SO) in E as [-> _]. auto. }
    apply (C46_success K d service set sid now ip d' ret (wf_keys d W) SO) in E as (l & cs & -> & ST).
    split; [eapply step_wf; eauto|]. pose proof (wf_keys d W) as (_ & CU & _ & SU). pose proof (step_wf _ _ _ _ _ _ _ _ _ _ W ST) as W'.
    destruct ST as [S1 S2 S3 S4 S5 S6 (uid & -> & ->) S8]. cbn [d_certs d_links d_sessions] in *.
    assert (NR : forall row, In row (new_rows K d l cs) -> exists r c, In (r, c) (combine l cs) /\ row = row_of K r c /\ ~ stored d (cr_serial row)).
    { intros row I. unfold new_rows in I. apply filter_In in I as [I N]. apply in_map_iff in I as ([r c] & <- & I). exists r, c.
      split; [exact I|]. split; [reflexivity|]. intros St. apply storedb_spec in St. rewrite St in N. discriminate. }
    split.
    { intros row I. apply in_app_iff in I as [I|I]; [auto|]. apply NR in I as (r & c & I & -> & _). apply (SP l r eq_refl). exact (in_combine_l _ _ _ _ I). }
    intros s k row Is Ik Q Ir R F3. apply in_app_iff in Is as [Is|[<-|[]]].
    + assert (KL : In k (d_links d)).
      { apply in_app_iff in Ik as [Ik|Ik]; [exact Ik|]. apply in_map_iff in Ik as (c & <- & _). cbn [lk_session] in Q.
        exfalso. apply S5. rewrite Q. now apply in_map. }
      apply in_app_iff in Ir as [Ir|Ir]; [eauto|]. apply NR in Ir as (r & c & _ & _ & NS). exfalso. apply NS.
      destruct (wf_link_cert d W k KL) as (row' & J & Q'). unfold stored. rewrite R, <- Q'. now apply in_map.
    + cbn [se_id session_of] in Q. assert (KN : exists c, In c cs /\ k = Link (serial_text c) (id_text sid)).
      { apply in_app_iff in Ik as [Ik|Ik].
        - exfalso. apply S5. destruct (wf_link_session d W k Ik) as (s & J & Q'). rewrite <- Q, <- Q'. now apply in_map.
        - apply in_map_iff in Ik as (c & <- & I). eauto. }
      destruct KN as (c & Ic & ->). cbn [lk_serial] in R.
      assert (LE : least (ends cs) <= rv_before (c_rev c)) by (apply least_le; unfold ends; apply in_map_iff; eauto).
      assert (TILL : rv_before (c_rev c) <= cr_till row).
      { destruct (row_request _ _ _ _ _ _ S2 Ic) as (r & t & IC & A). apply in_app_iff in Ir as [Ir|Ir].
        - assert (HR : cr_hash row = hash_of K r).
          { clear - S3 IC Ir R. induction S3 as [|x y xs ys S _ IH]; [destruct IC|]. destruct IC as [[= -> ->]|IC]; auto. }
          pose proof (SP l r eq_refl (in_combine_l _ _ _ _ IC)) as PR.
          destruct (C62_vouched K d0 d row F HH Ir) as (c2 & f & V1 & V2 & _ & V4 & V5 & V6 & _).
          rewrite F3 in V6, V1. inversion V1; subst f. change (3 =? 0) with false in V6. cbv iota in V6.
          rewrite V6 in HR. unfold hash_of in HR.
          assert (HE : k_hash K (cr_cert row) = k_hash K (if rw_format r =? 0 then [] else rw_data r)).
          { apply (f_equal b64decode) in HR. rewrite !b64_round_trip in HR; [now injection HR| |]; apply HO; auto.
            destruct (rw_format r =? 0); auto. }
          destruct (rw_format r =? 0) eqn:F0.
          + apply PI in HE; auto. rewrite HE in V2. destruct (empty_refused K true) as [e V]. congruence.
          + apply PI in HE; auto. destruct A as (_ & (f & A2 & A3) & A4 & _). inversion A2; subst f.
            * match goal with X : 0 = rw_format r |- _ => rewrite <- X in F0 end. discriminate.
            * rewrite HE in V2. apply C38_verified in V2 as [V2 _]. rewrite V2 in A3. apply Ok_inj in A3. subst c2. lia.
        - apply NR in Ir as (r2 & c2 & I2 & -> & _). change (cr_serial (row_of K r2 c2)) with (serial_text c2) in R.
          change (cr_till (row_of K r2 c2)) with (rv_before (c_rev c2)).
          pose proof (accepted_all _ _ _ _ S2) as AA. rewrite Forall_forall in AA.
          pose proof (in_combine_r _ _ _ _ I2) as I2'.
          assert (SE : i_serial (c_info c2) = i_serial (c_info c)).
          { apply id_inj; auto; apply AA; auto. }
          assert (c2 = c); [|subst; lia]. clear - S4 SE I2' Ic. induction cs as [|x cs IH]; [destruct Ic|]. cbn [map] in S4. apply NoDup_cons_iff in S4 as [N S4].
          destruct I2' as [->|J2], Ic as [->|J]; auto; exfalso; apply N; [rewrite SE|rewrite <- SE]; now apply (in_map (fun c => i_serial (c_info c))). }
      cbn [se_till session_of]. lia.
Qed.
Print Assumptions C63_base64.
Definition ex_db3 : pdb := fst (start_session toy ex_db (Some (lit "svc")) (Some (Some [ex_raw FBase64 3 5 2000])) 77 (ex_now 1500) (lit "10.0.0.1")).
Example ex_base64 : exists d s k row, history_of toy octets ex_db d /\ In s (d_sessions d) /\ In k (d_links d) /\
  lk_session k = se_id s /\ In row (d_certs d) /\ cr_serial row = lk_serial k /\ cr_format row = 3 /\ se_till s = cr_till row.
Proof.
  exists ex_db3, (nth 0 (d_sessions ex_db3) (Sess [] 0 0 0 [] [] 0)), (nth 0 (d_links ex_db3) (Link [] [])),
    (nth 0 (d_certs ex_db3) (CertRow [] [] 0 0 0 [])).
  split; [|split; [|split; [|split; [|split; [|split; [|split]]]]]].
  - unfold ex_db3. constructor; [constructor|unfold sid_ok; lia|]. intros l' r Q I. injection Q as <-. destruct I as [<-|[]].
    apply Forall_forall. intros x I. vm_compute in I. repeat (destruct I as [<-|I]; [reflexivity|]). destruct I.
  - apply nth_In. vm_compute. lia.
  - apply nth_In. vm_compute. lia.
  - vm_compute. reflexivity.
  - apply nth_In. vm_compute. lia.
  - vm_compute. reflexivity.
  - vm_compute. reflexivity.
  - vm_compute. reflexivity.
Qed.

(** ** C49: evaluate *)

(** The object that Ladon makes of a request has no policy_uid. *)
Theorem C49_ladon : forall U same_id d sid atts, evaluate U same_id d sid (ladon_pair atts) = Err EAttribute.
Proof. reflexivity. Qed.
Print Assumptions C49_ladon.

(** Whatever the object's attributes, the database and the policy: it raises. *)
Theorem C49_raises : forall U same_id d sid p, exists e, evaluate U same_id d sid p = Err e /\
  (e = EAttribute \/ e = EClientFault).
Proof.
  intros U same_id d sid [u s a]. unfold evaluate. cbn [pr_uid pr_string pr_atts].
  destruct u as [|[u|]]; cbn [getattr bind]; [eauto| |].
  - destruct (d_sessions d) as [|x l]; [cbn [bind]; eauto|]. destruct (find _ (d_policies d)); cbn [bind]; [|eauto].
    replace (session_attr (lit "policy")) with (@Err unit EAttribute) by reflexivity. cbn [bind]. eauto.
  - destruct s as [|[s|]]; cbn [getattr bind]; [eauto| |eauto].
    assert (C : check_policy U s = Ok tt \/ check_policy U s = Err EClientFault).
    { unfold check_policy. destruct (parse_text U s (-1)) as [[t n]|]; [|auto]. destruct (snd _); auto. }
    destruct C as [->| ->]; cbn [bind]; [|eauto].
    destruct a as [|[l|]]; cbn [getattr bind]; [eauto| |].
    + destruct (existsb _ l); cbn [bind]; [eauto|]. destruct (find _ (d_sessions d)); [|eauto].
      replace (session_attr (lit "valid_till")) with (@Err unit EAttribute) by reflexivity. cbn [bind]. eauto.
    + destruct (find _ (d_sessions d)); [|eauto].
      replace (session_attr (lit "valid_till")) with (@Err unit EAttribute) by reflexivity. cbn [bind]. eauto.
Qed.
Print Assumptions C49_raises.
(** A request with a good policy and session still gets an AttributeError, after the checks. *)
Example ex_evaluate :
  check_policy U0 (lit "1 = 1") = Ok tt /\
  evaluate U0 (fun _ _ => true) ex_db1 77 (PairObj (Has None) (Has (Some (lit "1 = 1"))) (Has None)) = Err EAttribute /\
  evaluate U0 (fun _ _ => true) ex_db1 77 (PairObj (Has None) (Has (Some (lit "1 = "))) (Has None)) = Err EClientFault.
Proof. vm_compute. auto. Qed.

(** ** C67: the list of trusted authorities *)

(** It lists every authority in the database once, also those with trust level 0. *)
Theorem C67_all : forall d, map (fun '(n, u, l, k, t, _) => (u, t)) (trusted_authorities d) = map (fun a => (aa_uid a, aa_trust a)) (d_aauths d).
Proof. intros d. unfold trusted_authorities. rewrite map_map. reflexivity. Qed.
Print Assumptions C67_all.
Theorem C67_untrusted_refuted : exists d n u l k t x, In (n, u, l, k, t, x) (trusted_authorities d) /\ ~ trusted (d_aauths d) u.
Proof.
  exists ex_db, (lit "B"), (lit "/aauth/2"), (lit "http://b"), (lit "key two"), 0, (2048, lit "RSA"). split.
  - right. left. reflexivity.
  - intros (a & [<-|[<-|[]]] & Q & T); [vm_compute in Q; discriminate|cbn in T; lia].
Qed.
Print Assumptions C67_untrusted_refuted.
