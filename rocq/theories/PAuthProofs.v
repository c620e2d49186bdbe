(** * PAuthProofs: lemmas about the policy authority *)

From Coq Require Import NArith ZArith List Bool Lia.
From Verif Require Import PyBase LexProofs Struct BytesProofs AttCert CertSpec CertProofs CertProofs3 CertProps CertProps2 PAuth PAuthSpec.
Import ListNotations.
Open Scope Z_scope.

Lemma aauth_get_spec : forall rows uid a, NoDup (map aa_uid rows) ->
  (aauth_get rows uid = Some a <-> In a rows /\ aa_uid a = uid).
Proof.
  intros rows uid a. unfold aauth_get.
  assert (G : forall rows acc, NoDup (map aa_uid rows) ->
    (fold_left (fun acc r => if str_eqb (aa_uid r) uid then Some r else acc) rows acc = Some a <->
     (In a rows /\ aa_uid a = uid) \/ (acc = Some a /\ ~ In uid (map aa_uid rows)))).
  { clear rows. induction rows as [|r rows IH]; intros acc N; cbn [fold_left In map].
    - tauto.
    - inversion N as [|x y N1 N2]; subst. rewrite (IH _ N2). destruct (str_eqb (aa_uid r) uid) eqn:E.
      + apply str_eqb_eq in E. subst uid. split.
        * intros [[I Q]|[[= ->] I]]; [left; auto|left; auto].
        * intros [[[->|I] Q]|[Q I]]; [right; auto|left; auto|]. exfalso. auto.
      + assert (E' : aa_uid r <> uid) by (intros Q; rewrite <- Q, str_eqb_refl in E; discriminate).
        split.
        * intros [[I Q]|[-> I]]; [left; auto|right; tauto].
        * intros [[[->|I] Q]|[-> I]]; [congruence|left; auto|right; tauto]. }
  intros N. rewrite (G rows None N). split; [intros [H|[H _]]; [exact H|discriminate]|tauto].
Qed.

Lemma trusted_get : forall rows uid, NoDup (map aa_uid rows) ->
  (trusted rows uid <-> exists a, aauth_get rows uid = Some a /\ aa_trust a > 0).
Proof.
  intros rows uid N. unfold trusted. split.
  - intros (a & I & Q & T). exists a. split; [apply aauth_get_spec; auto|exact T].
  - intros (a & G & T). apply aauth_get_spec in G as [I Q]; auto. exists a. auto.
Qed.

Lemma format_good : forall n f, good_format n f -> format_of n = Ok f.
Proof. intros n f []; reflexivity. Qed.

Lemma format_cases : forall n f, format_of n = Ok f ->
  match f with FBytes => n = 0 | FText => n = 1 | FXml => n = 2 | FBase64 => n = 3 | FBase64Full => n = 4 end.
Proof.
  intros n f. unfold format_of.
  destruct (Z.eqb_spec n 0); [intros [= <-]; assumption|]. destruct (Z.eqb_spec n 1); [intros [= <-]; assumption|].
  destruct (Z.eqb_spec n 2); [intros [= <-]; assumption|]. destruct (Z.eqb_spec n 3); [intros [= <-]; assumption|].
  destruct (Z.eqb_spec n 4); [intros [= <-]; assumption|discriminate].
Qed.

Lemma check_spec : forall K r rows now c, NoDup (map aa_uid rows) ->
  ((exists f, format_of (rw_format r) = Ok f /\ check_cert K r f rows now = Ok c) <-> accepted K rows r now c).
Proof.
  intros K r rows now c N. unfold accepted, check_cert, ac_version. split.
  - intros (f & F & H). pose proof (format_cases _ _ F) as FC.
    destruct (Z.eqb_spec (rw_version r) 1) as [V|V]; cbn [negb] in H; [|discriminate]. split; [exact V|].
    assert (G : good_format (rw_format r) f /\ exists x, ac_import K (InArray (rw_data r)) f true = Ok x /\
      match aauth_get rows (is_uid (c_issuer x)) with
      | Some a => if aa_trust a <=? 0 then Err EClientFault else if negb (verify_time x now) then Err EClientFault else Ok x
      | None => Err EClientFault
      end = Ok c).
    { destruct f; try discriminate; cbv beta iota in H.
      - rewrite FC. split; [constructor|]. destruct (ac_import K (InArray (rw_data r)) FBytes true) as [x|]; [|discriminate]. eauto.
      - rewrite FC. split; [constructor|]. destruct (ac_import K (InArray (rw_data r)) FBase64 true) as [x|]; [|discriminate]. eauto. }
    clear H. destruct G as (G & x & I & H).
    destruct (aauth_get rows (is_uid (c_issuer x))) as [a|] eqn:A; [|discriminate].
    destruct (Z.leb_spec (aa_trust a) 0) as [|T]; [discriminate|].
    destruct (verify_time x now) eqn:T'; cbn [negb] in H; [|discriminate]. apply Ok_inj in H. subst x.
    apply C38_verified in I as [I VF]. split; [exists f; auto|]. split; [exact VF|]. split.
    + apply trusted_get; auto. exists a. split; [exact A|lia].
    + unfold verify_time in T'. apply andb_true_iff in T' as [T1 T2]. apply Z.ltb_lt in T1, T2. lia.
  - intros (V & (f & G & I) & VF & T & W). exists f. split; [now apply format_good|].
    rewrite V. cbn [negb]. change (negb (1 =? 1)) with false. cbv iota.
    apply trusted_get in T as (a & A & T); auto.
    assert (H : ac_import K (InArray (rw_data r)) f true = Ok c) by (apply C38_verified; auto).
    assert (Tm : verify_time c now = true). { unfold verify_time. apply andb_true_iff. split; apply Z.ltb_lt; lia. }
    destruct G; rewrite H, A; destruct (Z.leb_spec (aa_trust a) 0); try lia; now rewrite Tm.
Qed.

Lemma accepted_fits : forall K rows r now c, accepted K rows r now c -> body_fits c.
Proof.
  intros K rows r now c (_ & _ & (a & v & pk & w & _ & _ & E & _) & _). apply body_ok. now exists w.
Qed.

Lemma accepted_serial : forall K rows r now c, accepted K rows r now c -> 0 <= i_serial (c_info c) < 2 ^ 160.
Proof. intros K rows r now c A. apply accepted_fits in A as (_ & _ & (_ & S & _) & _). exact S. Qed.
Lemma accepted_times : forall K rows r now c, accepted K rows r now c -> 0 <= rv_before (c_rev c) /\ 0 <= i_issued (c_info c).
Proof.
  intros K rows r now c A. apply accepted_fits in A as (_ & _ & (_ & _ & T) & R & _).
  destruct R as (R1 & R2 & _). unfold time_fits in *. lia.
Qed.

Lemma id_ok : forall n, 0 <= n < 2 ^ 160 -> int_to_b64 n = Ok (id_text n).
Proof.
  intros n H. unfold int_to_b64, serial_bytes. change (256 ^ Z.of_nat 20) with (2 ^ 160).
  destruct (Z.leb_spec 0 n); [|lia]. destruct (Z.ltb_spec n (2 ^ 160)); [|lia]. reflexivity.
Qed.

Lemma id_inj : forall a b, 0 <= a < 2 ^ 160 -> 0 <= b < 2 ^ 160 -> id_text a = id_text b -> a = b.
Proof.
  intros a b A B E. unfold id_text in E. apply (f_equal b64decode) in E.
  rewrite !b64_round_trip in E by apply le_bytes_byte. apply Ok_inj in E.
  apply (f_equal le_val) in E.
  assert (P : forall n, 0 <= n < 2 ^ 160 -> (Z.to_N n < 256 ^ N.of_nat 20)%N).
  { intros n H. change (256 ^ N.of_nat 20)%N with (Z.to_N (2 ^ 160)). apply Z2N.inj_lt; lia. }
  rewrite !le_val_bytes in E by (apply P; assumption). apply Z2N.inj in E; lia.
Qed.

(** ** Primary keys *)

Lemma existsb_In : forall A (eqb : A -> A -> bool), (forall a b, eqb a b = true <-> a = b) ->
  forall x l, existsb (eqb x) l = true <-> In x l.
Proof.
  intros A eqb E x l. rewrite existsb_exists. split.
  - intros (y & I & Q). apply E in Q. now subst.
  - intros I. exists x. split; [exact I|now apply E].
Qed.

Lemma clash_spec : forall A (eqb : A -> A -> bool), (forall a b, eqb a b = true <-> a = b) ->
  forall new old, clash eqb new old = false <-> NoDup new /\ forall x, In x new -> ~ In x old.
Proof.
  intros A eqb E new old. induction new as [|x r IH]; cbn [clash].
  - split; [intros _; split; [constructor|auto]|auto].
  - rewrite !orb_false_iff, IH. pose proof (existsb_In A eqb E x r) as P1. pose proof (existsb_In A eqb E x old) as P2.
    rewrite <- not_true_iff_false, P1, <- not_true_iff_false, P2. split.
    + intros ((H1 & H2) & H3 & H4). split; [now constructor|]. intros y [<-|I]; auto.
    + intros (H1 & H2). inversion H1; subst. repeat split; auto; intros; apply H2; [now left|now right].
Qed.

Lemma link_eqb_eq : forall a b, link_eqb a b = true <-> a = b.
Proof.
  intros [a1 a2] [b1 b2]. unfold link_eqb. cbn [lk_serial lk_session]. rewrite andb_true_iff, !str_eqb_eq. split.
  - intros [-> ->]. reflexivity.
  - intros [= -> ->]. auto.
Qed.

Lemma storedb_spec : forall d s, storedb d s = true <-> stored d s.
Proof. intros d s. unfold storedb, stored. apply existsb_In, str_eqb_eq. Qed.

Lemma find_row : forall d s, NoDup (map cr_serial (d_certs d)) ->
  match find (fun row => str_eqb (cr_serial row) s) (d_certs d) with
  | Some row => In row (d_certs d) /\ cr_serial row = s /\ forall row', In row' (d_certs d) -> cr_serial row' = s -> row' = row
  | None => ~ stored d s
  end.
Proof.
  intros d s N. destruct (find _ _) as [row|] eqn:F.
  - apply find_some in F as [I Q]. apply str_eqb_eq in Q. split; [exact I|]. split; [exact Q|].
    intros row' I' Q'. clear - N I I' Q Q'. induction (d_certs d) as [|x l IH]; [destruct I|].
    cbn [map] in N. inversion N as [|y m N1 N2]; subst.
    destruct I as [->|I], I' as [->|I']; [reflexivity| | |auto].
    + exfalso. apply N1. rewrite <- Q'. now apply in_map.
    + exfalso. apply N1. rewrite Q'. now apply in_map.
  - intros S. apply in_map_iff in S as (row & Q & I). apply (find_none _ _ F) in I. rewrite Q, str_eqb_refl in I. discriminate.
Qed.

(** ** The loop *)

Definition low_step (m v : Z) : Z := if (m =? -1) || (v <? m) then v else m.
Definition high_step (m v : Z) : Z := if (m =? -1) || (v >? m) then v else m.
Definition timed_from (now : nat -> Z) (i : nat) (l : list raw_cert) : list (raw_cert * Z) :=
  combine l (map (fun j => now (S j)) (seq i (List.length l))).
Definition hash_ok (K : crypto) (d : pdb) (r : raw_cert) (c : cert) : Prop :=
  forall row, In row (d_certs d) -> cr_serial row = serial_text c -> cr_hash row = hash_of K r.

Lemma hash_left : forall K r f, good_format (rw_format r) f -> text_hash K (data_left r f) = hash_of K r.
Proof. intros K r f G. unfold text_hash, hash_of. inversion G; reflexivity. Qed.

Lemma loop_spec : forall K d sx now l i st st', keys_ok d ->
  session_loop K d sx now i l st = Ok st' <->
  exists cs, Forall2 (fun p c => accepted K (d_aauths d) (fst p) (snd p) c) (timed_from now i l) cs /\
    Forall2 (hash_ok K d) l cs /\
    st' = LS (fold_left low_step (ends cs) (ls_min st)) (fold_left high_step (issues cs) (ls_max st))
             (rev (map serial_text cs) ++ ls_done st) (ls_certs st ++ new_rows K d l cs)
             (ls_links st ++ map (fun c => Link (serial_text c) sx) cs).
Proof.
  intros K d sx now l i st st' KO. revert i st st'. induction l as [|r l IH]; intros i st st'; cbn [session_loop].
  - unfold timed_from. cbn [List.length seq map combine]. split.
    + intros H. apply Ok_inj in H. subst st'. exists []. repeat split; try constructor.
      cbn. destruct st. cbn. now rewrite !app_nil_r.
    + intros (cs & A & _ & ->). inversion A; subst. cbn. destruct st. cbn. now rewrite !app_nil_r.
  - assert (AU : NoDup (map aa_uid (d_aauths d))) by apply KO.
    assert (CU : NoDup (map cr_serial (d_certs d))) by apply KO.
    assert (STEP : forall c st'',
      accepted K (d_aauths d) r (now (S i)) c -> hash_ok K d r c ->
      (session_loop K d sx now (S i) l
        (LS (low_step (ls_min st) (rv_before (c_rev c))) (high_step (ls_max st) (i_issued (c_info c)))
            (serial_text c :: ls_done st) (ls_certs st ++ new_rows K d [r] [c]) (ls_links st ++ [Link (serial_text c) sx])) = Ok st'' <->
       exists cs, Forall2 (fun p c => accepted K (d_aauths d) (fst p) (snd p) c) (timed_from now (S i) l) cs /\
         Forall2 (hash_ok K d) l cs /\
         st'' = LS (fold_left low_step (ends (c :: cs)) (ls_min st)) (fold_left high_step (issues (c :: cs)) (ls_max st))
                  (rev (map serial_text (c :: cs)) ++ ls_done st) (ls_certs st ++ new_rows K d (r :: l) (c :: cs))
                  (ls_links st ++ map (fun c => Link (serial_text c) sx) (c :: cs)))).
    { intros c st'' A H. rewrite IH. unfold new_rows. cbn [ls_min ls_max ls_done ls_certs ls_links combine map fst snd filter].
      split; intros (cs & A1 & A2 & ->); exists cs; (split; [exact A1|split; [exact A2|]]);
        cbn [ends issues map fold_left rev]; rewrite <- !app_assoc; cbn [app];
        destruct (storedb d (cr_serial (row_of K r c))); reflexivity. }
    assert (ROW : forall c f, accepted K (d_aauths d) r (now (S i)) c -> good_format (rw_format r) f ->
      (match find (fun row => str_eqb (cr_serial row) (serial_text c)) (d_certs d) with
       | None => Ok [CertRow (serial_text c) (rw_data r) (rw_format r) (rw_version r) (rv_before (c_rev c)) (text_hash K (data_left r f))]
       | Some row => if str_eqb (cr_hash row) (text_hash K (data_left r f)) then Ok [] else Err EClientFault
       end = Ok (new_rows K d [r] [c]) /\ hash_ok K d r c) \/
      (match find (fun row => str_eqb (cr_serial row) (serial_text c)) (d_certs d) with
       | None => Ok [CertRow (serial_text c) (rw_data r) (rw_format r) (rw_version r) (rv_before (c_rev c)) (text_hash K (data_left r f))]
       | Some row => if str_eqb (cr_hash row) (text_hash K (data_left r f)) then Ok [] else Err EClientFault
       end = Err EClientFault /\ ~ hash_ok K d r c)).
    { intros c f A G. rewrite (hash_left K r f G). pose proof (find_row d (serial_text c) CU) as F.
      unfold new_rows. cbn [combine map fst snd filter]. change (cr_serial (row_of K r c)) with (serial_text c).
      destruct (find _ _) as [row|].
      - destruct F as (I & Q & Un). rewrite (proj2 (storedb_spec d (serial_text c))) by (unfold stored; rewrite <- Q; now apply in_map).
        cbn [negb]. destruct (str_eqb (cr_hash row) (hash_of K r)) eqn:E.
        + left. split; [reflexivity|]. intros row' I' Q'. rewrite (Un row' I' Q'). now apply str_eqb_eq.
        + right. split; [reflexivity|]. intros H. rewrite (H row I Q), str_eqb_refl in E. discriminate.
      - left. assert (S0 : storedb d (serial_text c) = false).
        { apply not_true_iff_false. rewrite storedb_spec. exact F. }
        rewrite S0. cbn [negb]. split; [reflexivity|]. intros row' I' Q'. exfalso. apply F. unfold stored. rewrite <- Q'. now apply in_map. }
    destruct (format_of (rw_format r)) as [f|e] eqn:Ff; cbn [bind].
    2: { split; [discriminate|]. intros (cs & A & _). exfalso. unfold timed_from in A. cbn [List.length seq map combine] in A.
         inversion A as [|p c ps cs' A1 A2]; subst. cbn [fst snd] in A1. apply check_spec in A1 as (f & F & _); auto. congruence. }
    destruct (check_cert K r f (d_aauths d) (now (S i))) as [c|e] eqn:C; cbn [bind].
    2: { split; [discriminate|]. intros (cs & A & _). exfalso. unfold timed_from in A. cbn [List.length seq map combine] in A.
         inversion A as [|p c ps cs' A1 A2]; subst. cbn [fst snd] in A1. apply check_spec in A1 as (f' & F & C'); auto. congruence. }
    assert (AC : accepted K (d_aauths d) r (now (S i)) c) by (apply check_spec; auto; exists f; auto).
    assert (GF : good_format (rw_format r) f).
    { pose proof AC as (_ & (f' & G & _) & _). pose proof (format_good _ _ G) as Q. rewrite Ff in Q. injection Q as <-. exact G. }
    rewrite (id_ok _ (accepted_serial _ _ _ _ _ AC)). cbn [bind]. fold (serial_text c).
    fold (low_step (ls_min st) (rv_before (c_rev c))). fold (high_step (ls_max st) (i_issued (c_info c))).
    destruct (ROW c f AC GF) as [[-> H]|[-> H]]; cbn [bind].
    + rewrite (STEP c st' AC H). split.
      * intros (cs & A1 & A2 & ->). exists (c :: cs). split; [|split; [constructor; auto|reflexivity]].
        unfold timed_from. cbn [List.length seq map combine]. constructor; [exact AC|exact A1].
      * intros (cs & A1 & A2 & E). unfold timed_from in A1. cbn [List.length seq map combine] in A1.
        inversion A1 as [|p c' ps cs' B1 B2]; subst. cbn [fst snd] in B1. inversion A2; subst.
        assert (Q : c' = c). { apply check_spec in B1 as (f' & F' & C'); auto. congruence. }
        subst c'. exists cs'. auto.
    + split; [discriminate|]. intros (cs & A1 & A2 & _). exfalso. unfold timed_from in A1. cbn [List.length seq map combine] in A1.
      inversion A1 as [|p c' ps cs' B1 B2]; subst. cbn [fst snd] in B1. inversion A2; subst.
      assert (Q : c' = c). { apply check_spec in B1 as (f' & F' & C'); auto. congruence. }
      subst c'. auto.
Qed.

(** ** Extremes *)

Lemma low_steps : forall l m, 0 <= m -> Forall (fun v => 0 <= v) l -> fold_left low_step l m = least (m :: l).
Proof.
  assert (L : forall l m, 0 <= m -> Forall (fun v => 0 <= v) l -> fold_left low_step l m = match l with [] => m | _ => Z.min m (least l) end).
  { induction l as [|v l IH]; intros m M F; [reflexivity|]. inversion F; subst. cbn [fold_left].
    assert (S0 : low_step m v = Z.min m v).
    { unfold low_step. destruct (Z.eqb_spec m (-1)); [lia|]. destruct (Z.ltb_spec v m); cbn [orb]; lia. }
    rewrite S0, IH by (auto; lia). destruct l; cbn [least]; [reflexivity|]. lia. }
  intros l m M F. rewrite L by auto. destruct l; reflexivity.
Qed.
Lemma high_steps : forall l m, 0 <= m -> Forall (fun v => 0 <= v) l -> fold_left high_step l m = greatest (m :: l).
Proof.
  assert (L : forall l m, 0 <= m -> Forall (fun v => 0 <= v) l -> fold_left high_step l m = match l with [] => m | _ => Z.max m (greatest l) end).
  { induction l as [|v l IH]; intros m M F; [reflexivity|]. inversion F; subst. cbn [fold_left].
    assert (S0 : high_step m v = Z.max m v).
    { unfold high_step. destruct (Z.eqb_spec m (-1)); [lia|]. rewrite Z.gtb_ltb. destruct (Z.ltb_spec m v); cbn [orb]; lia. }
    rewrite S0, IH by (auto; lia). destruct l; cbn [greatest]; [reflexivity|]. lia. }
  intros l m M F. rewrite L by auto. destruct l; reflexivity.
Qed.

Lemma low_all : forall l, l <> [] -> Forall (fun v => 0 <= v) l -> fold_left low_step l (-1) = least l.
Proof.
  intros [|v l] N F; [congruence|]. inversion F; subst. cbn [fold_left]. change (low_step (-1) v) with v. now apply low_steps.
Qed.
Lemma high_all : forall l, l <> [] -> Forall (fun v => 0 <= v) l -> fold_left high_step l (-1) = greatest l.
Proof.
  intros [|v l] N F; [congruence|]. inversion F; subst. cbn [fold_left]. change (high_step (-1) v) with v. now apply high_steps.
Qed.

Lemma least_le : forall l x, In x l -> least l <= x.
Proof.
  induction l as [|y l IH]; intros x I; [destruct I|]. destruct l as [|z l].
  - destruct I as [->|[]]. cbn. lia.
  - cbn [least]. destruct I as [->|I]; [lia|]. specialize (IH x I). cbn [least] in IH. lia.
Qed.
Lemma least_in : forall l, l <> [] -> In (least l) l.
Proof.
  induction l as [|y l IH]; intros N; [congruence|]. destruct l as [|z l]; [now left|].
  change (least (y :: z :: l)) with (Z.min y (least (z :: l))).
  destruct (Z.min_spec y (least (z :: l))) as [[_ ->]|[_ ->]]; [now left|]. right. apply IH. discriminate.
Qed.
Lemma greatest_ge : forall l x, In x l -> x <= greatest l.
Proof.
  induction l as [|y l IH]; intros x I; [destruct I|]. destruct l as [|z l].
  - destruct I as [->|[]]. cbn. lia.
  - cbn [greatest]. destruct I as [->|I]; [lia|]. specialize (IH x I). cbn [greatest] in IH. lia.
Qed.
Lemma greatest_in : forall l, l <> [] -> In (greatest l) l.
Proof.
  induction l as [|y l IH]; intros N; [congruence|]. destruct l as [|z l]; [now left|].
  change (greatest (y :: z :: l)) with (Z.max y (greatest (z :: l))).
  destruct (Z.max_spec y (greatest (z :: l))) as [[_ ->]|[_ ->]]; [|now left]. right. apply IH. discriminate.
Qed.

(** ** The whole request *)

Lemma timed_from_0 : forall now l, timed_from now 0 l = timed now l.
Proof. reflexivity. Qed.

Lemma accepted_all : forall K rows (ps : list (raw_cert * Z)) cs,
  Forall2 (fun p c => accepted K rows (fst p) (snd p) c) ps cs ->
  Forall (fun c => 0 <= i_serial (c_info c) < 2 ^ 160 /\ 0 <= rv_before (c_rev c) /\ 0 <= i_issued (c_info c)) cs.
Proof.
  intros K rows ps cs H. induction H as [|p c ps cs A H IH]; constructor; auto.
  split; [exact (accepted_serial _ _ _ _ _ A)|exact (accepted_times _ _ _ _ _ A)].
Qed.

Lemma serials_distinct : forall sx cs, Forall (fun c => 0 <= i_serial (c_info c) < 2 ^ 160) cs ->
  (NoDup (map (fun c => Link (serial_text c) sx) cs) <-> NoDup (map (fun c => i_serial (c_info c)) cs)).
Proof.
  intros sx cs F. induction cs as [|c cs IH]; cbn [map]; [split; constructor|].
  inversion F as [|x y F1 F2]; subst. specialize (IH F2). split; intros N; inversion N as [|x y N1 N2]; subst; constructor; try tauto; intros I.
  - apply N1. apply in_map_iff in I as (c' & E & I). apply in_map_iff. exists c'. split; [|exact I].
    cbv beta in E. unfold serial_text. rewrite E. reflexivity.
  - apply N1. apply in_map_iff in I as (c' & E & I). apply in_map_iff. exists c'. split; [|exact I].
    cbv beta in E. apply (f_equal lk_serial) in E. cbn [lk_serial] in E. unfold serial_text in E.
    rewrite Forall_forall in F2. exact (id_inj _ _ (F2 c' I) F1 E).
Qed.

Lemma new_rows_serials : forall K d l cs, List.length l = List.length cs ->
  map cr_serial (new_rows K d l cs) = filter (fun s => negb (storedb d s)) (map serial_text cs).
Proof.
  intros K d l cs. unfold new_rows. revert cs. induction l as [|r l IH]; intros [|c cs] E; try discriminate; [reflexivity|].
  injection E as E. cbn [combine map fst snd filter]. change (cr_serial (row_of K r c)) with (serial_text c).
  destruct (storedb d (serial_text c)); cbn [negb map]; [auto|]. f_equal; auto.
Qed.

Lemma NoDup_filter' : forall A (f : A -> bool) l, NoDup l -> NoDup (filter f l).
Proof.
  intros A f l N. induction N as [|x l I N IH]; cbn [filter]; [constructor|].
  destruct (f x); [|exact IH]. constructor; [|exact IH]. intros J. apply filter_In in J as [J _]. auto.
Qed.

Lemma start_spec : forall K d service l sid now ip d' ret, keys_ok d -> sid_ok sid ->
  start_session_res K d service (Some (Some l)) sid now ip = Ok (d', ret) <->
  exists cs, started K d service l sid now ip cs d' ret.
Proof.
  intros K d service l sid now ip d' ret KO SO. unfold start_session_res.
  destruct l as [|r0 l0].
  { split; [discriminate|]. intros (cs & H). destruct (st_some _ _ _ _ _ _ _ _ _ _ H eq_refl). }
  set (l := r0 :: l0) in *. assert (LN : l <> []) by discriminate. clearbody l. clear r0 l0.
  rewrite (id_ok sid SO). cbn [bind]. set (sx := id_text sid).
  destruct (session_loop K d sx now 0 l (LS (-1) (-1) [] [] [])) as [st|e] eqn:L; cbn [bind].
  2: { split; [discriminate|]. intros (cs & H). exfalso.
       assert (Q : exists st, session_loop K d sx now 0 l (LS (-1) (-1) [] [] []) = Ok st).
       { eexists. apply loop_spec; [exact KO|]. exists cs. rewrite timed_from_0. split; [exact (st_accepted _ _ _ _ _ _ _ _ _ _ H)|].
         split; [exact (st_hash _ _ _ _ _ _ _ _ _ _ H)|reflexivity]. }
       destruct Q as [st Q]. congruence. }
  pose proof L as L'. apply loop_spec in L' as (cs & A & H & ->); [|exact KO]. rewrite timed_from_0 in A.
  cbn [ls_min ls_max ls_done ls_certs ls_links app].
  assert (LC : List.length l = List.length cs) by (clear - H; induction H; cbn; congruence).
  assert (CN : cs <> []) by (intros ->; destruct l; [congruence|discriminate]).
  pose proof (accepted_all _ _ _ _ A) as F.
  assert (Fs : Forall (fun c => 0 <= i_serial (c_info c) < 2 ^ 160) cs) by (apply (Forall_impl _ (fun c X => proj1 X) F)).
  assert (M1 : fold_left low_step (ends cs) (-1) = least (ends cs)).
  { apply low_all; [destruct cs; [congruence|discriminate]|]. unfold ends. rewrite Forall_map. apply (Forall_impl _ (fun c X => proj1 (proj2 X)) F). }
  assert (M2 : fold_left high_step (issues cs) (-1) = greatest (issues cs)).
  { apply high_all; [destruct cs; [congruence|discriminate]|]. unfold issues. rewrite Forall_map. apply (Forall_impl _ (fun c X => proj2 (proj2 X)) F). }
  rewrite M1, M2, app_nil_r.
  assert (TL : (if least (ends cs) <? now 0%nat + max_session then least (ends cs) else now 0%nat + max_session)
               = Z.min (now 0%nat + 86400) (least (ends cs))).
  { unfold max_session. destruct (Z.ltb_spec (least (ends cs)) (now 0%nat + 86400)); lia. }
  rewrite TL.
  assert (RN : exists x y, rev (map serial_text cs) = x :: y).
  { destruct (rev (map serial_text cs)) as [|x y] eqn:E; [|eauto]. exfalso. apply CN.
    apply (f_equal (@List.length _)) in E. rewrite rev_length, map_length in E. destruct cs; [reflexivity|discriminate]. }
  destruct RN as (x & y & ->).
  assert (UN : forall cs', started K d service l sid now ip cs' d' ret -> cs' = cs).
  { intros cs' S. pose proof (st_accepted _ _ _ _ _ _ _ _ _ _ S) as A'. clear - A A' KO.
    revert cs' A'. induction A as [|p c ps cs A1 A IH]; intros cs' A'; inversion A' as [|p' c' ps' cs'' B1 B2]; subst; [reflexivity|].
    rewrite (IH _ B2). f_equal. assert (N : NoDup (map aa_uid (d_aauths d))) by apply KO.
    apply check_spec in A1 as (f & F1 & C1); auto. apply check_spec in B1 as (f' & F2 & C2); auto. congruence. }
  destruct service as [uid|].
  2: { split; [discriminate|]. intros (cs' & S). destruct (st_service _ _ _ _ _ _ _ _ _ _ S) as (u & Q & _). discriminate. }
  unfold commit. set (row := Sess sx _ _ _ _ _ _).
  assert (C1 : NoDup (map (fun c => i_serial (c_info c)) cs) ->
    clash str_eqb (map cr_serial (new_rows K d l cs)) (map cr_serial (d_certs d)) = false).
  { intros N. apply (clash_spec _ _ str_eqb_eq). rewrite (new_rows_serials K d l cs LC). split.
    - apply NoDup_filter'. apply (serials_distinct sx cs Fs) in N.
      rewrite <- (map_map serial_text (fun s => Link s sx)) in N. exact (NoDup_map_inv _ _ N).
    - intros s I J. apply filter_In in I as [_ I]. apply storedb_spec in J. unfold stored in *. rewrite J in I. discriminate. }
  pose proof (clash_spec _ _ link_eqb_eq (map (fun c => Link (serial_text c) sx) cs) (d_links d)) as C2.
  pose proof (clash_spec _ _ str_eqb_eq [se_id row] (map se_id (d_sessions d))) as C3.
  rewrite (serials_distinct sx cs Fs) in C2.
  split.
  - intros X. destruct (_ || _ || _) eqn:CL; [discriminate|]. apply orb_false_iff in CL as [CL CL3]. apply orb_false_iff in CL as [CL1 CL2].
    cbn [bind] in X. apply Ok_inj in X. injection X as <- <-.
    apply C2 in CL2 as [N2 I2]. apply C3 in CL3 as [_ I3].
    exists cs. constructor; auto.
    + apply (I3 sx). now left.
    + intros c I. apply I2. apply in_map_iff. exists c. auto.
    + exists uid. split; reflexivity.
  - intros (cs' & S). pose proof (UN _ S) as ->. destruct S as [S1 S2 S3 S4 S5 S6 (u & [= <-] & S7) S8].
    rewrite (C1 S4). cbn [orb].
    rewrite (proj2 C2). 2: { split; [exact S4|]. intros z I. apply in_map_iff in I as (c & <- & I). now apply S6. }
    rewrite (proj2 C3). 2: { split; [constructor; [auto|constructor]|]. intros z [<-|[]]. exact S5. }
    cbn [orb bind]. rewrite S7, S8. reflexivity.
Qed.
