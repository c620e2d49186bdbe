(** * AAuthDemoProps2: theorems about the graphical attribute authority client (C101, C103-C105) *)

From Coq Require Import NArith ZArith List Bool String Lia.
From Verif Require Import PyBase LexSpec LexProofs LexCase Struct BytesProofs AttCert CertSpec CertProofs CertProofs2 CertProps CertProps2 CertProps3 Config ConfigProps Logging LoggingProps
  PAuth AAuth AAuthSpec AAuthProofs AAuthProps Clients ClientsProps AAuthDemo AAuthDemoProofs AAuthDemoProps.
Import ListNotations.
Open Scope Z_scope.

(** ** C103: what is shown of a certificate *)

(** Reading hexadecimal digits. *)
Definition hex_val (ten : N) (c : N) : N := if (c <=? 57)%N then (c - 48)%N else (c - ten + 10)%N.
Definition hex_number (ten : N) (s : str) : N := fold_left (fun n c => 16 * n + hex_val ten c)%N s 0%N.
Definition hex_char (ten : N) (c : N) : Prop := (48 <= c <= 57)%N \/ (ten <= c <= ten + 5)%N.
Lemma hex_digit_val : forall ten d, (65 <= ten)%N -> (d < 16)%N -> hex_val ten (hex_digit ten d) = d /\ hex_char ten (hex_digit ten d).
Proof.
  intros ten d T D. unfold hex_digit, hex_val, hex_char. destruct (d <? 10)%N eqn:E; [apply N.ltb_lt in E|apply N.ltb_ge in E].
  - destruct (48 + d <=? 57)%N eqn:F; [lia|apply N.leb_gt in F; lia].
  - destruct (ten + (d - 10) <=? 57)%N eqn:F; [apply N.leb_le in F; lia|lia].
Qed.
Lemma digits_spec : forall fuel n acc, (n < 16 ^ N.of_nat fuel)%N -> Forall (hex_char 65) acc -> (1 <= fuel)%nat ->
  exists s, hex_digits fuel n acc = s ++ acc /\ hex_number 65 s = n /\ Forall (hex_char 65) s /\ s <> [].
Proof.
  induction fuel as [|fuel IH]; intros n acc L A F; [lia|]. cbn [hex_digits].
  assert (M : (n mod 16 < 16)%N) by (apply N.mod_lt; lia).
  destruct (hex_digit_val 65 (n mod 16) (N.le_refl 65) M) as [V C].
  destruct (n <? 16)%N eqn:E.
  - apply N.ltb_lt in E. exists [hex_digit 65 (n mod 16)]. split; [reflexivity|]. unfold hex_number. cbn [fold_left]. rewrite V, N.mod_small by exact E.
    split; [lia|]. split; [constructor; [rewrite N.mod_small in C by exact E; exact C|constructor]|discriminate].
  - apply N.ltb_ge in E. destruct fuel as [|fuel]; [cbn in L; lia|].
    destruct (IH (n / 16)%N (hex_digit 65 (n mod 16) :: acc)) as (s & H & W & Q & NE).
    + apply N.div_lt_upper_bound; [lia|]. replace (N.of_nat (S (S fuel))) with (N.succ (N.of_nat (S fuel))) in L by lia. rewrite N.pow_succ_r' in L. exact L.
    + constructor; auto.
    + lia.
    + exists (s ++ [hex_digit 65 (n mod 16)]). split; [rewrite H, <- app_assoc; reflexivity|]. split; [|split].
      * unfold hex_number in *. rewrite fold_left_app, W. cbn [fold_left]. rewrite V. pose proof (N.div_mod n 16). lia.
      * apply Forall_app. split; [exact Q|]. constructor; [exact C|constructor].
      * now destruct s.
Qed.
(** The serial number is shown in hexadecimal with at least two digits. *)
Theorem C103_serial : forall z, 0 <= z -> Z.of_N (hex_number 65 (serial_hex z)) = z /\ Forall (hex_char 65) (serial_hex z) /\ (2 <= List.length (serial_hex z))%nat.
Proof.
  intros z Z0. unfold serial_hex.
  destruct (digits_spec (S (N.to_nat (N.log2 (Z.to_N z)))) (Z.to_N z) []) as (s & E & V & F & NE); [|constructor|lia|].
  - destruct (N.eq_dec (Z.to_N z) 0) as [->|P]; [cbn; lia|]. pose proof (N.log2_spec (Z.to_N z)) as L.
    replace (N.of_nat (S (N.to_nat (N.log2 (Z.to_N z))))) with (N.succ (N.log2 (Z.to_N z))) by lia.
    apply (N.lt_le_trans _ (2 ^ N.succ (N.log2 (Z.to_N z)))); [apply L; lia|]. apply N.pow_le_mono_l. lia.
  - rewrite app_nil_r in E. rewrite E. destruct s as [|x [|y s]]; [congruence| |].
    + split; [|split; [|cbn; lia]]. unfold hex_number in *. cbn [fold_left] in *. change (hex_val 65 48) with 0%N. lia.
      constructor; [left; lia|exact F].
    + split; [rewrite V; lia|]. split; [exact F|cbn [List.length]; lia].
Qed.
(** Two small digits for every byte of a signature. *)
Fixpoint unhex (s : str) : bytes :=
  match s with a :: b :: s => (16 * hex_val 97 a + hex_val 97 b)%N :: unhex s | _ => [] end.
Theorem C103_hex : forall b, octets b -> unhex (hexlify b) = b /\ Forall (hex_char 97) (hexlify b).
Proof.
  intros b. induction b as [|x b IH]; intros O; [split; [reflexivity|constructor]|].
  assert (X : (x < 256)%N /\ octets b) by (unfold octets in *; inversion O; auto). destruct X as [X O']. destruct (IH O') as [A B].
  cbn [hexlify flat_map app unhex]. change (flat_map (fun x => [hex_digit 97 (x / 16)%N; hex_digit 97 (x mod 16)%N]) b) with (hexlify b).
  destruct (hex_digit_val 97 (x / 16)) as [V1 C1]; [lia|apply N.div_lt_upper_bound; lia|].
  destruct (hex_digit_val 97 (x mod 16)) as [V2 C2]; [lia|apply N.mod_lt; lia|].
  rewrite V1, V2, A. split; [f_equal; pose proof (N.div_mod x 16); lia|]. constructor; [exact C1|]. constructor; [exact C2|exact B].
Qed.

(** The cells found by going down from the top along the names given. *)
Fixpoint cells (p : list str) (l : list tree_row) : list cell :=
  match p with
  | [] => []
  | n :: p => flat_map (fun r => match r with TreeRow m v b =>
                if str_eqb n m then match p with [] => match v with Some v => [v] | None => [] end | _ => cells p b end else [] end) l
  end.
Definition rows_below (n : str) (l : list tree_row) : list tree_row :=
  flat_map (fun r => match r with TreeRow m _ b => if str_eqb n m then b else [] end) l.
Definition row_name (r : tree_row) : str := match r with TreeRow n _ _ => n end.
Definition row_below (r : tree_row) : list tree_row := match r with TreeRow _ _ b => b end.
Definition at_ (a b : string) (t : list tree_row) : list cell := cells [lit a; lit b] t.
Definition texts (o : option str) : list cell := match o with Some s => [CellText s] | None => [] end.
Definition some_bytes (o : option bytes) : list cell := match o with Some s => [CellBytes s] | None => [] end.

Section Demo.
Variable U : unicode.
Variable K : crypto.
Variable pem : prv K -> bytes.
Variable bits : prv K -> Z.
Variable conn : Type.
Variable pair : prv K -> str.
Variable day : Z -> res str.
Notation dframe := (dframe K conn).
Notation act := (act K conn).
Notation call := (call K conn).
Notation do_act := (do_act U K pem bits conn pair day).
Notation use_demo := (use_demo U K pem bits conn pair day).
Notation key := (d_key K conn).
Notation names := (d_names K conn).
Notation ids := (d_ids K conn).
Notation raw := (d_raw K conn).
Notation ac := (d_ac K conn).

(** The attributes are shown in order, each with its id, name, type and value; a value that
    reads none, in whatever case, is not. *)
Definition att_shown (a : ac_att) (r : tree_row) : Prop :=
  row_name r = at_id a /\ cells [lit "id"] (row_below r) = [CellText (at_id a)] /\ cells [lit "name"] (row_below r) = texts (at_name a) /\
  cells [lit "type"] (row_below r) = [CellText (type_name (at_type a))] /\
  match at_value a with
  | Some v => py_lower U v = lit "none" /\ cells [lit "value"] (row_below r) = [] \/ py_lower U v <> lit "none" /\ cells [lit "value"] (row_below r) = [CellText v]
  | None => cells [lit "value"] (row_below r) = []
  end.
Definition ext_shown (x : ac_ext) (r : tree_row) : Prop :=
  row_name r = ex_id x /\ cells [lit "eid"] (row_below r) = [CellText (ex_id x)] /\
  cells [lit "extra_bytes"] (row_below r) = [match ex_extra x with Some b => CellBytes b | None => CellNone end].
Record tree_shows (c : cert) (t : list tree_row) : Prop := {
  ts_version : at_ "Information" "version" t = [CellInt (i_version (c_info c))];
  ts_serial : at_ "Information" "serial" t = [CellText (serial_hex (i_serial (c_info c)))];
  ts_issued : exists d, day (i_issued (c_info c)) = Ok d /\ at_ "Information" "issued" t = [CellText d];
  ts_issuer_key : at_ "Issuer" "pub_key" t = [CellBytes (is_key (c_issuer c))];
  ts_issuer_algo : at_ "Issuer" "key_algo" t = [CellText (is_algo (c_issuer c))];
  ts_issuer_uid : at_ "Issuer" "uid" t = [CellText (is_uid (c_issuer c))];
  ts_issuer_name : at_ "Issuer" "name" t = texts (is_name (c_issuer c));
  ts_issuer_url : at_ "Issuer" "url" t = texts (is_url (c_issuer c));
  ts_holder_key : at_ "Holder" "pub_key" t = [CellBytes (ho_key (c_holder c))];
  ts_holder_algo : at_ "Holder" "key_algo" t = [CellText (ho_algo (c_holder c))];
  ts_holder_uid : at_ "Holder" "uid" t = [CellText (ho_uid (c_holder c))];
  ts_holder_name : at_ "Holder" "name" t = texts (ho_name (c_holder c));
  ts_atts : exists l, c_atts c = Some l /\ Forall2 att_shown l (rows_below (lit "Attribute Set") t);
  ts_after : exists d, day (rv_after (c_rev c)) = Ok d /\ at_ "Revocation Rules" "valid_after" t = [CellText d];
  ts_before : exists d, day (rv_before (c_rev c)) = Ok d /\ at_ "Revocation Rules" "valid_before" t = [CellText d];
  ts_rev_url : at_ "Revocation Rules" "url" t = texts (rv_url (c_rev c));
  ts_rev_extra : at_ "Revocation Rules" "extra_bytes" t = some_bytes (rv_extra (c_rev c));
  ts_del : at_ "Delegation Rules" "extra_bytes" t = match c_del c with Some d => some_bytes (de_extra d) | None => [] end;
  ts_exts : Forall2 ext_shown (match c_exts c with Some l => l | None => [] end) (rows_below (lit "Extensions") t);
  ts_algo : at_ "Signature" "sig_algo" t = match c_sig c with Some s => [match sg_algo s with Some a => CellText a | None => CellNone end] | None => [] end;
  ts_sig : at_ "Signature" "sig_value" t = match c_sig c with Some s => match sg_value s with Some v => [CellBytes (hexlify v)] | None => [] end | None => [] end
}.
Lemma att_tree_shown : forall a, att_shown a (att_tree U a).
Proof.
  intros a. unfold att_shown, att_tree. cbn [row_name row_below]. split; [reflexivity|].
  assert (V : forall v, negb (str_eqb (py_lower U v) (lit "none")) = true <-> py_lower U v <> lit "none").
  { intros v. destruct (str_eqb (py_lower U v) (lit "none")) eqn:E; cbn [negb].
    - apply str_eqb_eq in E. split; [discriminate|congruence].
    - split; [|reflexivity]. intros _ Q. rewrite Q, str_eqb_refl in E. discriminate. }
  destruct (at_value a) as [v|].
  - specialize (V v). destruct (negb (str_eqb (py_lower U v) (lit "none"))) eqn:E.
    + destruct (at_name a); (split; [reflexivity|]); (split; [reflexivity|]); (split; [reflexivity|]); right; (split; [now apply V|reflexivity]).
    + assert (Q : py_lower U v = lit "none"). { apply negb_false_iff in E. now apply str_eqb_eq in E. }
      destruct (at_name a); (split; [reflexivity|]); (split; [reflexivity|]); (split; [reflexivity|]); left; (split; [exact Q|reflexivity]).
  - destruct (at_name a); (split; [reflexivity|]); (split; [reflexivity|]); (split; [reflexivity|]); reflexivity.
Qed.
Lemma atts_shown : forall l, Forall2 att_shown l (map (att_tree U) l).
Proof. induction l as [|a l IH]; cbn [map]; constructor; [apply att_tree_shown|exact IH]. Qed.
Lemma exts_shown : forall l, Forall2 ext_shown l (map ext_tree l).
Proof.
  induction l as [|a l IH]; cbn [map]; constructor; [|exact IH]. unfold ext_shown, ext_tree. cbn [row_name row_below].
  split; [reflexivity|]. split; reflexivity.
Qed.
(** The tree shows the fields of the certificate it was built from. *)
Theorem C103_tree : forall c t, build_tree U day c = Ok t -> tree_shows c t.
Proof.
  intros c t H. unfold build_tree in H.
  destruct (day (i_issued (c_info c))) as [di|] eqn:DI; cbn [bind] in H; [|discriminate].
  destruct (c_atts c) as [l|] eqn:AT; cbn [bind] in H; [|discriminate].
  destruct (day (rv_after (c_rev c))) as [da|] eqn:DA; cbn [bind] in H; [|discriminate].
  destruct (day (rv_before (c_rev c))) as [db|] eqn:DB; cbn [bind] in H; [|discriminate].
  assert (RB : forall n r t', rows_below n (r :: t') = (if str_eqb n (row_name r) then row_below r else []) ++ rows_below n t') by (intros n [m v b] t'; reflexivity).
  destruct (c_sig c) as [sg|] eqn:SG; [destruct (sg_value sg) as [v|] eqn:SV|]; cbn [bind] in H; try discriminate; apply Ok_inj in H; subst t;
  (constructor;
   [ reflexivity | reflexivity | exists di; split; [exact DI|reflexivity]
   | destruct (is_name (c_issuer c)), (is_url (c_issuer c)); reflexivity
   | destruct (is_name (c_issuer c)), (is_url (c_issuer c)); reflexivity
   | destruct (is_name (c_issuer c)), (is_url (c_issuer c)); reflexivity
   | destruct (is_name (c_issuer c)), (is_url (c_issuer c)); reflexivity
   | destruct (is_name (c_issuer c)), (is_url (c_issuer c)); reflexivity
   | destruct (ho_name (c_holder c)); reflexivity | destruct (ho_name (c_holder c)); reflexivity
   | destruct (ho_name (c_holder c)); reflexivity | destruct (ho_name (c_holder c)); reflexivity
   | exists l; split; [exact AT|];
     match goal with |- Forall2 _ _ ?r => replace r with (map (att_tree U) l) by (symmetry; apply (app_nil_r (map (att_tree U) l))) end;
     apply atts_shown
   | exists da; split; [exact DA|destruct (rv_url (c_rev c)), (rv_extra (c_rev c)); reflexivity]
   | exists db; split; [exact DB|destruct (rv_url (c_rev c)), (rv_extra (c_rev c)); reflexivity]
   | destruct (rv_url (c_rev c)), (rv_extra (c_rev c)); reflexivity | destruct (rv_url (c_rev c)), (rv_extra (c_rev c)); reflexivity
   | destruct (c_del c) as [[[b|]]|]; reflexivity
   | match goal with |- Forall2 _ ?l ?r => replace r with (map ext_tree l) by (destruct (c_exts c); [symmetry; apply app_nil_r|reflexivity]); apply exts_shown end
   | rewrite SG; try rewrite SV; reflexivity | rewrite SG; try rewrite SV; reflexivity ]).
Qed.
(** What it leaves out: the bytes an attribute carries besides its value. *)
Definition bare (c : cert) : cert :=
  Cert (c_issuer c) (c_holder c) (c_info c) (option_map (map (fun a => Att (at_id a) (at_type a) (at_value a) (at_name a) None)) (c_atts c)) (c_rev c) (c_del c) (c_exts c) (c_sig c).
Theorem C103_hidden : forall c, build_tree U day (bare c) = build_tree U day c.
Proof.
  intros c. unfold build_tree, bare. cbn [c_issuer c_holder c_info c_atts c_rev c_del c_exts c_sig]. destruct (c_atts c) as [l|]; [|reflexivity].
  cbn [option_map]. rewrite map_map. reflexivity.
Qed.
(** Building fails exactly for a time that cannot be shown or a signature without value. *)
Theorem C103_built : forall b c, ac_decode K b false = Ok c ->
  ((exists t, build_tree U day c = Ok t) <->
   (exists x, day (i_issued (c_info c)) = Ok x) /\ (exists x, day (rv_after (c_rev c)) = Ok x) /\ (exists x, day (rv_before (c_rev c)) = Ok x) /\
   if_some (fun s => sg_value s <> None) (c_sig c)).
Proof.
  intros b c D. assert (A : exists l, c_atts c = Some l).
  { unfold ac_decode in D. destruct (decode_body b) as [[x r]|] eqn:E1; cbn [bind] in D; [|discriminate].
    destruct (sig_decode r) as [[s t]|] eqn:E2; cbn [bind] in D; [|discriminate]. destruct t; [|discriminate]. apply Ok_inj in D. subst c.
    cbn [with_sig c_atts]. unfold decode_body in E1.
    repeat (match type of E1 with (let '(_, _) := ?p in _) = _ => destruct p | bind ?x _ = _ => destruct x as [?|?]; cbn [bind] in E1; [|discriminate] end).
    apply Ok_inj in E1. injection E1 as <- _. cbn [c_atts]. eexists. reflexivity. }
  destruct A as [l A]. unfold build_tree. rewrite A.
  destruct (day (i_issued (c_info c))) as [di|]; cbn [bind]; [|split; [intros [t H]; discriminate H|intros ([x H] & _); discriminate H]].
  destruct (day (rv_after (c_rev c))) as [da|]; cbn [bind]; [|split; [intros [t H]; discriminate H|intros (_ & [x H] & _); discriminate H]].
  destruct (day (rv_before (c_rev c))) as [db|]; cbn [bind]; [|split; [intros [t H]; discriminate H|intros (_ & _ & [x H] & _); discriminate H]].
  destruct (c_sig c) as [s|]; cbn [if_some].
  - destruct (sg_value s) as [v|]; cbn [bind].
    + split; [|intros _; eexists; reflexivity]. intros _. split; [now eexists|]. split; [now eexists|]. split; [now eexists|discriminate].
    + split; [intros [t H]; discriminate H|]. intros (_ & _ & _ & H). congruence.
  - cbn [bind]. split; [|intros _; eexists; reflexivity]. intros _. split; [now eexists|]. split; [now eexists|]. split; [now eexists|exact I].
Qed.

(** Bytes hold times below 2^32, the year 2106: where datetime.fromtimestamp takes all of these the
    only certificate that is not shown is one with an algorithm but no signature value. *)
Theorem C103_dates : forall b c, octets b -> ac_decode K b false = Ok c -> (forall z, 0 <= z < 2 ^ 32 -> exists x, day z = Ok x) ->
  ((exists t, build_tree U day c = Ok t) <-> if_some (fun s => sg_value s <> None) (c_sig c)).
Proof.
  intros b c O D DAY. rewrite (C103_built b c D).
  assert (TF : time_fits (i_issued (c_info c)) /\ time_fits (rv_after (c_rev c)) /\ time_fits (rv_before (c_rev c))).
  { unfold ac_decode in D. destruct (decode_body b) as [[x r]|] eqn:E1; cbn [bind] in D; [|discriminate].
    destruct (sig_decode r) as [[s t]|] eqn:E2; cbn [bind] in D; [|discriminate]. destruct t; [|discriminate]. apply Ok_inj in D. subst c.
    cbn [with_sig c_info c_rev c_sig]. unfold decode_body in E1.
    destruct (issuer_decode b) as [[is b1]|] eqn:F1; cbn [bind] in E1; [|discriminate].
    destruct (issuer_dfits _ _ _ O F1) as [O1 _].
    destruct (holder_decode b1) as [[ho b2]|] eqn:F2; cbn [bind] in E1; [|discriminate].
    destruct (holder_dfits _ _ _ O1 F2) as [O2 _].
    destruct (info_decode b2) as [[inf b3]|] eqn:F3; cbn [bind] in E1; [|discriminate].
    destruct (info_dfits _ _ _ O2 F3) as [O3 _].
    assert (T1 : time_fits (i_issued inf)).
    { unfold info_decode in F3. repeat undo F3. apply Ok_inj in F3. injection F3 as <- <-. known. unfold time_fits. cbn [i_issued]. lia. }
    destruct (get_u 2 b3) as [[n b4]|] eqn:F4; cbn [bind] in E1; [|discriminate].
    destruct (get_octets _ _ _ _ O3 F4) as [O4 _].
    destruct (decode_list att_decode (Z.to_nat n) b4) as [[atts b5]|] eqn:F5; cbn [bind] in E1; [|discriminate].
    destruct (list_dfits _ _ _ att_dfits _ _ _ _ O4 F5) as (O5 & _ & _).
    destruct (rev_decode b5) as [[rv b6]|] eqn:F6; cbn [bind] in E1; [|discriminate].
    destruct (rev_dfits _ _ _ O5 F6) as [O6 (T2 & T3 & _)].
    repeat (match type of E1 with (let '(_, _) := ?p in _) = _ => destruct p | bind ?x _ = _ => destruct x as [?|?]; cbn [bind] in E1; [|discriminate] end).
    apply Ok_inj in E1. injection E1 as <- _. cbn [c_info c_rev]. auto. }
  destruct TF as (T1 & T2 & T3). split; [tauto|]. intros S. split; [exact (DAY _ T1)|]. split; [exact (DAY _ T2)|]. split; [exact (DAY _ T3)|exact S].
Qed.

(** How the parts of the window that show a certificate change. *)
Lemma received_step : forall connect first more f,
  let f' := fst (do_act (PressRequest K conn connect first more) f) in
  (raw f' = raw f /\ ac f' = ac f /\ d_tree K conn f' = d_tree K conn f /\ d_cert_text K conn f' = d_cert_text K conn f) \/
  exists b, raw f' = Some b /\
    match ac_decode K b false with
    | Ok c => ac f' = Some c /\ d_cert_text K conn f' = TextHex b /\
              d_tree K conn f' = match build_tree U day c with Ok t => TreeShown t | Err _ => TreeCut end
    | Err _ => ac f' = ac f /\ d_tree K conn f' = d_tree K conn f /\ d_cert_text K conn f' = d_cert_text K conn f
    end.
Proof.
  intros connect first more f. cbv zeta. cbn [AAuthDemo.do_act].
  destruct (request_spec U K pem bits conn pair day connect first more f) as [(cl & e & E & _)|(c0 & cl & _ & _ & _ & [(e & E)|[(o & _ & E)|(b & x & k & _ & _ & LL & E)]])];
    rewrite E; cbn [fst]; try (left; cbn; auto; fail).
  right. exists b. rewrite (receive_spec U K conn pair day b (with_client K conn f cl) k LL).
  destruct (ac_decode K b false) as [c|e]; [|cbn; auto]. cbv zeta. destruct (build_tree U day c); cbn; auto.
Qed.

(** What the window holds of a certificate fits together: the tree is that of the certificate
    kept (or was cut short by an exception in drawing it); a text or Base64 view is of that
    certificate; and bytes, kept or in view, either are those of that certificate or are not a
    certificate at all. *)
Definition bytes_fit (f : dframe) (b : bytes) : Prop :=
  (exists c, ac_decode K b false = Ok c /\ ac f = Some c) \/ exists e, ac_decode K b false = Err e.
Record window_fits (f : dframe) : Prop := {
  wf_tree : match d_tree K conn f with
            | TreeEmpty => ac f = None
            | TreeShown t => exists c, ac f = Some c /\ build_tree U day c = Ok t
            | TreeCut => exists c e, ac f = Some c /\ build_tree U day c = Err e
            end;
  wf_raw : match raw f with None => ac f = None | Some b => bytes_fit f b end;
  wf_source : forall c, ac f = Some c -> exists b, ac_decode K b false = Ok c;
  wf_text : match d_cert_text K conn f with
            | TextEmpty => True
            | TextHex b => bytes_fit f b
            | TextExport n s => exists c, ac f = Some c /\ to_text c = Ok s /\ n = Z.of_nat (List.length s)
            | TextBase64 s => exists c, ac f = Some c /\ ac_export K c FBase64Full false None default_algo = (c, Ok (OutStr s))
            end }.
Lemma fits_same : forall f g, raw g = raw f -> ac g = ac f -> d_tree K conn g = d_tree K conn f -> d_cert_text K conn g = d_cert_text K conn f ->
  window_fits f -> window_fits g.
Proof.
  intros f g R A T X [F1 F2 F3 F4]. constructor; unfold bytes_fit in *; rewrite ?R, ?A, ?T, ?X; auto.
Qed.
Theorem C103_fits : forall l c size, window_fits (use_demo l (new_frame K conn c size)).
Proof.
  intros l c size. apply (use_all U K pem bits conn pair day window_fits).
  2:{ constructor; cbn; auto. discriminate. }
  clear l c size. intros a f F.
  destruct a as [s|s|s|s|s|s|g| | |sel|sel|connect net|connect first more| | | | | | | ]; try (apply (fits_same f); [reflexivity|reflexivity|reflexivity|reflexivity|exact F]).
  - cbn [AAuthDemo.do_act]. destruct (generate_fields K conn pair g f) as (k & t & ->). apply (fits_same f); [reflexivity|reflexivity|reflexivity|reflexivity|exact F].
  - cbn [AAuthDemo.do_act]. destruct sel; (apply (fits_same f); [reflexivity|reflexivity|reflexivity|reflexivity|exact F]).
  - cbn [AAuthDemo.do_act]. destruct sel; (apply (fits_same f); [reflexivity|reflexivity|reflexivity|reflexivity|exact F]).
  - cbn [AAuthDemo.do_act]. destruct (info_fields K conn connect net f) as (k & r & ->). apply (fits_same f); [reflexivity|reflexivity|reflexivity|reflexivity|exact F].
  - destruct (received_step connect first more f) as [(R & A & T & X)|(b & R & D)].
    { exact (fits_same f _ R A T X F). }
    destruct F as [F1 F2 F3 F4]. destruct (ac_decode K b false) as [c|e] eqn:DE.
    + destruct D as (A & X & T). constructor; unfold bytes_fit.
      * rewrite A, T. destruct (build_tree U day c) as [t|e] eqn:B; [exists c; auto|exists c, e; auto].
      * rewrite R, A. left. exists c. auto.
      * rewrite A. intros c' E. injection E as <-. exists b. exact DE.
      * rewrite X, A. left. exists c. auto.
    + destruct D as (A & T & X). constructor; unfold bytes_fit in *; rewrite ?R, ?A, ?T, ?X; auto. right. now exists e.
  - cbn [AAuthDemo.do_act command_clear_ac fst]. destruct F as [F1 F2 F3 F4]. constructor; cbn; auto.
  - cbn [AAuthDemo.do_act]. unfold command_view_bytes. destruct (raw f) as [b|] eqn:R; [|exact F]. cbn [fst]. destruct F as [F1 F2 F3 F4]. rewrite R in F2.
    constructor; unfold bytes_fit in *; cbn; rewrite ?R; auto.
  - cbn [AAuthDemo.do_act]. unfold command_view_text. rewrite (view_spec K conn FText _ f (or_introl eq_refl)). destruct (ac f) as [c|] eqn:A; [|exact F].
    destruct (snd (ac_export K c FText false None default_algo)) as [[b|s]|e] eqn:E; try exact F. cbn [fst]. destruct F as [F1 F2 F3 F4]. constructor; unfold bytes_fit in *; cbn; auto.
    exists c. split; [exact A|]. unfold ac_export in E. cbn [snd] in E. destruct (to_text c) as [s'|]; cbn [bind] in E; [|discriminate]. injection E as <-. auto.
  - cbn [AAuthDemo.do_act]. unfold command_view_base64. rewrite (view_spec K conn FBase64Full _ f (or_intror eq_refl)). destruct (ac f) as [c|] eqn:A; [|exact F].
    destruct (snd (ac_export K c FBase64Full false None default_algo)) as [[b|s]|e] eqn:E; try exact F. cbn [fst]. destruct F as [F1 F2 F3 F4].
    constructor; [exact F1|exact F2|exact F3|]. cbn [with_text d_cert_text d_ac]. exists c. split; [exact A|]. pose proof (export_same K c FBase64Full (or_intror eq_refl)) as Q.
    destruct (ac_export K c FBase64Full false None default_algo) as [c' r]. cbn [fst] in Q. cbn [snd] in E. rewrite Q, E. reflexivity.
  - cbn [AAuthDemo.do_act]. destruct (verify_fields K conn f) as (v & ->). apply (fits_same f); [reflexivity|reflexivity|reflexivity|reflexivity|exact F].
Qed.
(** The certificate kept changes only when a request brings one; in particular neither Clear
    nor Reset nor a view drops or changes it. *)
Theorem C103_kept : forall l f, Forall (fun a => match a with PressRequest _ _ _ _ _ => False | _ => True end) l ->
  let f' := use_demo l f in ac f' = ac f /\ raw f' = raw f /\ d_tree K conn f' = d_tree K conn f.
Proof.
  intros l f0 F0. cbv zeta.
  apply (use_ind U K pem bits conn pair day (fun f => ac f = ac f0 /\ raw f = raw f0 /\ d_tree K conn f = d_tree K conn f0) (fun a => match a with PressRequest _ _ _ _ _ => False | _ => True end)); [|exact F0|auto].
  clear l F0. intros a f N F.
  destruct a as [s|s|s|s|s|s|g| | |sel|sel|connect net|connect first more| | | | | | | ]; try exact F; try (destruct N; fail); cbn [AAuthDemo.do_act].
  - destruct (generate_fields K conn pair g f) as (k & t & ->). exact F.
  - destruct sel; exact F.
  - destruct sel; exact F.
  - destruct (info_fields K conn connect net f) as (k & r & ->). exact F.
  - assert (E : exists t, fst (command_view_bytes K conn f) = with_text K conn f t).
    { unfold command_view_bytes. destruct (raw f) as [b|]; [eexists; reflexivity|]. exists (d_cert_text K conn f). now destruct f. }
    destruct E as (t & ->). exact F.
  - unfold command_view_text. destruct (view_fields K conn FText (fun s => TextExport (Z.of_nat (List.length s)) s) f (or_introl eq_refl)) as (t & ->). exact F.
  - unfold command_view_base64. destruct (view_fields K conn FBase64Full TextBase64 f (or_intror eq_refl)) as (t & ->). exact F.
  - destruct (verify_fields K conn f) as (v & ->). exact F.
Qed.

(** ** C104: the label *)

(** No press in [l] is still running, so that all of them took place. *)
Fixpoint live (l : list act) (f : dframe) : Prop :=
  match l with [] => True | a :: l => snd (do_act a f) <> Running /\ live l (fst (do_act a f)) end.
Lemma live_snoc : forall l a f, live (l ++ [a]) f -> live l f /\ use_demo (l ++ [a]) f = fst (do_act a (use_demo l f)).
Proof.
  induction l as [|x l IH]; intros a f H; cbn [app live AAuthDemo.use_demo] in *.
  - split; [exact I|]. destruct H as [H _]. destruct (do_act a f) as [f' o]. cbn [fst snd] in *. destruct o; [reflexivity|reflexivity|congruence].
  - destruct H as [H1 H2]. destruct (IH a _ H2) as [H3 H4]. split; [auto|]. destruct (do_act x f) as [f' o]. cbn [fst snd] in *. destruct o; [exact H4|exact H4|congruence].
Qed.
(** The label changes only by Verify, which states whether the signature of the certificate kept
    verifies under the key inside it, and by Clear. *)
Theorem C104_step : forall a f, d_verified K conn (fst (do_act a f)) =
  match a with
  | PressVerify _ _ => match ac f with
                       | Some c => match verify_signature K c with Ok true => VerifiedTrue | Ok false => VerifiedFalse | Err _ => d_verified K conn f end
                       | None => d_verified K conn f
                       end
  | PressClearCert _ _ => NotChecked
  | _ => d_verified K conn f
  end.
Proof.
  intros a f. destruct a as [s|s|s|s|s|s|g| | |sel|sel|connect net|connect first more| | | | | | | ]; try reflexivity; cbn [AAuthDemo.do_act].
  - destruct (generate_fields K conn pair g f) as (k & t & ->). reflexivity.
  - destruct sel; reflexivity.
  - destruct sel; reflexivity.
  - destruct (info_fields K conn connect net f) as (k & r & ->). reflexivity.
  - destruct (request_fields U K pem bits conn pair day connect first more f) as (_ & _ & _ & _ & _ & _ & _ & _ & _ & ->). reflexivity.
  - unfold command_view_bytes. destruct (raw f); reflexivity.
  - unfold command_view_text. destruct (view_fields K conn FText (fun s => TextExport (Z.of_nat (List.length s)) s) f (or_introl eq_refl)) as (t & ->). reflexivity.
  - unfold command_view_base64. destruct (view_fields K conn FBase64Full TextBase64 f (or_intror eq_refl)) as (t & ->). reflexivity.
  - unfold command_verify. destruct (ac f) as [c|]; [|reflexivity]. destruct (verify_signature K c) as [[|]|]; reflexivity.
Qed.
(** "Verified: TRUE" means that at the last check, with no Clear since, the certificate then kept
    had a signature that verifies; without a request since it is the certificate kept now. *)
Theorem C104_true : forall l c size, live l (new_frame K conn c size) -> d_verified K conn (use_demo l (new_frame K conn c size)) = VerifiedTrue ->
  exists l1 l2 x, l = l1 ++ PressVerify K conn :: l2 /\ ac (use_demo l1 (new_frame K conn c size)) = Some x /\ verify_signature K x = Ok true /\
    Forall (fun a => a <> PressClearCert K conn) l2 /\
    (Forall (fun a => match a with PressRequest _ _ _ _ _ => False | _ => True end) l2 -> ac (use_demo l (new_frame K conn c size)) = Some x).
Proof.
  intros l c size. set (f0 := new_frame K conn c size). induction l as [|a l IH] using rev_ind; [discriminate|].
  intros LV. destruct (live_snoc l a f0 LV) as [LV1 E].
  assert (S : forall x, ac (use_demo l f0) = Some x -> match a with PressRequest _ _ _ _ _ => False | _ => True end -> ac (use_demo (l ++ [a]) f0) = Some x).
  { intros x A N. destruct (C103_kept [a] (use_demo l f0)) as (Q & _); [constructor; [exact N|constructor]|].
    rewrite E. cbn [AAuthDemo.use_demo] in Q. destruct (do_act a (use_demo l f0)) as [g o]. cbn [fst]. destruct o; congruence. }
  assert (L : d_verified K conn (use_demo l f0) = VerifiedTrue -> a <> PressClearCert K conn ->
    exists l1 l2 x, l ++ [a] = l1 ++ PressVerify K conn :: l2 /\ ac (use_demo l1 f0) = Some x /\ verify_signature K x = Ok true /\
      Forall (fun a => a <> PressClearCert K conn) l2 /\
      (Forall (fun a => match a with PressRequest _ _ _ _ _ => False | _ => True end) l2 -> ac (use_demo (l ++ [a]) f0) = Some x)).
  { intros T N. destruct (IH LV1 T) as (l1 & l2 & x & E1 & A & V & F & R). exists l1, (l2 ++ [a]), x. split; [rewrite E1, <- app_assoc; reflexivity|].
    split; [exact A|]. split; [exact V|]. split; [apply Forall_app; split; [exact F|]; constructor; [exact N|constructor]|].
    intros G. apply Forall_app in G as [G1 G2]. inversion G2 as [|y z G3 _]; subst y z. apply S; [|exact G3]. exact (R G1). }
  rewrite E at 1. rewrite C104_step. intros T.
  destruct a; try (apply L; [exact T|discriminate]; fail); [discriminate|].
  destruct (ac (use_demo l f0)) as [x|] eqn:A; [|apply L; [exact T|discriminate]].
  destruct (verify_signature K x) as [[|]|e] eqn:V; [|discriminate|apply L; [exact T|discriminate]].
  exists l, [], x. split; [reflexivity|]. split; [exact A|]. split; [exact V|]. split; [constructor|]. intros _. apply S; [reflexivity|exact I].
Qed.
(** The same for "Verified: FALSE". *)
Theorem C104_false : forall l c size, live l (new_frame K conn c size) -> d_verified K conn (use_demo l (new_frame K conn c size)) = VerifiedFalse ->
  exists l1 l2 x, l = l1 ++ PressVerify K conn :: l2 /\ ac (use_demo l1 (new_frame K conn c size)) = Some x /\ verify_signature K x = Ok false /\
    Forall (fun a => a <> PressClearCert K conn) l2.
Proof.
  intros l c size. set (f0 := new_frame K conn c size). induction l as [|a l IH] using rev_ind; [discriminate|].
  intros LV. destruct (live_snoc l a f0 LV) as [LV1 E].
  assert (L : d_verified K conn (use_demo l f0) = VerifiedFalse -> a <> PressClearCert K conn ->
    exists l1 l2 x, l ++ [a] = l1 ++ PressVerify K conn :: l2 /\ ac (use_demo l1 f0) = Some x /\ verify_signature K x = Ok false /\
      Forall (fun a => a <> PressClearCert K conn) l2).
  { intros T N. destruct (IH LV1 T) as (l1 & l2 & x & E1 & A & V & F). exists l1, (l2 ++ [a]), x. split; [rewrite E1, <- app_assoc; reflexivity|].
    split; [exact A|]. split; [exact V|]. apply Forall_app; split; [exact F|]; constructor; [exact N|constructor]. }
  rewrite E. rewrite C104_step. intros T.
  destruct a; try (apply L; [exact T|discriminate]; fail); [discriminate|].
  destruct (ac (use_demo l f0)) as [x|] eqn:A; [|apply L; [exact T|discriminate]].
  destruct (verify_signature K x) as [[|]|e] eqn:V; [discriminate| |apply L; [exact T|discriminate]].
  exists l, [], x. split; [reflexivity|]. split; [exact A|]. split; [exact V|constructor].
Qed.

(** ** C105: the service asked, the loop and the exceptions *)

(** If every description can be opened at all times, the connection is that of the description
    of the client, and a request goes to the service of the URL shown. *)
Definition dials (dial : option str -> option conn) (a : act) : Prop :=
  match a with PressInfo _ _ connect _ => forall d, connect d = dial d | PressRequest _ _ connect _ _ => forall d, connect d = dial d | _ => True end.
Definition connected (dial : option str -> option conn) (f : dframe) : Prop :=
  cl_type K conn (d_client K conn f) = Some (lit "JSONWSP") /\ dial (cl_desc K conn (d_client K conn f)) = Some (cl_conn K conn (d_client K conn f)).
Lemma follow_connected : forall dial connect f f' r, (forall s, dial (Some s) <> None) -> (forall d, connect d = dial d) -> connected dial f ->
  follow_url K conn connect f = (f', r) -> connected dial f' /\ r = COk tt.
Proof.
  intros dial connect f f' r T C [Y D] H. destruct (follow_spec K conn connect f f' r H) as (cl & -> & D1 & T1 & _ & _ & _ & W). unfold connected. cbn [with_client d_client].
  rewrite T1. split.
  - split; [exact Y|]. rewrite D1. destruct W as [(S & _ & ->)|[(_ & _ & _ & W)|(_ & _ & _ & W)]].
    + unfold same_url in S. rewrite <- S. exact D.
    + rewrite <- C. exact W.
    + destruct W. split; [congruence|]. rewrite C. destruct (dial (Some (d_url K conn f))) as [k|] eqn:Q; [now exists k|destruct (T _ Q)].
  - destruct W as [(_ & -> & _)|[(_ & -> & _)|(_ & _ & _ & W)]]; [reflexivity|reflexivity|]. destruct W. split; [congruence|]. rewrite C.
    destruct (dial (Some (d_url K conn f))) as [k|] eqn:Q; [now exists k|destruct (T _ Q)].
Qed.
Lemma connected_step : forall dial a f, (forall s, dial (Some s) <> None) -> dials dial a -> connected dial f -> connected dial (fst (do_act a f)).
Proof.
  intros dial a f T Q F. destruct a as [s|s|s|s|s|s|g| | |sel|sel|connect net|connect first more| | | | | | | ]; try exact F; cbn [AAuthDemo.do_act dials] in *.
  - destruct (generate_fields K conn pair g f) as (k & t & ->). exact F.
  - destruct sel; exact F.
  - destruct sel; exact F.
  - unfold command_info. destruct (follow_url K conn connect f) as [f' r] eqn:E. destruct (follow_connected dial connect f f' r T Q F E) as [G ->]. exact G.
  - destruct (follow_url K conn connect f) as [f' r] eqn:FU. destruct (follow_connected dial connect f f' r T Q F FU) as [_ ->].
    destruct (request_spec U K pem bits conn pair day connect first more f) as [(cl & e & _ & _ & _ & _ & _ & R)|(c0 & cl & (A1 & A2 & A3 & A4) & (L1 & L2 & L3 & L4 & L5) & _ & H)].
    { rewrite FU in R. discriminate R. }
    assert (G : connected dial (with_client K conn f cl)).
    { destruct F as [Y D]. unfold connected. cbn [with_client d_client]. rewrite L1, L2, L5, A4, A1. split; [exact Y|].
      destruct A3 as [[S ->]|[_ A3]]; [unfold same_url in S; now rewrite <- S|now rewrite <- Q]. }
    destruct H as [(e & ->)|[(o & _ & ->)|(b & x & k & _ & _ & LL & ->)]]; [exact G|exact G|].
    rewrite (receive_spec U K conn pair day b (with_client K conn f cl) k LL). destruct (ac_decode K b false) as [c|e]; [|exact G].
    cbv zeta. destruct (build_tree U day c); exact G.
  - unfold command_view_bytes. destruct (raw f); exact F.
  - unfold command_view_text. destruct (view_fields K conn FText (fun s => TextExport (Z.of_nat (List.length s)) s) f (or_introl eq_refl)) as (t & ->). exact F.
  - unfold command_view_base64. destruct (view_fields K conn FBase64Full TextBase64 f (or_intror eq_refl)) as (t & ->). exact F.
  - destruct (verify_fields K conn f) as (v & ->). exact F.
Qed.
Theorem C105_service : forall dial l f, (forall s, dial (Some s) <> None) -> Forall (dials dial) l -> connected dial f ->
  let f' := use_demo l f in forall k, asked K conn dial f' k <-> dial (Some (d_url K conn f')) = Some k.
Proof.
  intros dial l f T L C. cbv zeta. assert (G : connected dial (use_demo l f)).
  { apply (use_ind U K pem bits conn pair day (connected dial) (dials dial)); [|exact L|exact C]. intros a g. now apply connected_step. }
  destruct G as [_ G]. intros k. unfold asked. split.
  - intros [[E ->]|[_ E]]; [now rewrite <- E|exact E].
  - intros E. destruct (cl_desc K conn (d_client K conn (use_demo l f))) as [d|] eqn:D.
    + destruct (str_eqb d (d_url K conn (use_demo l f))) eqn:Q.
      * apply str_eqb_eq in Q. subst d. left. split; [reflexivity|]. congruence.
      * right. split; [|exact E]. intros X. injection X as ->. rewrite str_eqb_refl in Q. discriminate.
    + right. split; [discriminate|exact E].
Qed.

(** The button is stuck exactly as long as the service answers every request with an attachment
    that cannot be read. *)
Definition unreadable (f : dframe) (c : client K conn) (x : call) : Prop :=
  exists e k, is_value_error e = true /\ answers K pem bits conn f c x (Err e) k.
Lemma issue_answers : forall f c x k a, cl_cred K conn c = login K conn f -> answers K pem bits conn f c x a k ->
  exists c', issue K pem bits conn (with_client K conn f c) x = (with_client K conn f c', COk a) /\ like K conn c c'.
Proof.
  intros f c x k a C (text & r & KO & T & N & ST & FA & RR). unfold issue. cbn [with_client d_names d_ids d_key d_client].
  assert (E : client_request K pem bits conn (ca_generate K conn x) (ca_net K conn x) (Some (map Some (names f))) (Some (map Some (ids f))) (key f) c =
    (Client K conn (cl_type K conn c) (cl_desc K conn c) (cl_size K conn c) (Some k) (cl_cred K conn c) (cl_conn K conn c), COk a)).
  { unfold client_request. unfold key_of in KO.
    replace (match key f with None => ca_generate K conn x (cl_size K conn c) | Some k => Ok k end) with (@Ok (prv K) k) by (destruct KO as [->|[-> ->]]; reflexivity).
    apply decode_iff in T. rewrite T. unfold message in N. rewrite C, N, ST, FA, RR. reflexivity. }
  rewrite E. eexists. split; [reflexivity|]. unfold like. cbn. auto.
Qed.
Lemma loop_running : forall f more c0 c got, cl_cred K conn c = login K conn f -> like K conn c0 c ->
  (snd (read_loop K pem bits conn got more (with_client K conn f c)) = inl Running <->
   (exists e, got = Err e /\ is_value_error e = true) /\ Forall (unreadable f c0) more).
Proof.
  intros f more c0. induction more as [|x more IH]; intros c got C L; destruct got as [b|e]; cbn [read_loop].
  - split; [discriminate|]. intros [(e & E & _) _]. discriminate E.
  - destruct (is_value_error e) eqn:V; cbn [snd].
    + split; [|reflexivity]. intros _. split; [now exists e|constructor].
    + split; [discriminate|]. intros [(e' & E & V') _]. injection E as <-. congruence.
  - split; [discriminate|]. intros [(e & E & _) _]. discriminate E.
  - destruct (is_value_error e) eqn:V.
    2:{ cbn [snd]. split; [discriminate|]. intros [(e' & E & V') _]. injection E as <-. congruence. }
    destruct (issue K pem bits conn (with_client K conn f c) x) as [f1 r] eqn:I.
    destruct (issue_spec K pem bits conn (with_client K conn f c) x f1 r C I) as (c1 & -> & L1 & R). cbn [with_client d_client] in L1, R.
    change (with_client K conn (with_client K conn f c) c1) with (with_client K conn f c1) in *.
    assert (L2 : like K conn c0 c1) by exact (like_trans K conn _ _ _ L L1).
    assert (C1 : cl_cred K conn c1 = login K conn f) by (destruct L1 as (_ & _ & _ & L1 & _); congruence).
    destruct r as [got|e'].
    + rewrite (IH c1 got C1 L2). destruct R as (k & A & _). split.
      * intros [(e1 & -> & V1) F]. split; [now exists e|]. constructor; [|exact F]. exists e1, k. split; [exact V1|]. exact (answers_like K pem bits conn f c0 c x (Err e1) k L A).
      * intros [_ F]. inversion F as [|y z (e1 & k1 & V1 & A1) F2]; subst. split; [|exact F2].
        assert (A2 : answers K pem bits conn f c x (Err e1) k1).
        { destruct L as (_ & _ & Q3 & _ & Q5). destruct A1 as (t & r & B1 & B2 & B3). exists t, r. unfold key_of in *. rewrite Q3, Q5. auto. }
        destruct (issue_answers f c x k1 (Err e1) C A2) as (c' & E & _). rewrite E in I. injection I as _ <-. exists e1. auto.
    + cbn [snd]. split; [discriminate|]. intros [_ F]. inversion F as [|y z (e1 & k1 & V1 & A1) F2]; subst.
      assert (A2 : answers K pem bits conn f c x (Err e1) k1).
      { destruct L as (_ & _ & Q3 & _ & Q5). destruct A1 as (t & r & B1 & B2 & B3). exists t, r. unfold key_of in *. rewrite Q3, Q5. auto. }
      destruct (issue_answers f c x k1 (Err e1) C A2) as (c' & E & _). rewrite E in I. discriminate I.
Qed.
Theorem C105_stuck : forall connect first more f,
  snd (do_act (PressRequest K conn connect first more) f) = Running <->
  exists c, asks K conn connect f c /\ snd (follow_url K conn connect f) = COk tt /\ Forall (unreadable f c) (first :: more).
Proof.
  intros connect first more f. cbn [AAuthDemo.do_act]. unfold command_ac. destruct (follow_url K conn connect f) as [f1 r1] eqn:FU.
  destruct (follow_spec K conn connect f f1 r1 FU) as (c1 & -> & D1 & T1 & S1 & L1 & CR1 & W). cbn [snd].
  destruct r1 as [[]|e]; [|split; [discriminate|intros (c & _ & E & _); discriminate E]].
  change (with_client K conn (with_client K conn f c1) (as_client K conn (with_client K conn f c1))) with (with_client K conn f (as_client K conn (with_client K conn f c1))).
  remember (as_client K conn (with_client K conn f c1)) as c0 eqn:E0.
  assert (A0 : asks K conn connect f c0).
  { subst c0. unfold asks, as_client. cbn [with_client d_client cl_desc cl_size cl_conn cl_type]. split; [exact D1|]. split; [exact S1|]. split; [|exact T1].
    destruct W as [(W1 & _ & ->)|[(W1 & _ & _ & W2)|(_ & [e W] & _)]]; [left; auto|right; auto|discriminate]. }
  assert (C : cl_cred K conn c0 = login K conn f) by (subst c0; reflexivity). clear E0.
  (* any client asked is the same for the calls *)
  assert (SAME : forall c, asks K conn connect f c -> forall x a k, answers K pem bits conn f c x a k <-> answers K pem bits conn f c0 x a k).
  { intros c (B1 & B2 & B3 & B4) x a k. destruct A0 as (A1 & A2 & A3 & A4).
    assert (Q5 : cl_conn K conn c = cl_conn K conn c0) by (destruct A3 as [[S3 A3]|[S3 A3]], B3 as [[S4 B3]|[S4 B3]]; congruence || tauto).
    assert (Q3 : cl_size K conn c = cl_size K conn c0) by congruence.
    split; intros (t & r & H1 & H2 & H3); exists t, r; unfold key_of in *; [rewrite <- Q3, <- Q5|rewrite Q3, Q5]; auto. }
  destruct (issue K pem bits conn (with_client K conn f c0) first) as [f2 r2] eqn:I.
  destruct (issue_spec K pem bits conn (with_client K conn f c0) first f2 r2 C I) as (c2 & -> & L & R). cbn [with_client d_client] in L, R.
  change (with_client K conn (with_client K conn f c0) c2) with (with_client K conn f c2) in *.
  assert (C2 : cl_cred K conn c2 = login K conn f) by (destruct L as (_ & _ & _ & L & _); congruence).
  destruct r2 as [got|e].
  - pose proof (loop_running f more c0 c2 got C2 L) as LR. destruct R as (k & A & _).
    destruct (read_loop K pem bits conn got more (with_client K conn f c2)) as [f3 [o|b]] eqn:RL; cbn [snd] in *.
    + split.
      * intros ->. destruct LR as [LR _]. destruct (LR eq_refl) as [(e & -> & V) F]. exists c0. split; [exact A0|]. split; [reflexivity|].
        constructor; [|exact F]. exists e, k. auto.
      * intros (c & AC & _ & F). inversion F as [|y z (e1 & k1 & V1 & A1) F2]; subst. apply (SAME c AC) in A1.
        destruct (issue_answers f c0 first k1 (Err e1) C A1) as (c' & E & _). rewrite E in I. injection I as _ <-.
        assert (Q : @inl outcome bytes o = inl Running).
        { apply LR. split; [exists e1; auto|]. apply Forall_forall. intros x X. rewrite Forall_forall in F2. destruct (F2 x X) as (e2 & k2 & V2 & A2).
          exists e2, k2. split; [exact V2|]. now apply (SAME c AC). }
        now injection Q as ->.
    + split.
      * intros Q. exfalso. revert Q. unfold receive. destruct (cl_last K conn (d_client K conn f3)); [|discriminate]. destruct (ac_decode K b false) as [ct|]; [|discriminate].
        cbv zeta. destruct (build_tree U day ct); discriminate.
      * intros (c & AC & _ & F). inversion F as [|y z (e1 & k1 & V1 & A1) F2]; subst. apply (SAME c AC) in A1.
        destruct (issue_answers f c0 first k1 (Err e1) C A1) as (c' & E & _). rewrite E in I. injection I as _ <-.
        assert (Q : @inr outcome bytes b = inl Running).
        { apply LR. split; [exists e1; auto|]. apply Forall_forall. intros x X. rewrite Forall_forall in F2. destruct (F2 x X) as (e2 & k2 & V2 & A2).
          exists e2, k2. split; [exact V2|]. now apply (SAME c AC). }
        discriminate Q.
  - cbn [snd]. split; [discriminate|]. intros (c & AC & _ & F). inversion F as [|y z (e1 & k1 & V1 & A1) F2]; subst. apply (SAME c AC) in A1.
    destruct (issue_answers f c0 first k1 (Err e1) C A1) as (c' & E & _). rewrite E in I. discriminate I.
Qed.

(** Which exceptions leave a callback: tkinter prints them, the window shows nothing. *)
Definition no_service (connect : option str -> option conn) (f : dframe) : Prop :=
  cl_desc K conn (d_client K conn f) <> Some (d_url K conn f) /\
  ~ (cl_type K conn (d_client K conn f) = Some (lit "JSONWSP") /\ exists k, connect (Some (d_url K conn f)) = Some k).
(** The client raises for a call. *)
Definition refused (f : dframe) (c : client K conn) (x : call) : Prop := forall a k, ~ answers K pem bits conn f c x a k.
Definition no_attachment (f : dframe) (c : client K conn) (x : call) : Prop :=
  exists e k, is_value_error e = false /\ answers K pem bits conn f c x (Err e) k.
Definition not_shown (f : dframe) (c : client K conn) (x : call) : Prop :=
  exists b k, answers K pem bits conn f c x (Ok b) k /\ forall ct t, ac_decode K b false = Ok ct -> build_tree U day ct <> Ok t.
Definition request_raises (connect : option str -> option conn) (first : call) (more : list call) (f : dframe) : Prop :=
  no_service connect f \/
  exists c pre x post, ~ no_service connect f /\ asks K conn connect f c /\ first :: more = pre ++ x :: post /\ Forall (unreadable f c) pre /\
    (pre <> [] /\ refused f c x \/ no_attachment f c x \/ not_shown f c x).
Definition raises (a : act) (f : dframe) : Prop :=
  match a with
  | PressGenerate _ _ g => exists e, g (d_size K conn f) = Err e
  | PressDelName _ _ sel | PressDelId _ _ sel => sel = None
  | PressInfo _ _ connect _ => no_service connect f
  | PressRequest _ _ connect first more => request_raises connect first more f
  | PressText _ _ => match ac f with None => True | Some c => exists s, c_sig c = Some s /\ sg_value s = None end
  | PressBase64 _ _ => match ac f with None => True | Some c => ~ (body_fits c /\ if_some sig_fits (c_sig c)) end
  | PressVerify _ _ => match ac f with None => True | Some c => exists e, verify_signature K c = Err e end
  | _ => False
  end.
Lemma follow_raises : forall connect f, (exists e, snd (follow_url K conn connect f) = CBad e) <-> no_service connect f.
Proof.
  intros connect f. destruct (follow_url K conn connect f) as [f' r] eqn:E. destruct (follow_spec K conn connect f f' r E) as (cl & -> & _ & T & _ & _ & _ & W). cbn [snd].
  unfold no_service. unfold same_url in W. rewrite T in W. destruct W as [(S & -> & _)|[(S & -> & J & C)|(S & [e ->] & _ & N)]].
  - split; [intros [e H]; discriminate H|]. intros [H _]. congruence.
  - split; [intros [e H]; discriminate H|]. intros [_ H]. destruct H. split; [exact J|eauto].
  - split; [auto|]. intros _. now exists e.
Qed.
Lemma answers_same : forall f c x a k a' k', cl_cred K conn c = login K conn f -> answers K pem bits conn f c x a k -> answers K pem bits conn f c x a' k' -> a = a'.
Proof.
  intros f c x a k a' k' C H H'. destruct (issue_answers f c x k a C H) as (c1 & E1 & _). destruct (issue_answers f c x k' a' C H') as (c2 & E2 & _).
  rewrite E1 in E2. now injection E2 as _ ->.
Qed.
Lemma answers_up : forall f c0 c x a k, like K conn c0 c -> answers K pem bits conn f c0 x a k -> answers K pem bits conn f c x a k.
Proof.
  intros f c0 c x a k (_ & _ & Q3 & _ & Q5) (t & r & B1 & B2 & B3). exists t, r. unfold key_of in *. rewrite Q3, Q5. auto.
Qed.
(** What the loop ends with. *)
Lemma loop_ends : forall f more c0 c got, cl_cred K conn c = login K conn f -> like K conn c0 c ->
  ((exists e, snd (read_loop K pem bits conn got more (with_client K conn f c)) = inl (Raised e)) <->
   (exists e, got = Err e /\ is_value_error e = false) \/
   exists pre x post, (exists e, got = Err e /\ is_value_error e = true) /\ more = pre ++ x :: post /\ Forall (unreadable f c0) pre /\ (refused f c0 x \/ no_attachment f c0 x)) /\
  (forall b, snd (read_loop K pem bits conn got more (with_client K conn f c)) = inr b <->
   got = Ok b \/ exists pre x post k, (exists e, got = Err e /\ is_value_error e = true) /\ more = pre ++ x :: post /\ Forall (unreadable f c0) pre /\ answers K pem bits conn f c0 x (Ok b) k).
Proof.
  intros f more c0. induction more as [|x more IH]; intros c got C L; destruct got as [b|e]; cbn [read_loop].
  - split.
    + split; [intros [e H]; discriminate H|]. intros [(e & H & _)|(pre & x & post & (e & H & _) & _)]; discriminate H.
    + intros b'. cbn [snd]. split; [intros H; injection H as ->; now left|]. intros [H|(pre & x & post & k & (e & H & _) & _)]; [now injection H as ->|discriminate H].
  - destruct (is_value_error e) eqn:V; cbn [snd]; split.
    + split; [intros [e' H]; discriminate H|]. intros [(e' & H & V')|(pre & x & post & _ & H & _)]; [injection H as <-; congruence|destruct pre; discriminate H].
    + intros b. split; [discriminate|]. intros [H|(pre & x & post & k & _ & H & _)]; [discriminate H|destruct pre; discriminate H].
    + split; [|intros _; now exists (DPy e)]. intros _. left. now exists e.
    + intros b. split; [discriminate|]. intros [H|(pre & x & post & k & _ & H & _)]; [discriminate H|destruct pre; discriminate H].
  - split.
    + split; [intros [e H]; discriminate H|]. intros [(e & H & _)|(pre & y & post & (e & H & _) & _)]; discriminate H.
    + intros b'. cbn [snd]. split; [intros H; injection H as ->; now left|]. intros [H|(pre & y & post & k & (e & H & _) & _)]; [now injection H as ->|discriminate H].
  - destruct (is_value_error e) eqn:V.
    2:{ cbn [snd]. split.
        - split; [|intros _; now exists (DPy e)]. intros _. left. now exists e.
        - intros b. split; [discriminate|]. intros [H|(pre & y & post & k & (e' & H & V') & _)]; [discriminate H|injection H as <-; congruence]. }
    destruct (issue K pem bits conn (with_client K conn f c) x) as [f1 r] eqn:I.
    destruct (issue_spec K pem bits conn (with_client K conn f c) x f1 r C I) as (c1 & -> & L1 & R). cbn [with_client d_client] in L1, R.
    change (with_client K conn (with_client K conn f c) c1) with (with_client K conn f c1) in *.
    assert (L2 : like K conn c0 c1) by exact (like_trans K conn _ _ _ L L1).
    assert (C1 : cl_cred K conn c1 = login K conn f) by (destruct L1 as (_ & _ & _ & L1 & _); congruence).
    assert (HERE : forall a k, answers K pem bits conn f c0 x a k -> r = COk a).
    { intros a k A. apply (answers_up f c0 c x a k L) in A. destruct (issue_answers f c x k a C A) as (c' & E & _). rewrite E in I. now injection I as _ <-. }
    destruct r as [got|e'].
    + destruct (IH c1 got C1 L2) as [IH1 IH2]. destruct R as (k & A & _). apply (answers_like K pem bits conn f c0 c x got k L) in A.
      split.
      * rewrite IH1. split.
        -- intros [(e1 & -> & V1)|(pre & y & post & (e1 & -> & V1) & -> & F & Q)].
           ++ right. exists [], x, more. split; [now exists e|]. split; [reflexivity|]. split; [constructor|]. right. exists e1, k. auto.
           ++ right. exists (x :: pre), y, post. split; [now exists e|]. split; [reflexivity|]. split; [|exact Q]. constructor; [|exact F]. exists e1, k. auto.
        -- intros [(e1 & E & V1)|(pre & y & post & _ & E & F & Q)]; [injection E as <-; congruence|]. destruct pre as [|z pre]; cbn [app] in E; injection E as <- ->.
           ++ destruct Q as [Q|(e1 & k1 & V1 & Q)]; [destruct (Q _ _ A)|]. left. pose proof (HERE _ _ Q) as E. injection E as ->. now exists e1.
           ++ inversion F as [|u v (e1 & k1 & V1 & A1) F2]; subst. right. exists pre, y, post. pose proof (HERE _ _ A1) as E. injection E as ->.
              split; [now exists e1|]. auto.
      * intros b. rewrite IH2. split.
        -- intros [->|(pre & y & post & k' & (e1 & -> & V1) & -> & F & Q)].
           ++ right. exists [], x, more, k. split; [now exists e|]. split; [reflexivity|]. split; [constructor|exact A].
           ++ right. exists (x :: pre), y, post, k'. split; [now exists e|]. split; [reflexivity|]. split; [|exact Q]. constructor; [|exact F]. exists e1, k. auto.
        -- intros [E|(pre & y & post & k' & _ & E & F & Q)]; [discriminate E|]. destruct pre as [|z pre]; cbn [app] in E; injection E as <- ->.
           ++ left. pose proof (HERE _ _ Q) as E. now injection E as ->.
           ++ inversion F as [|u v (e1 & k1 & V1 & A1) F2]; subst. right. exists pre, y, post, k'. pose proof (HERE _ _ A1) as E. injection E as ->.
              split; [now exists e1|]. auto.
    + cbn [snd]. assert (RF : refused f c0 x) by (intros a k A; discriminate (HERE _ _ A)). split.
      * split; [|intros _; now exists (DClient e')]. intros _. right. exists [], x, more. split; [now exists e|]. split; [reflexivity|]. split; [constructor|now left].
      * intros b. split; [discriminate|]. intros [E|(pre & y & post & k' & _ & E & F & Q)]; [discriminate E|]. destruct pre as [|z pre]; cbn [app] in E; injection E as <- ->.
        -- destruct (RF _ _ Q).
        -- inversion F as [|u v (e1 & k1 & V1 & A1) F2]; subst. destruct (RF _ _ A1).
Qed.
Lemma receive_raises : forall b f k, cl_last K conn (d_client K conn f) = Some k ->
  ((exists e, snd (receive U K conn pair day b f) = Raised e) <-> forall ct t, ac_decode K b false = Ok ct -> build_tree U day ct <> Ok t).
Proof.
  intros b f k E. rewrite (receive_spec U K conn pair day b f k E). destruct (ac_decode K b false) as [ct|e].
  - cbv zeta. destruct (build_tree U day ct) as [t|e] eqn:B; cbn [snd].
    + split; [intros [e H]; discriminate H|]. intros H. destruct (H ct t eq_refl B).
    + split; [|intros _; now exists (DPy e)]. intros _ ct' t H. injection H as <-. congruence.
  - cbn [snd]. split; [|intros _; now exists (DPy e)]. intros _ ct t H. discriminate H.
Qed.
Lemma request_raises_iff : forall connect first more f, (exists e, snd (command_ac U K pem bits conn pair day connect first more f) = Raised e) <-> request_raises connect first more f.
Proof.
  intros connect first more f. pose proof (follow_raises connect f) as FR. unfold request_raises, command_ac. destruct (follow_url K conn connect f) as [f1 r1] eqn:FU.
  destruct (follow_spec K conn connect f f1 r1 FU) as (c1 & -> & D1 & T1 & S1 & L1 & CR1 & W). cbn [snd] in FR.
  destruct r1 as [[]|e].
  2:{ cbn [snd]. split; [|intros _; now exists (DClient e)]. intros _. left. apply FR. now exists e. }
  assert (NS : ~ no_service connect f). { intros N. apply FR in N as [e N]. discriminate N. }
  change (with_client K conn (with_client K conn f c1) (as_client K conn (with_client K conn f c1))) with (with_client K conn f (as_client K conn (with_client K conn f c1))).
  remember (as_client K conn (with_client K conn f c1)) as c0 eqn:E0.
  assert (A0 : asks K conn connect f c0).
  { subst c0. unfold asks, as_client. cbn [with_client d_client cl_desc cl_size cl_conn cl_type]. split; [exact D1|]. split; [exact S1|]. split; [|exact T1].
    destruct W as [(W1 & _ & ->)|[(W1 & _ & _ & W2)|(_ & [e W] & _)]]; [left; auto|right; auto|discriminate]. }
  assert (C : cl_cred K conn c0 = login K conn f) by (subst c0; reflexivity). clear E0.
  assert (SAME : forall c, asks K conn connect f c -> forall x a k, answers K pem bits conn f c x a k <-> answers K pem bits conn f c0 x a k).
  { intros c (B1 & B2 & B3 & B4) x a k. destruct A0 as (A1 & A2 & A3 & A4).
    assert (Q5 : cl_conn K conn c = cl_conn K conn c0) by (destruct A3 as [[S3 A3]|[S3 A3]], B3 as [[S4 B3]|[S4 B3]]; congruence || tauto).
    assert (Q3 : cl_size K conn c = cl_size K conn c0) by congruence.
    split; intros (t & r & H1 & H2 & H3); exists t, r; unfold key_of in *; [rewrite <- Q3, <- Q5|rewrite Q3, Q5]; auto. }
  assert (RED : (no_service connect f \/
      exists c pre x post, ~ no_service connect f /\ asks K conn connect f c /\ first :: more = pre ++ x :: post /\ Forall (unreadable f c) pre /\
        (pre <> [] /\ refused f c x \/ no_attachment f c x \/ not_shown f c x)) <->
    exists pre x post, first :: more = pre ++ x :: post /\ Forall (unreadable f c0) pre /\ (pre <> [] /\ refused f c0 x \/ no_attachment f c0 x \/ not_shown f c0 x)).
  { split.
    - intros [N|(c & pre & x & post & _ & A & E & F & Q)]; [tauto|]. pose proof (SAME c A) as SM. exists pre, x, post. split; [exact E|]. split.
      + apply Forall_forall. intros y Y. rewrite Forall_forall in F. destruct (F y Y) as (e & k & V & H). exists e, k. split; [exact V|now apply SM].
      + destruct Q as [[P Q]|[(e & k & V & H)|(b & k & H & G)]]; [left; split; [exact P|]; intros a k H; exact (Q a k (proj2 (SM _ _ _) H))| |].
        * right. left. exists e, k. split; [exact V|now apply SM].
        * right. right. exists b, k. split; [now apply SM|exact G].
    - intros (pre & x & post & H). right. exists c0, pre, x, post. split; [exact NS|]. split; [exact A0|]. exact H. }
  rewrite RED. clear RED SAME A0 FR.
  destruct (issue K pem bits conn (with_client K conn f c0) first) as [f2 r2] eqn:I.
  destruct (issue_spec K pem bits conn (with_client K conn f c0) first f2 r2 C I) as (c2 & -> & L & R). cbn [with_client d_client] in L, R.
  change (with_client K conn (with_client K conn f c0) c2) with (with_client K conn f c2) in *.
  assert (C2 : cl_cred K conn c2 = login K conn f) by (destruct L as (_ & _ & _ & L & _); congruence).
  assert (HERE : forall a k, answers K pem bits conn f c0 first a k -> r2 = COk a).
  { intros a k A. destruct (issue_answers f c0 first k a C A) as (c' & E & _). rewrite E in I. now injection I as _ <-. }
  destruct r2 as [got|e].
  2:{ cbn [snd]. split; [intros [e' H]; discriminate H|]. intros (pre & x & post & E & F & Q). destruct pre as [|y pre]; cbn [app] in E; injection E as <- ->.
      - destruct Q as [[Q _]|[(e1 & k & _ & A)|(b & k & A & _)]]; [congruence| |]; discriminate (HERE _ _ A).
      - inversion F as [|u v (e1 & k1 & V1 & A1) F2]; subst. discriminate (HERE _ _ A1). }
  destruct R as (k & A & LK). destruct (loop_ends f more c0 c2 got C2 L) as [LE1 LE2].
  destruct (read_loop K pem bits conn got more (with_client K conn f c2)) as [f3 o] eqn:RL. cbn [snd] in LE1, LE2.
  destruct (loop_spec K pem bits conn more got (with_client K conn f c2) f3 o C2 RL) as (c3 & -> & L3 & LO). cbn [with_client d_client] in L3, LO.
  change (with_client K conn (with_client K conn f c2) c3) with (with_client K conn f c3).
  assert (SHOW : forall b k', answers K pem bits conn f c0 first (Ok b) k' -> got = Ok b) by (intros b k' H; pose proof (HERE _ _ H) as E; now injection E).
  destruct o as [o|b].
  - cbn [snd]. transitivity (exists e, @inl outcome bytes o = inl (Raised e)).
    { split; intros [e H]; exists e; [now rewrite H|now injection H]. }
    rewrite LE1. split.
    + intros [(e & -> & V)|(pre & x & post & (e & -> & V) & -> & F & Q)].
      * exists [], first, more. split; [reflexivity|]. split; [constructor|]. right. left. exists e, k. auto.
      * exists (first :: pre), x, post. split; [reflexivity|]. split; [constructor; [exists e, k; auto|exact F]|]. destruct Q as [Q|Q]; [left; split; [discriminate|exact Q]|right; now left].
    + intros (pre & x & post & E & F & Q). destruct pre as [|y pre]; cbn [app] in E; injection E as <- ->.
      * destruct Q as [[Q _]|[(e1 & k1 & V1 & A1)|(b & k1 & A1 & _)]]; [congruence| |].
        -- left. pose proof (HERE _ _ A1) as E. injection E as ->. now exists e1.
        -- exfalso. apply SHOW in A1. subst got. destruct (LE2 b) as [_ LE]. discriminate (LE (or_introl eq_refl)).
      * inversion F as [|u v (e1 & k1 & V1 & A1) F2]; subst. pose proof (HERE _ _ A1) as E. injection E as ->. destruct Q as [[_ Q]|[Q|(b & k2 & A2 & _)]].
        -- right. exists pre, x, post. split; [now exists e1|]. auto.
        -- right. exists pre, x, post. split; [now exists e1|]. auto.
        -- exfalso. destruct (LE2 b) as [_ LE]. assert (Z : @inl outcome bytes o = inr b); [|discriminate Z]. apply LE. right. exists pre, x, post, k2. split; [now exists e1|]. auto.
  - assert (LL : exists k', cl_last K conn (d_client K conn (with_client K conn f c3)) = Some k').
    { cbn [with_client d_client]. destruct LO as [[_ ->]|(x & k' & _ & _ & Q)]; [now exists k|now exists k']. }
    destruct LL as [kk LL]. rewrite (receive_raises b _ kk LL). destruct (LE2 b) as [LE _]. specialize (LE eq_refl). split.
    + intros Q. destruct LE as [->|(pre & x & post & k' & (e & -> & V) & -> & F & B)].
      * exists [], first, more. split; [reflexivity|]. split; [constructor|]. right. right. exists b, k. auto.
      * exists (first :: pre), x, post. split; [reflexivity|]. split; [constructor; [exists e, k; auto|exact F]|]. right. right. exists b, k'. auto.
    + intros (pre & x & post & E & F & Q). destruct pre as [|y pre]; cbn [app] in E; injection E as <- ->.
      * destruct Q as [[Q _]|[(e1 & k1 & V1 & A1)|(b1 & k1 & A1 & G)]]; [congruence| |].
        -- exfalso. pose proof (HERE _ _ A1) as E. injection E as ->. destruct LE1 as [_ LE1]. destruct LE1 as [e H]; [left; now exists e1|discriminate H].
        -- apply SHOW in A1. subst got. destruct (LE2 b1) as [_ LE3]. pose proof (LE3 (or_introl eq_refl)) as Z. injection Z as ->. exact G.
      * inversion F as [|u v (e1 & k1 & V1 & A1) F2]; subst. pose proof (HERE _ _ A1) as E. injection E as ->. destruct Q as [[_ Q]|[Q|(b1 & k2 & A2 & G)]].
        -- exfalso. destruct LE1 as [_ LE1]. destruct LE1 as [e H]; [|discriminate H]. right. exists pre, x, post. split; [now exists e1|]. auto.
        -- exfalso. destruct LE1 as [_ LE1]. destruct LE1 as [e H]; [|discriminate H]. right. exists pre, x, post. split; [now exists e1|]. auto.
        -- destruct (LE2 b1) as [_ LE3]. assert (Z : @inr outcome bytes b = inr b1). { apply LE3. right. exists pre, x, post, k2. split; [now exists e1|]. auto. }
           injection Z as ->. exact G.
Qed.
Theorem C105_uncaught : forall a f, (exists e, snd (do_act a f) = Raised e) <-> raises a f.
Proof.
  assert (NO : forall o, o = Returned -> (exists e, o = Raised e) <-> False) by (intros o ->; split; [intros [e H]; discriminate H|tauto]).
  intros a f. destruct a as [s|s|s|s|s|s|g| | |sel|sel|connect net|connect first more| | | | | | | ]; cbn [AAuthDemo.do_act raises]; try (apply NO; reflexivity).
  - unfold command_generate. destruct (g (d_size K conn f)) as [k|e]; cbn [snd]; split; intros [x H]; try discriminate H; eauto.
  - destruct sel; cbn; split; try (intros [e H]; discriminate H); intros H; [discriminate H|reflexivity|now exists DTcl].
  - destruct sel; cbn; split; try (intros [e H]; discriminate H); intros H; [discriminate H|reflexivity|now exists DTcl].
  - rewrite <- follow_raises. unfold command_info. destruct (follow_url K conn connect f) as [f' [[]|e]]; cbn [snd]; split; intros [x H]; try discriminate H; eauto.
  - apply request_raises_iff.
  - apply NO. unfold command_view_bytes. destruct (raw f); reflexivity.
  - unfold command_view_text. rewrite (view_spec K conn FText _ f (or_introl eq_refl)). destruct (ac f) as [c|]; [|split; [trivial|intros _; now eexists]].
    unfold ac_export. cbn [snd]. unfold to_text. destruct (c_sig c) as [s|].
    + unfold sig_str. destruct (sg_value s) as [v|] eqn:SV; cbn [bind].
      * cbn [snd]. split; [intros [e H]; discriminate H|]. intros (s' & E & N). injection E as <-. congruence.
      * cbn [snd]. split; [|intros _; now eexists]. intros _. exists s. auto.
    + cbn [bind snd]. split; [intros [e H]; discriminate H|]. intros (s' & E & N). discriminate E.
  - unfold command_view_base64. rewrite (view_spec K conn FBase64Full _ f (or_intror eq_refl)). destruct (ac f) as [c|]; [|split; [trivial|intros _; now eexists]].
    rewrite <- (C58_encode K c None default_algo). unfold ac_export.
    destruct (ac_encode K c false None default_algo) as [c' r] eqn:E. assert (c' = c). { revert E. unfold ac_encode. destruct (encode_body c); intros H; now injection H. } subst c'.
    cbn [snd]. destruct r as [b|e]; cbn [bind snd].
    + split; [intros [e H]; discriminate H|]. intros H. destruct H. now exists b.
    + split; [|intros _; now eexists]. intros _ [b H]. congruence.
  - unfold command_verify. destruct (ac f) as [c|]; [|split; [trivial|intros _; now eexists]].
    destruct (verify_signature K c) as [b|e]; cbn [snd]; split; intros [x H]; try discriminate H; eauto.
Qed.
(** An exception of the first request is shown instead, and nothing else changes. *)
Theorem C105_shown : forall connect first more f c, ~ no_service connect f -> asks K conn connect f c -> refused f c first ->
  exists e cl, do_act (PressRequest K conn connect first more) f = (with_response K conn (with_client K conn f cl) (RespError e), Returned).
Proof.
  intros connect first more f c NS (B1 & B2 & B3 & B4) RF. cbn [AAuthDemo.do_act]. unfold command_ac. pose proof (follow_raises connect f) as FR.
  destruct (follow_url K conn connect f) as [f1 r1] eqn:FU. destruct (follow_spec K conn connect f f1 r1 FU) as (c1 & -> & D1 & T1 & S1 & L1 & CR1 & W). cbn [snd] in FR.
  destruct r1 as [[]|e]; [|destruct NS; apply FR; now exists e].
  change (with_client K conn (with_client K conn f c1) (as_client K conn (with_client K conn f c1))) with (with_client K conn f (as_client K conn (with_client K conn f c1))).
  remember (as_client K conn (with_client K conn f c1)) as c0 eqn:E0.
  assert (Q3 : cl_size K conn c = cl_size K conn c0) by (subst c0; cbn [as_client with_client d_client cl_size]; congruence).
  assert (Q5 : cl_conn K conn c = cl_conn K conn c0).
  { subst c0. cbn [as_client with_client d_client cl_conn]. destruct W as [(W1 & _ & W2)|[(W1 & _ & _ & W2)|(_ & [e W] & _)]]; [| |discriminate].
    - subst c1. destruct B3 as [[S4 B3]|[S4 B3]]; [congruence|tauto].
    - destruct B3 as [[S4 B3]|[S4 B3]]; [tauto|congruence]. }
  assert (C : cl_cred K conn c0 = login K conn f) by (subst c0; reflexivity). clear E0.
  destruct (issue K pem bits conn (with_client K conn f c0) first) as [f2 r2] eqn:I.
  destruct (issue_spec K pem bits conn (with_client K conn f c0) first f2 r2 C I) as (c2 & -> & L & R). cbn [with_client d_client] in L, R.
  destruct r2 as [got|e].
  - destruct R as (k & (t & r & H1 & H2 & H3) & _). exfalso. apply (RF got k). exists t, r. unfold key_of in *. rewrite Q3, Q5. auto.
  - exists e, c2. reflexivity.
Qed.

(** What the box "Request Response" then shows. *)
Definition responds (a : act) (f f' : dframe) (o : outcome) : Prop :=
  let r := d_response K conn f' in
  match a with
  | PressClear _ _ => r = RespEmpty
  | PressInfo _ _ connect net =>
      no_service connect f /\ r = d_response K conn f \/
      exists k, asked K conn connect f k /\
        match r with
        | RespInfo s => exists p, net k = Some p /\ rp_status p = 200 /\ rp_result p = Some s
        | RespError e => ~ exists p s, net k = Some p /\ rp_status p = 200 /\ rp_result p = Some s
        | _ => False
        end
  | PressRequest _ _ connect first more =>
      (exists e, r = RespError e /\ o = Returned /\ raw f' = raw f /\ ac f' = ac f /\ key f' = key f) \/
      (exists b c, r = RespBytes b /\ raw f' = Some b /\ ac_decode K b false = Ok c) \/
      r = d_response K conn f /\ o <> Returned
  | _ => r = d_response K conn f
  end.
Theorem C105_response : forall a f, responds a f (fst (do_act a f)) (snd (do_act a f)).
Proof.
  intros a f. destruct a as [s|s|s|s|s|s|g| | |sel|sel|connect net|connect first more| | | | | | | ]; cbn [AAuthDemo.do_act responds]; try reflexivity.
  - destruct (generate_fields K conn pair g f) as (k & t & E). now rewrite E.
  - destruct sel; reflexivity.
  - destruct sel; reflexivity.
  - pose proof (follow_raises connect f) as FR. unfold command_info. destruct (follow_url K conn connect f) as [f1 r1] eqn:FU.
    destruct (follow_spec K conn connect f f1 r1 FU) as (c1 & -> & D1 & T1 & S1 & L1 & CR1 & W). cbn [snd] in FR.
    destruct r1 as [[]|e]; cbn [fst snd]; [right|left; split; [apply FR; now exists e|reflexivity]].
    exists (cl_conn K conn c1). split.
    + unfold asked. unfold same_url in W. destruct W as [(W1 & _ & W2)|[(W1 & _ & _ & W2)|(_ & [e W] & _)]]; [left; subst c1; auto|right; auto|discriminate].
    + cbn [with_response with_client d_response d_client]. unfold client_info, plain_call. destruct (net (cl_conn K conn c1)) as [p|] eqn:N.
      * destruct (rp_status p =? 200) eqn:ST; cbn [negb].
        -- apply Z.eqb_eq in ST. destruct (rp_result p) as [v|] eqn:R; [exists p; auto|]. intros (p' & s & E & _ & R'). injection E as <-. congruence.
        -- apply Z.eqb_neq in ST. intros (p' & s & E & ST' & _). injection E as <-. congruence.
      * intros (p' & s & E & _). discriminate E.
  - destruct (request_spec U K pem bits conn pair day connect first more f) as [(cl & e & E & _)|(c0 & cl & A & L & _ & [(e & E)|[(o & O & E)|(b & x & k & I & AN & LL & E)]])];
      rewrite E; cbn [fst snd].
    + right. right. split; [reflexivity|discriminate].
    + left. exists e. auto.
    + right. right. split; [reflexivity|exact O].
    + rewrite (receive_spec U K conn pair day b (with_client K conn f cl) k LL). destruct (ac_decode K b false) as [c|e] eqn:D.
      * right. left. exists b, c. cbv zeta. destruct (build_tree U day c); auto.
      * right. right. split; [reflexivity|discriminate].
  - unfold command_view_bytes. destruct (raw f); reflexivity.
  - unfold command_view_text. rewrite (view_spec K conn FText _ f (or_introl eq_refl)). destruct (ac f); [|reflexivity]. destruct (snd (ac_export _ _ _ _ _ _)) as [[]|]; reflexivity.
  - unfold command_view_base64. rewrite (view_spec K conn FBase64Full _ f (or_intror eq_refl)). destruct (ac f); [|reflexivity]. destruct (snd (ac_export _ _ _ _ _ _)) as [[]|]; reflexivity.
  - destruct (verify_fields K conn f) as [v E]. now rewrite E.
Qed.

(** What the box "Raw Attribute Certificate" shows after each button, and when it changes. *)
Theorem C103_pressed : forall a f, let f' := fst (do_act a f) in
  match a with
  | PressClearCert _ _ => d_cert_text K conn f' = TextEmpty
  | PressBytes _ _ => match raw f with Some b => d_cert_text K conn f' = TextHex b | None => d_cert_text K conn f' = d_cert_text K conn f end
  | PressText _ _ =>
      (exists c s, ac f = Some c /\ to_text c = Ok s /\ d_cert_text K conn f' = TextExport (Z.of_nat (List.length s)) s) \/
      (forall c s, ac f = Some c -> to_text c <> Ok s) /\ d_cert_text K conn f' = d_cert_text K conn f
  | PressBase64 _ _ =>
      (exists c b s, ac f = Some c /\ snd (ac_encode K c false None default_algo) = Ok b /\ ac_export K c FBase64Full false None default_algo = (c, Ok (OutStr s)) /\
         d_cert_text K conn f' = TextBase64 s) \/
      (forall c b, ac f = Some c -> snd (ac_encode K c false None default_algo) <> Ok b) /\ d_cert_text K conn f' = d_cert_text K conn f
  | PressRequest _ _ _ _ _ =>
      d_cert_text K conn f' = d_cert_text K conn f /\ ac f' = ac f \/ exists b c, raw f' = Some b /\ ac_decode K b false = Ok c /\ ac f' = Some c /\ d_cert_text K conn f' = TextHex b
  | _ => d_cert_text K conn f' = d_cert_text K conn f
  end.
Proof.
  intros a f. cbv zeta. destruct a as [s|s|s|s|s|s|g| | |sel|sel|connect net|connect first more| | | | | | | ]; cbn [AAuthDemo.do_act]; try reflexivity.
  - destruct (generate_fields K conn pair g f) as (k & t & E). now rewrite E.
  - destruct sel; reflexivity.
  - destruct sel; reflexivity.
  - destruct (info_fields K conn connect net f) as (c & r & E). now rewrite E.
  - destruct (received_step connect first more f) as [(_ & E1 & _ & E2)|(b & R & E)]; cbn [AAuthDemo.do_act] in *; [auto|].
    destruct (ac_decode K b false) as [c|e] eqn:D; [right; exists b, c; tauto|left; tauto].
  - unfold command_view_bytes. destruct (raw f); reflexivity.
  - unfold command_view_text. rewrite (view_spec K conn FText _ f (or_introl eq_refl)). destruct (ac f) as [c|]; [|right; split; [discriminate|reflexivity]].
    unfold ac_export. cbn [snd]. destruct (to_text c) as [s|e] eqn:T; cbn [bind fst].
    + left. exists c, s. auto.
    + right. split; [|reflexivity]. intros c' s E. injection E as <-. congruence.
  - unfold command_view_base64. rewrite (view_spec K conn FBase64Full _ f (or_intror eq_refl)). destruct (ac f) as [c|]; [|right; split; [discriminate|reflexivity]].
    unfold ac_export.
    destruct (ac_encode K c false None default_algo) as [c' r] eqn:E. assert (c' = c). { revert E. unfold ac_encode. destruct (encode_body c); intros H; now injection H. } subst c'.
    cbn [snd]. destruct r as [b|e]; cbn [bind fst].
    + left. exists c, b. eexists. split; [reflexivity|]. split; [now rewrite E|]. split; [rewrite E; reflexivity|reflexivity].
    + right. split; [|reflexivity]. intros c' b H. injection H as <-. rewrite E. discriminate.
  - destruct (verify_fields K conn f) as [v E]. now rewrite E.
Qed.
(** The entries change by typing, Add and Reset only. *)
Theorem C101_typed : forall a f, let f' := fst (do_act a f) in
  d_url K conn f' = match a with TypeUrl _ _ s => s | PressReset _ _ => d_home K conn f | _ => d_url K conn f end /\
  d_user K conn f' = match a with TypeUser _ _ s => s | PressReset _ _ => [] | _ => d_user K conn f end /\
  d_pass K conn f' = match a with TypePass _ _ s => s | PressReset _ _ => [] | _ => d_pass K conn f end /\
  d_name K conn f' = match a with TypeName _ _ s => s | PressAddName _ _ | PressReset _ _ => [] | _ => d_name K conn f end /\
  d_id K conn f' = match a with TypeId _ _ s => s | PressAddId _ _ | PressReset _ _ => [] | _ => d_id K conn f end /\
  match a with
  | PressReset _ _ => names f' = [] /\ ids f' = []
  | PressAddName _ _ | PressDelName _ _ _ => ids f' = ids f
  | PressAddId _ _ | PressDelId _ _ _ => names f' = names f
  | _ => names f' = names f /\ ids f' = ids f
  end /\ d_home K conn f' = d_home K conn f /\ d_size K conn f' = d_size K conn f.
Proof.
  intros a f. cbv zeta. destruct a as [s|s|s|s|s|s|g| | |sel|sel|connect net|connect first more| | | | | | | ]; cbn [AAuthDemo.do_act].
  all: try (destruct sel; auto 10).
  all: auto 10.
  - destruct (generate_fields K conn pair g f) as (k & t & E). rewrite E. auto 10.
  - destruct (info_fields K conn connect net f) as (c & r & E). rewrite E. auto 10.
  - destruct (request_fields U K pem bits conn pair day connect first more f) as (E1 & E2 & E3 & E4 & E5 & E6 & E7 & E8 & E9 & _). auto 10.
  - unfold command_view_bytes. destruct (raw f); auto 10.
  - destruct (view_fields K conn FText (fun s => TextExport (Z.of_nat (List.length s)) s) f (or_introl eq_refl)) as [t E]. unfold command_view_text. rewrite E. auto 10.
  - destruct (view_fields K conn FBase64Full TextBase64 f (or_intror eq_refl)) as [t E]. unfold command_view_base64. rewrite E. auto 10.
  - destruct (verify_fields K conn f) as [v E]. rewrite E. auto 10.
Qed.
End Demo.
Print Assumptions C103_serial.
Print Assumptions C103_hex.
Print Assumptions C103_tree.
Print Assumptions C103_hidden.
Print Assumptions C103_built.
Print Assumptions C103_dates.
Print Assumptions C103_fits.
Print Assumptions C103_kept.
Print Assumptions C104_step.
Print Assumptions C104_true.
Print Assumptions C104_false.
Print Assumptions C105_service.
Print Assumptions C105_stuck.
Print Assumptions C105_uncaught.
Print Assumptions C105_shown.
Print Assumptions C105_response.
Print Assumptions C103_pressed.
Print Assumptions C101_typed.
