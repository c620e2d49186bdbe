(** * ToolsProps: generated attributes (C88) *)

From Coq Require Import NArith ZArith List Bool String Lia.
From Verif Require Import PyBase LexSpec LexProofs LexCase Struct BytesProofs AttCert CertSpec CertProofs CertProofs2 CertProps Config ConfigProps Logging LoggingProps
  PAuth AAuth AAuthSpec AAuthProofs AAuthProps Database DatabaseProps Tools.
Import ListNotations.
Open Scope Z_scope.

(** ** Decimal numerals are different for different numbers *)

Definition digit_step (n c : N) : N := (n * 10 + (c - 48))%N.
Lemma dec_digits_value : forall f n acc, (n < 10 ^ N.of_nat f)%N -> f <> O ->
  fold_left digit_step (dec_digits f n acc) 0%N = fold_left digit_step acc n.
Proof.
  induction f as [|f IH]; intros n acc L NZ; [congruence|]. cbn [dec_digits]. cbv zeta.
  assert (S : forall m, fold_left digit_step ((48 + n mod 10)%N :: acc) m = fold_left digit_step acc (m * 10 + n mod 10)%N).
  { intros m. cbn [fold_left]. f_equal. unfold digit_step. f_equal. rewrite N.add_comm, N.add_sub. reflexivity. }
  destruct (n <? 10)%N eqn:E.
  - apply N.ltb_lt in E. rewrite S. f_equal. rewrite N.mod_small by exact E. reflexivity.
  - apply N.ltb_ge in E. rewrite Nat2N.inj_succ, N.pow_succ_r' in L. rewrite IH.
    + rewrite S. f_equal. pose proof (N.div_mod n 10). lia.
    + apply N.div_lt_upper_bound; lia.
    + intros ->. cbn [N.of_nat N.pow] in L. lia.
Qed.
Lemma str_of_Z_inj : forall i j, 0 <= i -> 0 <= j -> str_of_Z i = str_of_Z j -> i = j.
Proof.
  assert (V : forall i, 0 <= i -> fold_left digit_step (str_of_Z i) 0%N = Z.to_N i).
  { intros i L. unfold str_of_Z. cbv zeta. destruct (i <? 0) eqn:E; [apply Z.ltb_lt in E; lia|]. rewrite dec_digits_value; [cbn [fold_left]; lia| |discriminate].
    rewrite Nat2N.inj_succ, N2Nat.id. set (n := Z.abs_N i). destruct (N.eq_dec n 0) as [->|NZ]; [reflexivity|].
    apply N.lt_le_trans with (2 ^ N.succ (N.log2 n))%N; [apply N.log2_spec; lia|]. apply N.pow_le_mono_l. lia. }
  intros i j I J E. pose proof (V i I) as A. rewrite E, (V j J) in A. lia.
Qed.

Lemma str_of_Z_nonempty : forall i, str_of_Z i <> [].
Proof.
  assert (V : forall f n acc, acc <> [] -> dec_digits f n acc <> []).
  { induction f as [|f IH]; intros n acc A; [exact A|]. cbn [dec_digits]. cbv zeta. destruct (n <? 10)%N; [discriminate|]. apply IH. discriminate. }
  intros i. unfold str_of_Z. cbv zeta. destruct (i <? 0); [discriminate|]. cbn [dec_digits]. cbv zeta. destruct (_ <? 10)%N; [discriminate|]. apply V. discriminate.
Qed.
Lemma in_forall2_r : forall {A B} (R : A -> B -> Prop) l m y, Forall2 R l m -> In y m -> exists x, In x l /\ R x y.
Proof. intros A B R l m y H. induction H as [|a b l m H F IH]; intros I; [destruct I|]. destruct I as [<-|I]; [exists a; split; [now left|exact H]|]. destruct (IH I) as (x & J & Q). exists x. split; [now right|exact Q]. Qed.
Lemma in_forall2_l : forall {A B} (R : A -> B -> Prop) l m x, Forall2 R l m -> In x l -> exists y, In y m /\ R x y.
Proof. intros A B R l m y H. induction H as [|a b l m H F IH]; intros I; [destruct I|]. destruct I as [<-|I]; [exists b; split; [now left|exact H]|]. destruct (IH I) as (x & J & Q). exists x. split; [now right|exact Q]. Qed.

(** ** C88: generated attributes *)

(** The attribute a<i> and its assignment to user 1. *)
Definition made_id (i : Z) : str := lit "/attribute/user/a" ++ str_of_Z i.
Definition made_att (i : Z) : att_row := AttRow (made_id i) (lit "a" ++ str_of_Z i) (Some AInt).
Definition made_assign (i : Z) : assign_row := Assign 1 (made_id i) (Some (str_of_Z i)).
Definition made (n : Z) (r : row) : Prop := exists i, 0 <= i < n /\ (r = RAtt (made_att i) \/ r = RAssign (made_assign i)).
(** There is room for n of them. *)
Definition room (check : bool) (d : db) (n : Z) : Prop :=
  n <= 0 \/
  (In BAAuth (b_built d) /\
   (forall i a, 0 <= i < n -> In (RAtt a) (b_rows d) -> ar_id a <> made_id i) /\
   (forall i x, 0 <= i < n -> In (RAssign x) (b_rows d) -> as_user x = 1 -> as_att x <> made_id i) /\
   (check = true -> exists u, In (RUser u) (b_rows d) /\ us_id u = 1)).

Lemma made_id_inj : forall i j, 0 <= i -> 0 <= j -> made_id i = made_id j -> i = j.
Proof. intros i j I J E. apply app_inv_head in E. now apply str_of_Z_inj. Qed.
Lemma in_made : forall n r, In r (gen_rows n) <-> made n r.
Proof.
  intros n r. unfold gen_rows, made. rewrite in_flat_map. split.
  - intros (k & K & I). apply in_seq in K. exists (Z.of_nat k). split; [lia|]. destruct I as [<-|[<-|[]]]; auto.
  - intros (i & L & H). exists (Z.to_nat i). split; [apply in_seq; lia|]. unfold gen_row. rewrite Z2Nat.id by lia. destruct H as [-> | ->]; cbn; auto.
Qed.
Lemma made_pairs : forall n, ForallOrdPairs (fun r s => ~ same_id r s) (gen_rows n).
Proof.
  intros n. unfold gen_rows. generalize (Z.to_nat n) as k. intros k. generalize O as a. induction k as [|k IH]; intros a; [constructor|].
  cbn [seq flat_map]. apply pairs_app; [|apply IH|].
  - constructor; [constructor; [|constructor]|constructor; constructor]. intros H. inversion H.
  - intros x y I J. apply in_flat_map in J as (j & J & Y). apply in_seq in J. intros S.
    assert (NE : made_id (Z.of_nat a) <> made_id (Z.of_nat j)) by (intros E; apply made_id_inj in E; lia).
    destruct I as [<-|[<-|[]]], Y as [<-|[<-|[]]]; inversion S; subst; auto.
Qed.
Lemma pairs_nodup : forall l, ForallOrdPairs (fun r s => ~ same_id r s) l -> NoDup l.
Proof.
  intros l P. induction P as [|x l F P IH]; constructor; [|exact IH]. intros I. rewrite Forall_forall in F. apply (F x I). destruct x; constructor; reflexivity.
Qed.
Lemma addable_made : forall check d n, addable check (b_built d) (b_rows d) (gen_rows n) <-> room check d n.
Proof.
  intros check d n. split.
  - intros (T & _ & N & P). destruct (Z.le_gt_cases n 0) as [L|L]; [now left|]. right.
    assert (M : forall i, 0 <= i < n -> In (RAtt (made_att i)) (gen_rows n) /\ In (RAssign (made_assign i)) (gen_rows n)).
    { intros i I. split; apply in_made; exists i; auto. }
    destruct (M 0) as [M1 M2]; [lia|]. split; [apply (T _ BAAuth M1); constructor|]. split; [|split].
    + intros i a I J E. destruct (M i I) as [Q _]. apply (N _ _ Q J). constructor. now symmetry.
    + intros i x I J E E'. destruct (M i I) as [_ Q]. apply (N _ _ Q J). constructor; now symmetry.
    + intros C. destruct (P C _ M2) as [(u & I & E) _]. cbn in E. exists u. split; [|exact E]. apply in_app_iff in I as [I|I]; [exact I|].
      apply in_made in I as (i & _ & [Q|Q]); discriminate Q.
  - intros [L|(T & A & B & C)].
    { assert (E : gen_rows n = []) by (unfold gen_rows; replace (Z.to_nat n) with O by lia; reflexivity). rewrite E.
      split; [intros r b []|]. split; [constructor|]. split; [intros r s []|intros _ r []]. }
    split; [|split; [apply made_pairs|split]].
    + intros r b I O. apply in_made in I as (i & _ & [-> | ->]); inversion O; subst; exact T.
    + intros r s I J S. apply in_made in I as (i & L & [-> | ->]); inversion S; subst.
      * apply (A i _ L J). now symmetry.
      * apply (B i _ L J); now symmetry.
    + intros Q r I. pose proof I as I'. apply in_made in I' as (i & L & [-> | ->]); [exact Logic.I|]. split.
      * destruct (C Q) as (u & J & E). exists u. split; [apply in_app_iff; now left|exact E].
      * exists (made_att i). split; [|reflexivity]. apply in_app_iff. right. apply in_made. exists i. auto.
Qed.

Section WithDatabase.
Variable U : unicode.
Variable create_ok : str -> bool.
Variable fk : str -> bool.

Lemma pending_fresh : forall l, pending (fresh_rows l) l.
Proof. induction l; constructor; assumption. Qed.
Lemma room_dec : forall check d n, room check d n \/ ~ room check d n.
Proof. intros check d n. rewrite <- addable_made. apply addable_dec. Qed.

(** gen_atts n succeeds exactly if there is room: then it adds the n attributes with their
    assignments, each once, and nothing else.  Otherwise it raises and changes nothing. *)
Theorem C88_generated : forall F w n w1 e, get_engine U create_ok F w s_aauth = (w1, DOk (Some e)) ->
  let d := db_at w (place_of e) in
  let '(w', r) := gen_atts U create_ok fk F w n in
  (room (fk (e_url e)) d n -> r = DOk tt /\ b_built (db_at w' (place_of e)) = b_built d /\
     exists new, b_rows (db_at w' (place_of e)) = b_rows d ++ new /\ NoDup new /\ forall x, In x new <-> made n x) /\
  (~ room (fk (e_url e)) d n -> (exists x, r = DErr x) /\ db_at w' (place_of e) = d) /\
  (forall p, p <> place_of e -> db_at w' p = db_at w p).
Proof.
  intros F w n w1 e G d. unfold gen_atts. rewrite G.
  assert (D1 : forall p, db_at w1 p = db_at w p) by (intros p; apply db_at_dbs; now apply engine_dbs in G).
  destruct (insert_res fk e (fresh_rows (gen_rows n)) w1 _ (pending_fresh _)) as [A B]. rewrite D1 in A, B. fold d in A, B. rewrite addable_made in A, B.
  destruct (room_dec (fk (e_url e)) d n) as [R|R].
  - destruct (A R) as (w' & -> & E & O). split; [|split].
    + intros _. split; [reflexivity|]. rewrite E. split; [reflexivity|]. exists (gen_rows n). split; [reflexivity|]. split; [|apply in_made].
      apply pairs_nodup, made_pairs.
    + intros N. now destruct N.
    + intros p Hp. rewrite O by exact Hp. apply D1.
  - destruct (B R) as (x & ->). split; [intros Q; contradiction|]. split; [|intros p _; apply D1]. intros _. split; [eauto|apply D1].
Qed.
(** So once it has succeeded it raises whenever it is called again, with any count and
    configuration, until rows are deleted. *)
Theorem C88_again : forall F w n w1 e w' F' m, get_engine U create_ok F w s_aauth = (w1, DOk (Some e)) ->
  gen_atts U create_ok fk F w n = (w', DOk tt) -> 0 < n -> 0 < m ->
  exists x, gen_atts U create_ok fk F' w' m = (w', DErr x).
Proof.
  intros F w n w1 e w' F' m G H N M. pose proof (C88_generated F w n w1 e G) as X. cbv zeta in X. rewrite H in X. destruct X as (X & Y & _).
  destruct (room_dec (fk (e_url e)) (db_at w (place_of e)) n) as [R|R]; [|destruct (Y R) as ((x & Q) & _); discriminate Q].
  destruct (X R) as (_ & _ & new & E & _ & I). clear X Y.
  assert (G' : get_engine U create_ok F' w' s_aauth = (w', DOk (Some e))).
  { apply (C83_same U create_ok fk F w s_aauth w1 e w' F' G). apply ru_more with (F := F') (c := DoGen n). cbn [run].
    pose proof (C83_same U create_ok fk F w s_aauth w1 e w1 F' G (ru_none _ _ _ _)) as G1.
    unfold gen_atts in *. rewrite G in H. rewrite G1, H. constructor. }
  unfold gen_atts. rewrite G'. destruct (insert_res fk e (fresh_rows (gen_rows m)) w' _ (pending_fresh _)) as [_ B]. apply B.
  rewrite addable_made. intros [L|(_ & A & _)]; [lia|]. apply (A 0 (made_att 0)); [lia| |reflexivity]. rewrite E. apply in_app_iff. right. apply I. exists 0. split; [lia|now left].
Qed.

(** pop_and_gen n succeeds exactly if the tables of the attribute authority exist.  Then they
    contain the user dan and the n attributes with their assignments, each once, and nothing
    else; the tables of the policy authority are as before. *)
Theorem C88_populated : forall F w n w1 e, opened U create_ok F w s_aauth w1 e ->
  let d := db_at w (place_of e) in
  let '(w', r) := pop_and_gen U create_ok fk F w n in
  (In BAAuth (b_built d) -> r = DOk tt /\ b_built (db_at w' (place_of e)) = b_built d /\
     exists kept user new, without BAAuth (b_rows d) kept /\ b_rows (db_at w' (place_of e)) = kept ++ RUser user :: new /\
       us_id user = 1 /\ us_name user = lit "dan" /\ NoDup new /\ forall x, In x new <-> made n x) /\
  (~ In BAAuth (b_built d) -> (exists x, r = DErr x) /\ db_at w' (place_of e) = d) /\
  (forall p, p <> place_of e -> db_at w' p = db_at w p).
Proof.
  intros F w n w1 e O d. unfold pop_and_gen.
  assert (NM : named U s_aauth BAAuth) by (left; split; reflexivity).
  assert (NU : forall b, named U s_aauth b -> b = BAAuth) by (intros b [[_ Q]|[Q _]]; [exact Q|discriminate Q]).
  set (kept := filter (fun r => negb (base_eqb (base_of r) BAAuth)) (b_rows d)).
  assert (WO : without BAAuth (b_rows d) kept) by now apply without_spec.
  pose proof (C84_populate U create_ok fk F w s_aauth (fresh_rows [RUser dan]) true false w1 e [RUser dan] kept O (pending_fresh _)) as X. cbv zeta in X. fold d in X.
  destruct (populate_db U create_ok fk F w s_aauth (fresh_rows [RUser dan]) true false) as [w2 [l2 r2]] eqn:P.
  destruct X as (A & B & C); [discriminate|intros _ b N; apply NU in N; now subst|].
  assert (KN : forall r, In r kept -> ~ of_service BAAuth r).
  { intros r I Q. apply filter_In in I as [_ I]. apply base_of_spec in Q. rewrite Q in I. discriminate I. }
  destruct (in_dec base_dec BAAuth (b_built d)) as [T|T].
  - assert (OK : addable (fk (e_url e)) (b_built d) kept [RUser dan]).
    { split; [|split; [|split]].
      - intros r b [<-|[]] Q. inversion Q. subst. exact T.
      - constructor; [constructor|constructor].
      - intros r s [<-|[]] J S. apply (KN s J). inversion S. constructor.
      - intros _ r [<-|[]]. exact I. }
    destruct A as (-> & E & _); [split; [eauto|exact OK]|].
    assert (G : get_engine U create_ok F w2 s_aauth = (w2, DOk (Some e))).
    { destruct O as ((ln & L) & (v & V) & G). apply (C83_same U create_ok fk F w s_aauth w1 e w2 F G). apply ru_more with (F := F) (c := DoPopulate s_aauth (fresh_rows [RUser dan]) true false).
      cbn [run]. assert (PP : populate_db U create_ok fk F w1 s_aauth (fresh_rows [RUser dan]) true false = populate_db U create_ok fk F w s_aauth (fresh_rows [RUser dan]) true false).
      { unfold opt_is in L, V. unfold populate_db. cbv zeta. unfold sconf. rewrite L, V, G.
        rewrite (C83_same U create_ok fk F w s_aauth w1 e w1 F G (ru_none _ _ _ _)). reflexivity. }
      rewrite PP, P. constructor. }
    pose proof (C88_generated F w2 n w2 e G) as Y. cbv zeta in Y. rewrite E in Y. destruct (gen_atts U create_ok fk F w2 n) as [w3 r3].
    destruct Y as (Y & _ & Z). cbn [b_built b_rows] in Y. split; [|split].
    + intros _. destruct Y as (-> & E3 & new & R & ND & I).
      { right. cbn [b_built b_rows]. split; [exact T|]. split; [|split].
        - intros i a _ J. apply in_app_iff in J as [J|[J|[]]]; [|discriminate J]. destruct (KN _ J). constructor.
        - intros i a _ J. apply in_app_iff in J as [J|[J|[]]]; [|discriminate J]. destruct (KN _ J). constructor.
        - intros _. exists dan. split; [|reflexivity]. apply in_app_iff. right. now left. }
      split; [reflexivity|]. split; [exact E3|]. exists kept, dan, new. split; [exact WO|]. rewrite R, <- app_assoc. split; [reflexivity|]. auto.
    + intros N. contradiction.
    + intros p Hp. rewrite Z by exact Hp. now apply C.
  - destruct B as ((x & ->) & _ & BB & _ & B).
    + intros [Q _]. destruct (Q eq_refl) as (b & N & I). apply NU in N. now subst.
    + split; [intros Q; contradiction|]. split; [|exact C]. intros _. split; [eauto|].
      assert (NW : ~ (true = true -> exists b, named U s_aauth b /\ In b (b_built d))).
      { intros Q. destruct (Q eq_refl) as (b & N & I). apply NU in N. now subst. }
      apply B in NW. destruct (db_at w2 (place_of e)) as [x1 x2], d as [y1 y2]. cbn [b_built b_rows] in *. congruence.
Qed.
(** A certificate issued to dan on the tables left by pop_and_gen, asking for everything,
    has exactly the n attributes, the value of each its number, and those of the connection. *)
Theorem C88_certificate : forall dbs F w n w1 e w' K au checkpw order dir q h dir' r name, (forall l, Permutation.Permutation (order l) l) ->
  (forall p, tables_fit (db_at (started dbs) p)) -> runs U create_ok fk (started dbs) w ->
  opened U create_ok F w s_aauth w1 e -> pop_and_gen U create_ok fk F w n = (w', DOk tt) ->
  attribute_request K U au checkpw order dir (adb_of (b_rows (db_at w' (place_of e)))) q h = (dir', Ok r) ->
  rq_username q = Some name -> asks_all q ->
  py_lower U name = lit "dan" /\
  exists us cons, c_atts (is_cert r) = Some (us ++ cons) /\ Forall (fun a => connection_id (at_id a)) cons /\ NoDup us /\
    forall a, In a us <-> exists i, 0 <= i < n /\ a = Att (made_id i) AInt (Some (str_of_Z i)) (Some (lit "a" ++ str_of_Z i)) None.
Proof.
  intros dbs F w n w1 e w' K au checkpw order dir q h dir' r name OP TF RU O H AR UN AA.
  pose proof (C88_populated F w n w1 e O) as X. cbv zeta in X. rewrite H in X. destruct X as (X & Y & _).
  destruct (in_dec base_dec BAAuth (b_built (db_at w (place_of e)))) as [T|T]; [|destruct (Y T) as ((x & Q) & _); discriminate Q].
  destruct (X T) as (_ & _ & kept & user & new & WO & R & UI & UNm & ND & IN). clear X Y.
  assert (TOK : tables_ok (adb_of (b_rows (db_at w' (place_of e))))).
  { apply (C84_tables_ok U create_ok fk dbs w' TF). clear - RU H. induction RU as [x|G c x w2 RU IH]; [|now apply ru_more with (F := G) (c := c), IH].
    apply ru_more with (F := F) (c := DoPopGen n). cbn [run]. rewrite H. constructor. }
  apply (C51_exact K U au checkpw order) in AR; [|exact OP|exact TOK].
  destruct AR as (u & nm & rows & sel & us & cons & AU & RO & _ & [SN SI] & CA & F2 & CO).
  destruct AU as (_ & UN' & UU & UL & _). rewrite UN in UN'. injection UN' as <-.
  assert (KN : forall x, In x kept -> ~ of_service BAAuth x).
  { apply without_spec in WO. subst kept. intros x I Q. apply filter_In in I as [_ I]. apply base_of_spec in Q. rewrite Q in I. discriminate I. }
  rewrite R in *.
  assert (U1 : u = user).
  { apply in_users in UU. apply in_app_iff in UU as [I|[I|I]]; [destruct (KN _ I); constructor|congruence|]. apply IN in I as (i & _ & [Q|Q]); discriminate Q. }
  subst u. split; [congruence|]. exists us, cons. split; [exact CA|]. split; [exact CO|].
  assert (AS : forall a v, In (a, v) sel <-> exists i, 0 <= i < n /\ a = made_att i /\ v = Some (str_of_Z i)).
  { intros a v. rewrite SI, RO. unfold assigned. rewrite in_adb, in_assigns, UI. split.
    - intros [[IA IS] _]. apply in_app_iff in IA as [I|[I|I]]; [destruct (KN _ I); constructor|discriminate I|]. apply IN in I as (i & L & [Q|Q]); [|discriminate Q].
      injection Q as ->. exists i. split; [exact L|]. split; [reflexivity|].
      apply in_app_iff in IS as [I|[I|I]]; [destruct (KN _ I); constructor|discriminate I|]. apply IN in I as (j & L' & [Q|Q]); [discriminate Q|].
      injection Q as Q ->. apply str_of_Z_inj in Q; [now subst|lia|lia].
    - intros (i & L & -> & ->). split; [|now left]. split; (apply in_app_iff; right; right; apply IN; exists i; split; [exact L|]); [now left|now right]. }
  assert (TY : forall p t, In p sel -> ar_type (fst p) = Some t -> exists i, 0 <= i < n /\ p = (made_att i, Some (str_of_Z i)) /\
    stands_for p t = Att (made_id i) AInt (Some (str_of_Z i)) (Some (lit "a" ++ str_of_Z i)) None).
  { intros [a v] t I E. apply AS in I as (i & L & -> & ->). exists i. split; [exact L|]. split; [reflexivity|]. cbn [fst made_att ar_type] in E. injection E as <-.
    unfold stands_for. cbn [fst snd made_att ar_id ar_name]. destruct (str_of_Z i) as [|c s] eqn:Z; [|reflexivity]. destruct (str_of_Z_nonempty i Z). }
  split.
  - assert (NS : NoDup (map at_id us)).
    { replace (map at_id us) with (map (fun p : valued => ar_id (fst p)) sel); [exact SN|]. clear - F2. induction F2 as [|p a l m (t & _ & ->) F IH]; [reflexivity|]. cbn [map]. now rewrite IH. }
    now apply NoDup_map_inv in NS.
  - intros a. split.
    + intros I. destruct (in_forall2_r _ _ _ _ F2 I) as (p & J & t & E & ->). destruct (TY p t J E) as (i & L & _ & ->). eauto.
    + intros (i & L & ->). assert (J : In (made_att i, Some (str_of_Z i)) sel) by (apply AS; eauto).
      destruct (in_forall2_l _ _ _ _ F2 J) as (a & I & t & E & ->). cbn [fst made_att ar_type] in E. injection E as <-.
      unfold stands_for in I. cbn [fst snd made_att ar_id ar_name] in I. destruct (str_of_Z i) as [|c s] eqn:Z; [destruct (str_of_Z_nonempty i Z)|]. exact I.
Qed.
End WithDatabase.

Print Assumptions C88_generated.
Print Assumptions C88_again.
Print Assumptions C88_populated.
Print Assumptions C88_certificate.

(** With the files of the repository: three attributes, a second call that raises, and a
    certificate for Dan. *)
Definition ex_gen_world : world :=
  let '(w, _) := ex_build shipped_services (started []) ["aauth"; "pauth"]%string in
  fst (pop_and_gen U0 all_ok checked shipped_services w 3).
Definition ex_gen_rows : list row := b_rows (db_at ex_gen_world (At shipped_url)).
Example ex_generated :
  ex_gen_rows = RUser dan :: gen_rows 3 /\ List.length (gen_rows 3) = 6%nat /\
  snd (gen_atts U0 all_ok checked shipped_services ex_gen_world 1) = DErr DIntegrity /\
  snd (gen_atts U0 all_ok checked shipped_services (started []) 1) = DErr DTable /\
  snd (gen_atts U0 all_ok checked shipped_services (started [(At shipped_url, DB [BAAuth] [])]) 1) = DErr DIntegrity /\
  snd (gen_atts U0 all_ok checked shipped_services (started [(At shipped_url, DB [BAAuth] test_aauth)]) 12) = DOk tt /\
  match snd (attribute_request toy U0 ex_au (fun _ _ => Ok true) (fun l => l) [] (adb_of ex_gen_rows)
      (ex_request (lit "Dan") (lit "x") [] [] (lit "10.0.0.1")) ex_chance) with
  | Ok r => match c_atts (is_cert r) with Some l => map at_value (firstn 3 l) | None => [] end
  | Err _ => []
  end = [Some (lit "0"); Some (lit "1"); Some (lit "2")].
Proof. vm_compute. repeat split. Qed.
