(** * PrintProofs: written policies are read back *)

From Coq Require Import NArith ZArith List Bool String Lia.
From Verif Require Import PyBase PyNum Lexer LexSpec LexProofs LexProofs2 Values Ast Parser Grammar
  ParseProofs ParseProofs2 Syntax.
Import ListNotations.
Open Scope Z_scope.

(** Words of a token list. *)
Notation words_of := (map (fun t : token => (t_type t, t_val t))).

Lemma words_app ts a b :
  words_of ts = a ++ b -> exists ta tb, ts = ta ++ tb /\ words_of ta = a /\ words_of tb = b.
Proof. intros H. apply map_eq_app in H as (ta & tb & -> & <- & <-). eauto. Qed.

Lemma words_cons ts w b :
  words_of ts = w :: b -> exists t tb, ts = t :: tb /\ t_type t = fst w /\ t_val t = snd w /\ words_of tb = b.
Proof. destruct ts as [|t ts]; [discriminate|]. intros [= <- <-]. exists t, ts. auto. Qed.

Lemma words_nil ts : words_of ts = [] -> ts = [].
Proof. destruct ts; [auto|discriminate]. Qed.

Ltac wsplit :=
  repeat match goal with
  | H : map _ ?ts = [] |- _ => apply words_nil in H; subst ts
  | H : map _ ?ts = _ :: _ |- _ =>
      let t := fresh "t" in let tb := fresh "tb" in let Ht := fresh "Ht" in let Hv := fresh "Hv" in
      apply words_cons in H as (t & tb & -> & Ht & Hv & H); cbn [fst snd] in Ht, Hv
  | H : map _ ?ts = _ ++ _ |- _ =>
      let ta := fresh "ta" in let tb := fresh "tb" in let H2 := fresh "H" in
      apply words_app in H as (ta & tb & -> & H & H2)
  end.

Lemma att_words_read c n t : (t_type t, t_val t) = att_word c n ->
  exists p, g_att [t] p /\ abs p = Some (PAtt c n) /\ abs_operand p = Some (OAtt c n).
Proof.
  unfold att_word. intros [= H1 H2]. destruct t as [ty tp tv]; cbn in *; subst.
  destruct c; eexists; (split; [constructor; reflexivity|split; reflexivity]).
Qed.

Lemma atom_words_read a t : (t_type t, t_val t) = atom_word a ->
  exists p, g_atomic [t] p /\ abs_atom p = Some a /\ abs_operand p = Some (OAtom a).
Proof.
  intros H. destruct t as [ty tp tv].
  destruct a; injection H as H1 H2; subst; cbn in *; subst;
  eexists; (split; [constructor; reflexivity|split; reflexivity]).
Qed.

Lemma atoms_words_read l : forall ts, l <> [] -> words_of ts = atoms_words l ->
  exists ps, g_setval ts ps /\ optM abs_atom ps = Some l.
Proof.
  induction l as [|a l IH]; intros ts Hne H; [congruence|].
  destruct l as [|b l].
  - cbn in H. wsplit. destruct (atom_words_read a t) as (p & Hg & Ha & _).
    { rewrite Ht, Hv. now destruct (atom_word a). }
    exists [p]. split; [now constructor|]. cbn. now rewrite Ha.
  - change (atoms_words (a :: b :: l)) with (atom_word a :: (COMMA, TNone) :: atoms_words (b :: l)) in H.
    apply words_cons in H as (t & tb & -> & Ht & Hv & H).
    apply words_cons in H as (t1 & tb1 & -> & Ht1 & Hv1 & H).
    destruct (atom_words_read a t) as (p & Hg & Ha & _).
    { rewrite Ht, Hv. now destruct (atom_word a). }
    destruct (IH tb1) as (ps & Hs & Hl); auto; [discriminate|].
    exists (p :: ps). split.
    + apply (gsv_more [t] p t1 tb1 ps); auto.
    + cbn [optM]. now rewrite Ha, Hl.
Qed.

Lemma operand_words_read o ts : words_of ts = operand_words o ->
  exists p, g_var ts p /\ abs_operand p = Some o.
Proof.
  destruct o as [a|l|c n]; cbn [operand_words]; intros H.
  - wsplit. destruct (atom_words_read a t) as (p & Hg & _ & Ha).
    { rewrite Ht, Hv. now destruct (atom_word a). }
    exists p. split; auto. now apply gv_atomic.
  - apply words_cons in H as (t & tb & -> & Ht & Hv & H).
    apply words_app in H as (ta & tb2 & -> & H & H2). wsplit.
    destruct l as [|a l].
    + cbn in H. wsplit. exists (PT (CSet (Some t0)) t []). split; [|reflexivity].
      apply gv_set. now apply gs_empty.
    + destruct (atoms_words_read (a :: l) ta) as (ps & Hs & Hl); auto; [discriminate|].
      exists (PT (CSet (Some t0)) t ps). split.
      * apply gv_set. now apply gs_some.
      * cbn. now rewrite Hl.
  - wsplit. destruct (att_words_read c n t) as (p & Hg & _ & Ha).
    { rewrite Ht, Hv. now destruct (att_word c n). }
    exists p. split; auto. now apply gv_att.
Qed.

Lemma abs_cmp_str o : abs_cmp (TStr (cmp_str o)) = Some o.
Proof. destruct o; reflexivity. Qed.
Lemma abs_tri_str o : abs_tri (TStr (tri_str o)) = Some o.
Proof. destruct o; reflexivity. Qed.

Lemma tri_words_read t ty : t_type t = BOOL -> t_val t = TStr (tri_str ty) ->
  g_boolvar [t] (PT CBoolVal t []) /\ abs (PT CBoolVal t []) = Some (PConst ty).
Proof. intros H1 H2. split; [now constructor|]. cbn. now rewrite H2, abs_tri_str. Qed.

Lemma words_read :
  (forall p ws, w_exp p ws -> forall ts, words_of ts = ws -> exists t, g_exp ts t /\ abs t = Some p) /\
  (forall p ws, w_term p ws -> forall ts, words_of ts = ws -> exists t, g_term ts t /\ abs t = Some p) /\
  (forall p ws, w_pol p ws -> forall ts, words_of ts = ws -> exists t, g_policy ts t /\ abs t = Some p).
Proof.
  apply w_mind.
  - intros ty ts H. wsplit. destruct (tri_words_read t ty Ht Hv). exists (PT CBoolVal t []). split; [now apply ge_bool|auto].
  - intros c n ts H. wsplit. destruct (att_words_read c n t) as (p & Hg & Ha & _).
    { rewrite Ht, Hv. now destruct (att_word c n). }
    exists p. split; auto. apply ge_bool. now apply gb_att.
  - intros o l r ts H. apply words_app in H as (ta & tb & -> & H & H2).
    apply words_cons in H2 as (t & tb2 & -> & Ht & Hv & H2). cbn in Ht, Hv.
    apply operand_words_read in H as (p & Hp & Ha). apply operand_words_read in H2 as (q & Hq & Hb).
    exists (PT COp t [p; q]). split; [now apply ge_op|].
    cbn [abs]. now rewrite Hv, abs_cmp_str, Ha, Hb.
  - intros ty ts H. wsplit. destruct (tri_words_read t0 ty Ht0 Hv0) as [Hg Ha].
    exists (PT CNot t [PT CBoolVal t0 []]). split; [now apply ge_not_bool|]. cbn [abs] in *. now rewrite Ha.
  - intros c n ts H. wsplit. destruct (att_words_read c n t0) as (p & Hg & Ha & _).
    { rewrite Ht0, Hv0. now destruct (att_word c n). }
    exists (PT CNot t [p]). split; [apply ge_not_bool; auto; now apply gb_att|]. cbn [abs]. now rewrite Ha.
  - intros p ws Hw IH ts H. apply words_cons in H as (t & tb & -> & Ht & Hv & H).
    apply words_app in H as (ta & tb2 & -> & H & H2). wsplit.
    destruct (IH ta H) as (q & Hq & Ha). exists q. split; auto. now apply ge_paren.
  - intros p ws Hw IH ts H. apply words_cons in H as (t & tb & -> & Ht & Hv & H).
    apply words_cons in H as (t1 & tb1 & -> & Ht1 & Hv1 & H).
    apply words_app in H as (ta & tb2 & -> & H & H2). wsplit.
    destruct (IH ta H) as (q & Hq & Ha). exists (PT CNot t [q]). split; [now apply ge_not_paren|].
    cbn [abs]. now rewrite Ha.
  - intros p ws Hw IH ts H. destruct (IH ts H) as (q & Hq & Ha). exists q. split; auto. now apply gt_exp.
  - intros p q ws vs Hw IH Hv IH2 ts H. apply words_app in H as (ta & tb & -> & H & H2).
    apply words_cons in H2 as (t & tb2 & -> & Ht & Hv' & H2). cbn in Ht, Hv'.
    destruct (IH ta H) as (a & Hg & Ha). destruct (IH2 tb2 H2) as (b & Hg2 & Hb).
    exists (PT CBoolOp t [a; b]). split; [apply gt_and; auto; now split|].
    cbn [abs]. now rewrite Ha, Hb, Hv'.
  - intros p ws Hw IH ts H. destruct (IH ts H) as (q & Hq & Ha). exists q. split; auto. now apply gp_term.
  - intros p q ws vs Hw IH Hv IH2 ts H. apply words_app in H as (ta & tb & -> & H & H2).
    apply words_cons in H2 as (t & tb2 & -> & Ht & Hv' & H2). cbn in Ht, Hv'.
    destruct (IH ta H) as (a & Hg & Ha). destruct (IH2 tb2 H2) as (b & Hg2 & Hb).
    exists (PT CBoolOp t [a; b]). split; [apply gp_or; auto; now split|].
    cbn [abs]. now rewrite Ha, Hb, Hv'.
Qed.

Lemma w_pol_bool_ok :
  (forall p ws, w_exp p ws -> Forall (fun w => fst w = BOOL -> exists s, snd w = TStr s) ws) /\
  (forall p ws, w_term p ws -> Forall (fun w => fst w = BOOL -> exists s, snd w = TStr s) ws) /\
  (forall p ws, w_pol p ws -> Forall (fun w => fst w = BOOL -> exists s, snd w = TStr s) ws).
Proof.
  assert (At : forall a, fst (atom_word a) = BOOL -> exists s, snd (atom_word a) = TStr s)
    by (destruct a; discriminate).
  assert (Ats : forall l, Forall (fun w : word => fst w = BOOL -> exists s, snd w = TStr s) (atoms_words l)).
  { induction l as [|a [|b l] IH]; cbn [atoms_words]; auto.
    constructor; auto. constructor; auto. discriminate. }
  assert (O : forall o, Forall (fun w : word => fst w = BOOL -> exists s, snd w = TStr s) (operand_words o)).
  { destruct o as [a|l|c n]; cbn [operand_words]; auto.
    - constructor; [discriminate|]. apply Forall_app; split; auto. constructor; [discriminate|auto].
    - constructor; auto. destruct c; discriminate. }
  apply w_mind; intros; repeat (first [apply Forall_app; split | constructor]);
    cbn [fst snd w_not w_and w_or w_lp w_rp] in *; auto; try discriminate; eauto;
    try (destruct c; discriminate).
Qed.

Section WithUnicode.
Variable U : unicode.
Hypothesis uok : unicode_ok U.

(** Any way to write a policy down, in any layout, is read back as that policy. *)
Theorem read_back p ws items last n :
  w_pol p ws ->
  Forall2 (fun it w => Forall (space U) (fst it) /\ lexeme U (snd it) [] (fst w) (snd w)) items ws ->
  Forall (fun it => fst it <> []) (tl items) -> Forall (space U) last ->
  exists nd n', parse_text U (layout items last) n = Ok (nd, n') /\ abs (erase nd) = Some p.
Proof.
  intros Hw Hi Hs Hl.
  destruct (lex_separated U uok items last ws Hi Hs Hl) as (toks & Ht & Hm).
  unfold parse_text. rewrite Ht. cbn [bind].
  apply words_cons in Hm as (s & r & -> & Es & _ & Hm).
  apply words_app in Hm as (u & r2 & -> & Hu & He). wsplit. cbn in Es.
  destruct words_read as (_ & _ & R). destruct (R _ _ Hw u Hu) as (q & Hg & Ha).
  assert (D : derives (s :: u ++ [t]) q).
  { exists s, u, t, []. auto. }
  rewrite (parse_derives U _ _ n D).
  apply g_buildable in Hg.
  - destruct (build_ok U _ Hg n) as (a & n' & E). exists a, n'. split; auto.
    apply build_ids in E as (_ & _ & ->). exact Ha.
  - apply w_pol_bool_ok in Hw. rewrite <- Hu in Hw. rewrite Forall_map in Hw. exact Hw.
Qed.

(** ** Spelling *)

Lemma digs_ok fuel n : (n < 2 ^ N.of_nat fuel)%N -> Forall (fun c => 48 <= c <= 57)%N (digs (S fuel) n) /\
  decval U (digs (S fuel) n) n.
Proof.
  revert n; induction fuel as [|fuel IH]; intros n Hn.
  - assert (n = 0%N) as -> by (cbn in Hn; lia). cbn. split; [constructor; [lia|constructor]|].
    apply (dv_snoc U [] 48 0 0); [constructor|reflexivity].
  - remember (S fuel) as f. cbn [digs]. destruct (N.ltb_spec n 10) as [Hlt|Hge].
    + split; [constructor; [lia|constructor]|].
      replace n with (10 * 0 + n)%N at 2 by lia. apply (dv_snoc U [] (48 + n) 0 n); [constructor|].
      unfold digit_val, asc. destruct (N.ltb_spec (48 + n) 128); [|lia].
      destruct (N.leb_spec 48 (48 + n)); [|lia]. destruct (N.leb_spec (48 + n) 57); [|lia].
      cbn [andb]. f_equal. lia.
    + subst f. destruct (IH (n / 10)%N) as [Hf Hd].
      { apply N.div_lt_upper_bound; [lia|].
        replace (N.of_nat (S fuel)) with (N.succ (N.of_nat fuel)) in Hn by lia.
        rewrite N.pow_succ_r' in Hn. lia. }
      assert (Hm : (n mod 10 < 10)%N) by (apply N.mod_lt; discriminate).
      split.
      * apply Forall_app; split; auto. constructor; [|constructor]. revert Hm. generalize (n mod 10)%N. lia.
      * rewrite (N.div_mod n 10) at 3 by discriminate. apply dv_snoc; auto. revert Hm. generalize (n mod 10)%N. intros r Hm.
        unfold digit_val, asc. destruct (N.ltb_spec (48 + r) 128); [|lia].
        destruct (N.leb_spec 48 (48 + r)); [|lia]. destruct (N.leb_spec (48 + r) 57); [|lia].
        cbn [andb]. f_equal. lia.
Qed.

Lemma decimal_ok n : Forall (fun c => 48 <= c <= 57)%N (decimal n) /\ decval U (decimal n) n.
Proof.
  unfold decimal. apply digs_ok. rewrite N2Nat.id.
  destruct n as [|p]; [reflexivity|]. apply N.size_gt.
Qed.

Lemma decimal_nonempty n : decimal n <> [].
Proof.
  unfold decimal. cbn [digs]. destruct (n <? 10)%N; [discriminate|]. destruct (digs _ _); discriminate.
Qed.

Lemma ascii_digit c : (48 <= c <= 57)%N -> digit U c.
Proof.
  intros H. unfold digit, isdigit, asc. destruct (N.ltb_spec c 128); [|lia].
  apply andb_true_iff; split; apply N.leb_le; lia.
Qed.

Lemma decval_zeros k ds n : decval U ds n -> decval U (repeat 48%N k ++ ds) n.
Proof.
  induction 1 as [|ds c n d H IH Hc].
  - rewrite app_nil_r. induction k as [|k IH]; [constructor|].
    replace (S k) with (k + 1)%nat by lia. rewrite repeat_app. cbn.
    apply (dv_snoc U _ 48 0 0); auto.
  - rewrite app_assoc. now apply dv_snoc.
Qed.

Lemma decimal_point_ok m k : (1 <= k)%nat ->
  exists ds es, decimal_point m k = ds ++ 46%N :: es /\ ds <> [] /\ es <> [] /\
    Forall (digit U) ds /\ Forall (digit U) es /\ decval U (ds ++ es) m /\ List.length es = k.
Proof.
  intros Hk. unfold decimal_point. cbv zeta.
  set (z := repeat 48%N (S k - List.length (decimal m)) ++ decimal m).
  destruct (decimal_ok m) as [Hf Hd].
  assert (Hlen : (S k <= List.length z)%nat).
  { unfold z. rewrite app_length, repeat_length. lia. }
  assert (Hz : Forall (digit U) z).
  { unfold z. apply Forall_app; split.
    - apply Forall_forall. intros x Hx. apply repeat_spec in Hx as ->. reflexivity.
    - eapply Forall_impl; [|exact Hf]. intros a Ha. now apply ascii_digit. }
  exists (firstn (List.length z - k) z), (skipn (List.length z - k) z).
  rewrite <- (firstn_skipn (List.length z - k) z) in Hz. apply Forall_app in Hz as [Hz1 Hz2].
  pose proof (firstn_length (List.length z - k) z) as L1.
  pose proof (skipn_length (List.length z - k) z) as L2.
  repeat split; auto.
  - intros E. rewrite E in L1. cbn [List.length] in L1. clearbody z. lia.
  - intros E. rewrite E in L2. cbn [List.length] in L2. clearbody z. lia.
  - rewrite firstn_skipn. unfold z. now apply decval_zeros.
  - lia.
Qed.

Variable dec : pyfloat -> bool * N * nat.

Definition word_ok (w : word) : Prop := lexeme U (spell dec w) [] (fst w) (snd w).

Ltac kwl c s := eapply (lx_keyword U _ [] c s); try reflexivity; [repeat constructor| constructor].

Lemma atom_word_ok a : atom_ok dec a -> word_ok (atom_word a).
Proof.
  unfold word_ok. destruct a as [z|f|s|]; cbn [atom_word fst snd spell atom_ok].
  - intros _. destruct (decimal_ok (Z.abs_N z)) as [Hf Hd].
    assert (Hd2 : Forall (digit U) (decimal (Z.abs_N z))).
    { eapply Forall_impl; [|exact Hf]. intros a Ha. now apply ascii_digit. }
    replace (TInt z) with (TInt (if z <? 0 then - Z.of_N (Z.abs_N z) else Z.of_N (Z.abs_N z))).
    + eapply lx_int with (ds := decimal (Z.abs_N z)); auto.
      * destruct (z <? 0); reflexivity.
      * apply decimal_nonempty.
      * exact I.
    + f_equal. rewrite N2Z.inj_abs_N. destruct (Z.ltb_spec z 0); lia.
  - destruct (dec f) as [[neg m] k]. intros [Hk ->].
    destruct (decimal_point_ok m k Hk) as (ds & es & -> & H1 & H2 & H3 & H4 & H5 & <-).
    eapply lx_float with (neg := neg) (ds := ds) (es := es) (n := m); auto; [|exact I|now apply FloatLit.literal_rounds].
    destruct neg; reflexivity.
  - intros Hs. eapply lx_string; eauto.
  - intros _. kwl 78%N (lit "ULL").
Qed.

Lemma att_word_ok c n : name_ok U n -> word_ok (att_word c n).
Proof.
  intros [Hne Hf]. unfold word_ok, att_word. destruct n as [|d id']; [congruence|].
  assert (G : forall k s' ty cat, letter U k -> Forall (id_char U) s' -> py_lower U (k :: s') = cat ->
     category cat ty -> lexeme U ((k :: s') ++ 46%N :: d :: id') [] ty (TStr (d :: id'))).
  { intros. eapply lx_attribute; eauto. exact I. }
  assert (L : forall s', forallb low s' = true -> Forall (id_char U) s').
  { intros s' H. rewrite forallb_forall in H. apply Forall_forall. intros x Hx. apply H in Hx.
    left. unfold letter, isalpha, asc. destruct (N.ltb_spec x 128).
    - rewrite Hx. apply orb_true_r.
    - unfold low in Hx. apply andb_true_iff in Hx as [_ Hx]. apply N.leb_le in Hx. lia. }
  destruct c; cbn [cat_type fst snd spell].
  - apply (G 117%N (lit "ser") _ (lit "user")); try reflexivity; [now apply L|constructor].
  - apply (G 111%N (lit "bject") _ (lit "object")); try reflexivity; [now apply L|constructor].
  - apply (G 101%N (lit "nv") _ (lit "env")); try reflexivity; [now apply L|constructor].
  - apply (G 97%N (lit "dmin") _ (lit "admin")); try reflexivity; [now apply L|constructor].
  - apply (G 99%N (lit "onnect") _ (lit "connect")); try reflexivity; [now apply L|constructor].
Qed.

Lemma cmp_word_ok o : word_ok (OP, TStr (cmp_str o)).
Proof.
  unfold word_ok. destruct o; cbn [fst snd spell cmp_str].
  - now apply lx_gt.
  - now apply lx_lt.
  - apply lx_symbol. constructor.
  - apply lx_symbol. constructor.
  - apply lx_symbol. constructor.
  - apply lx_symbol. constructor.
  - kwl 73%N (lit "N").
  - kwl 83%N (lit "UBSET").
Qed.

Lemma tri_word_ok t : word_ok (BOOL, TStr (tri_str t)).
Proof.
  unfold word_ok. destruct t; cbn [fst snd spell tri_str].
  - kwl 84%N (lit "RUE").
  - kwl 70%N (lit "ALSE").
  - kwl 85%N (lit "NDEF").
Qed.

Lemma fixed_words_ok : word_ok w_and /\ word_ok w_or /\ word_ok w_not /\ word_ok w_lp /\ word_ok w_rp /\
  word_ok (LSET, TNone) /\ word_ok (RSET, TNone) /\ word_ok (COMMA, TNone).
Proof.
  unfold word_ok, w_and, w_or, w_not, w_lp, w_rp; cbn [fst snd spell]. repeat split;
  try (apply lx_symbol; constructor).
  - kwl 65%N (lit "ND").
  - kwl 79%N (lit "R").
  - kwl 78%N (lit "OT").
Qed.

Lemma operand_words_ok o : operand_ok dec U o -> Forall word_ok (operand_words o).
Proof.
  destruct fixed_words_ok as (_ & _ & _ & _ & _ & Hl & Hr & Hc).
  destruct o as [a|l|c n]; cbn [operand_ok operand_words]; intros H.
  - constructor; auto. now apply atom_word_ok.
  - constructor; auto. apply Forall_app; split; auto.
    induction H as [|a l Ha H IH]; [constructor|]. cbn [atoms_words]. destruct l as [|b l].
    + constructor; auto. now apply atom_word_ok.
    + constructor; [now apply atom_word_ok|]. constructor; auto.
  - constructor; auto. now apply att_word_ok.
Qed.

Lemma print_words_ok p : forall lvl, pol_ok dec U p -> Forall word_ok (print_words lvl p).
Proof.
  destruct fixed_words_ok as (Ha & Ho & Hn & Hlp & Hrp & _).
  assert (P : forall b ws, Forall word_ok ws -> Forall word_ok (parens b ws)).
  { intros [] ws H; auto. constructor; auto. apply Forall_app; auto. }
  induction p as [t|c n|o l r|p IH|p IHp q IHq|p IHp q IHq]; intros lvl H; cbn [print_words pol_ok] in *.
  - constructor; auto. apply tri_word_ok.
  - constructor; auto. now apply att_word_ok.
  - destruct H as [H1 H2]. apply Forall_app; split; [now apply operand_words_ok|].
    constructor; [apply cmp_word_ok|now apply operand_words_ok].
  - specialize (IH 0%nat H).
    destruct p; constructor; auto; constructor; auto; apply Forall_app; auto.
  - destruct H as [H1 H2]. apply P. apply Forall_app; auto.
  - destruct H as [H1 H2]. apply P. apply Forall_app; auto.
Qed.

Lemma print_words_w p :
  w_pol p (print_words 0 p) /\ w_term p (print_words 1 p) /\ w_exp p (print_words 2 p).
Proof.
  assert (E : forall p ws, w_exp p ws -> w_pol p ws /\ w_term p ws /\ w_exp p ws).
  { intros q ws H. repeat split; auto; [apply wp_term|]; now apply wt_exp. }
  induction p as [t|c n|o l r|p IH|p IHp q IHq|p IHp q IHq]; cbn [print_words].
  - apply E. constructor.
  - apply E. constructor.
  - apply E. constructor.
  - apply E. destruct IH as (IH & _ & _). destruct p; try (now apply we_not).
    + apply we_not_const.
    + apply we_not_att.
  - cbn [parens Nat.leb]. destruct IHp as (_ & IHp & _), IHq as (_ & _ & IHq).
    assert (T : w_term (PAnd p q) (print_words 1 p ++ w_and :: print_words 2 q)) by now apply wt_and.
    repeat split; auto; [now apply wp_term|]. apply we_paren. now apply wp_term.
  - cbn [parens Nat.leb]. destruct IHp as (IHp & _ & _), IHq as (_ & IHq & _).
    assert (T : w_pol (POr p q) (print_words 0 p ++ w_or :: print_words 1 q)) by now apply wp_or.
    repeat split; auto; [apply wt_exp|]; now apply we_paren.
Qed.

Theorem print_read p n :
  pol_ok dec U p ->
  exists nd n', parse_text U (print_text dec p) n = Ok (nd, n') /\ abs (erase nd) = Some p.
Proof.
  intros Hok.
  assert (E : print_text dec p = layout (map (fun w => ([32%N], spell dec w)) (print_words 0 p)) []).
  { unfold print_text. induction (print_words 0 p) as [|w ws IH]; cbn; auto. now rewrite IH. }
  rewrite E. eapply read_back.
  - apply print_words_w.
  - pose proof (print_words_ok p 0%nat Hok) as H. clear E. induction H as [|w ws Hw H IH]; cbn; constructor; auto.
    split; [repeat constructor|exact Hw].
  - destruct (print_words 0 p) as [|w ws]; cbn; auto. apply Forall_map, Forall_forall. discriminate.
  - constructor.
Qed.

End WithUnicode.
