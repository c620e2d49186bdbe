(** * LoadProps: loading and building with attribute names in any script (C30) *)

From Coq Require Import NArith ZArith List Bool String Lia.
From Verif Require Import PyBase PyNum Lexer LexSpec LexProofs LexProps Values Ast Symbols SymbolProps.
Import ListNotations.
Open Scope Z_scope.

Section Load.
Variable U : unicode.

(** The name a symbol gets for the entry [full] of the dictionary: the part after the first dot is
    lower-cased by itself, and the category is put in front of it. The key in the table is this name in
    lower case, and a lookup lower-cases the name asked for as a whole. *)
Definition symbol_name (full : str) : str :=
  match split_dot full with (c, Some n) => c ++ lit "." ++ py_lower U n | (c, None) => c end.
Definition entry_key (full : str) : str := py_lower U (symbol_name full).

(** Entries with one key are in one category. *)
Definition apart (d : list (str * pyval)) : Prop :=
  forall f g ty1 n1 ty2 n2, In f (map fst d) -> In g (map fst d) -> full_att f ty1 n1 -> full_att g ty2 n2 ->
    entry_key f = entry_key g -> ty1 = ty2.

(** What a category and a value are made of. *)
Definition item (e : str * pyval) : list (ttype * (str * pyval)) :=
  match split_dot (fst e) with
  | (c, Some n) => map (fun ty => (ty, (n, snd e))) (filter (fun ty => str_eqb (c ++ lit ".") (var_prefix (Some ty))) cats)
  | _ => []
  end.

Lemma item_full f v ty n : full_att f ty n -> item (f, v) = [(ty, (n, v))].
Proof.
  intros (c & Hc & ->). unfold item. cbn [fst snd]. rewrite split_dot_app by (eapply category_nodot; eauto).
  destruct Hc; reflexivity.
Qed.
Lemma symbol_name_full f ty n : full_att f ty n -> symbol_name f = full_name U (Some ty) n.
Proof.
  intros (c & Hc & ->). unfold symbol_name. rewrite split_dot_app by (eapply category_nodot; eauto).
  unfold full_name. destruct Hc; reflexivity.
Qed.

Lemma part_items ty d : In ty cats -> Forall (fun e => exists t n, full_att (fst e) t n) d ->
  map (pair ty) (part ty d) = filter (fun y => ttype_eqb ty (fst y)) (flat_map item d).
Proof.
  intros Hty. induction 1 as [|[f v] r (t & n & Hf) _ IH]; [reflexivity|]. cbn [fst] in Hf.
  cbn [flat_map]. rewrite (item_full _ v _ _ Hf). cbn [app filter fst]. unfold part. cbn [flat_map fst snd]. fold (part ty r).
  destruct Hf as (c & Hc & ->). rewrite split_dot_app by (eapply category_nodot; eauto). rewrite (prefix_cat _ _ _ Hc Hty).
  destruct (ttype_eqb ty t) eqn:E; cbn [app map]; [|exact IH].
  assert (ty = t) as -> by (destruct ty, t; auto; discriminate). now rewrite IH.
Qed.

Lemma find_filter {A} (P f : A -> bool) l : (forall x, In x l -> P x = true -> f x = true) -> find P (filter f l) = find P l.
Proof.
  induction l as [|x l IH]; intros H; auto. cbn [filter find]. destruct (f x) eqn:E.
  - cbn [find]. destruct (P x); auto. apply IH. intros y Hy. apply H. now right.
  - destruct (P x) eqn:Ep; [rewrite (H x) in E; [discriminate|now left|auto]|]. apply IH. intros y Hy. apply H. now right.
Qed.
Lemma find_filter_none {A} (P f : A -> bool) l : (forall x, In x l -> P x = true -> f x = false) -> find P (filter f l) = None.
Proof.
  intros H. destruct (find P (filter f l)) as [x|] eqn:E; auto. apply find_some in E as [Hi Hp].
  apply filter_In in Hi as [Hi Hf]. rewrite (H x Hi Hp) in Hf. discriminate.
Qed.

(** Searching category by category is searching in the order of the dictionary, if no key is in two categories. *)
Lemma find_sorted (P : ttype * (str * pyval) -> bool) L ts :
  (forall x, In x L -> In (fst x) ts) ->
  (forall x y, In x L -> In y L -> P x = true -> P y = true -> fst x = fst y) ->
  find P (flat_map (fun t => filter (fun y => ttype_eqb t (fst y)) L) ts) = find P L.
Proof.
  intros Hts Hone. destruct (find P L) as [x|] eqn:E.
  - pose proof (find_some _ _ E) as [Hx Hp]. specialize (Hts x Hx). clear - Hts Hone E Hx Hp.
    induction ts as [|t ts IH]; [destruct Hts|]. cbn [flat_map]. rewrite find_app.
    destruct (ttype_eqb t (fst x)) eqn:Et.
    + assert (t = fst x) as -> by (destruct t, (fst x); auto; discriminate).
      rewrite find_filter, E; auto. intros y Hy Hpy. rewrite (Hone x y); auto. now destruct (fst y).
    + rewrite find_filter_none; [|intros y Hy Hpy; now rewrite (Hone y x)]. apply IH. destruct Hts as [->|]; auto.
      destruct (fst x); discriminate.
  - apply find_nothing. apply Forall_forall. intros y Hy. apply in_flat_map in Hy as (t & _ & Hy).
    apply filter_In in Hy as [Hy _]. apply (List.find_none _ _ E y Hy).
Qed.

Lemma find_items (Q : str -> bool) d : Forall (fun e => exists t n, full_att (fst e) t n) d ->
  find (fun x => Q (key_for U (fst x) (snd x))) (flat_map item d) =
  match find (fun e => Q (entry_key (fst e))) d with Some e => find (fun _ => true) (item e) | None => None end.
Proof.
  induction 1 as [|[f v] r (t & n & Hf) _ IH]; [reflexivity|]. cbn [fst] in Hf. cbn [flat_map find fst].
  pose proof (item_full _ v _ _ Hf) as Hi. rewrite find_app, Hi. cbn [find fst snd].
  assert (K : key_for U t (n, v) = entry_key f).
  { unfold key_for, entry_key. cbn [fst]. now rewrite (symbol_name_full _ _ _ Hf). }
  rewrite K. destruct (Q (entry_key f)); [now rewrite Hi|apply IH].
Qed.

(** What load_mixed and build_table make of a dictionary, whatever letters its names have. *)
Theorem C30_load_names (types : list (str * symtype)) (d : list (str * pyval)) (b : builder) (h : heap) :
  NoDup (map fst d) -> apart d -> load_mixed (builder_new types) d = Ok b ->
  let '(h', tb) := build_table U b h in
  (forall l, (l < List.length h)%nat -> hget h' l = hget h l) /\
  (forall q,
     match find (fun e => str_eqb (entry_key (fst e)) (py_lower U q)) d with
     | Some (full, v) =>
         exists l ty n, full_att full ty n /\ st_lookup U tb q = Some l /\
           hget h' l = Sym (symbol_name full) (py_lower U n) ty
                           (match assoc (symbol_name full) types with Some t => t | None => ST_UNKNOWN end) (stored v)
     | None => st_lookup U tb q = None
     end) /\
  (forall k, In k (map fst tb) <-> exists full, In full (map fst d) /\ k = entry_key full).
Proof.
  intros Hd Ha Hl. pose proof (C30_build U b h) as B. destruct (build_table U b h) as [h' tb].
  destruct B as ([hs ->] & Hn & B).
  destruct (load_parts d _ _ Hd Hl) as (Ht & Hw & Hp); [intros ? ty; destruct ty; cbn; auto|]. cbn [builder_new b_types] in Ht.
  assert (En : entries b = flat_map (fun t => filter (fun y => ttype_eqb t (fst y)) (flat_map item d)) cats).
  { unfold entries. rewrite !flat_map_concat_map. f_equal. apply map_ext_in. intros ty Hty. rewrite (Hp ty Hty).
    replace (dict_of (builder_new types) ty) with (@nil (str * pyval)) by now destruct ty. cbn [app]. rewrite <- flat_map_concat_map. now apply part_items. }
  assert (It : forall x, In x (flat_map item d) -> exists f, In f (map fst d) /\ full_att f (fst x) (fst (snd x)) /\
    key_for U (fst x) (snd x) = entry_key f).
  { intros x Hx. apply in_flat_map in Hx as ([f v] & Hi & Hx). rewrite Forall_forall in Hw.
    destruct (Hw _ Hi) as (t & n & Hf). cbn [fst] in Hf. rewrite (item_full _ v _ _ Hf) in Hx. destruct Hx as [<-|[]].
    exists f. split; [apply in_map_iff; now exists (f, v)|]. split; [exact Hf|]. unfold key_for, entry_key. cbn [fst snd].
    now rewrite (symbol_name_full _ _ _ Hf). }
  assert (G : forall k,
     match find (fun e => str_eqb (entry_key (fst e)) k) d with
     | Some (full, v) =>
         exists l ty n, full_att full ty n /\ entry_key full = k /\ assoc k tb = Some l /\
           hget (h ++ hs) l = Sym (symbol_name full) (py_lower U n) ty
                           (match assoc (symbol_name full) types with Some t => t | None => ST_UNKNOWN end) (stored v)
     | None => assoc k tb = None
     end).
  { intros k. specialize (B k). rewrite En, find_sorted in B.
    - rewrite (find_items (fun s => str_eqb s k) d Hw) in B.
      destruct (find (fun e => str_eqb (entry_key (fst e)) k) d) as [[f v]|] eqn:E.
      + apply find_some in E as [Hi E]. apply str_eqb_eq in E. cbn [fst] in E.
        rewrite Forall_forall in Hw. destruct (Hw _ Hi) as (t & n & Hf). cbn [fst] in Hf.
        rewrite (item_full _ v _ _ Hf) in B. cbn [find option_map fst snd] in B.
        destruct (assoc k tb) as [l|]; [|discriminate]. cbn in B. injection B as B.
        exists l, t, n. repeat split; auto. rewrite B. unfold symbol_for. cbn [fst snd].
        now rewrite Ht, (symbol_name_full _ _ _ Hf).
      + cbn in B. destruct (assoc k tb); [discriminate|auto].
    - intros x Hx. destruct (It x Hx) as (f & _ & Hf & _). eapply full_att_cats; eauto.
    - intros x y Hx Hy Px Py. apply str_eqb_eq in Px, Py. destruct (It x Hx) as (f & Hf & Af & Kf).
      destruct (It y Hy) as (g & Hg & Ag & Kg). apply (Ha f g _ _ _ _ Hf Hg Af Ag). congruence. }
  split; [intros l Hlt; unfold hget; now apply app_nth1|]. split.
  - intros q. specialize (G (py_lower U q)). unfold st_lookup.
    destruct (find _ d) as [[f v]|]; auto. destruct G as (l & ty & n & Hf & _ & Hl2 & Hs). eauto 6.
  - intros k. specialize (G k). split.
    + intros Hi. destruct (find _ d) as [[f v]|] eqn:E.
      * apply find_some in E as [Hi2 E]. apply str_eqb_eq in E. cbn in E. exists f. split; auto. apply in_map_iff. now exists (f, v).
      * apply assoc_none in G. tauto.
    + intros (f & Hi & ->). apply in_map_iff in Hi as ([f0 v] & <- & Hi). cbn [fst] in *.
      destruct (find _ d) as [[f' v']|] eqn:E.
      * destruct G as (l & _ & _ & _ & _ & G & _). apply assoc_in in G. apply in_map_iff. now exists (entry_key f0, l).
      * exfalso. pose proof (List.find_none _ _ E _ Hi) as E2. cbn in E2. now rewrite str_eqb_refl in E2.
Qed.

(** Every dictionary is of this kind if lower-casing keeps a category and its dot. *)
Theorem C30_load_apart (d : list (str * pyval)) :
  (forall c ty s, category c ty -> exists t, py_lower U (c ++ lit "." ++ s) = c ++ lit "." ++ t) -> apart d.
Proof.
  intros H f g ty1 n1 ty2 n2 _ _ (c & Hc & ->) (c' & Hc' & ->). unfold entry_key, symbol_name.
  rewrite !split_dot_app by (eapply category_nodot; eauto).
  destruct (H c ty1 (py_lower U n1) Hc) as [t ->], (H c' ty2 (py_lower U n2) Hc') as [t' ->]. intros E.
  assert (S : split_dot (c ++ lit "." ++ t) = split_dot (c' ++ lit "." ++ t')) by now rewrite E.
  rewrite !split_dot_app in S by (eapply category_nodot; eauto). injection S as -> _.
  destruct Hc; inversion Hc'; auto.
Qed.

(** A loaded attribute is found by the name it was loaded with exactly if lower-casing the name in two
    steps and at once give the same key as some entry. *)
Theorem C30_load_found (types : list (str * symtype)) (d : list (str * pyval)) (b : builder) (h : heap) (full : str) :
  NoDup (map fst d) -> apart d -> load_mixed (builder_new types) d = Ok b ->
  st_lookup U (snd (build_table U b h)) full <> None <-> exists g, In g (map fst d) /\ entry_key g = py_lower U full.
Proof.
  intros Hd Ha Hl. pose proof (C30_load_names types d b h Hd Ha Hl) as L. destruct (build_table U b h) as [h' tb]. cbn [snd].
  destruct L as (_ & L & _). specialize (L full). destruct (find _ d) as [[f v]|] eqn:E.
  - destruct L as (l & ty & n & _ & -> & _). apply find_some in E as [Hi E]. apply str_eqb_eq in E. cbn [fst] in E.
    split; [|discriminate]. intros _. exists f. split; auto. apply in_map_iff. now exists (f, v).
  - rewrite L. split; [congruence|]. intros (g & Hi & Eg). apply in_map_iff in Hi as ([f v] & <- & Hi). cbn [fst] in Eg.
    pose proof (List.find_none _ _ E _ Hi) as E2. cbn in E2. rewrite Eg, str_eqb_refl in E2. discriminate.
Qed.
End Load.

(** ** A name that is not found again *)

(** Lower-casing a Greek capital sigma: the final form at the end of a word, the other one when it stands alone.
    In Python 'Σ'.lower() is 'σ' and 'user.Σ'.lower() is 'user.ς', for the dot does not end the word. *)
Definition sigma_c (c : N) : N := if (c =? 931)%N then 963%N else lower_c c.
Definition greek : unicode := {|
  u_space := fun _ => false; u_alpha := fun c => ((c =? 931) || (c =? 962) || (c =? 963))%N; u_digit := fun _ => false;
  u_decimal := fun _ => None;
  u_lower := fun s => match rev s with
                      | c :: ((_ :: _) as r) => map sigma_c (rev r) ++ [if (c =? 931)%N then 962%N else sigma_c c]
                      | [c] => [sigma_c c]
                      | [] => s
                      end;
  u_upper := fun s => s |}.
Definition greek_dict : list (str * pyval) := [(lit "user." ++ [931%N], VInt 1)].

Theorem C30_load_lost_refuted : exists (U : unicode) (d : list (str * pyval)) (b : builder) (full : str) (v : pyval),
  NoDup (map fst d) /\ apart U d /\ load_mixed (builder_new []) d = Ok b /\ In (full, v) d /\
  st_lookup U (snd (build_table U b [])) full = None.
Proof.
  exists greek, greek_dict, (put (builder_new []) USR_ATT [931%N] (VInt 1)), (lit "user." ++ [931%N]), (VInt 1).
  split; [repeat constructor; cbn; tauto|]. split.
  { intros f g ty1 n1 ty2 n2 [<-|[]] [<-|[]] (c & Hc & E) (c' & Hc' & E') _.
    destruct Hc; try discriminate; destruct Hc'; try discriminate; reflexivity. }
  split; [reflexivity|]. split; [now left|]. vm_compute. reflexivity.
Qed.

(** ** Concrete cases *)

(** Two spellings of a name that begins with a letter beyond ASCII, and another category. *)
Definition load_dict : list (str * pyval) :=
  [(lit "env." ++ [931%N] ++ lit "A", VInt 3); (lit "user." ++ [931%N] ++ lit "A", VInt 1);
   (lit "user." ++ [931%N] ++ lit "a", VInt 2)].
Example ex_load_dict : exists b, NoDup (map fst load_dict) /\ apart greek load_dict /\
  load_mixed (builder_new [(lit "user." ++ [963%N] ++ lit "a", ST_INT)]) load_dict = Ok b /\
  build_table greek b [] =
    ([Sym (lit "user." ++ [963%N] ++ lit "a") ([963%N] ++ lit "a") USR_ATT ST_INT (VInt 1);
      Sym (lit "user." ++ [963%N] ++ lit "a") ([963%N] ++ lit "a") USR_ATT ST_INT (VInt 2);
      Sym (lit "env." ++ [963%N] ++ lit "a") ([963%N] ++ lit "a") ENV_ATT ST_UNKNOWN (VInt 3)],
     [(lit "user." ++ [963%N] ++ lit "a", 0%nat); (lit "env." ++ [963%N] ++ lit "a", 2%nat)]) /\
  st_lookup greek (snd (build_table greek b [])) (lit "USER." ++ [931%N] ++ lit "A") = Some 0%nat.
Proof.
  eexists. split; [repeat constructor; cbn; intuition discriminate|]. split.
  { intros f g ty1 n1 ty2 n2 Hf Hg (c & Hc & E) (c' & Hc' & E').
    cbn in Hf, Hg; destruct Hf as [<-|[<-|[<-|[]]]], Hg as [<-|[<-|[<-|[]]]];
      destruct Hc; try discriminate; destruct Hc'; try discriminate; auto; vm_compute; discriminate. }
  split; [reflexivity|]. split; [vm_compute; reflexivity|vm_compute; reflexivity].
Qed.

Print Assumptions C30_load_names.
Print Assumptions C30_load_apart.
Print Assumptions C30_load_found.
Print Assumptions C30_load_lost_refuted.
