(** All elements of one item: what they say, and that reading them restores the item
    (COT/vm_description/ovf/item.py:717-823 and 207-278). *)
From Coq Require Import Lia Permutation.
From Verif Require Import PyBase PyBaseProofs PyDict PyDictProofs ValidationModel ValidationSpec
  ValidationProofs XmlModel XmlSpec XmlProofs NamesModel ItemModel ItemSpec GenerateSpec PsetProofs
  ItemProofs ItemSetProofs ItemProfileProofs ItemReachProofs ItemEffectProofs PartitionProofs
  LookupProofs WildcardProofs WildcardItemProofs CellProofs ReadCellProofs EmitProofs GenerateProofs.

(** ** Reading all elements *)

Lemma elements_read : forall E i tag ns', reachable (e_ver E) i -> writable E i ->
  namespace_for_item_tag (e_ver E) tag = Some ns' ->
  forall l xs, Forall2 (fun ss x => generate_one E i tag ss = Ok x) l xs ->
  NoDup l ->
  (forall ss, In ss l -> cell_of ss <> []) ->
  (forall ss q r, In ss l -> In q (cell_of ss) ->
    (In r (cell_of ss) <-> forall n v, own (i_props i) n q v <-> own (i_props i) n r v)) ->
  (forall s t q, In s l -> In t l -> In q (cell_of s) -> In q (cell_of t) -> s = t) ->
  forall j0 (D : profile -> Prop), reachable (e_ver E) j0 ->
  (forall n q w, own (i_props j0) n q w -> D q) ->
  (forall n q w, D q -> ~ text_property (e_ver E) n ->
    (holds (i_props j0) n q w <-> holds (i_props i) n q w)) ->
  (forall n q, D q -> text_property (e_ver E) n -> reports E j0 n q = reports E i n q) ->
  (forall ss q, In ss l -> In q (cell_of ss) -> ~ D q) ->
  (In [] l -> (forall q, ~ D q) /\ exists rest, l = [] :: rest) ->
  exists j, fold_result (add_item E) xs j0 = Ok j /\ reachable (e_ver E) j /\
    (forall n q w, own (i_props j) n q w -> D q \/ exists ss, In ss l /\ In q (cell_of ss)) /\
    (forall n q w, D q \/ (exists ss, In ss l /\ In q (cell_of ss)) -> ~ text_property (e_ver E) n ->
      (holds (i_props j) n q w <-> holds (i_props i) n q w)) /\
    (forall n q, D q \/ (exists ss, In ss l /\ In q (cell_of ss)) -> text_property (e_ver E) n ->
      reports E j n q = reports E i n q).
Proof.
  intros E i tag ns' Ri W Hns l xs H. induction H as [|ss x l xs Hx H IH];
    intros ND Hne Hcl Hap j0 D R0 A B C Fr Hd.
  - exists j0. split; [reflexivity|]. split; [exact R0|]. split; [|split].
    + intros n q w Hw. left. now apply (A n q w).
    + intros n q w [Hq|(ss & [] & _)]. now apply B.
    + intros n q [Hq|(ss & [] & _)]. now apply C.
  - inversion ND as [|a b Hss ND']; subst.
    destruct (element_read E i Ri W ss (Hne ss (or_introl eq_refl))) with (tag := tag) (x := x) (j0 := j0) (D := D) (ns' := ns')
      as (j1 & E1 & R1 & A1 & B1 & C1); auto.
    { intros q r Hq Hr. now apply (Hcl ss q r (or_introl eq_refl) Hq). }
    { intros q Hq. apply (Fr ss q); [now left|exact Hq]. }
    { intros -> q. destruct Hd as [Hd _]; [now left|]. apply Hd. }
    destruct (IH ND') with (j0 := j1) (D := fun q => D q \/ In q (cell_of ss))
      as (j & E2 & R2 & A2 & B2 & C2); auto.
    { intros s Hs. apply Hne. now right. }
    { intros s q r Hs. apply Hcl. now right. }
    { intros s t q Hs Ht. apply Hap; now right. }
    { intros s q Hs Hq [HD|Hq']; [apply (Fr s q); auto; now right|].
      apply Hss. assert (ss = s) as ->; [|exact Hs].
      apply (Hap ss s q); auto; [now left|now right]. }
    { intros Hin. exfalso. destruct Hd as [_ (rest & Hr)]; [now right|]. injection Hr as -> ->. contradiction. }
    exists j. cbn [fold_result]. rewrite E1. cbn [rbind]. split; [exact E2|]. split; [exact R2|].
    assert (K : forall q, (D q \/ exists s, In s (ss :: l) /\ In q (cell_of s)) <->
      ((D q \/ In q (cell_of ss)) \/ exists s, In s l /\ In q (cell_of s))).
    { intros q. split.
      - intros [Hq|(s & [<-|Hs] & Hq)]; [left; now left|left; now right|right; now exists s].
      - intros [[Hq|Hq]|(s & Hs & Hq)]; [now left| |].
        + right. exists ss. split; [now left|exact Hq].
        + right. exists s. split; [now right|exact Hq]. }
    split; [|split].
    + intros n q w Hw. apply K. now apply (A2 n q w).
    + intros n q w Hq. apply K in Hq. now apply B2.
    + intros n q Hq. apply K in Hq. now apply C2.
Qed.

Lemma reports_agree : forall E i j n q,
  good_props (e_ver E) (i_props i) -> good_props (e_ver E) (i_props j) ->
  ~ text_property (e_ver E) n ->
  (forall w, holds (i_props j) n q w <-> holds (i_props i) n q w) -> reports E j n q = reports E i n q.
Proof.
  intros E i j n q Gi Gj Hx H. unfold reports. rewrite !get_value_plain by now apply not_text.
  f_equal. apply (get_raw_agree (e_ver E)); auto.
Qed.

Lemma writable_word_names : forall E i, writable E i -> word_names (i_props i).
Proof. intros E i W n x v H. exact (w_words _ _ W n x v H). Qed.

Lemma text_property_dec : forall v n, text_property v n \/ ~ text_property v n.
Proof.
  intros v n. unfold text_property. destruct (str_eq_dec n (ELEMENT_NAME v)); [tauto|].
  destruct (str_eq_dec n ITEM_DESCRIPTION); tauto.
Qed.

Theorem roundtrip : forall E i xs, reachable (e_ver E) i -> writable E i ->
  generate_items E i = Ok xs ->
  exists j, fold_result (add_item E) xs (new_ovfitem E) = Ok j /\ reachable (e_ver E) j /\
    forall n q, reports E j n q = reports E i n q.
Proof.
  intros E i xs R W H. unfold generate_items in H.
  destruct (get_nonintersecting_set_list (i_props i)) as [l|] eqn:El; [|discriminate]. cbn [rbind] in H.
  destruct (item_tag_ok (e_ver E) (i_ns i) (reachable_ns _ _ R)) as (tag & Et & ns' & Hns).
  rewrite Et in H. cbn [rbind] in H. apply rmap_ok_inv in H.
  apply reachable_good in R as Gi.
  destruct (set_list_listing _ _ _ Gi (writable_word_names E i W) El) as [L1 L2 L3 L4 L5 L6].
  destruct (elements_read E i tag ns' R W Hns l xs H L1 L2 L3 L5 (new_ovfitem E) (fun _ => False))
    as (j & Ej & Rj & A & B & C); try tauto.
  { now apply R_new. }
  { intros n q w (d & s & [] & _). }
  { intros Hin. split; [tauto|]. destruct (L6 Hin) as (rest & Hr & _). now exists rest. }
  exists j. split; [exact Ej|]. split; [exact Rj|]. apply reachable_good in Rj as Gj.
  assert (In_cover : forall q, (exists ss, In ss l /\ In q (cell_of ss)) ->
    forall n, reports E j n q = reports E i n q).
  { intros q Hq n. destruct (text_property_dec (e_ver E) n) as [Hn|Hn].
    - apply C; [now right|exact Hn].
    - apply reports_agree; auto. }
  assert (HAj : forall n q w, own (i_props j) n q w -> exists ss, In ss l /\ In q (cell_of ss)).
  { intros n q w Hw. destruct (A n q w Hw) as [[]|K]. exact K. }
  assert (dec : forall q, (exists ss, In ss l /\ In q (cell_of ss)) \/ ~ exists ss, In ss l /\ In q (cell_of ss)).
  { intros q. assert (Q : forall l0 : list str, (exists ss, In ss l0 /\ In q (cell_of ss)) \/ ~ exists ss, In ss l0 /\ In q (cell_of ss)).
    { induction l0 as [|s l0 IH]; [right; intros (ss & [] & _)|].
      destruct (pmem q (cell_of s)) eqn:Ep.
      - left. exists s. split; [now left|now apply pmem_In].
      - apply pmem_false in Ep. destruct IH as [(ss & Hs & Hq)|IH].
        + left. exists ss. split; [now right|exact Hq].
        + right. intros (ss & [<-|Hs] & Hq); [contradiction|]. apply IH. now exists ss. }
    apply Q. }
  intros n q. destruct (dec q) as [Hq|Hq]; [now apply In_cover|].
  assert (Ni : forall m w, ~ own (i_props i) m q w).
  { intros m w Hw. apply Hq, L4. now exists m, w. }
  assert (Nj : forall m w, ~ own (i_props j) m q w).
  { intros m w Hw. apply Hq. now apply (HAj m q w). }
  assert (S : forall k, good_props (e_ver E) (i_props k) -> (forall m w, ~ own (i_props k) m q w) ->
    reports E k n q = reports E k n None).
  { intros k G N. apply reports_same; auto. intros m v. unfold holds. split.
    - intros [K|[K1 K2]]; [|right; split; [|exact K2]; intros w; apply N]. right. split; [intros w; apply N|exact K].
    - intros [K|[K1 K2]]; [exfalso; now apply (N m v)|]. now left. }
  rewrite (S j Gj Nj), (S i Gi Ni).
  destruct (dec None) as [H0|H0]; [now apply In_cover|].
  rewrite (reports_nothing E j n None Gj), (reports_nothing E i n None Gi); [reflexivity| |].
  - intros v [K|[_ K]]; apply H0, L4; now exists n, v.
  - intros v [K|[_ K]]; apply H0; now apply (HAj n None v).
Qed.

(** ** What the elements say *)

Lemma child_no_suffix : forall v n k, In n (ITEM_CHILDREN v) -> n <> k ++ ATTRIB_KEY_SUFFIX.
Proof.
  assert (H : forall v, forallb (fun n => negb (ends_with ATTRIB_KEY_SUFFIX n)) (ITEM_CHILDREN v) = true).
  { intros []; vm_compute; reflexivity. }
  intros v n k Hn ->. specialize (H v). rewrite forallb_forall in H. specialize (H _ Hn).
  apply negb_true_iff in H. assert (ends_with ATTRIB_KEY_SUFFIX (k ++ ATTRIB_KEY_SUFFIX) = true) as K; [|congruence].
  apply ends_with_spec. now exists k.
Qed.

Lemma emit_xml_text : forall E i n q w, reachable (e_ver E) i -> reports E i n q = Ok (Some w) ->
  emit_text E n w = xml_text w.
Proof.
  intros E i n q w R H. apply reachable_good in R as G. unfold emit_text.
  destruct (text_property_dec (e_ver E) n) as [Hn|Hn].
  - destruct (text_value_type E i n [q] w R Hn) as [t ->]; [discriminate|exact H|].
    assert (str_eqb n RESOURCE_SUB_TYPE = false) as ->; [|reflexivity].
    destruct Hn as [->| ->]; [destruct (e_ver E)|]; reflexivity.
  - apply (reports_plain E i n q w G Hn) in H. apply holds_own in H as (r & H).
    pose proof (reachable_typed _ _ R n r w H) as T. destruct (str_eqb n RESOURCE_SUB_TYPE).
    + destruct T as [l ->]. reflexivity.
    + destruct T as [s ->]. reflexivity.
Qed.

Lemma dget_In_iff : forall (l : list (str * str)) k t, NoDup (map fst l) ->
  (dget str_eqb k l = Some t <-> In (k, t) l).
Proof.
  induction l as [|[a b] l IH]; intros k t ND; cbn [dget]; [split; [discriminate|intros []]|].
  inversion ND as [|x y H1 H2]; subst. destruct (str_eqb k a) eqn:Ek.
  - apply str_eqb_eq in Ek. subst a. split.
    + intros H. injection H as <-. now left.
    + intros [H|H]; [congruence|]. exfalso. apply H1. apply in_map_iff. now exists (k, t).
  - rewrite (IH k t H2). split; [now right|]. intros [H|H]; [|exact H].
    injection H as -> _. rewrite str_eqb_refl in Ek. discriminate.
Qed.

Lemma filter_unique : forall (A : Type) (f : A -> bool) l c, filter f l = [c] -> In c l /\ f c = true.
Proof. intros A f l c H. apply filter_In. rewrite H. now left. Qed.

Lemma filter_perm : forall (A : Type) (f : A -> bool) l m, Permutation l m -> Permutation (filter f l) (filter f m).
Proof.
  intros A f l m H. induction H; cbn [filter].
  - constructor.
  - destruct (f x); [now constructor|assumption].
  - destruct (f x), (f y); try reflexivity. apply perm_swap.
  - eapply perm_trans; eassumption.
Qed.

Section Says.
Variable E : env.
Variable i : item.
Hypothesis Ri : reachable (e_ver E) i.
Hypothesis W : writable E i.
Variable ss : str.
Hypothesis F_ne : cell_of ss <> [].
Hypothesis F_class : forall q r, In q (cell_of ss) -> In r (cell_of ss) ->
  forall n v, own (i_props i) n q v <-> own (i_props i) n r v.
Variable tag : str.
Variable x : elem.
Hypothesis Hx : generate_one E i tag ss = Ok x.

Let V (n : str) := get_value E (i_props i) n
                     (Some (if is_nil ss then [None] else pset_of (map Some (words ss)))).
Let calls := emitted E V (sorted_strs (map fst (i_props i))).

Lemma attrs_In : forall k t, In (k, t) (attrs_of calls) <-> In (k ++ ATTRIB_KEY_SUFFIX, t) calls /\ k <> ITEM_CONFIG (e_ver E) /\ ~ In NL k.
Proof.
  intros k t. unfold attrs_of. rewrite in_flat_map. split.
  - intros ((n & u) & Hn & Hin). cbn [fst snd] in Hin.
    destruct (attr_key n) as [k'|] eqn:Ek; [|contradiction]. destruct Hin as [Hin|[]]. injection Hin as -> ->.
    pose proof Hn as Hn'. apply (calls_In E i Ri ss F_ne F_class) in Hn' as (w & Hw & _).
    apply (V_simple E i Ri W ss F_ne F_class) in Hw.
    destruct Hw as [Hw|(k1 & -> & Hnl & Hc)].
    + unfold attr_key in Ek. rewrite (proj1 (children_names _ n Hw)) in Ek. discriminate.
    + unfold attr_key in Ek. rewrite (attrib_name k1 Hnl) in Ek. injection Ek as <-. auto.
  - intros (H & Hc & Hnl). exists (k ++ ATTRIB_KEY_SUFFIX, t). split; [exact H|]. cbn [fst snd].
    unfold attr_key. rewrite attrib_name by exact Hnl. now left.
Qed.

Lemma attrs_NoDup : NoDup (map fst (attrs_of calls)).
Proof.
  pose proof (calls_NoDup E i Ri ss) as ND. fold V calls in ND.
  assert (K : forall l, NoDup (map fst l) -> (forall n t, In (n, t) l -> In (n, t) calls) -> NoDup (map fst (attrs_of l))).
  { induction l as [|[n t] l IH]; intros NDl Hl; [constructor|]. inversion NDl as [|a b H1 H2]; subst.
    unfold attrs_of. cbn [flat_map fst snd]. fold (attrs_of l).
    assert (IHl : NoDup (map fst (attrs_of l))) by (apply IH; [exact H2|intros m u Hm; apply Hl; now right]).
    destruct (attr_key n) as [k|] eqn:Ek; [|exact IHl]. cbn [app map fst]. constructor; [|exact IHl].
    intros Hin. apply in_map_iff in Hin as ((k' & u) & Hk & Hin). cbn in Hk. subst k'.
    unfold attrs_of in Hin. apply in_flat_map in Hin as ((m & u') & Hm & Hin). cbn [fst snd] in Hin.
    destruct (attr_key m) as [k'|] eqn:Em; [|contradiction]. destruct Hin as [Hin|[]]. injection Hin as -> ->.
    assert (Q : forall m u k, attr_key m = Some k -> In (m, u) calls -> m = k ++ ATTRIB_KEY_SUFFIX).
    { intros m0 u0 k0 Hk Hc. apply (calls_In E i Ri ss F_ne F_class) in Hc as (w & Hw & _).
      apply (V_simple E i Ri W ss F_ne F_class) in Hw.
      destruct (simple_key _ m0 Hw) as [[_ K]|(k1 & K1 & K2 & _)]; congruence. }
    apply H1. apply in_map_iff. exists (m, u). split; [|exact Hm]. cbn [fst].
    rewrite (Q m u k Em (Hl _ _ (or_intror Hm))), (Q n t k Ek (Hl _ _ (or_introl eq_refl))). reflexivity. }
  apply K; auto.
Qed.

Lemma element_get_attr : forall k t, k <> ITEM_CONFIG (e_ver E) ->
  (get_attr x k = Some t <-> In (k ++ ATTRIB_KEY_SUFFIX, t) calls /\ ~ In NL k).
Proof.
  intros k t Hk. destruct (element_shape E i Ri W ss F_ne F_class tag x Hx) as (_ & S2 & _).
  unfold get_attr. rewrite S2. fold V calls.
  assert (dget str_eqb k ((if is_nil ss then [] else [(ITEM_CONFIG (e_ver E), ss)]) ++ attrs_of calls) =
          dget str_eqb k (attrs_of calls)) as ->.
  { destruct (is_nil ss); [reflexivity|]. cbn [app dget]. destruct (str_eqb k (ITEM_CONFIG (e_ver E))) eqn:Ek; [|reflexivity].
    apply str_eqb_eq in Ek. contradiction. }
  rewrite (dget_In_iff _ k t attrs_NoDup), attrs_In. tauto.
Qed.

Lemma element_config : get_attr x (ITEM_CONFIG (e_ver E)) = if is_nil ss then None else Some ss.
Proof.
  destruct (element_shape E i Ri W ss F_ne F_class tag x Hx) as (_ & S2 & _).
  unfold get_attr. rewrite S2. fold V calls.
  assert (K : dget str_eqb (ITEM_CONFIG (e_ver E)) (attrs_of calls) = None).
  { destruct (dget str_eqb (ITEM_CONFIG (e_ver E)) (attrs_of calls)) as [t|] eqn:Et; [|reflexivity].
    apply (dget_In_iff _ _ _ attrs_NoDup) in Et. apply attrs_In in Et as (_ & H & _). now destruct H. }
  clearbody calls. destruct (is_nil ss).
  - exact K.
  - cbn [app dget]. now rewrite str_eqb_refl.
Qed.

Lemma element_for : element_profiles (e_ver E) x = cell_of ss.
Proof.
  unfold element_profiles, cell_of. rewrite element_config. now destruct (is_nil ss).
Qed.

Lemma call_reports : forall n t q, In q (cell_of ss) -> (In (n, t) calls <->
  exists w, reports E i n q = Ok (Some w) /\ truthy w = true /\ t = xml_text w).
Proof.
  intros n t q Hq. unfold calls, V. rewrite (calls_In E i Ri ss F_ne F_class n t).
  split; intros (w & Hw & Ht & ->); exists w.
  - rewrite (V_reports E i Ri ss F_class n q Hq) in Hw. split; [exact Hw|]. split; [exact Ht|].
    now apply (emit_xml_text E i n q w Ri).
  - rewrite (V_reports E i Ri ss F_class n q Hq). split; [exact Hw|]. split; [exact Ht|].
    symmetry. now apply (emit_xml_text E i n q w Ri).
Qed.

Lemma element_children_tags : forall c, In c (echildren x) ->
  exists n, In n (ITEM_CHILDREN (e_ver E)) /\ etag c = i_ns i ++ n.
Proof.
  intros c Hc. destruct (element_shape E i Ri W ss F_ne F_class tag x Hx) as (_ & _ & S3).
  fold V calls in S3. apply (Permutation_in _ S3) in Hc. apply in_map_iff in Hc as ((n & t) & <- & Hc).
  exists n. split; [|reflexivity]. exact (kid_calls_child E i Ri W ss F_ne F_class n t Hc).
Qed.

Lemma element_child : forall n c, In n (ITEM_CHILDREN (e_ver E)) ->
  filter (fun c => str_eqb (etag c) (i_ns i ++ n)) (echildren x) = [c] <->
  exists t, In (n, t) calls /\ c = Elem (i_ns i ++ n) [] (Some t) None [].
Proof.
  intros n c Hn. destruct (element_shape E i Ri W ss F_ne F_class tag x Hx) as (_ & _ & S3).
  fold V calls in S3. set (f := fun c0 => str_eqb (etag c0) (i_ns i ++ n)).
  assert (Hk : attr_key n = None).
  { unfold attr_key. now rewrite (proj1 (children_names _ n Hn)). }
  assert (P : Permutation (filter f (echildren x))
     (map (mk_child (i_ns i)) (filter (fun nt => str_eqb (fst nt) n) (kid_calls calls)))).
  { eapply perm_trans; [apply filter_perm; exact S3|].
    match goal with |- Permutation ?a ?b => replace a with b; [reflexivity|] end.
    generalize (kid_calls calls). induction l as [|[m u] l IH]; [reflexivity|].
    cbn [map filter fst]. unfold f at 1. cbn [mk_child etag fst snd].
    assert (str_eqb (i_ns i ++ m) (i_ns i ++ n) = str_eqb m n) as ->.
    { destruct (str_eqb m n) eqn:Em.
      - apply str_eqb_eq in Em. subst m. apply str_eqb_refl.
      - destruct (str_eqb (i_ns i ++ m) (i_ns i ++ n)) eqn:Em'; [|reflexivity].
        apply str_eqb_eq, app_inv_head in Em'. subst m. rewrite str_eqb_refl in Em. discriminate. }
    destruct (str_eqb m n); cbn [map]; now rewrite IH. }
  assert (ND : NoDup (map fst (kid_calls calls))).
  { apply NoDup_map_filter. exact (calls_NoDup E i Ri ss). }
  destruct (filter_call (kid_calls calls) n ND) as (o & F1 & F2). rewrite F1 in P.
  assert (K : forall t, In (n, t) (kid_calls calls) <-> In (n, t) calls).
  { intros t. unfold kid_calls. rewrite filter_In. cbn [fst]. rewrite Hk. tauto. }
  destruct o as [t|]; cbn [call_of map] in P.
  - apply Permutation_sym, Permutation_length_1_inv in P. rewrite P. split.
    + intros H. injection H as <-. exists t. split; [apply K; now apply F2|reflexivity].
    + intros (t' & Ht & ->). apply K, F2 in Ht. injection Ht as <-. reflexivity.
  - apply Permutation_sym, Permutation_nil in P. rewrite P. split; [discriminate|].
    intros (t' & Ht & _). apply K, F2 in Ht. discriminate.
Qed.

Theorem element_content : forall n t q, simple_name (e_ver E) n -> In q (cell_of ss) ->
  (element_says (i_ns i) x n t <->
   exists w, reports E i n q = Ok (Some w) /\ truthy w = true /\ t = xml_text w).
Proof.
  intros n t q Hs Hq. rewrite <- (call_reports n t q Hq). unfold element_says. split.
  - intros [(c & Hc & Ht & _)|(k & -> & Hk)].
    + pose proof (filter_unique _ _ _ _ Hc) as [Hin Htag]. apply str_eqb_eq in Htag.
      destruct (element_children_tags c Hin) as (m & Hm & Em). rewrite Htag in Em.
      apply app_inv_head in Em. subst m. apply (element_child n c Hm) in Hc as (t' & Hc & ->).
      cbn [etext] in Ht. injection Ht as <-. exact Hc.
    + destruct Hs as [Hs|(k' & Ek & Hnl & Hc)]; [now apply child_no_suffix with (k := k) in Hs|].
      apply app_inv_tail in Ek. subst k'. now apply (element_get_attr k t Hc).
  - intros H. destruct Hs as [Hs|(k & -> & Hnl & Hc)].
    + left. exists (Elem (i_ns i ++ n) [] (Some t) None []). split; [|auto].
      apply element_child; [exact Hs|]. now exists t.
    + right. exists k. split; [reflexivity|]. now apply (element_get_attr k t Hc).
Qed.
End Says.

(** All elements together. *)
Theorem generated_elements : forall E i xs, reachable (e_ver E) i -> writable E i ->
  generate_items E i = Ok xs ->
  (* each is for some profiles, ... *)
  (forall x, In x xs -> element_profiles (e_ver E) x <> []) /\
  (* ... every profile with values of its own has exactly one, ... *)
  (forall q, (exists n v, own (i_props i) n q v) <->
     exists x, In x xs /\ In q (element_profiles (e_ver E) x)) /\
  ForallOrdPairs (fun x y => forall q, In q (element_profiles (e_ver E) x) ->
     ~ In q (element_profiles (e_ver E) y)) xs /\
  (* ... shared by the profiles with the same values and by no others, ... *)
  (forall x q r, In x xs -> In q (element_profiles (e_ver E) x) ->
     (In r (element_profiles (e_ver E) x) <->
      forall n v, own (i_props i) n q v <-> own (i_props i) n r v)) /\
  (* ... the one of the default profile comes first and is for it alone, ... *)
  (forall x, In x xs -> In None (element_profiles (e_ver E) x) ->
     get_attr x (ITEM_CONFIG (e_ver E)) = None /\ exists rest, xs = x :: rest) /\
  (* ... and each says what the item reports for its profiles, and no more. *)
  (forall x n t q, In x xs -> In q (element_profiles (e_ver E) x) -> simple_name (e_ver E) n ->
     (element_says (i_ns i) x n t <->
      exists w, reports E i n q = Ok (Some w) /\ truthy w = true /\ t = xml_text w)) /\
  (forall x c, In x xs -> In c (echildren x) ->
     exists n, In n (ITEM_CHILDREN (e_ver E)) /\ etag c = i_ns i ++ n).
Proof.
  intros E i xs R W H. unfold generate_items in H.
  destruct (get_nonintersecting_set_list (i_props i)) as [l|] eqn:El; [|discriminate]. cbn [rbind] in H.
  destruct (item_tag_for_namespace (e_ver E) (i_ns i)) as [tag|] eqn:Et; [|discriminate].
  cbn [rbind] in H. apply rmap_ok_inv in H.
  apply reachable_good in R as Gi.
  destruct (set_list_listing _ _ _ Gi (writable_word_names E i W) El) as [L1 L2 L3 L4 L5 L6].
  assert (Hcl : forall ss, In ss l -> forall q r, In q (cell_of ss) -> In r (cell_of ss) ->
    forall n v, own (i_props i) n q v <-> own (i_props i) n r v).
  { intros ss Hs q r Hq Hr. now apply (L3 ss q r Hs Hq). }
  assert (Hp : forall ss x, In ss l -> generate_one E i tag ss = Ok x ->
    element_profiles (e_ver E) x = cell_of ss).
  { intros ss x Hs Hx. apply (element_for E i R W ss (L2 ss Hs) (Hcl ss Hs) tag x Hx). }
  assert (Hback : forall x, In x xs -> exists ss, In ss l /\ generate_one E i tag ss = Ok x /\
    element_profiles (e_ver E) x = cell_of ss).
  { intros x Hx. destruct (Forall2_In_r _ _ _ _ _ _ H Hx) as (ss & Hs & K). exists ss.
    split; [exact Hs|]. split; [exact K|]. now apply Hp. }
  split; [|split; [|split; [|split; [|split; [|split]]]]].
  - intros x Hx. destruct (Hback x Hx) as (ss & Hs & _ & ->). now apply L2.
  - intros q. rewrite <- L4. split.
    + intros (ss & Hs & Hq). destruct (Forall2_In_l _ _ _ _ _ _ H Hs) as (x & Hx & K).
      exists x. split; [exact Hx|]. now rewrite (Hp ss x Hs K).
    + intros (x & Hx & Hq). destruct (Hback x Hx) as (ss & Hs & _ & Ep). rewrite Ep in Hq. now exists ss.
  - clear L6 El. revert L1 L5 Hp. clear - H. induction H as [|ss x l xs Hx H IH]; intros L1 L5 Hp; [constructor|].
    inversion L1 as [|a b H1 H2]; subst. constructor.
    + apply Forall_forall. intros y Hy q Hq Hq'.
      destruct (Forall2_In_r _ _ _ _ _ _ H Hy) as (t & Ht & Ky).
      rewrite (Hp ss x (or_introl eq_refl) Hx) in Hq. rewrite (Hp t y (or_intror Ht) Ky) in Hq'.
      apply H1. rewrite (L5 ss t q); auto; [now left|now right].
    + apply IH; [exact H2| |].
      * intros s t q Hs Ht. apply L5; now right.
      * intros s y Hs. apply Hp. now right.
  - intros x q r Hx Hq. destruct (Hback x Hx) as (ss & Hs & _ & Ep). rewrite Ep in *. now apply L3.
  - intros x Hx H0. destruct (Hback x Hx) as (ss & Hs & Kx & Ep). rewrite Ep in H0.
    assert (ss = []) as ->.
    { unfold cell_of in H0. destruct ss as [|c s]; [reflexivity|]. cbn [is_nil] in H0.
      apply (proj1 (in_map_iff (@Some str) _ None)) in H0 as (y & Hy & _). discriminate. }
    split; [exact (element_config E i R W [] (L2 [] Hs) (Hcl [] Hs) tag x Kx)|].
    destruct (L6 Hs) as (rest & -> & _). inversion H as [|a b m n H1 H2]; subst. exists n. congruence.
  - intros x n t q Hx Hq Hn. destruct (Hback x Hx) as (ss & Hs & Kx & Ep). rewrite Ep in Hq.
    exact (element_content E i R W ss (L2 ss Hs) (Hcl ss Hs) tag x Kx n t q Hn Hq).
  - intros x c Hx. destruct (Hback x Hx) as (ss & Hs & Kx & Ep).
    exact (element_children_tags E i R W ss (L2 ss Hs) (Hcl ss Hs) tag x Kx c).
Qed.

(** ** Writing succeeds *)

Lemma join_plain : forall l, (forall s, In s l -> plain_text s) -> plain_text (join (L " ") l).
Proof.
  intros l H c Hc. assert (K : c = " "%char \/ exists s, In s l /\ In c s).
  { clear H. induction l as [|s l IH]; [contradiction|]. destruct l as [|t l].
    - cbn in Hc. right. exists s. split; [now left|exact Hc].
    - cbn [join] in Hc. rewrite !in_app_iff in Hc. destruct Hc as [Hc|[Hc|Hc]].
      + right. exists s. split; [now left|exact Hc].
      + left. cbn in Hc. destruct Hc as [Hc|[]]. now symmetry.
      + destruct (IH Hc) as [K|(u & Hu & K)]; [now left|]. right. exists u. split; [now right|exact K]. }
  destruct K as [->|(s & Hs & K)]; [reflexivity|]. exact (H s Hs c K).
Qed.

Theorem generate_succeeds : forall E i, reachable (e_ver E) i -> writable E i ->
  (forall n x v, own (i_props i) n (Some x) v -> plain_text x) ->
  (forall n q, exists o, reports E i n q = Ok o) ->
  exists xs, generate_items E i = Ok xs.
Proof.
  intros E i R W Hpl Hrep. apply reachable_good in R as Gi. unfold generate_items.
  assert (exists l, get_nonintersecting_set_list (i_props i) = Ok l) as [l El].
  { unfold get_nonintersecting_set_list. destruct (partition_parts _ _ Gi) as [P1 P2 P3 P4 P5 P6].
    assert (K : forall s, In s (partition (i_props i)) -> exists t, set_string s = Ok t /\ plain_text t).
    { intros s Hs. unfold set_string. destruct (pmem None s); [exists []; split; [reflexivity|intros c []]|].
      destruct (natural_sort_ok (names_of s)) as (out & Eo & (Po & _) & _).
      { intros y Hy. apply names_of_In in Hy. destruct (proj1 (P4 (Some y))) as (n & v & Hv); [now exists s|].
        now apply (Hpl n y v). }
      rewrite Eo. cbn [rbind]. eexists. split; [reflexivity|]. apply join_plain.
      intros y Hy. apply (Permutation_in _ (Permutation_sym Po)) in Hy.
      apply names_of_In in Hy. destruct (proj1 (P4 (Some y))) as (n & v & Hv); [now exists s|].
      now apply (Hpl n y v). }
    destruct (rmap_all_ok _ _ set_string (partition (i_props i))) as [l0 E0].
    { intros s Hs. destruct (K s Hs) as (t & Ht & _). now exists t. }
    rewrite E0. cbn [rbind]. apply rmap_ok_inv in E0.
    destruct (natural_sort_ok l0) as (out & Eo & _); [|now exists out].
    intros t Ht. destruct (Forall2_In_r _ _ _ _ _ _ E0 Ht) as (s & Hs & Ks).
    destruct (K s Hs) as (t' & Ht' & Hp). rewrite Ks in Ht'. injection Ht' as <-. exact Hp. }
  rewrite El. cbn [rbind].
  destruct (item_tag_ok (e_ver E) (i_ns i) (reachable_ns _ _ R)) as (tag & Et & _).
  rewrite Et. cbn [rbind]. apply rmap_all_ok. intros ss Hs.
  destruct (set_list_listing _ _ _ Gi (writable_word_names E i W) El) as [L1 L2 L3 L4 L5 L6].
  assert (Hcl : forall q r, In q (cell_of ss) -> In r (cell_of ss) ->
    forall n v, own (i_props i) n q v <-> own (i_props i) n r v).
  { intros q r Hq Hr. now apply (L3 ss q r Hs Hq). }
  assert (exists f, In f (cell_of ss)) as [f Hf].
  { specialize (L2 ss Hs). destruct (cell_of ss) as [|f c]; [contradiction|]. exists f. now left. }
  set (V := fun n => get_value E (i_props i) n (Some (if is_nil ss then [None] else pset_of (map Some (words ss))))).
  destruct (emit_all_ok E (i_ns i) (map (fun c => i_ns i ++ c) (ITEM_CHILDREN (e_ver E))) V
    (sorted_strs (map fst (i_props i)))
    (Elem tag (if is_nil ss then [] else [(ITEM_CONFIG (e_ver E), ss)]) None None [])) as (x & Ex & _).
  - exact (names_NoDup E i R).
  - intros n _. unfold V. rewrite (V_reports E i R ss Hcl n f Hf). apply Hrep.
  - intros n w _ Hw. exact (V_simple E i R W ss (L2 ss Hs) Hcl n w Hw).
  - intros n k _ Hn Hk. destruct (simple_key _ n Hn) as [[_ K]|(k' & _ & K & Hc & _)]; [congruence|].
    cbn [eattrib]. destruct (is_nil ss); cbn [map fst In]; [tauto|]. intros [H|[]].
    rewrite K in Hk. injection Hk as <-. now apply Hc.
  - intros n c _ _ [].
  - exists x. exact Ex.
Qed.
