(** What generate_items writes (COT/vm_description/ovf/item.py:761-823) for items that
    only have the usual child elements and attributes of the Item element, and how
    add_item reads it. *)
From Coq Require Import Lia Permutation.
From Verif Require Import PyBase PyBaseProofs PyDict PyDictProofs PyRegex PyRegexProofs
  ValidationModel XmlModel
  XmlSpec XmlProofs NamesModel ItemModel ItemSpec GenerateSpec PsetProofs ItemProofs ItemSetProofs
  ItemProfileProofs ItemReachProofs CellProofs ReadCellProofs.

(** ** Names *)

Lemma children_names : forall v n, In n (ITEM_CHILDREN v) ->
  re_match re_attrib n = None /\ re_match re_child_attrib n = None /\
  re_match re_custom n = None /\ ~ In NL n /\ ~ In "}"%char n.
Proof.
  assert (H : forall v, forallb (fun n =>
    match re_match re_attrib n with None => true | _ => false end &&
    match re_match re_child_attrib n with None => true | _ => false end &&
    match re_match re_custom n with None => true | _ => false end &&
    negb (existsb (Ascii.eqb NL) n) && negb (existsb (Ascii.eqb "}"%char) n)) (ITEM_CHILDREN v) = true).
  { intros []; vm_compute; reflexivity. }
  intros v n Hn. specialize (H v). rewrite forallb_forall in H. specialize (H n Hn).
  repeat (apply andb_true_iff in H as [H ?]).
  assert (K : forall c, negb (existsb (Ascii.eqb c) n) = true -> ~ In c n).
  { intros c Hc Hin. apply negb_true_iff in Hc.
    assert (existsb (Ascii.eqb c) n = true) as E; [|congruence].
    apply existsb_exists. exists c. split; [exact Hin|apply Ascii.eqb_refl]. }
  destruct (re_match re_attrib n); [discriminate|].
  destruct (re_match re_child_attrib n); [discriminate|].
  destruct (re_match re_custom n); [discriminate|]. auto 6.
Qed.

Lemma children_NoDup : forall v, NoDup (ITEM_CHILDREN v).
Proof.
  intros v. assert (H : forall l, (fix nd (l : list str) := match l with
    | [] => true | x :: r => negb (mem_str x r) && nd r end) l = true -> NoDup l).
  { induction l as [|x l IH]; intros H; [constructor|]. apply andb_true_iff in H as [H1 H2].
    constructor; [|now apply IH]. apply negb_true_iff in H1. intros Hin.
    apply mem_str_In in Hin. congruence. }
  apply H. destruct v; vm_compute; reflexivity.
Qed.

Lemma attrib_name : forall k, ~ In NL k ->
  re_match re_attrib (k ++ ATTRIB_KEY_SUFFIX) = Some [(1, k)].
Proof.
  intros k Hk. apply (wins_match _ _ [] [(1, k)]). unfold re_attrib. apply wins_seq.
  rewrite <- (app_nil_r (k ++ ATTRIB_KEY_SUFFIX)).
  assert (Hskip : skipn (length k) (k ++ ATTRIB_KEY_SUFFIX) ++ [] = ATTRIB_KEY_SUFFIX ++ []).
  { rewrite skipn_app, skipn_all, Nat.sub_diag. reflexivity. }
  assert (Hfirst : firstn (length k) (k ++ ATTRIB_KEY_SUFFIX) = k).
  { rewrite firstn_app, Nat.sub_diag, firstn_all. cbn [firstn]. apply app_nil_r. }
  apply (wins_group_star _ 1 not_nl _ [] [] _ (length k)).
  - apply not_nl_all. intros H. apply in_app_iff in H as [H|H]; [contradiction|].
    revert H. vm_compute. intros H. repeat (destruct H as [H|H]; [discriminate|]). exact H.
  - discriminate.
  - rewrite app_length. lia.
  - intros i Hi. apply no_mt_fails. intros (t & Ht). apply mt_str_inv in Ht.
    apply (f_equal (@length ascii)) in Ht. cbn [rest] in Ht.
    rewrite !app_length, skipn_length, app_length in Ht. cbn [length] in Ht. rewrite app_length in Hi. lia.
  - rewrite Hskip, Hfirst. apply wins_str. now exists [].
Qed.

(** The three namespaces. *)
Definition item_ns (v : version) (ns : str) : Prop := ns = RASD v \/ ns = SASD v \/ ns = EPASD v.

Lemma item_ns_braced : forall v ns, item_ns v ns -> exists u, ns = braced u /\ ~ In NL u.
Proof.
  assert (K : forall u, existsb (Ascii.eqb NL) u = false -> ~ In NL u).
  { intros u Hu Hin. assert (existsb (Ascii.eqb NL) u = true) as E; [|congruence].
    apply existsb_exists. exists NL. split; [exact Hin|apply Ascii.eqb_refl]. }
  intros v ns H. unfold item_ns, RASD, SASD, EPASD in H.
  destruct v; destruct H as [->|[->| ->]]; (eexists; split; [reflexivity|]); apply K; vm_compute; reflexivity.
Qed.

Lemma strip_child : forall v ns n, item_ns v ns -> In n (ITEM_CHILDREN v) ->
  strip_ns (ns ++ n) = n.
Proof.
  intros v ns n Hns Hn. destruct (item_ns_braced v ns Hns) as (u & -> & Hu).
  destruct (children_names v n Hn) as (_ & _ & _ & H1 & H2).
  unfold braced. rewrite <- app_assoc. cbn [app].
  apply qualified_name; [|exact H2]. intros H. apply in_app_iff in H as [H|H]; contradiction.
Qed.

Lemma item_tag_ok : forall v ns, item_ns v ns -> exists tag,
  item_tag_for_namespace v ns = Ok tag /\ exists ns', namespace_for_item_tag v tag = Some ns'.
Proof.
  intros v ns H. unfold item_tag_for_namespace, namespace_for_item_tag.
  destruct (str_eqb ns (RASD v)) eqn:E1.
  { eexists. split; [reflexivity|]. rewrite str_eqb_refl. eauto. }
  destruct (str_eqb ns (SASD v)) eqn:E2.
  { eexists. split; [reflexivity|]. destruct (str_eqb (STORAGE_ITEM v) (ITEM v)); [eauto|].
    rewrite str_eqb_refl. eauto. }
  destruct (str_eqb ns (EPASD v)) eqn:E3.
  { eexists. split; [reflexivity|]. destruct (str_eqb (ETHERNET_PORT_ITEM v) (ITEM v)); [eauto|].
    destruct (str_eqb (ETHERNET_PORT_ITEM v) (STORAGE_ITEM v)); [eauto|]. rewrite str_eqb_refl. eauto. }
  exfalso. destruct H as [->|[->| ->]]; rewrite str_eqb_refl in *; discriminate.
Qed.

Lemma tag_ns : forall v tag ns, namespace_for_item_tag v tag = Some ns -> item_ns v ns.
Proof.
  intros v tag ns. unfold namespace_for_item_tag, item_ns.
  destruct (str_eqb _ _); [intros H; injection H as <-; auto|].
  destruct (str_eqb _ _); [intros H; injection H as <-; auto|].
  destruct (str_eqb _ _); [intros H; injection H as <-; auto|]. discriminate.
Qed.
Lemma type_ns : forall v rt, item_ns v (namespace_for_resource_type v rt).
Proof.
  intros v rt. unfold namespace_for_resource_type, item_ns.
  destruct (str_eqb _ _); [auto|]. destruct (_ || _); auto.
Qed.

(** An item is always in one of them. *)
Lemma set_property_ns : forall E j n x P ow j', good_props (e_ver E) (i_props j) ->
  set_property E j n x P ow = Ok j' -> item_ns (e_ver E) (i_ns j) -> item_ns (e_ver E) (i_ns j').
Proof.
  intros E j n x P ow j' G H Hns. apply set_property_inv in H as (v & _ & _ & _ & _ & -> & _); [|exact G].
  unfold retag. destruct (str_eqb n RESOURCE_TYPE); [|exact Hns]. cbn. apply type_ns.
Qed.

Lemma fold_good_ns : forall (A : Type) E (f : item -> A -> result item) l j j',
  (forall x a b, In a l -> good_props (e_ver E) (i_props x) -> item_ns (e_ver E) (i_ns x) ->
     f x a = Ok b -> good_props (e_ver E) (i_props b) /\ item_ns (e_ver E) (i_ns b)) ->
  good_props (e_ver E) (i_props j) -> item_ns (e_ver E) (i_ns j) ->
  fold_result f l j = Ok j' ->
  good_props (e_ver E) (i_props j') /\ item_ns (e_ver E) (i_ns j').
Proof.
  intros A E f l j j' Hf Hg Ht H. revert H.
  apply (fold_result_inv _ _ _ (fun j => good_props (e_ver E) (i_props j) /\ item_ns (e_ver E) (i_ns j))).
  - intros x a b Ha (H1 & H2). now apply Hf.
  - auto.
Qed.
Lemma set_property_good_ns : forall E j n x P ow j', good_props (e_ver E) (i_props j) ->
  item_ns (e_ver E) (i_ns j) -> set_property E j n x P ow = Ok j' ->
  good_props (e_ver E) (i_props j') /\ item_ns (e_ver E) (i_ns j').
Proof.
  intros E j n x P ow j' G N H. split; [now apply set_property_good in H|].
  now apply (set_property_ns E j n x P ow j').
Qed.

Theorem reachable_ns : forall ver i, reachable ver i -> item_ns ver (i_ns i).
Proof.
  intros ver i H. induction H; subst; auto.
  - now left.
  - assert (Hg := reachable_good _ _ H0). unfold add_item in H1.
    destruct (namespace_for_item_tag (e_ver E) (etag x)) as [ns|] eqn:En; [|discriminate].
    apply tag_ns in En. set (P := map Some _) in H1.
    destruct (fold_result _ (eattrib x) (with_ns ns i)) as [i1|] eqn:E1; [|discriminate].
    cbn [rbind] in H1.
    destruct (fold_result _ (reading_order (e_ver E) (echildren x)) i1) as [i2|] eqn:E2;
      [|discriminate].
    cbn [rbind] in H1.
    apply (fold_good_ns _ E) in E1 as (G1 & T1); [|clear E1|exact Hg|exact En].
    2: { intros j kv j' _ Hj Tj. destruct (str_eqb _ _); [intros Hk; injection Hk as <-; auto|].
         now apply set_property_good_ns. }
    apply (fold_good_ns _ E) in E2 as (G2 & T2); [|clear E2|exact G1|exact T1].
    2: { intros j c j' _ Hj Tj. unfold add_child_property. destruct (mem_str _ _).
         - destruct (set_property _ _ _ _ _ _) as [j1|] eqn:Ej; [|discriminate]. cbn [rbind].
           apply set_property_good_ns in Ej as (? & ?); auto. intros Hf.
           apply (fold_good_ns _ E) in Hf; auto.
           intros k kv k' _ Hk Tk. now apply set_property_good_ns.
         - now apply set_property_good_ns. }
    rewrite validate_good in H1 by exact G2. injection H1 as <-. exact T2.
  - assert (Hg := reachable_good _ _ H0). now apply set_property_ns in H1.
  - assert (Hg := reachable_good _ _ H0). unfold add_profile in H1.
    destruct (has_profile E i p); [injection H1 as <-; exact IHreachable|].
    destruct (prget _ _); [|discriminate].
    destruct (fold_result _ _ i) as [i1|] eqn:E1; [|discriminate]. cbn [rbind] in H1.
    apply (fold_good_ns _ E) in E1 as (G1 & T1); auto.
    + rewrite validate_good in H1 by exact G1. injection H1 as <-. exact T1.
    + intros j n j' _ Hj Tj. unfold add_profile_step.
      destruct (prget n _) as [[|e d]|]; [|destruct (inherited _ _)|]; try discriminate.
      * intros K. injection K as <-. auto.
      * now apply set_property_good_ns.
  - assert (Hg := reachable_good _ _ H0).
    rewrite remove_profile_eq in H1 by exact Hg. injection H1 as <-.
    destruct (has_profile E i p); exact IHreachable.
Qed.

Lemma reachable_with_ns : forall E j tag ns, reachable (e_ver E) j ->
  namespace_for_item_tag (e_ver E) tag = Some ns -> reachable (e_ver E) (with_ns ns j).
Proof.
  intros E j tag ns R Hns.
  assert (H : add_item E j (Elem tag [] None None []) = Ok (with_modified true (with_ns ns j))).
  { unfold add_item. cbn [etag]. rewrite Hns. cbn. apply validate_good. cbn. now apply reachable_good. }
  pose proof (R_read _ E j _ _ eq_refl R H) as R1.
  apply (R_saved _ _ (i_modified j)) in R1. exact R1.
Qed.

(** ** Writing *)

Definition attr_key (n : str) : option str :=
  match re_match re_attrib n with Some g => Some (the_group 1 g) | None => None end.

Lemma simple_key : forall v n, simple_name v n ->
  (In n (ITEM_CHILDREN v) /\ attr_key n = None) \/
  (exists k, n = k ++ ATTRIB_KEY_SUFFIX /\ attr_key n = Some k /\ k <> ITEM_CONFIG v /\
     re_match re_attrib n = Some [(1, k)]).
Proof.
  intros v n [H|(k & -> & H & Hc)].
  - left. split; [exact H|]. unfold attr_key. now rewrite (proj1 (children_names v n H)).
  - right. exists k. unfold attr_key. rewrite attrib_name by exact H. auto.
Qed.

Definition emit_text (E : env) (n : str) (v : value) : str :=
  if str_eqb n RESOURCE_SUB_TYPE
  then match v with
       | VTuple l => join (L " ") l
       | VStr s => join (L " ") (map (fun c => [c]) s) end
  else vtext E v.

Definition mk_child (ns : str) (nt : str * str) : elem :=
  Elem (ns ++ fst nt) [] (Some (snd nt)) None [].
Definition attrs_of (calls : list (str * str)) : list (str * str) :=
  flat_map (fun nt => match attr_key (fst nt) with Some k => [(k, snd nt)] | None => [] end) calls.
Definition kid_calls (calls : list (str * str)) : list (str * str) :=
  filter (fun nt => match attr_key (fst nt) with Some _ => false | None => true end) calls.
Definition attr_calls (calls : list (str * str)) : list (str * str) :=
  filter (fun nt => match attr_key (fst nt) with Some _ => true | None => false end) calls.

Lemma find_child_absent : forall x tag, (forall c, In c (echildren x) -> etag c <> tag) ->
  find_child x tag [] false = Ok None.
Proof.
  intros x tag H. unfold find_child, find_all_children. cbn [flat_map]. rewrite app_nil_r.
  replace (filter (child_match tag []) (echildren x)) with (@nil elem); [reflexivity|].
  symmetry. induction (echildren x) as [|c l IH]; [reflexivity|]. cbn [filter].
  assert (child_match tag [] c = false) as ->.
  { unfold child_match. cbn. rewrite andb_true_r. destruct (str_eqb (etag c) tag) eqn:Et; [|reflexivity].
    apply str_eqb_eq in Et. exfalso. apply (H c); [now left|exact Et]. }
  apply IH. intros d Hd. apply H. now right.
Qed.

Lemma emit_step : forall E ns ord n v x, simple_name (e_ver E) n ->
  (forall k, attr_key n = Some k -> ~ In k (map fst (eattrib x))) ->
  (attr_key n = None -> forall c, In c (echildren x) -> etag c <> ns ++ n) ->
  exists x', emit_property E ns ord n v x = Ok x' /\ etag x' = etag x /\
    eattrib x' = eattrib x ++ attrs_of [(n, emit_text E n v)] /\
    Permutation (echildren x') (echildren x ++ map (mk_child ns) (kid_calls [(n, emit_text E n v)])).
Proof.
  intros E ns ord n v x Hs Ha Hc. unfold emit_property. fold (emit_text E n v).
  set (val := emit_text E n v). unfold attrs_of, kid_calls. cbn [flat_map filter fst snd].
  destruct (simple_key _ n Hs) as [[Hn Hk]|(k & Ek & Hk & _ & Hm)].
  - rewrite Hk in *. destruct (children_names _ n Hn) as (H1 & H2 & H3 & _).
    rewrite H1, H2, H3. unfold set_or_make_child. rewrite find_child_absent by now apply Hc.
    cbn [rbind fst update_element fold_left].
    set (new := set_text (Some val) (Elem (ns ++ n) [] None None [])).
    exists (add_child x new ord). destruct (add_child_spec x new ord) as ((S1 & S2 & _) & pre & post & C1 & C2 & _).
    split; [reflexivity|]. split; [now symmetry|]. split.
    + cbn [app]. rewrite app_nil_r. now symmetry.
    + rewrite C1, C2. cbn [map]. change (mk_child ns (n, val)) with new.
      rewrite <- app_assoc. apply Permutation_app_head. apply Permutation_cons_append.
  - rewrite Hk in *. rewrite Hm. exists (set_attr (the_group 1 [(1, k)]) val x).
    split; [reflexivity|]. change (the_group 1 [(1, k)]) with k.
    unfold set_attr. destruct x as [t a tx tl cs]. cbn in *. split; [reflexivity|]. split.
    + apply dset_fresh; [apply str_eqb_eq|now apply Ha].
    + now rewrite app_nil_r.
Qed.

(** The properties that are written, with their texts. *)
Definition emitted (E : env) (V : str -> result (option value)) (names : list str)
    : list (str * str) :=
  flat_map (fun n => match V n with
                     | Ok (Some w) => if truthy w then [(n, emit_text E n w)] else []
                     | _ => [] end) names.

Lemma emitted_In : forall E V names n t, In (n, t) (emitted E V names) <->
  In n names /\ exists w, V n = Ok (Some w) /\ truthy w = true /\ t = emit_text E n w.
Proof.
  intros E V names n t. unfold emitted. rewrite in_flat_map. split.
  - intros (m & Hm & H). destruct (V m) as [[w|]|] eqn:Ev; try contradiction.
    destruct (truthy w) eqn:Et; [|contradiction]. destruct H as [H|[]]. injection H as -> <-.
    split; [exact Hm|]. exists w. auto.
  - intros (Hn & w & Hv & Ht & ->). exists n. split; [exact Hn|]. rewrite Hv, Ht. now left.
Qed.
Lemma emitted_NoDup : forall E V names, NoDup names -> NoDup (map fst (emitted E V names)).
Proof.
  intros E V names H. induction H as [|n names Hn H IH]; [constructor|].
  change (emitted E V (n :: names)) with
    (match V n with Ok (Some w) => if truthy w then [(n, emit_text E n w)] else [] | _ => [] end
     ++ emitted E V names).
  destruct (V n) as [[w|]|]; try exact IH. destruct (truthy w); [|exact IH]. cbn.
  constructor; [|exact IH]. intros Hin. apply in_map_iff in Hin as ((m & t) & Em & Hm). cbn in Em. subst m.
  apply emitted_In in Hm. now destruct Hm.
Qed.

Definition emit_all (E : env) (ns : str) (ord : list str) (V : str -> result (option value))
    (names : list str) (x : elem) : result elem :=
  fold_result (fun x name =>
      do o <- V name;
      match o with
      | None => Ok x
      | Some w => if truthy w then emit_property E ns ord name w x else Ok x
      end) names x.

Lemma emit_all_ok : forall E ns ord V names x, NoDup names ->
  (forall n, In n names -> exists o, V n = Ok o) ->
  (forall n w, In n names -> V n = Ok (Some w) -> simple_name (e_ver E) n) ->
  (forall n k, In n names -> simple_name (e_ver E) n -> attr_key n = Some k ->
     ~ In k (map fst (eattrib x))) ->
  (forall n c, In n names -> attr_key n = None -> In c (echildren x) -> etag c <> ns ++ n) ->
  exists x', emit_all E ns ord V names x = Ok x' /\ etag x' = etag x /\
    eattrib x' = eattrib x ++ attrs_of (emitted E V names) /\
    Permutation (echildren x') (echildren x ++ map (mk_child ns) (kid_calls (emitted E V names))).
Proof.
  intros E ns ord V names. induction names as [|n names IH]; intros x ND HV HS Ha Hc.
  - exists x. split; [reflexivity|]. split; [reflexivity|]. cbn. now rewrite !app_nil_r.
  - inversion ND as [|a b Hn ND']; subst. destruct (HV n (or_introl eq_refl)) as (o & Ho).
    unfold emit_all. cbn [fold_result]. rewrite Ho. cbn [rbind].
    change (emitted E V (n :: names)) with
      (match V n with Ok (Some w) => if truthy w then [(n, emit_text E n w)] else [] | _ => [] end
       ++ emitted E V names). rewrite Ho.
    assert (Skip : exists x', emit_all E ns ord V names x = Ok x' /\ etag x' = etag x /\
      eattrib x' = eattrib x ++ attrs_of (emitted E V names) /\
      Permutation (echildren x') (echildren x ++ map (mk_child ns) (kid_calls (emitted E V names)))).
    { apply IH; [exact ND'| | | |].
      - intros m Hm. apply HV. now right.
      - intros m w Hm. apply HS. now right.
      - intros m k Hm. apply Ha. now right.
      - intros m c Hm. apply Hc. now right. }
    destruct o as [w|]; [|exact Skip]. destruct (truthy w); [|exact Skip].
    assert (Hs : simple_name (e_ver E) n) by (apply (HS n w); [now left|exact Ho]).
    destruct (emit_step E ns ord n w x Hs) as (x1 & E1 & T1 & A1 & C1).
    { intros k. apply Ha; [now left|exact Hs]. }
    { intros Hk c. apply Hc; [now left|exact Hk]. }
    rewrite E1. cbn [rbind].
    assert (Hkey : forall m k, simple_name (e_ver E) m -> attr_key m = Some k -> m = k ++ ATTRIB_KEY_SUFFIX).
    { intros m k Hm Hk. destruct (simple_key _ m Hm) as [[_ K]|(k' & K1 & K2 & _)]; congruence. }
    destruct (IH x1) as (x' & E' & T' & A' & C').
    { exact ND'. }
    { intros m Hm. apply HV. now right. }
    { intros m u Hm. apply HS. now right. }
    { intros m k Hm Hsm Hk. rewrite A1, map_app, in_app_iff. intros [H|H].
      - revert H. apply (Ha m k); [now right|exact Hsm|exact Hk].
      - unfold attrs_of in H. cbn [flat_map fst snd] in H. rewrite app_nil_r in H.
        destruct (attr_key n) as [k'|] eqn:Ekn; [|contradiction]. destruct H as [H|[]].
        cbn [fst] in H. subst k'. apply Hn.
        rewrite (Hkey n k Hs Ekn), <- (Hkey m k Hsm Hk). exact Hm. }
    { intros m c Hm Hk Hin. apply (Permutation_in _ C1) in Hin. apply in_app_iff in Hin as [Hin|Hin].
      - apply Hc; [now right|exact Hk|exact Hin].
      - apply in_map_iff in Hin as ((m' & t') & <- & Hin). apply filter_In in Hin as [Hin _].
        destruct Hin as [Hin|[]]. injection Hin as <- <-. cbn. intros Heq.
        apply app_inv_head in Heq. subst m. contradiction. }
    exists x'. split; [exact E'|]. split; [congruence|]. split.
    + rewrite A', A1, <- app_assoc. f_equal. unfold attrs_of. now rewrite flat_map_app.
    + rewrite C', C1. unfold kid_calls. rewrite filter_app, map_app, app_assoc. reflexivity.
Qed.

Lemma emit_all_values : forall E ns ord V names x x', emit_all E ns ord V names x = Ok x' ->
  forall n, In n names -> exists o, V n = Ok o.
Proof.
  intros E ns ord V names. induction names as [|n names IH]; intros x x' H m Hm; [contradiction|].
  unfold emit_all in H. cbn [fold_result] in H. destruct (V n) as [o|e] eqn:Ev; [|discriminate].
  cbn [rbind] in H. destruct Hm as [<-|Hm]; [eauto|].
  match type of H with rbind ?r _ = _ => destruct r as [x1|]; [|discriminate] end.
  cbn [rbind] in H. now apply (IH x1 x').
Qed.

(** [sorted] *)
Lemma insert_str_perm : forall x l, Permutation (insert_str x l) (x :: l).
Proof.
  intros x l. induction l as [|y l IH]; [reflexivity|]. cbn [insert_str].
  destruct (str_ltb y x); [|reflexivity]. rewrite IH. apply perm_swap.
Qed.
Lemma sorted_strs_perm : forall l, Permutation (sorted_strs l) l.
Proof.
  induction l as [|x l IH]; [reflexivity|]. cbn [sorted_strs fold_right].
  fold (sorted_strs l). rewrite insert_str_perm. now constructor.
Qed.

(** ** Reading *)

Lemma filter_all : forall (A : Type) (p : A -> bool) l, (forall a, In a l -> p a = true) ->
  filter p l = l.
Proof.
  induction l as [|x l IH]; intros H; [reflexivity|]. cbn [filter].
  rewrite (H x) by now left. f_equal. apply IH. intros a Ha. apply H. now right.
Qed.


Lemma take_first_calls : forall v ns t calls, item_ns v ns ->
  (forall n u, In (n, u) calls -> In n (ITEM_CHILDREN v)) -> NoDup (map fst calls) ->
  move_to_end t (map (mk_child ns) calls) =
  map (mk_child ns) (filter (fun nt => negb (str_eqb (fst nt) t)) calls ++
                     filter (fun nt => str_eqb (fst nt) t) calls).
Proof.
  intros v ns t calls Hns. unfold move_to_end.
  assert (K : forall calls, (forall n u, In (n, u) calls -> In n (ITEM_CHILDREN v)) ->
    NoDup (map fst calls) ->
    match take_first t (map (mk_child ns) calls) with
    | Some (c, r) => r ++ [c] | None => map (mk_child ns) calls end =
    map (mk_child ns) (filter (fun nt => negb (str_eqb (fst nt) t)) calls ++
                       filter (fun nt => str_eqb (fst nt) t) calls) /\
    (match take_first t (map (mk_child ns) calls) with
     | Some (c, r) => exists nt, filter (fun nt => str_eqb (fst nt) t) calls = [nt] /\ c = mk_child ns nt /\
         r = map (mk_child ns) (filter (fun nt => negb (str_eqb (fst nt) t)) calls)
     | None => filter (fun nt => str_eqb (fst nt) t) calls = [] /\
         filter (fun nt => negb (str_eqb (fst nt) t)) calls = calls end)).
  { clear calls. induction calls as [|[n u] calls IH]; intros Hch ND; [cbn; auto|].
    cbn [map] in ND. inversion ND as [|a b Hn ND']; subst.
    destruct IH as [IH1 IH2]; [intros m w Hm; apply (Hch m w); now right|exact ND'|].
    cbn [map take_first]. unfold has_bare_tag. change (etag (mk_child ns (n, u))) with (ns ++ n).
    rewrite (strip_child v ns n Hns) by (apply (Hch n u); now left).
    cbn [filter fst]. destruct (str_eqb n t) eqn:Et; cbn [negb].
    - apply str_eqb_eq in Et. subst t.
      assert (F1 : filter (fun nt : str * str => str_eqb (fst nt) n) calls = []).
      { destruct (filter (fun nt : str * str => str_eqb (fst nt) n) calls) as [|a l] eqn:Ef; [reflexivity|].
        exfalso. assert (Ha : In a (a :: l)) by now left. rewrite <- Ef in Ha.
        apply filter_In in Ha as [Ha Hb]. apply str_eqb_eq in Hb. apply Hn.
        apply in_map_iff. now exists a. }
      assert (F2 : filter (fun nt : str * str => negb (str_eqb (fst nt) n)) calls = calls).
      { apply filter_all. intros a Ha. apply negb_true_iff.
        destruct (str_eqb (fst a) n) eqn:Ea; [|reflexivity]. apply str_eqb_eq in Ea. exfalso.
        apply Hn. apply in_map_iff. now exists a. }
      rewrite F1, F2. split.
      + rewrite map_app. reflexivity.
      + exists (n, u). auto.
    - destruct (take_first t (map (mk_child ns) calls)) as [[c r]|].
      + destruct IH2 as (nt & K1 & -> & ->). split.
        * rewrite K1, map_app. reflexivity.
        * exists nt. auto.
      + destruct IH2 as (K1 & K2). rewrite K1, K2. split; [now rewrite app_nil_r|auto]. }
  intros H1 H2. now apply K.
Qed.

(** The calls in the order in which the children are read. *)
Definition in_reading_order (v : version) (calls : list (str * str)) : list (str * str) :=
  filter (fun nt => negb (str_eqb (fst nt) (ELEMENT_NAME v)) && negb (str_eqb (fst nt) ITEM_DESCRIPTION)) calls
  ++ filter (fun nt => str_eqb (fst nt) (ELEMENT_NAME v)) calls
  ++ filter (fun nt => str_eqb (fst nt) ITEM_DESCRIPTION) calls.

Lemma filter_filter : forall (A : Type) (p q : A -> bool) l,
  filter p (filter q l) = filter (fun x => q x && p x) l.
Proof.
  induction l as [|x l IH]; [reflexivity|]. cbn [filter].
  destruct (q x); cbn [filter andb]; rewrite IH; reflexivity.
Qed.

Lemma reading_order_calls : forall v ns calls, item_ns v ns ->
  (forall n u, In (n, u) calls -> In n (ITEM_CHILDREN v)) -> NoDup (map fst calls) ->
  reading_order v (map (mk_child ns) calls) = map (mk_child ns) (in_reading_order v calls).
Proof.
  intros v ns calls Hns Hch ND. unfold reading_order.
  rewrite (take_first_calls v ns (ELEMENT_NAME v)) by assumption.
  set (A := filter (fun nt : str * str => negb (str_eqb (fst nt) (ELEMENT_NAME v))) calls).
  set (B := filter (fun nt : str * str => str_eqb (fst nt) (ELEMENT_NAME v)) calls).
  assert (P : Permutation calls (A ++ B)).
  { unfold A, B. clear. induction calls as [|c l IH]; [reflexivity|]. cbn [filter].
    destruct (str_eqb (fst c) (ELEMENT_NAME v)); cbn [negb].
    - rewrite IH at 1. apply Permutation_middle.
    - cbn [app]. now constructor. }
  rewrite (take_first_calls v ns ITEM_DESCRIPTION).
  - f_equal. unfold in_reading_order. rewrite !filter_app, <- app_assoc. unfold A, B.
    rewrite !filter_filter. f_equal. f_equal.
    + apply filter_ext. intros [n u]. cbn [fst]. destruct (str_eqb n (ELEMENT_NAME v)) eqn:En; [|reflexivity].
      apply str_eqb_eq in En. subst n. destruct v; reflexivity.
    + replace (filter (fun x : str * str => str_eqb (fst x) (ELEMENT_NAME v) && str_eqb (fst x) ITEM_DESCRIPTION) calls)
        with (@nil (str * str)).
      * rewrite app_nil_r. apply filter_ext. intros [n u]. cbn [fst].
        destruct (str_eqb n (ELEMENT_NAME v)) eqn:En; [|reflexivity].
        apply str_eqb_eq in En. subst n. destruct v; reflexivity.
      * symmetry. clear. induction calls as [|[n u] l IH]; [reflexivity|]. cbn [filter fst].
        destruct (str_eqb n (ELEMENT_NAME v)) eqn:En; [|exact IH]. apply str_eqb_eq in En. subst n.
        assert (str_eqb (ELEMENT_NAME v) ITEM_DESCRIPTION = false) as -> by (destruct v; reflexivity).
        exact IH.
  - exact Hns.
  - intros n u H. apply (Permutation_in _ (Permutation_sym P)) in H. now apply (Hch n u).
  - apply (Permutation_NoDup (l := map fst calls)); [|exact ND]. now apply Permutation_map.
Qed.

Lemma read_children : forall E ns P calls j, item_ns (e_ver E) ns ->
  (forall n u, In (n, u) calls -> In n (ITEM_CHILDREN (e_ver E))) ->
  fold_result (add_child_property E P) (map (mk_child ns) calls) j = read_calls E P calls j.
Proof.
  intros E ns P calls. induction calls as [|[n u] calls IH]; intros j Hns Hch; [reflexivity|].
  unfold read_calls. cbn [map fold_result fst snd].
  assert (Hn : In n (ITEM_CHILDREN (e_ver E))) by (apply (Hch n u); now left).
  unfold add_child_property at 1. change (etag (mk_child ns (n, u))) with (ns ++ n).
  rewrite (strip_child (e_ver E)) by assumption. apply mem_str_In in Hn. rewrite Hn.
  change (etext (mk_child ns (n, u))) with (Some u). change (eattrib (mk_child ns (n, u))) with (@nil (str * str)).
  destruct (set_property E j n (IStr u) P false) as [j1|]; [|reflexivity]. cbn [rbind fold_result].
  apply IH; [exact Hns|]. intros m w Hm. apply (Hch m w). now right.
Qed.

Lemma read_attributes : forall E P calls j,
  (forall n u, In (n, u) calls -> simple_name (e_ver E) n) ->
  fold_result (fun i kv =>
    if str_eqb (fst kv) (ITEM_CONFIG (e_ver E)) then Ok i
    else set_property E i (fst kv ++ ATTRIB_KEY_SUFFIX) (IStr (snd kv)) P false)
    (attrs_of calls) j = read_calls E P (attr_calls calls) j.
Proof.
  intros E P calls. induction calls as [|[n u] calls IH]; intros j Hs; [reflexivity|].
  assert (IH' : forall j, fold_result (fun i kv =>
    if str_eqb (fst kv) (ITEM_CONFIG (e_ver E)) then Ok i
    else set_property E i (fst kv ++ ATTRIB_KEY_SUFFIX) (IStr (snd kv)) P false)
    (attrs_of calls) j = read_calls E P (attr_calls calls) j).
  { intros j'. apply IH. intros m w Hm. apply (Hs m w). now right. }
  unfold attrs_of, attr_calls. cbn [flat_map filter fst snd].
  destruct (simple_key _ n (Hs n u (or_introl eq_refl))) as [[_ Hk]|(k & Ek & Hk & Hc & _)]; rewrite Hk.
  - apply IH'.
  - cbn [app]. unfold read_calls. cbn [fold_result fst snd].
    assert (str_eqb k (ITEM_CONFIG (e_ver E)) = false) as ->.
    { destruct (str_eqb k (ITEM_CONFIG (e_ver E))) eqn:Ex; [|reflexivity]. apply str_eqb_eq in Ex. contradiction. }
    rewrite <- Ek. destruct (set_property E j n (IStr u) P false) as [j1|]; [|reflexivity].
    cbn [rbind]. apply IH'.
Qed.
