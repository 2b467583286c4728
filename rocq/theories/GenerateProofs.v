(** Writing a hardware item and reading it back:
    COT/vm_description/ovf/item.py:717-823 and 207-278. *)
From Coq Require Import Lia Permutation.
From Verif Require Import PyBase PyBaseProofs PyDict PyDictProofs ValidationModel ValidationSpec
  ValidationProofs XmlModel XmlSpec XmlProofs NamesModel ItemModel ItemSpec GenerateSpec PsetProofs
  ItemProofs ItemSetProofs ItemProfileProofs ItemReachProofs ItemEffectProofs PartitionProofs
  LookupProofs WildcardProofs WildcardItemProofs CellProofs ReadCellProofs EmitProofs.

(** The profiles of one generated element. *)
Definition cell_of (ss : str) : list profile :=
  if is_nil ss then [None] else map Some (words ss).

Definition word_names (ps : props) : Prop :=
  forall n x v, own ps n (Some x) v -> x <> [] /\ spaceless x.

Lemma set_string_cell : forall s ss, (forall x, In (Some x) s -> x <> [] /\ spaceless x) ->
  s <> [] -> (In None s -> s = [None]) -> set_string s = Ok ss ->
  forall q, In q (cell_of ss) <-> In q s.
Proof.
  intros s ss Hw Hne Hd H q. unfold set_string in H. destruct (pmem None s) eqn:Ep.
  - injection H as <-. apply pmem_In in Ep. rewrite (Hd Ep). cbn. tauto.
  - apply pmem_false in Ep. destruct (natural_sort (names_of s)) as [l|] eqn:El; [|discriminate].
    cbn [rbind] in H. injection H as <-. apply natural_sort_sound in El as (P & _).
    assert (Hl : forall w, In w l -> w <> [] /\ spaceless w).
    { intros w Hw'. apply Hw, names_of_In. now apply (Permutation_in _ (Permutation_sym P)). }
    unfold cell_of. match goal with |- context [is_nil ?a] => change a with (join (L " ") l) end.
    destruct (is_nil (join (L " ") l)) eqn:En.
    + exfalso. assert (join (L " ") l = []) as Ej by (destruct (join (L " ") l); [reflexivity|discriminate]).
      apply join_nil in Ej; [|intros w Hw'; now apply Hl]. subst l.
      apply Permutation_sym, Permutation_nil in P. destruct s as [|[x|] s].
      * contradiction.
      * discriminate P.
      * apply Ep. now left.
    + rewrite words_join by exact Hl. split.
      * intros H0. apply (proj1 (in_map_iff (@Some str) l q)) in H0 as (x & <- & Hx). apply names_of_In. now apply (Permutation_in _ (Permutation_sym P)).
      * intros Hq. destruct q as [x|]; [|contradiction].
        apply (in_map (@Some str)). apply (Permutation_in _ P). now apply names_of_In.
Qed.

(** The cells in the order in which they are written. *)
Record listing (ps : props) (l : list str) : Prop := {
  l_nodup : NoDup l;
  l_ne : forall ss, In ss l -> cell_of ss <> [];
  l_class : forall ss q r, In ss l -> In q (cell_of ss) ->
    (In r (cell_of ss) <-> forall n v, own ps n q v <-> own ps n r v);
  l_cover : forall q, (exists ss, In ss l /\ In q (cell_of ss)) <-> exists n v, own ps n q v;
  l_apart : forall s t q, In s l -> In t l -> In q (cell_of s) -> In q (cell_of t) -> s = t;
  l_default : In [] l -> exists rest, l = [] :: rest /\ forall s, In s rest -> s <> [] }.

Lemma Forall2_In_r : forall (A B : Type) (R : A -> B -> Prop) l m y, Forall2 R l m -> In y m ->
  exists x, In x l /\ R x y.
Proof.
  intros A B R l m y H Hy. induction H as [|a b l m Hab H IH]; [contradiction|].
  destruct Hy as [<-|Hy]; [exists a; split; [now left|exact Hab]|].
  destruct (IH Hy) as (x & Hx & K). exists x. split; [now right|exact K].
Qed.
Lemma Forall2_In_l : forall (A B : Type) (R : A -> B -> Prop) l m x, Forall2 R l m -> In x l ->
  exists y, In y m /\ R x y.
Proof.
  intros A B R l m y H Hy. induction H as [|a b l m Hab H IH]; [contradiction|].
  destruct Hy as [<-|Hy]; [exists b; split; [now left|exact Hab]|].
  destruct (IH Hy) as (x & Hx & K). exists x. split; [now right|exact K].
Qed.

Lemma set_list_listing : forall ver ps l, good_props ver ps -> word_names ps ->
  get_nonintersecting_set_list ps = Ok l -> listing ps l.
Proof.
  intros ver ps l G W H. unfold get_nonintersecting_set_list in H.
  destruct (rmap set_string (partition ps)) as [l0|] eqn:E0; [|discriminate]. cbn [rbind] in H.
  apply rmap_ok_inv in E0. apply natural_sort_sound in H as S.
  assert (P : Permutation l0 l) by apply S.
  destruct (partition_parts ver ps G) as [P1 P2 P3 P4 P5 P6].
  assert (Hcell : forall s ss, In s (partition ps) -> set_string s = Ok ss ->
    forall q, In q (cell_of ss) <-> In q s).
  { intros s ss Hs Hss. apply set_string_cell; auto; [|now apply P1].
    intros x Hx. destruct (proj1 (P4 (Some x))) as (n & v & Hv); [now exists s|]. now apply (W n x v). }
  assert (Hfrom : forall ss, In ss l0 -> exists s, In s (partition ps) /\
    forall q, In q (cell_of ss) <-> In q s).
  { intros ss Hss. destruct (Forall2_In_r _ _ _ _ _ _ E0 Hss) as (s & Hs & K). exists s.
    split; [exact Hs|]. now apply Hcell. }
  assert (Hin : forall ss, In ss l <-> In ss l0).
  { intros ss. split; apply Permutation_in; [now apply Permutation_sym|exact P]. }
  assert (ND0 : NoDup l0).
  { clear - E0 P1 P2 Hcell. revert Hcell P1 P2. induction E0 as [|s ss L m Hs H IH]; intros Hcell P1 P2.
    - constructor.
    - inversion P2 as [|a b H1 H2]; subst. constructor.
      + intros Hin. destruct (Forall2_In_r _ _ _ _ _ _ H Hin) as (t & Ht & Kt).
        rewrite Forall_forall in H1.
        destruct (P1 s (or_introl eq_refl)) as [Hne _]. destruct s as [|q s]; [contradiction|].
        apply (H1 t Ht q); [now left|].
        apply (Hcell t ss); [now right|exact Kt|]. apply (Hcell (q :: s) ss); [now left|exact Hs|now left].
      + apply IH; [|intros t Ht; apply P1; now right|exact H2].
        intros t tt Ht. apply Hcell. now right. }
  constructor.
  - now apply (Permutation_NoDup P).
  - intros ss Hss E. apply Hin, Hfrom in Hss as (s & Hs & K). destruct (P1 s Hs) as [Hne _].
    destruct s as [|q s]; [contradiction|]. specialize (K q). rewrite E in K. apply K. now left.
  - intros ss q r Hss Hq. apply Hin, Hfrom in Hss as (s & Hs & K). rewrite (K r).
    apply P5; [exact Hs|now apply K].
  - intros q. rewrite <- P4. split.
    + intros (ss & Hss & Hq). apply Hin, Hfrom in Hss as (s & Hs & K). exists s. split; [exact Hs|now apply K].
    + intros (s & Hs & Hq). destruct (Forall2_In_l _ _ _ _ _ _ E0 Hs) as (ss & Hss & K).
      exists ss. split; [now apply Hin|]. now apply (Hcell s ss).
  - intros s t q Hs Ht Hqs Hqt. apply Hin in Hs, Ht.
    destruct (Forall2_In_r _ _ _ _ _ _ E0 Hs) as (s' & Hs' & Ks).
    destruct (Forall2_In_r _ _ _ _ _ _ E0 Ht) as (t' & Ht' & Kt).
    assert (s' = t') as ->; [|congruence].
    apply (P3 s' t' q Hs' Ht').
    + now apply (Hcell s' s).
    + now apply (Hcell t' t).
  - intros H0. apply (sorted_empty_first l0 l S ND0). now apply Hin.
Qed.

(** ** One element *)

Lemma text_value_type : forall E i n P w, reachable (e_ver E) i -> text_property (e_ver E) n ->
  P <> [] -> get_value E (i_props i) n (Some P) = Ok (Some w) -> exists t, w = VStr t.
Proof.
  intros E i n P w R Hx HP H. apply reachable_good in R as G. apply reachable_typed in R as T.
  unfold get_value in H.
  destruct (get_raw (i_props i) n (Some P)) as [v|] eqn:Ev; [|discriminate].
  assert (Hv : exists s, v = VStr s).
  { destruct P as [|p P]; [contradiction|].
    pose proof (proj1 (get_raw_set _ _ _ _ _ G HP) Ev p (or_introl eq_refl)) as Hh.
    destruct (holds_own _ _ _ _ Hh) as (q & Ho). specialize (T _ _ _ Ho).
    assert (str_eqb n RESOURCE_SUB_TYPE = false) as En; [|now rewrite En in T].
    destruct Hx as [->| ->]; [destruct (e_ver E)|]; reflexivity. }
  destruct Hv as [s ->].
  destruct (replace_wildcards E (i_props i) n (Some (VStr s)) (Some P)) as [r|] eqn:Er; [|discriminate].
  cbn [rbind] in H. assert (K : exists t, r = Some (VStr t)).
  { unfold replace_wildcards in Er. destruct (negb (truthy (VStr s))); [injection Er as <-; eauto|].
    assert (S : forall pat o v0 x, (forall y, v0 = Ok y -> exists t, y = VStr t) ->
      sub_opt E pat o v0 = Ok x -> exists t, x = VStr t).
    { intros pat o v0 x Hy Hs. unfold sub_opt in Hs. destruct o as [u|]; [|now apply Hy].
      destruct v0 as [y|]; [|discriminate]. cbn [rbind] in Hs. destruct (re_sub _ _ _ _); [|discriminate].
      cbn [rbind] in Hs. injection Hs as <-. eauto. }
    match type of Er with rbind ?a _ = _ => destruct a as [y|] eqn:Ea; [|discriminate] end.
    cbn [rbind] in Er. injection Er as <-.
    assert (Hr0 : forall pat o y, (if is_desc n then sub_opt E pat o (Ok (VStr s)) else Ok (VStr s)) = Ok y ->
      exists t, y = VStr t).
    { intros pat o u. destruct (is_desc n); [apply S|]; intros; [|]; try (injection H0 as <-; eauto). }
    destruct (is_text E n).
    - apply S in Ea as [t ->]; [eauto|]. intros u. apply S. intros u'. apply S. intros u''. apply Hr0.
    - apply Hr0 in Ea as [t ->]. eauto. }
  destruct K as [t ->]. destruct (_ && _) in H; [discriminate|]. injection H as <-. eauto.
Qed.

Section Element.
Variable E : env.
Variable i : item.
Hypothesis Ri : reachable (e_ver E) i.
Hypothesis W : writable E i.
Variable ss : str.
Let F := cell_of ss.
Hypothesis F_ne : F <> [].
Hypothesis F_class : forall q r, In q F -> In r F ->
  forall n v, own (i_props i) n q v <-> own (i_props i) n r v.
Variable tag : str.
Variable x : elem.
Hypothesis Hx : generate_one E i tag ss = Ok x.

Let V (n : str) := get_value E (i_props i) n
                     (Some (if is_nil ss then [None] else pset_of (map Some (words ss)))).
Let names := sorted_strs (map fst (i_props i)).
Let calls := emitted E V names.

Lemma V_reports : forall n q, In q F -> V n = reports E i n q.
Proof.
  intros n q Hq. unfold V. set (fs := if is_nil ss then [None] else pset_of (map Some (words ss))).
  assert (Hfs : forall p, In p fs <-> In p F).
  { intros p. unfold fs, F, cell_of. destruct (is_nil ss); [tauto|]. apply pset_of_In. }
  apply get_value_uniform; [now apply reachable_good| |].
  - intros E0. apply Hfs in Hq. rewrite E0 in Hq. contradiction.
  - intros p Hp m v. apply own_same_holds. intros w. apply F_class; [now apply Hfs|exact Hq].
Qed.

Lemma element_Gi : good_props (e_ver E) (i_props i).
Proof. now apply reachable_good. Qed.

Lemma V_raw : forall n w, V n = Ok (Some w) -> exists q u, In q F /\ holds (i_props i) n q u.
Proof.
  intros n w H. assert (exists f, In f F) as [f Hf].
  { destruct F as [|f F']; [contradiction|]. exists f. now left. }
  rewrite (V_reports n f Hf) in H.
  destruct (get_raw (i_props i) n (Some [f])) as [u|] eqn:Eu.
  - exists f, u. split; [exact Hf|]. now apply (get_raw_holds _ _ _ _ _ element_Gi).
  - unfold reports, get_value in H. rewrite Eu in H. discriminate.
Qed.

Lemma V_simple : forall n w, V n = Ok (Some w) -> simple_name (e_ver E) n.
Proof.
  intros n w H. apply V_raw in H as (q & u & _ & H). apply holds_own in H as (r & H).
  now apply (w_names _ _ W n r u).
Qed.

Lemma names_NoDup : NoDup names.
Proof.
  apply (Permutation_NoDup (Permutation_sym (sorted_strs_perm (map fst (i_props i))))).
  apply element_Gi.
Qed.
Lemma names_own : forall n q v, own (i_props i) n q v -> In n names.
Proof.
  intros n q v (d & s & Hd & _). unfold names.
  apply (Permutation_in _ (Permutation_sym (sorted_strs_perm _))).
  apply in_map_iff. now exists (n, d).
Qed.

Lemma V_ok : forall n, exists o, V n = Ok o.
Proof.
  intros n. destruct (in_dec str_eq_dec n names) as [Hn|Hn].
  - unfold generate_one in Hx. exact (emit_all_values E (i_ns i) _ V names _ x Hx n Hn).
  - exists None. assert (exists f, In f F) as [f Hf].
    { destruct F as [|f F']; [contradiction|]. exists f. now left. }
    rewrite (V_reports n f Hf). apply reports_nothing; [exact element_Gi|].
    intros v Hv. apply holds_own in Hv as (q & Hv). apply Hn. now apply (names_own n q v).
Qed.

Lemma element_shape : etag x = tag /\
  eattrib x = (if is_nil ss then [] else [(ITEM_CONFIG (e_ver E), ss)]) ++ attrs_of calls /\
  Permutation (echildren x) (map (mk_child (i_ns i)) (kid_calls calls)).
Proof.
  set (x0 := Elem tag (if is_nil ss then [] else [(ITEM_CONFIG (e_ver E), ss)]) None None []).
  set (ord := map (fun c => i_ns i ++ c) (ITEM_CHILDREN (e_ver E))).
  assert (Hx' : emit_all E (i_ns i) ord V names x0 = Ok x) by exact Hx.
  destruct (emit_all_ok E (i_ns i) ord V names x0 names_NoDup) as (x' & E' & T' & A' & C').
  - intros n _. apply V_ok.
  - intros n w _. apply V_simple.
  - intros n k _ Hs Hk. destruct (simple_key _ n Hs) as [[_ K]|(k' & _ & K & Hc & _)]; [congruence|].
    cbn [eattrib x0]. destruct (is_nil ss); cbn [map fst In]; [tauto|]. intros [H|[]].
    rewrite K in Hk. injection Hk as <-. now apply Hc.
  - intros n c _ _ [].
  - rewrite E' in Hx'. injection Hx' as <-. cbn [etag eattrib echildren x0 app] in *. auto.
Qed.

(** Values in XML form. *)
Lemma read_value : forall n q w, holds (i_props i) n q w -> to_value E n (IStr (emit_text E n w)) = w.
Proof.
  intros n q w H. pose proof (holds_truthy _ _ _ _ _ element_Gi H) as Ht.
  apply holds_own in H as (r & H). pose proof (reachable_typed _ _ Ri n r w H) as Ty.
  unfold to_value, emit_text. destruct (str_eqb n RESOURCE_SUB_TYPE) eqn:En.
  - destruct Ty as [l ->]. apply str_eqb_eq in En. subst n.
    assert (Hl : forall u, In u l -> u <> [] /\ ~ In " "%char u).
    { intros u Hu. exact (w_subtypes _ _ W r l u H Hu). }
    destruct (join (L " ") l) as [|c s] eqn:Ej.
    + apply join_nil in Ej; [subst l; discriminate|]. intros u Hu. now apply Hl.
    + rewrite <- Ej. f_equal. apply split_on_join; [intros ->; discriminate|].
      intros u Hu. apply forallb_forall. intros d Hd. apply negb_true_iff.
      destruct (Ascii.eqb d " "%char) eqn:Ed; [|reflexivity]. apply Ascii.eqb_eq in Ed. subst d.
      now destruct (Hl u Hu).
  - destruct Ty as [s ->]. reflexivity.
Qed.

Lemma calls_In : forall n t, In (n, t) calls <->
  exists w, V n = Ok (Some w) /\ truthy w = true /\ t = emit_text E n w.
Proof.
  intros n t. unfold calls. rewrite emitted_In. split; [tauto|].
  intros (w & H & K). split; [|exists w; tauto].
  apply V_raw in H as (q & u & _ & H). apply holds_own in H as (r & H). now apply (names_own n r u).
Qed.

Lemma calls_plain : forall n t q, ~ text_property (e_ver E) n -> In q F -> In (n, t) calls ->
  holds (i_props i) n q (to_value E n (IStr t)) /\ truthy (to_value E n (IStr t)) = true.
Proof.
  intros n t q Hn Hq H. apply calls_In in H as (w & H & Ht & ->).
  rewrite (V_reports n q Hq) in H. apply (reports_plain E i n q w element_Gi Hn) in H.
  rewrite (read_value n q w H). auto.
Qed.

Lemma calls_NoDup : NoDup (map fst calls).
Proof. apply emitted_NoDup, names_NoDup. Qed.

Lemma kid_calls_child : forall n t, In (n, t) (kid_calls calls) -> In n (ITEM_CHILDREN (e_ver E)).
Proof.
  intros n t H. unfold kid_calls in H. apply filter_In in H as [H K]. cbn [fst] in K.
  apply calls_In in H as (w & H & _). apply V_simple in H.
  destruct (simple_key _ n H) as [[Hn _]|(k & _ & Hk & _)]; [exact Hn|]. now rewrite Hk in K.
Qed.

Lemma filter_call : forall kc n, NoDup (map fst kc) ->
  exists o, filter (fun nt : str * str => str_eqb (fst nt) n) kc = call_of n o /\
    forall t, o = Some t <-> In (n, t) kc.
Proof.
  clear. induction kc as [|[m u] kc IH]; intros n ND.
  - exists None. split; [reflexivity|]. intros t. split; [discriminate|intros []].
  - inversion ND as [|a b Hm ND']; subst. destruct (IH n ND') as (o & H1 & H2). cbn [filter fst].
    destruct (str_eqb m n) eqn:Em.
    + apply str_eqb_eq in Em. subst m. exists (Some u). cbn [call_of]. split.
      * f_equal. destruct o as [t|]; [|exact H1]. exfalso. apply Hm.
        apply in_map_iff. exists (n, t). split; [reflexivity|]. now apply H2.
      * intros t. split; [intros Ht; injection Ht as <-; now left|].
        intros [Ht|Ht]; [congruence|]. exfalso. apply Hm. apply in_map_iff. now exists (n, t).
    + exists o. split; [exact H1|]. intros t. rewrite H2. cbn. split; [now right|].
      intros [Ht|Ht]; [|exact Ht]. injection Ht as -> _. rewrite str_eqb_refl in Em. discriminate.
Qed.

Lemma NoDup_map_filter : forall (A B : Type) (f : A -> B) p l, NoDup (map f l) -> NoDup (map f (filter p l)).
Proof.
  clear. intros A B f p l. induction l as [|a l IH]; intros H; [constructor|]. cbn [map] in H.
  inversion H as [|x y H1 H2]; subst. cbn [filter]. destruct (p a); [|now apply IH].
  cbn [map]. constructor; [|now apply IH]. intros Hin. apply H1.
  apply in_map_iff in Hin as (b & Hb & Hin). apply filter_In in Hin as [Hin _].
  apply in_map_iff. now exists b.
Qed.

(** Reading the element adds exactly what the source reports for its profiles. *)
Variable j0 : item.
Variable D : profile -> Prop.
Hypothesis R0 : reachable (e_ver E) j0.
Hypothesis inA : forall n q w, own (i_props j0) n q w -> D q.
Hypothesis inB : forall n q w, D q -> ~ text_property (e_ver E) n ->
  (holds (i_props j0) n q w <-> holds (i_props i) n q w).
Hypothesis inC : forall n q, D q -> text_property (e_ver E) n ->
  reports E j0 n q = reports E i n q.
Hypothesis Fresh : forall q, In q F -> ~ D q.
Hypothesis First : ss = [] -> forall q, ~ D q.
Variable ns' : str.
Hypothesis Hns : namespace_for_item_tag (e_ver E) tag = Some ns'.

Theorem element_read : exists j',
  add_item E j0 x = Ok j' /\ reachable (e_ver E) j' /\
  (forall n q w, own (i_props j') n q w -> D q \/ In q F) /\
  (forall n q w, D q \/ In q F -> ~ text_property (e_ver E) n ->
     (holds (i_props j') n q w <-> holds (i_props i) n q w)) /\
  (forall n q, D q \/ In q F -> text_property (e_ver E) n ->
     reports E j' n q = reports E i n q).
Proof.
  destruct element_shape as (S1 & S2 & S3).
  assert (Hins := reachable_ns _ _ Ri).
  destruct (Permutation_map_inv _ _ S3) as (kc & Ekc & Pkc).
  (* the default cell *)
  assert (HD : (F = [None] /\ forall q, ~ D q) \/ ~ In None F).
  { destruct ss as [|c s] eqn:Es; [left; split; [reflexivity|now apply First]|]. right.
    unfold F, cell_of. cbn [is_nil]. intros H0. apply (proj1 (in_map_iff (@Some str) _ None)) in H0 as (y & Hy & _). discriminate. }
  set (P := if pmem None F then [] else F).
  assert (HP : map Some (match get_attr x (ITEM_CONFIG (e_ver E)) with
                         | Some c => words c | None => [] end) = P).
  { assert (HnoC : dget str_eqb (ITEM_CONFIG (e_ver E)) (attrs_of calls) = None).
    { apply dget_None; [apply str_eqb_eq|]. intros Hin. apply in_map_iff in Hin as ((k & t) & Hk & Hin).
      cbn in Hk. subst k. unfold attrs_of in Hin. apply in_flat_map in Hin as ((n & u) & Hn & Hin).
      cbn [fst snd] in Hin. apply calls_In in Hn as (w & Hn & _). apply V_simple in Hn.
      destruct (simple_key _ n Hn) as [[_ K]|(k & _ & K & Hc & _)]; rewrite K in Hin; [contradiction|].
      destruct Hin as [Hin|[]]. injection Hin as -> _. now apply Hc. }
    unfold P, F, cell_of, get_attr. rewrite S2. destruct ss as [|c s] eqn:Es; cbn [is_nil app].
    - rewrite HnoC. reflexivity.
    - cbn [dget]. rewrite str_eqb_refl.
      assert (pmem None (map Some (words (c :: s))) = false) as ->; [|reflexivity].
      apply pmem_false. intros H0. apply (proj1 (in_map_iff (@Some str) _ None)) in H0 as (y & Hy & _). discriminate. }
  assert (Hkc : forall n t, In (n, t) kc <-> In (n, t) (kid_calls calls)).
  { intros n t. split; apply Permutation_in; [exact (Permutation_sym Pkc)|exact Pkc]. }
  assert (NDkc : NoDup (map fst kc)).
  { apply (Permutation_NoDup (Permutation_map fst Pkc)). apply NoDup_map_filter. exact calls_NoDup. }
  assert (Hch : forall n t, In (n, t) kc -> In n (ITEM_CHILDREN (e_ver E))).
  { intros n t H. apply Hkc in H. now apply kid_calls_child in H. }
  set (EN := ELEMENT_NAME (e_ver E)).
  destruct (filter_call kc EN NDkc) as (oen & F1 & K1).
  destruct (filter_call kc ITEM_DESCRIPTION NDkc) as (ode & F2 & K2).
  set (plain := attr_calls calls ++ filter (fun nt => negb (str_eqb (fst nt) EN) &&
                   negb (str_eqb (fst nt) ITEM_DESCRIPTION)) kc).
  assert (Texts : text_property (e_ver E) EN /\ text_property (e_ver E) ITEM_DESCRIPTION /\
    attr_key EN = None /\ attr_key ITEM_DESCRIPTION = None).
  { split; [now left|]. split; [now right|]. unfold EN. destruct (e_ver E); vm_compute; auto. }
  destruct Texts as (TE & TD & AE & AD).
  assert (Hsplit : forall n t, In (n, t) calls <-> In (n, t) (attr_calls calls) \/ In (n, t) kc).
  { intros n t. rewrite Hkc. unfold attr_calls, kid_calls. rewrite !filter_In. cbn [fst].
    destruct (attr_key n); intuition congruence. }
  assert (Hplain : forall n t, In (n, t) plain <-> In (n, t) calls /\ ~ text_property (e_ver E) n).
  { intros n t. unfold plain. rewrite in_app_iff, filter_In, Hsplit. cbn [fst].
    rewrite andb_true_iff, !negb_true_iff.
    assert (Kt : text_property (e_ver E) n <-> str_eqb n EN = true \/ str_eqb n ITEM_DESCRIPTION = true).
    { rewrite !str_eqb_eq. reflexivity. }
    rewrite Kt. split.
    - intros [H|(H & H1 & H2)].
      + split; [now left|]. unfold attr_calls in H. apply filter_In in H as [_ H]. cbn [fst] in H.
        rewrite !str_eqb_eq. intros [-> | ->]; [now rewrite AE in H|now rewrite AD in H].
      + split; [now right|]. rewrite H1, H2. intuition discriminate.
    - intros [[H|H] H1]; [now left|]. right. split; [exact H|].
      destruct (str_eqb n EN), (str_eqb n ITEM_DESCRIPTION); tauto. }
  assert (NDp : NoDup (map fst plain)).
  { unfold plain. rewrite map_app.
    assert (Q : forall a b : list str, NoDup a -> NoDup b -> (forall y, In y a -> ~ In y b) -> NoDup (a ++ b)).
    { clear. induction a as [|y a IH]; intros b Ha Hb H; [exact Hb|]. inversion Ha; subst. cbn. constructor.
      - rewrite in_app_iff. intros [K|K]; [contradiction|]. now apply (H y); [left|].
      - apply IH; auto. intros z Hz. apply H. now right. }
    apply Q.
    - apply NoDup_map_filter. exact calls_NoDup.
    - apply NoDup_map_filter. exact NDkc.
    - intros n Ha Hb. apply in_map_iff in Ha as ((n1 & t1) & Ea & Ha). apply in_map_iff in Hb as ((n2 & t2) & Eb & Hb).
      cbn in Ea, Eb. subst n1 n2. apply filter_In in Hb as [Hb _]. apply Hkc in Hb.
      unfold attr_calls in Ha. unfold kid_calls in Hb. apply filter_In in Ha as [_ Ha]. apply filter_In in Hb as [_ Hb].
      cbn [fst] in Ha, Hb. now destruct (attr_key n). }
  assert (Hknown : forall n o, text_property (e_ver E) n -> attr_key n = None ->
    (forall t, o = Some t <-> In (n, t) kc) -> text_known E i F n o).
  { intros n o Hn Hk Ho.
    assert (HV : forall w, V n = Ok (Some w) -> exists t, w = VStr t /\ t <> []).
    { intros w Hw. assert (exists f, In f F) as [f Hf].
      { clear - F_ne. destruct F as [|f F']; [contradiction|]. exists f. now left. }
      rewrite (V_reports n f Hf) in Hw. destruct (text_value_type E i n [f] w Ri Hn) as [t ->]; [discriminate|exact Hw|].
      exists t. split; [reflexivity|]. now apply (w_texts _ _ W n f t). }
    assert (Hemit : forall t, emit_text E n (VStr t) = t).
    { intros t. unfold emit_text. assert (str_eqb n RESOURCE_SUB_TYPE = false) as ->; [|reflexivity].
      destruct Hn as [->| ->]; [destruct (e_ver E)|]; reflexivity. }
    destruct o as [t|]; cbn [text_known].
    - assert (Hin : In (n, t) calls) by (apply Hsplit; right; now apply Ho).
      apply calls_In in Hin as (w & Hw & _ & ->). destruct (HV w Hw) as (t & -> & Ht).
      rewrite Hemit. split; [exact Ht|]. intros q Hq. rewrite (V_reports n q Hq) in Hw.
      split; [exact Hw|]. now apply (w_texts _ _ W n q t).
    - intros q Hq. destruct (V_ok n) as [[w|] Hv]; [exfalso|now rewrite <- (V_reports n q Hq)].
      destruct (HV w Hv) as (t & -> & Ht).
      assert (Hin : In (n, t) calls).
      { apply calls_In. exists (VStr t). split; [exact Hv|]. split; [now destruct t|]. symmetry. apply Hemit. }
      apply Hsplit in Hin as [Hin|Hin].
      + unfold attr_calls in Hin. apply filter_In in Hin as [_ Hin]. cbn [fst] in Hin. now rewrite Hk in Hin.
      + apply Ho in Hin. discriminate. }
  assert (R1 : reachable (e_ver E) (with_ns ns' j0)) by exact (reachable_with_ns E j0 tag ns' R0 Hns).
  destruct (cell_read E i (with_ns ns' j0) F D Ri F_ne F_class R1 inA inB inC Fresh HD plain oen ode NDp)
    as (j' & Ej & R' & A' & B' & C').
  { intros n t H. apply Hplain in H as [H Hn]. split; [exact Hn|].
    assert (exists f, In f F) as [f Hf].
    { clear - F_ne. destruct F as [|f F']; [contradiction|]. exists f. now left. }
    split; [now apply (calls_plain n t f)|]. intros q Hq. now apply calls_plain. }
  { intros n q w Hq Hn Hw. pose proof (holds_truthy _ _ _ _ _ element_Gi Hw) as Ht.
    apply (reports_plain E i n q w element_Gi Hn) in Hw. rewrite <- (V_reports n q Hq) in Hw.
    apply in_map_iff. exists (n, emit_text E n w). split; [reflexivity|]. apply Hplain.
    split; [|exact Hn]. apply calls_In. exists w. auto. }
  { now apply Hknown. }
  { now apply Hknown. }
  exists (with_modified true j').
  assert (Hadd : add_item E j0 x = Ok (with_modified true j')).
  { unfold add_item. rewrite S1, Hns. cbv zeta. rewrite HP.
    assert (Hat : fold_result (fun i kv =>
        if str_eqb (fst kv) (ITEM_CONFIG (e_ver E)) then Ok i
        else set_property E i (fst kv ++ ATTRIB_KEY_SUFFIX) (IStr (snd kv)) P false)
        (eattrib x) (with_ns ns' j0) = read_calls E P (attr_calls calls) (with_ns ns' j0)).
    { rewrite S2. rewrite <- read_attributes.
      - destruct (is_nil ss); cbn [app]; [reflexivity|]. cbn [fold_result fst snd].
        rewrite str_eqb_refl. reflexivity.
      - intros n t H. apply calls_In in H as (w & H & _). now apply V_simple in H. }
    rewrite Hat, Ekc, (reading_order_calls (e_ver E) (i_ns i) kc Hins Hch NDkc).
    fold P in Ej. unfold plain in Ej. rewrite <- app_assoc in Ej. rewrite read_calls_app in Ej.
    destruct (read_calls E P (attr_calls calls) (with_ns ns' j0)) as [j1|]; [|discriminate].
    cbn [rbind] in *. rewrite read_children; [|exact Hins|].
    - unfold in_reading_order. fold EN. fold EN in Ej. rewrite F1, F2, Ej. cbn [rbind].
      apply validate_good. cbn. now apply reachable_good.
    - intros n t H. unfold in_reading_order in H.
      rewrite !in_app_iff, !filter_In in H. apply (Hch n t). tauto. }
  split; [exact Hadd|].
  split; [exact (R_read _ E j0 x _ eq_refl R0 Hadd)|].
  split; [exact A'|]. split; [exact B'|exact C'].
Qed.
End Element.
