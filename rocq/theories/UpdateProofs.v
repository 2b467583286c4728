(** Writing the hardware section. *)
From Coq Require Import Lia Permutation.
From Verif Require Import PyBase PyBaseProofs PyDict PyDictProofs PyRegex ValidationModel ValidationProofs
  XmlModel XmlSpec XmlProofs NamesModel
  ItemModel ItemSpec PsetProofs ItemProofs ItemSetProofs ItemProfileProofs ItemReachProofs
  ItemEffectProofs EmitProofs HardwareModel HardwareSpec HardwareProofs HardwareIdProofs.

(** ** Tags *)

Lemma item_tags_NoDup : forall v, NoDup (item_tags v).
Proof. intros []; repeat constructor; cbn; intuition discriminate. Qed.

Lemma item_tags_other : forall v t, In t (item_tags v) -> t <> INFO v /\ t <> SYSTEM v.
Proof.
  assert (A : forall v, forallb (fun t => negb (str_eqb t (INFO v)) && negb (str_eqb t (SYSTEM v)))
    (item_tags v) = true) by (intros []; vm_compute; reflexivity).
  intros v t H. specialize (A v). rewrite forallb_forall in A. specialize (A t H).
  apply andb_true_iff in A as [A B]. apply negb_true_iff in A. apply negb_true_iff in B.
  split; intros ->; rewrite str_eqb_refl in *; discriminate.
Qed.

Lemma is_item_In : forall v x, is_item_elem v x = true <-> In (etag x) (item_tags v).
Proof. intros v x. apply mem_str_In. Qed.

Lemma tag_is_item : forall v ns t, item_tag_for_namespace v ns = Ok t -> In t (item_tags v).
Proof.
  intros v ns t. unfold item_tag_for_namespace.
  repeat match goal with |- context [if ?b then _ else _] => destruct b end;
    intros H; try discriminate; injection H as <-; destruct v; cbn; auto.
Qed.

Lemma count_items : forall v sec,
  length (find_all_children sec (item_tags v) []) = length (item_children v sec).
Proof.
  intros v sec. unfold find_all_children, item_children, is_item_elem.
  pose proof (item_tags_NoDup v) as ND. induction (item_tags v) as [|t ts IH]; cbn [flat_map].
  - cbn. induction (echildren sec); auto.
  - inversion ND as [|? ? Hn ND']; subst. rewrite app_length, IH by exact ND'. clear IH.
    induction (echildren sec) as [|c cs IH]; [reflexivity|]. cbn [filter].
    unfold child_match at 1. cbn [attrib_match forallb]. rewrite andb_true_r.
    cbn [mem_str existsb] in *. unfold mem_str in *. cbn [existsb].
    destruct (str_eqb (etag c) t) eqn:Et.
    + apply str_eqb_eq in Et.
      destruct (existsb (str_eqb (etag c)) ts) eqn:Ex.
      * exfalso. apply Hn. apply existsb_exists in Ex as (t' & Ht' & Ex). apply str_eqb_eq in Ex.
        congruence.
      * cbn [orb length]. cbn in IH. lia.
    + cbn [orb]. destruct (existsb (str_eqb (etag c)) ts); cbn [length]; cbn in IH; lia.
Qed.

(** ** The tag of generated elements *)

Lemma emit_property_tag : forall E ns ord n v x y, emit_property E ns ord n v x = Ok y ->
  etag y = etag x.
Proof.
  intros E ns ord n v x y. unfold emit_property.
  assert (S : forall p tag text y c, set_or_make_child p tag text [] ord = Ok (y, c) -> etag y = etag p).
  { intros p tag text p' c H. pose proof (set_or_make_child_spec p tag text [] ord (NoDup_nil _)) as K.
    rewrite H in K. destruct K as [(K & _) _]. now symmetry. }
  destruct (re_match re_attrib n) as [g|]; [intros H; injection H as <-; now destruct x|].
  destruct (re_match re_child_attrib n) as [g|].
  { destruct (set_or_make_child _ _ _ _ _) as [[p c]|] eqn:Es; [|discriminate]. cbn [rbind fst].
    intros H. injection H as <-. apply S in Es. rewrite <- Es. now destruct p. }
  destruct (re_match re_custom n) as [g|].
  { destruct (e_fromstring E _) as [c|]; [|discriminate]. intros H. injection H as <-. now destruct x. }
  destruct (set_or_make_child _ _ _ _ _) as [[p c]|] eqn:Es; [|discriminate]. cbn [rbind fst].
  intros H. injection H as <-. now apply S in Es.
Qed.

Lemma generate_one_tag : forall E i tag ss x, generate_one E i tag ss = Ok x -> etag x = tag.
Proof.
  intros E i tag ss x. unfold generate_one.
  apply (fold_result_inv _ _ _ (fun y => etag y = tag)); [|reflexivity].
  intros y n y' _ Hy. destruct (get_value _ _ _ _) as [[w|]|]; [|intros H; now injection H as <-|discriminate].
  cbn [rbind]. destruct (truthy w); [|intros H; now injection H as <-].
  intros H. apply emit_property_tag in H. congruence.
Qed.

Lemma generate_items_tag : forall E i xs, generate_items E i = Ok xs ->
  forall x, In x xs -> In (etag x) (item_tags (e_ver E)).
Proof.
  intros E i xs H x Hx. unfold generate_items in H.
  destruct (get_nonintersecting_set_list _) as [l|]; [|discriminate]. cbn [rbind] in H.
  destruct (item_tag_for_namespace _ _) as [tag|] eqn:Et; [|discriminate]. cbn [rbind] in H.
  apply tag_is_item in Et. apply rmap_ok_inv in H.
  induction H as [|ss y l ys Hy H IH]; [contradiction|]. destruct Hx as [<-|Hx]; [|now apply IH].
  apply generate_one_tag in Hy. congruence.
Qed.

Lemma generated_tag : forall E h xs, generated E h xs ->
  forall x, In x xs -> is_item_elem (e_ver E) x = true.
Proof.
  intros E h xs (keys & xss & _ & H & ->) x Hx. apply is_item_In.
  induction H as [|k ys keys xss (i & _ & Hg) H IH]; [contradiction|].
  cbn [concat] in Hx. apply in_app_iff in Hx as [Hx|Hx]; [|now apply IH].
  exact (generate_items_tag E i ys Hg x Hx).
Qed.

(** ** Where new elements go *)

Definition ITEM_ORDER (v : version) : list str := [INFO v; SYSTEM v; ITEM v].

Lemma item_order_index : forall v t i, index_of t (ITEM_ORDER v) = Some i -> i <= 2.
Proof.
  intros v t i. unfold ITEM_ORDER. cbn [index_of].
  repeat match goal with |- context [if ?b then _ else _] => destruct b end;
    intros H; try discriminate; injection H as <-; lia.
Qed.

Lemma item_index : forall v, index_of (ITEM v) (ITEM_ORDER v) = Some 2.
Proof. intros []; vm_compute; reflexivity. Qed.

Lemma insert_item : forall v x a b,
  (forall c, In c a -> In (etag c) (ITEM_ORDER v)) ->
  (forall c r, b = c :: r -> ~ In (etag c) (ITEM_ORDER v)) ->
  insert_child (ITEM_ORDER v) 2 x (a ++ b) = a ++ x :: b.
Proof.
  intros v x a b Ha Hb. induction a as [|c a IH]; cbn [app].
  - destruct b as [|c r]; [reflexivity|]. cbn [insert_child].
    specialize (Hb c r eq_refl). destruct (index_of (etag c) (ITEM_ORDER v)) eqn:E; [|reflexivity].
    exfalso. apply Hb. destruct (index_of_None (etag c) (ITEM_ORDER v)) as [K1 K2].
    destruct (in_dec str_eq_dec (etag c) (ITEM_ORDER v)) as [H|H]; [exact H|].
    apply K2 in H. congruence.
  - cbn [insert_child]. destruct (index_of (etag c) (ITEM_ORDER v)) as [i|] eqn:E.
    + apply item_order_index in E. replace (2 <? i) with false by (symmetry; apply Nat.ltb_ge; lia).
      f_equal. apply IH. intros d Hd. apply Ha. now right.
    + apply index_of_None in E. exfalso. apply E, Ha. now left.
Qed.

(** The shape of the section while items are put in. *)
Definition shape (v : version) (pre items post others : list elem) (sec : elem) : Prop :=
  echildren sec = pre ++ items ++ post ++ others.

Section Put.
Variables (v : version) (pre post : list elem).
Hypothesis Hpre : forall c, In c pre -> etag c = INFO v \/ etag c = SYSTEM v.
Hypothesis Hpost : forall c r, post = c :: r -> etag c <> INFO v /\ etag c <> SYSTEM v.
Hypothesis Hitem : forall c, In c post -> is_item_elem v c = false.

Lemma put_one : forall items others sec x,
  (forall c, In c items -> etag c = ITEM v) ->
  (forall c, In c others -> In (etag c) (item_tags v) /\ etag c <> ITEM v) ->
  shape v pre items post others sec -> In (etag x) (item_tags v) ->
  shape v pre (items ++ filter (has_tag (ITEM v)) [x]) post
    (others ++ filter (fun y => negb (has_tag (ITEM v) y)) [x]) (add_child sec x (ITEM_ORDER v)).
Proof.
  intros items others sec x Hi Ho Hs Hx. unfold shape in *. unfold add_child, has_tag. cbn [filter].
  destruct (str_eqb (etag x) (ITEM v)) eqn:E; cbn [negb].
  - apply str_eqb_eq in E. rewrite E, item_index.
    replace (echildren (set_children (insert_child (ITEM_ORDER v) 2 x (echildren sec)) sec))
      with (insert_child (ITEM_ORDER v) 2 x (echildren sec)) by now destruct sec.
    rewrite Hs. rewrite app_assoc. rewrite insert_item.
    + rewrite app_nil_r, <- !app_assoc. reflexivity.
    + intros c Hc. apply in_app_iff in Hc as [Hc|Hc].
      * destruct (Hpre c Hc) as [-> | ->]; cbn; auto.
      * rewrite (Hi c Hc). cbn. auto.
    + intros c r Hc. unfold ITEM_ORDER. cbn [In].
      assert (K : etag c <> INFO v /\ etag c <> SYSTEM v /\ etag c <> ITEM v).
      { destruct post as [|d q].
        - cbn [app] in Hc. destruct (Ho c) as [H1 H2]; [rewrite Hc; now left|].
          apply item_tags_other in H1. tauto.
        - cbn [app] in Hc. injection Hc as -> _. destruct (Hpost c q eq_refl) as [H1 H2].
          split; [exact H1|]. split; [exact H2|]. intros H3.
          assert (is_item_elem v c = false) as F by (apply Hitem; now left).
          assert (is_item_elem v c = true); [|congruence]. apply is_item_In. rewrite H3.
          destruct v; now left. }
      intuition congruence.
  - assert (N : etag x <> ITEM v) by (intros F; rewrite F, str_eqb_refl in E; discriminate).
    replace (index_of (etag x) (ITEM_ORDER v)) with (@None nat).
    + rewrite app_nil_r, Hs, !app_assoc.
      destruct sec; cbn. now rewrite <- !app_assoc.
    + symmetry. apply index_of_None. apply item_tags_other in Hx as [H1 H2].
      unfold ITEM_ORDER. cbn [In]. intuition congruence.
Qed.

Lemma put_all : forall xs items others sec,
  (forall c, In c items -> etag c = ITEM v) ->
  (forall c, In c others -> In (etag c) (item_tags v) /\ etag c <> ITEM v) ->
  (forall x, In x xs -> In (etag x) (item_tags v)) ->
  shape v pre items post others sec ->
  shape v pre (items ++ filter (has_tag (ITEM v)) xs) post
    (others ++ filter (fun y => negb (has_tag (ITEM v) y)) xs)
    (fold_left (fun sec x => add_child sec x (ITEM_ORDER v)) xs sec).
Proof.
  induction xs as [|x xs IH]; intros items others sec Hi Ho Hx Hs.
  - cbn. now rewrite !app_nil_r.
  - cbn [fold_left].
    assert (Hx1 : In (etag x) (item_tags v)) by (apply Hx; now left).
    pose proof (put_one items others sec x Hi Ho Hs Hx1) as H1.
    apply IH in H1.
    + rewrite <- !app_assoc in H1. cbn [filter] in *.
      destruct (has_tag (ITEM v) x); cbn [negb app] in *; exact H1.
    + intros c Hc. apply in_app_iff in Hc as [Hc|Hc]; [now apply Hi|].
      apply filter_In in Hc as [_ Hc]. now apply str_eqb_eq.
    + intros c Hc. apply in_app_iff in Hc as [Hc|Hc]; [now apply Ho|].
      apply filter_In in Hc as [[<-|[]] Hc]. split; [exact Hx1|].
      intros F. unfold has_tag in Hc. rewrite F, str_eqb_refl in Hc. discriminate.
    + intros y Hy. apply Hx. now right.
Qed.
End Put.

Lemma add_child_same : forall sec x ord, same_but_children sec (add_child sec x ord).
Proof. intros. apply add_child_spec. Qed.
Lemma same_trans : forall a b c, same_but_children a b -> same_but_children b c -> same_but_children a c.
Proof. unfold same_but_children. intuition congruence. Qed.
Lemma fold_add_same : forall ord xs sec,
  same_but_children sec (fold_left (fun sec x => add_child sec x ord) xs sec).
Proof.
  intros ord. induction xs as [|x xs IH]; intros sec; cbn; [now repeat split|].
  eapply same_trans; [apply add_child_same|apply IH].
Qed.

(** The loop over the devices puts in all elements in turn. *)
Lemma update_loop : forall E h ord, NoDup (map fst h) -> forall keys sec sec',
  fold_result (fun sec k =>
        do i <- hitem k h;
        do xs <- generate_items E i;
        Ok (fold_left (fun sec x => add_child sec x ord) xs sec)) keys sec = Ok sec' ->
  exists xss, Forall2 (fun k ys => exists i, In (k, i) h /\ generate_items E i = Ok ys) keys xss /\
    sec' = fold_left (fun sec x => add_child sec x ord) (concat xss) sec.
Proof.
  intros E h ord ND. induction keys as [|k keys IH]; intros sec sec' H; cbn [fold_result] in H.
  - injection H as <-. exists []. split; [constructor|reflexivity].
  - destruct (hitem k h) as [i|] eqn:Ei; [|discriminate]. cbn [rbind] in H.
    destruct (generate_items E i) as [ys|] eqn:Eg; [|discriminate]. cbn [rbind] in H.
    apply IH in H as (xss & H1 & ->). exists (ys :: xss). split.
    + constructor; [|exact H1]. exists i. split; [now apply hitem_In|exact Eg].
    + cbn [concat]. now rewrite fold_left_app.
Qed.

Lemma update_loop_conv : forall E h ord keys xss sec, NoDup (map fst h) ->
  Forall2 (fun k ys => exists i, In (k, i) h /\ generate_items E i = Ok ys) keys xss ->
  fold_result (fun sec k =>
        do i <- hitem k h;
        do xs <- generate_items E i;
        Ok (fold_left (fun sec x => add_child sec x ord) xs sec)) keys sec =
  Ok (fold_left (fun sec x => add_child sec x ord) (concat xss) sec).
Proof.
  intros E h ord keys xss sec ND H. revert sec.
  induction H as [|k ys keys xss (i & Hi & Hg) H IH]; intros sec; [reflexivity|].
  cbn [fold_result]. apply hitem_In in Hi; [|exact ND]. rewrite Hi. cbn [rbind]. rewrite Hg.
  cbn [rbind concat]. rewrite fold_left_app. apply IH.
Qed.

Lemma looks_unchanged_iff : forall v h sec,
  (length h =? length (find_all_children sec (item_tags v) []))%nat
     && negb (existsb (fun ki : str * item => i_modified (snd ki)) h) = true <->
  looks_unchanged v h sec.
Proof.
  intros v h sec. rewrite count_items, andb_true_iff, Nat.eqb_eq, negb_true_iff.
  unfold looks_unchanged. split; intros [H1 H2]; (split; [exact H1|]).
  - intros k i Hin. destruct (i_modified i) eqn:Em; [|reflexivity]. exfalso.
    assert (existsb (fun ki : str * item => i_modified (snd ki)) h = true); [|congruence].
    apply existsb_exists. now exists (k, i).
  - destruct (existsb _ h) eqn:Ex; [|reflexivity]. exfalso.
    apply existsb_exists in Ex as ((k & i) & Hin & Hm). cbn in Hm. rewrite (H2 k i Hin) in Hm.
    discriminate.
Qed.

(** Split of the other children behind the leading Info and System. *)
Lemma leading : forall v l, exists pre post, l = pre ++ post /\
  (forall c : elem, In c pre -> etag c = INFO v \/ etag c = SYSTEM v) /\
  (forall c r, post = c :: r -> etag c <> INFO v /\ etag c <> SYSTEM v).
Proof.
  intros v. induction l as [|c l (pre & post & -> & H1 & H2)].
  - exists [], []. split; [reflexivity|]. split; [intros c []|discriminate].
  - destruct (str_eq_dec (etag c) (INFO v)) as [Hi|Hi];
    [|destruct (str_eq_dec (etag c) (SYSTEM v)) as [Hs|Hs]].
    + exists (c :: pre), post. split; [reflexivity|]. split; [|exact H2].
      intros d [<-|Hd]; [now left|now apply H1].
    + exists (c :: pre), post. split; [reflexivity|]. split; [|exact H2].
      intros d [<-|Hd]; [now right|now apply H1].
    + exists [], (c :: pre ++ post). split; [reflexivity|]. split; [intros d []|].
      intros d r H. injection H as -> _. auto.
Qed.

Lemma filter_none : forall (A : Type) (f : A -> bool) l, (forall x, In x l -> f x = false) -> filter f l = [].
Proof.
  intros A f l H. induction l as [|x l IH]; [reflexivity|]. cbn.
  rewrite (H x (or_introl eq_refl)). apply IH. intros y Hy. apply H. now right.
Qed.

Theorem update_content : forall E h sec sec', NoDup (map fst h) ->
  update_xml E h sec = Ok sec' ->
  (looks_unchanged (e_ver E) h sec /\ sec' = sec) \/
  (~ looks_unchanged (e_ver E) h sec /\
   exists xs, generated E h xs /\ holds_items (e_ver E) sec xs sec').
Proof.
  intros E h sec sec' ND H. unfold update_xml in H.
  destruct (_ && _) eqn:Eb.
  - left. apply looks_unchanged_iff in Eb. split; [exact Eb|]. now injection H.
  - right. split; [intros F; apply looks_unchanged_iff in F; congruence|].
    destruct (natural_sort (map fst h)) as [keys|] eqn:En; [|discriminate]. cbn [rbind] in H.
    apply update_loop in H as (xss & H1 & H2); [|exact ND].
    assert (G : generated E h (concat xss)) by (exists keys, xss; auto).
    exists (concat xss). split; [exact G|].
    destruct (leading (e_ver E) (other_children (e_ver E) sec)) as (pre & post & E1 & P1 & P2).
    unfold other_children in E1. rewrite E1 in H2.
    split.
    + rewrite H2. eapply same_trans; [|apply fold_add_same]. destruct sec; now repeat split.
    + exists pre, post. split; [exact E1|]. split; [exact P1|]. split; [exact P2|].
      assert (Q : forall c, In c post -> is_item_elem (e_ver E) c = false).
      { intros c Hc. assert (In c (pre ++ post)) as K by (apply in_or_app; now right).
        rewrite <- E1 in K. apply filter_In in K as [_ K]. now apply negb_true_iff. }
      pose proof (put_all (e_ver E) pre post P1 P2 Q (concat xss) [] []
        (set_children (pre ++ post) sec)) as K.
      rewrite H2. apply K.
      * intros c [].
      * intros c [].
      * intros x Hx. apply is_item_In. exact (generated_tag E h _ G x Hx).
      * unfold shape. cbn. rewrite app_nil_r. now destruct sec.
Qed.
