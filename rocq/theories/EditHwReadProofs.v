(** Reading the Items of a section in which every device has one Item: the profiles that an Item
    names are those of its device, so that it is read alike under any list of profiles that has
    them all. *)
From Coq Require Import List Ascii Lia Bool.
Import ListNotations.
From Verif Require Import PyBase PyBaseProofs PyDict PyDictProofs XmlModel XmlSpec XmlProofs NamesModel ItemModel ItemSpec ItemProofs ItemReachProofs ItemSetProofs ItemProfileProofs ItemEffectProofs EmitProofs
  HardwareModel HardwareSpec HardwareProofs HardwareIdProofs UpdateProofs UpdateHistoryProofs ProfileModel InfoProfileProofs.

Lemma add_item_profiles : forall E l i x, add_item (with_profiles E l) i x = add_item E i x.
Proof. reflexivity. Qed.

(** The device made from one Item that names profiles has its InstanceID under each of them. *)
Definition has_all (ver : version) (P : list profile) (i : item) : Prop := forall q, In q P -> exists w, own (i_props i) (INSTANCE_ID ver) q w.
Lemma id_named : forall E P i x i', reachable (e_ver E) i -> no_iid (e_ver E) i -> ~ In None P -> P <> [] -> x <> [] ->
  set_property E i (INSTANCE_ID (e_ver E)) (IStr x) P false = Ok i' -> has_all (e_ver E) P i'.
Proof.
  intros E P i x i' R N NP NE X H q Hq. pose proof (reachable_good _ _ R) as G. apply set_property_effect in H as (w & Hw & H1 & H2 & _); [|exact R].
  rewrite add_wildcards_plain in Hw by apply IID_plain. injection Hw as <-. rewrite IID_arg in H1, H2.
  assert (T : truthy (VStr x) = true) by (destruct x; [contradiction|reflexivity]).
  assert (RQ : forall p, requested (i_props i) (INSTANCE_ID (e_ver E)) P p <-> In p P) by (intros p; unfold requested; now destruct P).
  assert (Hh : holds (i_props i') (INSTANCE_ID (e_ver E)) q (VStr x)) by (apply H1; [exact T|left; now apply RQ|reflexivity]).
  destruct Hh as [Ho|[_ Ho]]; [now exists (VStr x)|]. exfalso.
  assert (HN : ~ reaches (i_props i) (INSTANCE_ID (e_ver E)) P None) by (intros [A|[A _]]; now apply RQ in A).
  assert (Hn : holds (i_props i) (INSTANCE_ID (e_ver E)) None (VStr x)) by (apply (H2 None (VStr x) T HN); now left). apply holds_own' in Hn as (r & Hr). exact (N _ _ Hr).
Qed.
Lemma id_empty : forall E P i i', reachable (e_ver E) i -> no_iid (e_ver E) i -> set_property E i (INSTANCE_ID (e_ver E)) (IStr []) P false = Ok i' -> no_iid (e_ver E) i'.
Proof.
  intros E P i i' R N H q w Ho. apply set_property_effect in H as (v & Hv & _ & _ & H3 & _); [|exact R]. rewrite add_wildcards_plain in Hv by apply IID_plain. injection Hv as <-. rewrite IID_arg in H3.
  apply H3 in Ho as [Ho _]; [exact (N _ _ Ho)|reflexivity].
Qed.
Lemma all_named : forall E P l i i', ~ In None P -> P <> [] -> reachable (e_ver E) i ->
  fold_result (add_child_property E P) l i = Ok i' ->
  (no_iid (e_ver E) i /\ (exists c, In c l /\ iid_child (e_ver E) c /\ child_text c <> [])) \/ has_all (e_ver E) P i ->
  has_all (e_ver E) P i' /\ reachable (e_ver E) i'.
Proof.
  intros E P l i i' NP NE. revert i i'. induction l as [|a l IH]; intros i i' R H C; cbn [fold_result] in H.
  - injection H as <-. destruct C as [[_ (c & [] & _)]|C]. now split.
  - apply rbind_ok in H as (j & Hj & H). destruct (iid_child_dec (e_ver E) a) as [Ha|Ha].
    + apply id_child_step in Hj as (k & Hk & Rj & Ho); [|exact R|exact Ha]. apply (IH j i' Rj H).
      assert (T : has_all (e_ver E) P k -> has_all (e_ver E) P j) by (intros A q Hq; destruct (A q Hq) as (w & Hw); exists w; now apply Ho).
      destruct C as [[N (c & Hc & Ic & Tc)]|C].
      * destruct (child_text a) as [|x t] eqn:Et.
        -- left. split; [intros q w Hq; apply Ho in Hq; revert Hq; apply (id_empty E P i k R N Hk)|]. destruct Hc as [<-|Hc]; [contradiction|]. now exists c.
        -- right. apply T. apply (id_named E P i (x :: t) k R N NP NE); [discriminate|exact Hk].
      * exfalso. destruct P as [|p P]; [contradiction|]. destruct (C p (or_introl eq_refl)) as (w & Hw).
        rewrite (set_property_refuses E i (INSTANCE_ID (e_ver E)) (IStr (child_text a)) (p :: P) p w R) in Hk; [discriminate| |now left|exact Hw].
        intros Ht. apply text_property_is_text in Ht. rewrite IID_plain in Ht. discriminate.
    + apply other_child in Hj as [Rj Ho]; [|exact R|exact Ha]. apply (IH j i' Rj H). destruct C as [[N (c & Hc & Ic & Tc)]|C].
      * left. split; [intros q w Hq; apply Ho in Hq; exact (N _ _ Hq)|]. destruct Hc as [<-|Hc]; [contradiction|]. now exists c.
      * right. intros q Hq. destruct (C q Hq) as (w & Hw). exists w. now apply Ho.
Qed.
Lemma item_named : forall E x i c p names, add_item E (new_ovfitem E) x = Ok i -> In c (echildren x) -> iid_child (e_ver E) c -> child_text c <> [] ->
  get_attr x (ITEM_CONFIG (e_ver E)) = Some names -> In p (words names) -> exists w, own (i_props i) (INSTANCE_ID (e_ver E)) (Some p) w.
Proof.
  intros E x i c p names H Hin Ic Tc A Hp. unfold add_item in H. destruct (namespace_for_item_tag (e_ver E) (etag x)) as [ns|] eqn:En; [|discriminate]. rewrite A in H.
  apply rbind_ok in H as (i1 & H1 & H). apply rbind_ok in H as (i2 & H2 & H).
  assert (NP : ~ In None (map Some (words names))) by (intros F; apply in_map_iff in F as (y & F & _); discriminate).
  assert (NE : map Some (words names) <> []) by (destruct (words names); [destruct Hp|discriminate]).
  assert (K : reachable (e_ver E) i1 /\ no_iid (e_ver E) i1).
  { revert H1. apply (fold_result_inv _ _ _ (fun j => reachable (e_ver E) j /\ no_iid (e_ver E) j)).
    - intros j kv j' _ [Rj Nj]. destruct (str_eqb _ _); [intros F; now injection F as <-|]. intros F. split; [exact (R_set _ E _ _ _ _ _ _ eq_refl Rj F)|].
      apply set_property_effect in F as (v & _ & _ & _ & _ & H5); [|exact Rj]. intros q w Hq. apply H5 in Hq; [exact (Nj _ _ Hq)|]. intros Y. symmetry in Y. now apply (proj1 (suffix_not_IID (e_ver E) (fst kv))).
    - split; [apply (reachable_with_ns E _ _ ns (R_new (e_ver E) E eq_refl) En)|]. intros q w (d & s & [] & _). }
  destruct K as [R1 N1]. destruct (all_named E _ _ i1 i2 NP NE R1 H2) as [HA R2].
  { left. split; [exact N1|]. exists c. split; [now apply reading_order_In|now split]. }
  rewrite validate_good in H by exact (reachable_good _ _ R2). injection H as <-. cbn [i_props with_modified]. apply HA. now apply in_map.
Qed.
(** As many devices as Items *)
Lemma read_shape : forall E h x h', read_item E h x = Ok h' ->
  (namespace_for_item_tag (e_ver E) (etag x) = None /\ h' = h) \/
  exists k i c, h' = hset k i h /\ In c (echildren x) /\ iid_child (e_ver E) c /\ child_text c <> [] /\ is_item_elem (e_ver E) x = true /\
    (hget k h = None -> add_item E (new_ovfitem E) x = Ok i).
Proof.
  intros E h x h' H. unfold read_item in H. destruct (namespace_for_item_tag (e_ver E) (etag x)) as [ns|] eqn:En; [|left; now injection H as <-]. right.
  destruct (filter _ (echildren x)) as [|c cs] eqn:Ef; [discriminate|]. assert (Hc : In c (c :: cs)) by now left. rewrite <- Ef in Hc. apply filter_In in Hc as [Hc Ht]. apply str_eqb_eq in Ht.
  assert (Ic : iid_child (e_ver E) c) by (unfold iid_child; rewrite Ht; now apply (strip_ns_IID _ x)).
  destruct (etext c) as [[|a t]|] eqn:Et; [discriminate| |discriminate]. assert (Tc : child_text c <> []) by (unfold child_text; rewrite Et; discriminate).
  destruct (negb _); [discriminate|]. assert (II : is_item_elem (e_ver E) x = true) by exact (namespace_item _ _ _ En). destruct (hget (a :: t) h) as [i|] eqn:Eg.
  - destruct (add_item E i x) as [i'|[]] eqn:Ea; try discriminate. injection H as <-. exists (a :: t), i', c. repeat (split; [first [reflexivity|assumption]|]). rewrite Eg. discriminate.
  - apply rbind_ok in H as (i' & Ea & H). injection H as <-. exists (a :: t), i', c. repeat (split; [first [reflexivity|assumption]|]). now intros _.
Qed.
Lemma read_length : forall E l h h', fold_result (read_item E) l h = Ok h' -> (length h' <= length h + length (filter (is_item_elem (e_ver E)) l))%nat.
Proof.
  intros E. induction l as [|x l IH]; intros h h' H; cbn [fold_result filter] in *; [injection H as <-; lia|]. apply rbind_ok in H as (g & Hg & H). apply IH in H.
  apply read_shape in Hg as [[_ ->]|(k & i & c & -> & _ & _ & _ & -> & _)]; [destruct (is_item_elem _ x); cbn [length]; lia|]. destruct (hset_length h k i) as [L _]. cbn [length]. lia.
Qed.
Lemma read_apart : forall E l h h', NoDup (map fst h) -> fold_result (read_item E) l h = Ok h' -> (length h + length (filter (is_item_elem (e_ver E)) l) <= length h')%nat ->
  (forall k i, In (k, i) h -> In (k, i) h') /\
  forall x, In x l -> is_item_elem (e_ver E) x = true -> exists k i c, In (k, i) h' /\ add_item E (new_ovfitem E) x = Ok i /\ In c (echildren x) /\ iid_child (e_ver E) c /\ child_text c <> [].
Proof.
  intros E. induction l as [|x l IH]; intros h h' ND H L; cbn [fold_result filter] in *; [injection H as <-; split; [auto|intros x []]|]. apply rbind_ok in H as (g & Hg & H). pose proof (read_length _ _ _ _ H) as B.
  apply read_shape in Hg as [[Hn ->]|(k & i & c & -> & Hc & Ic & Tc & II & HA)].
  - destruct (is_item_elem (e_ver E) x) eqn:II; [cbn [length] in L; lia|]. destruct (IH h h' ND H L) as [A1 A2]. split; [exact A1|]. intros y [<-|Hy] Iy; [congruence|now apply A2].
  - rewrite II in L. cbn [length] in L. destruct (hset_length h k i) as [B1 B2]. destruct (hget k h) as [i0|] eqn:Eg.
    + exfalso. assert (T : taken h k) by (exists i0; now apply hget_In). rewrite (B2 T) in B. lia.
    + destruct (IH _ _ (hset_NoDup h k i ND) H) as [A1 A2]; [lia|]. split.
      * intros k' j Hj. apply A1. apply hset_In; [exact ND|]. right. split; [|exact Hj]. intros ->. apply (hget_In h k j ND) in Hj. congruence.
      * intros y [<-|Hy] Iy; [|now apply A2]. exists k, i, c. split; [apply A1; apply hset_In; [exact ND|now left]|]. split; [now apply HA|now repeat split].
Qed.
(** The same Items under another list of profiles *)
Lemma read_under : forall E l h g0 g, (forall x s, In x l -> is_item_elem (e_ver E) x = true -> get_attr x (ITEM_CONFIG (e_ver E)) = Some s -> forall p, In p (words s) -> In p h) ->
  fold_result (read_item E) l g0 = Ok g -> fold_result (read_item (with_profiles E h)) l g0 = Ok g.
Proof.
  intros E l h. induction l as [|x l IH]; intros g0 g N H; cbn [fold_result] in *; [exact H|]. apply rbind_ok in H as (g1 & H1 & H).
  assert (Hx : read_item (with_profiles E h) g0 x = Ok g1).
  { revert H1. unfold read_item. cbn [e_ver with_profiles e_profiles]. destruct (namespace_for_item_tag (e_ver E) (etag x)) as [ns|] eqn:En; [|auto].
    destruct (filter _ (echildren x)) as [|c cs]; [auto|]. destruct (etext c) as [[|a t]|]; auto.
    assert (Q : forallb (fun p => mem_str p h) (match get_attr x (ITEM_CONFIG (e_ver E)) with Some s => words s | None => [] end) = true).
    { apply forallb_forall. intros p Hp. apply mem_str_In. destruct (get_attr x (ITEM_CONFIG (e_ver E))) as [s|] eqn:A; [|destruct Hp]. exact (N x s (or_introl eq_refl) (namespace_item _ _ _ En) A p Hp). }
    rewrite Q. cbn [negb]. destruct (negb (forallb _ _)); [discriminate|]. change (new_ovfitem (with_profiles E h)) with (new_ovfitem E). destruct (hget (a :: t) g0) as [i|]; rewrite add_item_profiles; auto. }
  rewrite Hx. cbn [rbind]. apply IH; [|exact H]. intros y s Hy. apply N. now right.
Qed.
(** Reading looks at the Items only. *)
Lemma read_items_only : forall E l g, fold_result (read_item E) l g = fold_result (read_item E) (filter (is_item_elem (e_ver E)) l) g.
Proof.
  intros E. induction l as [|x l IH]; intros g; [reflexivity|]. cbn [fold_result filter]. destruct (is_item_elem (e_ver E) x) eqn:I; cbn [fold_result].
  - destruct (read_item E g x) as [g1|]; [cbn [rbind]; apply IH|reflexivity].
  - assert (R : read_item E g x = Ok g). { unfold read_item. destruct (namespace_for_item_tag (e_ver E) (etag x)) as [ns|] eqn:En; [|reflexivity]. unfold is_item_elem in I. rewrite (namespace_item _ _ _ En) in I. discriminate. }
    rewrite R. cbn [rbind]. apply IH.
Qed.
(** The devices that were read, under a list of profiles in which those of the devices are: if
    there are as many devices as Items, the Items are read alike. *)
Theorem read_again : forall E sec sec' h h0, read_hardware E sec = Ok h0 -> filter (is_item_elem (e_ver E)) (echildren sec') = filter (is_item_elem (e_ver E)) (echildren sec) ->
  length h0 = length (filter (is_item_elem (e_ver E)) (echildren sec)) ->
  (forall k i n p w, In (k, i) h0 -> own (i_props i) n (Some p) w -> In p h) ->
  read_hardware (with_profiles E h) sec' = Ok h0.
Proof.
  intros E sec sec' h h0 H I L K. unfold read_hardware in *. apply rbind_ok in H as (g & Hg & H). rewrite read_items_only. change (e_ver (with_profiles E h)) with (e_ver E). rewrite I. rewrite read_items_only in Hg.
  injection H as <-. rewrite map_length in L. assert (F : filter (is_item_elem (e_ver E)) (filter (is_item_elem (e_ver E)) (echildren sec)) = filter (is_item_elem (e_ver E)) (echildren sec)).
  { clear. induction (echildren sec) as [|x l IH]; [reflexivity|]. cbn [filter]. destruct (is_item_elem (e_ver E) x) eqn:Q; [cbn [filter]; rewrite Q; now f_equal|exact IH]. }
  destruct (read_apart E _ [] g (NoDup_nil str) Hg) as [_ A]; [rewrite F; cbn [length]; lia|].
  rewrite (read_under E _ h [] g); [reflexivity| |exact Hg]. intros x s Hx Ix As p Hp. destruct (A x Hx Ix) as (k & i & c & Hin & Ha & Hc & Ic & Tc).
  destruct (item_named E x i c p s Ha Hc Ic Tc As Hp) as (w & Hw). apply (K k (with_modified false i) (INSTANCE_ID (e_ver E)) p w); [|exact Hw].
  apply in_map_iff. exists (k, i). now split.
Qed.
