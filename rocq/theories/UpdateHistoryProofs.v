(** No edit is lost when the hardware section is written. *)
From Coq Require Import Lia Permutation.
From Verif Require Import PyBase PyBaseProofs PyDict PyDictProofs PyRegex ValidationModel ValidationSpec
  ValidationProofs
  XmlModel XmlSpec XmlProofs NamesModel
  ItemModel ItemSpec PsetProofs ItemProofs ItemSetProofs ItemProfileProofs ItemReachProofs
  ItemEffectProofs EmitProofs CellProofs HardwareModel HardwareSpec HardwareProofs HardwareIdProofs UpdateProofs.

(** ** Writing twice *)

Lemma other_children_after : forall E h sec xs sec', generated E h xs ->
  holds_items (e_ver E) sec xs sec' ->
  other_children (e_ver E) sec' = other_children (e_ver E) sec /\
  item_children (e_ver E) sec' =
    filter (has_tag (ITEM (e_ver E))) xs ++ filter (fun x => negb (has_tag (ITEM (e_ver E)) x)) xs.
Proof.
  intros E h sec xs sec' G (_ & pre & post & E1 & _ & _ & E2).
  pose proof (generated_tag E h xs G) as T.
  assert (O : forall c, In c (pre ++ post) -> is_item_elem (e_ver E) c = false).
  { intros c Hc. rewrite <- E1 in Hc. apply filter_In in Hc as [_ Hc]. now apply negb_true_iff. }
  assert (Hpre : forall c, In c pre -> is_item_elem (e_ver E) c = false) by (intros c Hc; apply O, in_or_app; auto).
  assert (Hpost : forall c, In c post -> is_item_elem (e_ver E) c = false) by (intros c Hc; apply O, in_or_app; auto).
  assert (F : forall f x, In x (filter f xs) -> is_item_elem (e_ver E) x = true).
  { intros f x Hx. apply filter_In in Hx as [Hx _]. now apply T. }
  split.
  - rewrite E1. unfold other_children. rewrite E2, !filter_app.
    rewrite (filter_all _ _ pre), (filter_all _ _ post).
    + rewrite !(filter_none _ _ (filter _ xs)); [now rewrite app_nil_r| |];
        intros x Hx; rewrite (F _ x Hx); reflexivity.
    + intros c Hc. now rewrite (Hpost c Hc).
    + intros c Hc. now rewrite (Hpre c Hc).
  - unfold item_children. rewrite E2, !filter_app.
    rewrite (filter_none _ _ pre), (filter_none _ _ post) by assumption. cbn [app].
    rewrite !(filter_all _ _ (filter _ xs)) by apply F. reflexivity.
Qed.

Theorem update_twice : forall E h sec sec', NoDup (map fst h) ->
  update_xml E h sec = Ok sec' -> update_xml E h sec' = Ok sec'.
Proof.
  intros E h sec sec' ND H. destruct (update_content E h sec sec' ND H) as [[L ->]|[L (xs & G & Hh)]];
    [exact H|].
  pose proof (other_children_after E h sec xs sec' G Hh) as [O _].
  destruct Hh as [(S1 & S2 & S3 & S4) _].
  unfold update_xml in *.
  match type of H with (if ?b then _ else _) = _ => destruct b eqn:Eb end.
  { apply looks_unchanged_iff in Eb. contradiction. }
  match goal with |- (if ?b then _ else _) = _ => destruct b eqn:Eb' end; [reflexivity|].
  unfold other_children in O. rewrite O.
  set (l := filter _ (echildren sec)) in *.
  replace (set_children l sec') with (set_children l sec); [exact H|].
  destruct sec, sec'; cbn in *. congruence.
Qed.

(** ** Changes set the mark *)

Lemma set_property_mark : forall E i n x P ow i', good_props (e_ver E) (i_props i) ->
  set_property E i n x P ow = Ok i' -> i_modified i' = false ->
  i_modified i = false /\ i_props i' = i_props i.
Proof.
  intros E i n x P ow i' G H Hm. rewrite set_property_eq in H by exact G.
  destruct (add_wildcards _ _ _ _ _) as [v|]; [|discriminate]. cbn [rbind] in H.
  destruct (refused _ _ _ _); [discriminate|]. destruct (too_many _ _ _); [discriminate|].
  set (PP := profs_of (i_props i) n P) in *.
  injection H as <-. cbn [i_modified i_props] in *. apply orb_false_iff in Hm as [H0 Hm].
  split; [exact H0|]. unfold stored.
  destruct (prget n (i_props i)) as [d|] eqn:Ed.
  - apply orb_false_iff in Hm as [Hm Hf]. apply orb_false_iff in Hm as [Hc Ha].
    apply negb_false_iff in Ha. rewrite Hf.
    pose proof (good_dict _ _ _ _ G Ed) as Gd.
    assert (Efin : fin v PP d = d).
    { unfold fin, pre. apply is_nil_true in Ha. rewrite Ha, app_nil_r, upd_unchanged by exact Hc.
      now apply norm_entries_good. }
    rewrite Efin. clear - Ed. unfold prset, prget in *.
    induction (i_props i) as [|[m e] l IH]; cbn in *; [discriminate|].
    destruct (str_eqb n m) eqn:En; [now injection Ed as ->|]. f_equal. now apply IH.
  - now rewrite Hm.
Qed.

Lemma validate_mark : forall E i i', validate E i = Ok i' -> i_modified i' = i_modified i.
Proof.
  intros E i i'. unfold validate. destruct (_ && _); [|discriminate].
  destruct (validate_props _); [|discriminate]. cbn [rbind]. intros H. now injection H as <-.
Qed.

Lemma add_profile_mark : forall E i p from i', add_profile E i p from = Ok i' ->
  i_modified i' = false -> i' = i.
Proof.
  intros E i p from i'. unfold add_profile. destruct (has_profile E i p); [intros H; now injection H|].
  destruct (prget _ _); [|discriminate]. destruct (fold_result _ _ _) as [i1|]; [|discriminate].
  cbn [rbind]. intros H Hm. apply validate_mark in H. rewrite Hm in H. discriminate.
Qed.

Lemma remove_profile_mark : forall E i p s i', remove_profile E i p s = Ok i' ->
  i_modified i' = false -> i' = i.
Proof.
  intros E i p s i'. unfold remove_profile. destruct (has_profile E i p); [|intros H; now injection H].
  intros H Hm. apply validate_mark in H. rewrite Hm in H. discriminate.
Qed.

(** ** All operations are sequences of simple edits *)

Inductive item_edits (ver : version) (i : item) : item -> Prop :=
| IE_refl : item_edits ver i i
| IE_set : forall E j n x P ow j', e_ver E = ver -> n <> INSTANCE_ID ver -> item_edits ver i j ->
    set_property E j n x P ow = Ok j' -> item_edits ver i j'
| IE_add : forall E j p j', e_ver E = ver -> item_edits ver i j ->
    add_profile E j p None = Ok j' -> item_edits ver i j'
| IE_remove : forall E j p split j', e_ver E = ver -> item_edits ver i j ->
    remove_profile E j p split = Ok j' -> item_edits ver i j'.

Inductive edits (ver : version) (h : hw) : hw -> Prop :=
| ED_refl : edits ver h h
| ED_item : forall g k i i', edits ver h g -> In (k, i) g -> item_edits ver i i' ->
    edits ver h (hset k i' g)
| ED_fresh : forall g k i, edits ver h g -> ~ taken g k -> id_is ver k i -> i_modified i = true ->
    edits ver h (hset k i g)
| ED_del : forall g k i q v, edits ver h g -> In (k, i) g -> own (i_props i) (INSTANCE_ID ver) q v ->
    edits ver h (hdel k g).

Lemma edits_trans : forall ver a b c, edits ver a b -> edits ver b c -> edits ver a c.
Proof.
  intros ver a b c Hab Hbc. induction Hbc.
  - exact Hab.
  - now apply ED_item with i.
  - now apply ED_fresh.
  - now apply ED_del with i q v.
Qed.

Lemma item_edits_id : forall ver k i i', item_edits ver i i' -> id_is ver k i -> id_is ver k i'.
Proof.
  intros ver k i i' H Hi. induction H as [|E j n x P ow j' <- Hn H IH Hs|E j p j' <- H IH Hs|E j p sp j' <- H IH Hs].
  - exact Hi.
  - now apply (id_set_other E k) in Hs.
  - now apply (id_add_profile E k) in Hs.
  - now apply (id_remove E k) in Hs.
Qed.

Lemma edits_ids : forall ver h h', edits ver h h' -> ids_ok ver h -> ids_ok ver h'.
Proof.
  intros ver h h' H Hh. induction H as [|g k i i' H IH Hin Hi|g k i H IH Ht Hi Hm|g k i q v H IH Hin Ho].
  - exact Hh.
  - apply ids_hset; [exact IH|]. apply (item_edits_id ver k i); [exact Hi|]. now apply IH.
  - now apply ids_hset.
  - now apply ids_hdel.
Qed.

Lemma get_own : forall E i v, reachable (e_ver E) i ->
  get_value E (i_props i) (INSTANCE_ID (e_ver E)) None = Ok (Some v) ->
  exists q, own (i_props i) (INSTANCE_ID (e_ver E)) q v.
Proof.
  intros E i v R H. apply reachable_good in R as G.
  rewrite get_value_plain in H by apply IID_plain.
  assert (Eg : get_raw (i_props i) (INSTANCE_ID (e_ver E)) None = Some v) by congruence.
  unfold get_raw in Eg. destruct (prget _ _) as [d|] eqn:Ed; [|discriminate].
  destruct d as [|[w t] [|]]; try discriminate. injection Eg as ->.
  pose proof (good_dict _ _ _ _ G Ed) as (_ & Gd & _).
  destruct (Gd v t) as (_ & Ht & _); [now left|]. destruct t as [|q t]; [congruence|].
  exists q. apply (own_Some _ _ _ _ _ (proj1 G) Ed). exists (q :: t). split; now left.
Qed.

Lemma first_free_not : forall h n s, first_free h n s -> ~ taken h s.
Proof. now intros h n s (m & _ & _ & H & _). Qed.

Lemma set_property_true : forall E i n x P ow i', good_props (e_ver E) (i_props i) ->
  set_property E i n x P ow = Ok i' -> i_modified i = true -> i_modified i' = true.
Proof.
  intros E i n x P ow i' G H Hm. destruct (i_modified i') eqn:Em; [reflexivity|].
  apply set_property_mark in H; [|exact G|exact Em]. destruct H. congruence.
Qed.

Lemma new_item_edits : forall E h rt P k h', new_item E h rt P = Ok (k, h') ->
  edits (e_ver E) h h' /\ taken h' k.
Proof.
  intros E h rt P k h' H. pose proof H as H0. unfold new_item in H.
  apply new_item_inv in H0 as (i & Hf & -> & Hi & _).
  destruct (find_unused_instance_id h 1) as [id|]; [|discriminate]. cbn [rbind] in H.
  destruct (set_property E _ (INSTANCE_ID _) _ _ _) as [i1|]; [|discriminate]. cbn [rbind] in H.
  destruct (res_map rt) as [v|]; [|discriminate]. cbn [rbind] in H.
  destruct (set_property E i1 _ _ _ _) as [i2|]; [|discriminate]. cbn [rbind] in H.
  destruct (set_property E i2 _ _ _ _) as [i3|]; [|discriminate]. cbn [rbind] in H.
  injection H as -> H. pose proof (first_free_not _ _ _ Hf) as Hn.
  assert (with_modified true i3 = i) as Ei.
  { rewrite !(hset_fresh h k) in H by exact Hn. apply app_inj_tail in H as [_ H]. congruence. }
  split.
  - apply ED_fresh; [apply ED_refl|exact Hn|exact Hi|now rewrite <- Ei].
  - exists i. rewrite hset_fresh by exact Hn. apply in_or_app. right. now left.
Qed.

Lemma clone_item_edits : forall E h k0 P k h', ids_ok (e_ver E) h -> clone_item E h k0 P = Ok (k, h') ->
  edits (e_ver E) h h' /\ taken h' k.
Proof.
  intros E h k0 P k h' Hh H. pose proof H as H0. unfold clone_item in H.
  apply clone_item_inv in H0 as (i & st & _ & Hf & -> & Hi & _); [|exact Hh].
  destruct (hitem k0 h) as [i0|]; [|discriminate]. cbn [rbind] in H.
  destruct (get_value _ _ _ _) as [[[s|]|]|]; try discriminate. cbn [rbind] in H.
  destruct (py_int s) as [start|]; [|discriminate].
  destruct (find_unused_instance_id h start) as [id|]; [|discriminate]. cbn [rbind] in H.
  destruct (fold_result _ (e_profiles E) _) as [i1|]; [|discriminate]. cbn [rbind] in H.
  destruct (set_property E i1 _ _ _ _) as [i2|]; [|discriminate]. cbn [rbind] in H.
  injection H as -> H. pose proof (first_free_not _ _ _ Hf) as Hn.
  assert (with_modified true i2 = i) as Ei.
  { rewrite !(hset_fresh h k) in H by exact Hn. apply app_inj_tail in H as [_ H]. congruence. }
  split.
  - apply ED_fresh; [apply ED_refl|exact Hn|exact Hi|now rewrite <- Ei].
  - exists i. rewrite hset_fresh by exact Hn. apply in_or_app. right. now left.
Qed.

Lemma item_edits_trans : forall ver a b c, item_edits ver a b -> item_edits ver b c -> item_edits ver a c.
Proof.
  intros ver a b c Hab Hbc. induction Hbc as [|E j n x P ow j' HE Hn H IH Hs|E j p j' HE H IH Hs|E j p sp j' HE H IH Hs].
  - exact Hab.
  - exact (IE_set _ _ E j n x P ow j' HE Hn IH Hs).
  - exact (IE_add _ _ E j p j' HE IH Hs).
  - exact (IE_remove _ _ E j p sp j' HE IH Hs).
Qed.

Lemma update_cloned_edits : forall E nic i P n i', update_cloned E nic i P n = Ok i' ->
  item_edits (e_ver E) i i'.
Proof.
  intros E nic i P n i'. unfold update_cloned.
  destruct (get_value _ _ _ _) as [rt|]; [|discriminate]. cbn [rbind].
  destruct (match prget ADDRESS (i_props i) with Some (_ :: _) => true | _ => false end); [discriminate|].
  match goal with |- context [rbind ?a _] => destruct a as [i1|] eqn:E1 end; [|discriminate].
  cbn [rbind].
  assert (I1 : item_edits (e_ver E) i i1).
  { destruct (get_all_values _ _) as [|[a|] [|]]; try discriminate.
    - injection E1 as <-. apply IE_refl.
    - destruct (py_int a); [|discriminate].
      exact (IE_set _ _ E i _ _ _ _ _ eq_refl (AOP_not_IID _) (IE_refl _ _) E1). }
  destruct rt as [[t|]|]; try (intros H; now injection H as <-).
  destruct (str_eqb t (L "10")); [|intros H; now injection H as <-].
  intros H. exact (IE_set _ _ E i1 _ _ _ _ _ eq_refl (EN_not_IID _) I1 H).
Qed.

Lemma update_steps_edits : forall E count P s s', fold_result (update_step E count) P s = Ok s' ->
  item_edits (e_ver E) (fst (fst s)) (fst (fst s')).
Proof.
  intros E count P s s' Ef.
  apply (fold_result_inv _ _ _ (fun t => item_edits (e_ver E) (fst (fst s)) (fst (fst t)))) in Ef;
    [exact Ef| |apply IE_refl].
  intros [[j a] b] p [[j' a'] b'] _ Hj. unfold update_step. cbn [fst] in *.
  destruct (has_profile E j p).
  - destruct (count <=? cget b p)%Z.
    + destruct (remove_profile E j p true) as [j1|] eqn:Er; [|discriminate]. cbn [rbind].
      intros H. injection H as <- _ _. exact (IE_remove _ _ E j p true j1 eq_refl Hj Er).
    + intros H. now injection H as <- _ _.
  - destruct (cget a p <? count)%Z.
    + destruct (add_profile E j p None) as [j1|] eqn:Er; [|discriminate]. cbn [rbind].
      intros H. injection H as <- _ _. exact (IE_add _ _ E j p j1 eq_refl Hj Er).
    + intros H. now injection H as <- _ _.
Qed.

(** Edits that start from good hardware. *)
Definition good_edits (ver : version) (h h' : hw) : Prop := edits ver h h' /\ ids_ok ver h'.

Lemma good_item : forall ver h g k i i', good_edits ver h g -> hitem k g = Ok i ->
  item_edits ver i i' -> good_edits ver h (hset k i' g).
Proof.
  intros ver h g k i i' [H Hg] Hk Hi. split.
  - apply ED_item with i; [exact H| |exact Hi]. apply hitem_In; [apply Hg|exact Hk].
  - apply ids_hset; [exact Hg|]. apply (item_edits_id ver k i); [exact Hi|]. now apply (ids_item ver g).
Qed.

Lemma good_more : forall ver h g g', good_edits ver h g -> edits ver g g' -> good_edits ver h g'.
Proof.
  intros ver h g g' [H Hg] H'. split; [now apply (edits_trans ver h g)|now apply (edits_ids ver g)].
Qed.

Lemma good_fold : forall (A : Type) ver (f : hw -> A -> result hw) l h h',
  (forall g a g', good_edits ver h g -> f g a = Ok g' -> good_edits ver h g') ->
  ids_ok ver h -> fold_result f l h = Ok h' -> good_edits ver h h'.
Proof.
  intros A ver f l h h' Hf Hh. apply (fold_result_inv _ _ _ (good_edits ver h)).
  - intros g a g' _. apply Hf.
  - split; [apply ED_refl|exact Hh].
Qed.

Lemma update_existing_edits : forall E h rt count P h' cd n o, ids_ok (e_ver E) h ->
  update_existing E h rt count P = Ok (h', cd, n, o) -> good_edits (e_ver E) h h'.
Proof.
  intros E h rt count P h' cd n o Hh. unfold update_existing.
  destruct (item_counts E h (Some rt) P) as [c0|]; [|discriminate]. cbn [rbind].
  destruct (find_all_items E h (Some rt) [] []) as [ks|]; [|discriminate]. cbn [rbind].
  destruct (fold_result _ ks _) as [[[h1 c1] c2]|] eqn:Ef; [|discriminate]. cbn [rbind].
  intros H. injection H as <- _ _ _.
  apply (fold_result_inv _ _ _ (fun s => good_edits (e_ver E) h (fst (fst s)))) in Ef;
    [exact Ef| |split; [apply ED_refl|exact Hh]].
  intros [[g a] b] k [[g' a'] b'] _ Hg. cbn [fst] in *. unfold update_item.
  destruct (hitem k g) as [i|] eqn:Ei; [|discriminate]. cbn [rbind].
  destruct (fold_result (update_step E count) P (i, a, b)) as [[[i' d1] d2]|] eqn:Eu; [|discriminate].
  cbn [rbind]. intros H. injection H as <- _ _. apply update_steps_edits in Eu.
  now apply good_item with i.
Qed.

Lemma add_items_edits : forall E nic n h0 h rt count P cd o h', good_edits (e_ver E) h0 h ->
  add_items E nic n h rt count P cd o = Ok h' -> good_edits (e_ver E) h0 h'.
Proof.
  intros E nic n h0. induction n as [|n IH]; intros h rt count P cd o h' Hh H; cbn [add_items] in H.
  - now injection H as <-.
  - destruct (wanting count P cd) as [Q cd'].
    match type of H with rbind ?a _ = _ => destruct a as [[k h1]|] eqn:E1 end; [|discriminate].
    cbn [rbind] in H.
    assert (H1 : good_edits (e_ver E) h0 h1).
    { apply (good_more _ _ h); [exact Hh|]. destruct o as [k0|].
      - apply clone_item_edits in E1 as [E1 _]; [exact E1|apply Hh].
      - now apply new_item_edits in E1 as [E1 _]. }
    destruct (hitem k h1) as [i|] eqn:Ei; [|discriminate]. cbn [rbind] in H.
    destruct Q as [|q Q]; [discriminate|].
    destruct (update_cloned _ _ _ _ _) as [i'|] eqn:Eu; [|discriminate]. cbn [rbind] in H.
    apply IH in H; [exact H|]. apply good_item with i; auto. now apply update_cloned_edits in Eu.
Qed.

Lemma set_on_keys_edits : forall E n x P h0 h k h', good_edits (e_ver E) h0 h ->
  n <> INSTANCE_ID (e_ver E) -> set_on_keys E n x P h k = Ok h' -> good_edits (e_ver E) h0 h'.
Proof.
  intros E n x P h0 h k h' Hh Hn. unfold set_on_keys.
  destruct (hitem k h) as [i|] eqn:Ei; [|discriminate]. cbn [rbind].
  destruct (set_property _ _ _ _ _ _) as [i'|] eqn:Es; [|discriminate]. cbn [rbind].
  intros H. injection H as <-. apply good_item with i; auto.
  exact (IE_set _ _ E i _ _ _ _ _ eq_refl Hn (IE_refl _ _) Es).
Qed.

Lemma set_values_edits : forall E n P default ks xs h0 h h', good_edits (e_ver E) h0 h ->
  n <> INSTANCE_ID (e_ver E) -> set_values E n xs default P h ks = Ok h' -> good_edits (e_ver E) h0 h'.
Proof.
  intros E n P default. induction ks as [|k ks IH]; intros xs h0 h h' Hh Hn H; cbn [set_values] in H.
  - now injection H as <-.
  - destruct (hitem k h) as [i|] eqn:Ei; [|discriminate]. cbn [rbind] in H.
    destruct (set_profiles _ _ _ _ _) as [i'|] eqn:Es; [|discriminate]. cbn [rbind] in H.
    apply IH with (h0 := h0) in H; [exact H| |exact Hn]. apply good_item with i; [exact Hh|exact Ei|].
    revert Es. unfold set_profiles.
    apply (fold_result_inv _ _ _ (item_edits (e_ver E) i)); [|apply IE_refl].
    intros j p j' _ Hj. destruct (has_profile E j p); [|intros F; now injection F as <-].
    intros F. exact (IE_set _ _ E j _ _ _ _ _ eq_refl Hn Hj F).
Qed.

Lemma step_edits : forall ver h h', ids_ok ver h -> hw_step ver h h' -> good_edits ver h h'.
Proof.
  intros ver h h' Hh H. assert (R : good_edits ver h h) by (split; [apply ED_refl|exact Hh]).
  destruct H as [E rt P k h' <- H|E k h' <- H|E k P k' h' <- H
    |E nic rt count P h' <- H|E rt n x P create h' <- Hn H|E rt n xs P default h' <- Hn H
    |E p h' <- H|E k i n x P ow i' <- Hn Hin H|E k i p i' <- Hin H|E k i p split i' <- Hin H].
  - apply (good_more _ _ h); [exact R|]. now apply new_item_edits in H.
  - unfold delete_item in H. destruct (hitem k h) as [i|] eqn:Ei; [|discriminate]. cbn [rbind] in H.
    pose proof (ids_item _ _ _ _ Hh Ei) as [Ri _].
    destruct (get_value _ _ _ _) as [[[s|]|]|] eqn:Eg; try discriminate. cbn [rbind] in H.
    destruct (str_eqb s k).
    + injection H as <-. apply get_own in Eg as [q Ho]; [|exact Ri].
      split; [|now apply ids_hdel].
      apply ED_del with i q (VStr s); [apply ED_refl| |exact Ho]. apply hitem_In; [apply Hh|exact Ei].
    + destruct (hitem s h); [|discriminate]. now injection H as <-.
  - apply (good_more _ _ h); [exact R|]. now apply clone_item_edits in H.
  - unfold set_item_count in H.
    destruct (update_existing _ _ _ _ _) as [[[[h1 cd] n] o]|] eqn:E1; [|discriminate]. cbn [rbind] in H.
    apply update_existing_edits in E1; [|exact Hh]. now apply (add_items_edits E nic _ h) in H.
  - unfold set_value_for_all_items in H.
    destruct (find_all_items _ _ _ _ _) as [[|k ks]|]; [| |discriminate]; cbn [rbind] in H.
    + destruct create; [|now injection H as <-].
      destruct (new_item _ _ _ _) as [[k h1]|] eqn:En; [|discriminate]. cbn [rbind fst snd] in H.
      apply new_item_edits in En as [En _].
      apply (set_on_keys_edits E _ _ _ h) in H; auto. now apply (good_more _ _ h).
    + revert H. apply (good_fold _ (e_ver E)); [|exact Hh].
      intros g a g' Hg. now apply set_on_keys_edits.
  - unfold set_item_values_per_profile in H.
    destruct (find_all_items _ _ _ _ _) as [ks|]; [|discriminate]. cbn [rbind] in H.
    now apply (set_values_edits E n _ _ ks _ h) in H.
  - unfold drop_profile in H.
    destruct (find_all_items _ _ _ _ _) as [ks|]; [|discriminate]. cbn [rbind] in H.
    revert H. apply (good_fold _ (e_ver E)); [|exact Hh].
    intros g k g' Hg. destruct (hitem k g) as [i|] eqn:Ei; [|discriminate]. cbn [rbind].
    destruct (remove_profile _ _ _ _) as [i'|] eqn:Er; [|discriminate]. cbn [rbind].
    intros F. injection F as <-. apply good_item with i; auto.
    exact (IE_remove _ _ E i _ _ _ eq_refl (IE_refl _ _) Er).
  - apply good_item with i; [exact R|apply hitem_In; [apply Hh|exact Hin]|].
    exact (IE_set _ _ E i _ _ _ _ _ eq_refl Hn (IE_refl _ _) H).
  - apply good_item with i; [exact R|apply hitem_In; [apply Hh|exact Hin]|].
    exact (IE_add _ _ E i _ _ eq_refl (IE_refl _ _) H).
  - apply good_item with i; [exact R|apply hitem_In; [apply Hh|exact Hin]|].
    exact (IE_remove _ _ E i _ _ _ eq_refl (IE_refl _ _) H).
Qed.

(** ** What edits keep *)

Definition no_iid (ver : version) (i : item) : Prop := forall q v, ~ own (i_props i) (INSTANCE_ID ver) q v.

Lemma no_iid_has : forall E i p, good_props (e_ver E) (i_props i) -> no_iid (e_ver E) i ->
  has_profile E i p = false.
Proof.
  intros E i p G H. unfold has_profile, all_profiles.
  destruct (prget (INSTANCE_ID (e_ver E)) (i_props i)) as [d|] eqn:Ed; [|reflexivity].
  destruct d as [|[v s] d]; [reflexivity|]. exfalso.
  pose proof (good_dict _ _ _ _ G Ed) as (_ & Gd & _).
  destruct (Gd v s) as (_ & Ht & _); [now left|]. destruct s as [|q s]; [congruence|].
  apply (H q v). apply (own_Some _ _ _ _ _ (proj1 G) Ed). exists (q :: s). split; now left.
Qed.

Lemma edit_keeps : forall ver i i', reachable ver i -> item_edits ver i i' ->
  reachable ver i' /\
  (i_modified i' = false -> i_modified i = false /\ i_props i' = i_props i) /\
  (no_iid ver i -> no_iid ver i').
Proof.
  intros ver i i' R H.
  induction H as [|E j n x P ow j' <- Hn H IH Hs|E j p j' <- H IH Hs|E j p sp j' <- H IH Hs].
  - auto.
  - destruct IH as (Rj & Hm & Hi). apply reachable_good in Rj as G.
    split; [exact (R_set _ E _ _ _ _ _ _ eq_refl Rj Hs)|]. split.
    + intros Hf. pose proof (set_property_mark _ _ _ _ _ _ _ G Hs Hf) as [H1 H2].
      destruct (Hm H1). split; [assumption|congruence].
    + intros Hno q v. apply set_property_effect in Hs as (v0 & _ & _ & _ & _ & Hk); [|exact Rj].
      rewrite Hk by congruence. now apply Hi.
  - destruct IH as (Rj & Hm & Hi). apply reachable_good in Rj as G.
    split; [exact (R_add_profile _ E _ _ _ _ eq_refl Rj Hs)|]. split.
    + intros Hf. pose proof (add_profile_mark _ _ _ _ _ Hs Hf) as ->. now apply Hm.
    + intros Hno. specialize (Hi Hno). revert Hs. unfold add_profile.
      rewrite no_iid_has by assumption.
      destruct (prget _ _) as [d0|]; [|discriminate].
      destruct (fold_result _ _ j) as [i1|] eqn:E1; [|discriminate]. cbn [rbind].
      assert (I1 : reachable (e_ver E) i1 /\ no_iid (e_ver E) i1).
      { revert E1. apply (fold_result_inv _ _ _ (fun t => reachable (e_ver E) t /\ no_iid (e_ver E) t)); [|easy].
        intros t n t' _ [Rt Ht]. unfold add_profile_step. cbn [option_map].
        apply reachable_good in Rt as Gt.
        destruct (prget n (i_props t)) as [[|e d]|] eqn:Ep; [| |discriminate].
        - intros F; now injection F as <-.
        - destruct (inherited (e :: d) (e :: d)) as [v|] eqn:Ei; [|discriminate].
          intros F. split; [exact (R_set _ E _ _ _ _ _ _ eq_refl Rt F)|]. intros q w.
          apply set_property_effect in F as (v0 & _ & _ & _ & _ & Hk); [|exact Rt].
          rewrite Hk; [apply Ht|]. intros <-.
          destruct e as [v' s]. pose proof (good_dict _ _ _ _ Gt Ep) as (_ & Gd & _).
          destruct (Gd v' s) as (_ & Hs & _); [now left|]. destruct s as [|q' s]; [congruence|].
          apply (Ht q' v'). apply (own_Some _ _ _ _ _ (proj1 Gt) Ep). exists (q' :: s). split; now left. }
      destruct I1 as [R1 H1]. rewrite validate_good; [|exact (reachable_good _ _ R1)].
      intros F. injection F as <-. exact H1.
  - destruct IH as (Rj & Hm & Hi). apply reachable_good in Rj as G.
    split; [exact (R_remove_profile _ E _ _ _ _ eq_refl Rj Hs)|]. split.
    + intros Hf. pose proof (remove_profile_mark _ _ _ _ _ Hs Hf) as ->. now apply Hm.
    + intros Hno. specialize (Hi Hno). unfold remove_profile in Hs.
      rewrite no_iid_has in Hs by assumption. now injection Hs as <-.
Qed.

Lemma edits_keep : forall ver h h', ids_ok ver h -> edits ver h h' ->
  (forall k i', In (k, i') h' -> i_modified i' = false ->
     exists i, In (k, i) h /\ i_modified i = false /\ i_props i' = i_props i) /\
  (forall k i, In (k, i) h -> no_iid ver i -> exists i', In (k, i') h' /\ no_iid ver i').
Proof.
  intros ver h h' Hh H.
  induction H as [|g k i i' H IH Hin Hi|g k i H IH Ht Hi Hm|g k i q v H IH Hin Ho].
  - split; eauto.
  - destruct IH as [IH1 IH2]. pose proof (edits_ids _ _ _ H Hh) as [ND Hg].
    destruct (edit_keeps ver i i' (proj1 (Hg _ _ Hin)) Hi) as (_ & K1 & K2). split.
    + intros k' j Hj Hf. apply hset_In in Hj as [[-> ->]|[Hne Hj]]; [|eauto|exact ND].
      destruct (K1 Hf) as [Hf' ->]. eauto.
    + intros k' j Hj Hno. destruct (IH2 k' j Hj Hno) as (j' & Hj' & Hno').
      destruct (str_eq_dec k' k) as [-> |Hne].
      * exists i'. split; [apply hset_In; auto|]. apply K2.
        assert (j' = i) as <-; [|exact Hno']. apply (hget_In _ _ _ ND) in Hj', Hin. congruence.
      * exists j'. split; [apply hset_In; auto|exact Hno'].
  - destruct IH as [IH1 IH2]. pose proof (edits_ids _ _ _ H Hh) as [ND Hg]. split.
    + intros k' j Hj Hf. apply hset_In in Hj as [[-> ->]|[Hne Hj]]; [congruence|eauto|exact ND].
    + intros k' j Hj Hno. destruct (IH2 k' j Hj Hno) as (j' & Hj' & Hno'). exists j'.
      split; [|exact Hno']. apply hset_In; [exact ND|]. right. split; [|exact Hj'].
      intros ->. apply Ht. now exists j'.
  - destruct IH as [IH1 IH2]. pose proof (edits_ids _ _ _ H Hh) as [ND Hg]. split.
    + intros k' j Hj Hf. apply hdel_In in Hj as [_ Hj]; [eauto|exact ND].
    + intros k' j Hj Hno. destruct (IH2 k' j Hj Hno) as (j' & Hj' & Hno'). exists j'.
      split; [|exact Hno']. apply hdel_In; [exact ND|]. split; [|exact Hj'].
      intros ->. apply (Hno' q v). assert (j' = i) as ->; [|exact Ho].
      apply (hget_In _ _ _ ND) in Hj', Hin. congruence.
Qed.

(** ** Devices that are read have an InstanceID *)

Lemma ids_stay : forall E P l i i', reachable (e_ver E) i -> ~ no_iid (e_ver E) i ->
  fold_result (add_child_property E P) l i = Ok i' -> reachable (e_ver E) i' /\ ~ no_iid (e_ver E) i'.
Proof.
  intros E P l i i' R H. apply (fold_result_inv _ _ _ (fun t => reachable (e_ver E) t /\ ~ no_iid (e_ver E) t));
    [|easy].
  intros j d j' _ [Rj Hj] Hs. destruct (iid_child_dec (e_ver E) d) as [Hd|Hd].
  - apply id_child_step in Hs as (k & Hk & Rj' & Ho); [|exact Rj|exact Hd]. split; [exact Rj'|].
    intros Hno. apply Hj. intros q v Hq.
    apply (second_id E j _ P k q v Rj) in Hk as [_ [q' Hk2]]; [|exact Hq].
    apply (Hno q' v). now apply Ho.
  - apply other_child in Hs as [Rj' Ho]; [|exact Rj|exact Hd]. split; [exact Rj'|].
    intros Hno. apply Hj. intros q v Hq. apply (Hno q v). now apply Ho.
Qed.

Lemma id_arises : forall E P c, iid_child (e_ver E) c -> child_text c <> [] ->
  forall l i i', reachable (e_ver E) i -> In c l ->
  fold_result (add_child_property E P) l i = Ok i' -> reachable (e_ver E) i' /\ ~ no_iid (e_ver E) i'.
Proof.
  intros E P c Ic Tc. induction l as [|a l IH]; intros i i' R Hc H; [contradiction|].
  cbn [fold_result] in H.
  destruct (add_child_property E P i a) as [j|] eqn:Ej; [|discriminate]. cbn [rbind] in H.
  assert (Rj : reachable (e_ver E) j).
  { destruct (iid_child_dec (e_ver E) a) as [Ha|Ha].
    - now apply id_child_step in Ej as (k & _ & Rj & _).
    - now apply other_child in Ej as [Rj _]. }
  destruct Hc as [-> |Hc]; [|now apply (IH j)].
  apply ids_stay in H; [exact H|exact Rj|].
  apply id_child_step in Ej as (k & Hk & _ & Hj); [|exact R|exact Ic].
  apply reachable_good in R as G.
  apply set_property_effect in Hk as (w & Hw & H1 & _); [|exact R].
  rewrite add_wildcards_plain in Hw by apply IID_plain. injection Hw as <-.
  rewrite IID_arg in H1.
  assert (profs_of (i_props i) (INSTANCE_ID (e_ver E)) P <> []).
  { apply profs_nonempty; [apply G|]. intros x. now apply (good_dict (e_ver E)). }
  destruct (profs_of (i_props i) (INSTANCE_ID (e_ver E)) P) as [|q m] eqn:Em; [congruence|].
  intros Hno.
  destruct (holds_own' (i_props k) (INSTANCE_ID (e_ver E)) q (VStr (child_text c))) as [q' Hq'].
  - apply H1; [destruct (child_text c); [congruence|reflexivity]| |reflexivity].
    left. apply (requested_profs E i _ P q G). rewrite Em. now left.
  - apply (Hno q' (VStr (child_text c))). now apply Hj.
Qed.

Lemma add_item_iid : forall E i x i' c, reachable (e_ver E) i ->
  In c (echildren x) -> iid_child (e_ver E) c -> child_text c <> [] ->
  add_item E i x = Ok i' -> ~ no_iid (e_ver E) i'.
Proof.
  intros E i x i' c R Hin Ic Tc H. unfold add_item in H.
  destruct (namespace_for_item_tag (e_ver E) (etag x)) as [ns|] eqn:En; [|discriminate].
  set (P := map Some _) in H.
  destruct (fold_result _ (eattrib x) (with_ns ns i)) as [i1|] eqn:E1; [|discriminate].
  cbn [rbind] in H.
  destruct (fold_result _ (reading_order (e_ver E) (echildren x)) i1) as [i2|] eqn:E2; [|discriminate].
  cbn [rbind] in H. clearbody P.
  assert (R1 : reachable (e_ver E) i1).
  { revert E1. apply (fold_result_inv _ _ _ (reachable (e_ver E))).
    - intros j kv j' _ Rj. destruct (str_eqb _ _); [intros F; now injection F as <-|].
      intros F. exact (R_set _ E _ _ _ _ _ _ eq_refl Rj F).
    - exact (reachable_with_ns E i _ ns R En). }
  apply (id_arises E P c) in E2 as [R2 H2]; auto; [|now apply reading_order_In].
  rewrite validate_good in H by exact (reachable_good _ _ R2). injection H as <-. exact H2.
Qed.

(** While reading: every device has an InstanceID and there are no more devices than
    elements. *)
Definition read_ok (ver : version) (n : nat) (h : hw) : Prop :=
  ids_ok ver h /\ (forall k i, In (k, i) h -> ~ no_iid ver i) /\ (length h <= n)%nat.

Lemma namespace_item : forall v t ns, namespace_for_item_tag v t = Some ns -> mem_str t (item_tags v) = true.
Proof.
  intros v t ns. unfold namespace_for_item_tag.
  destruct (str_eqb t (ITEM v)) eqn:E1; [apply str_eqb_eq in E1 as ->; destruct v; reflexivity|].
  destruct (str_eqb t (STORAGE_ITEM v)) eqn:E2; [apply str_eqb_eq in E2 as ->; destruct v; reflexivity|].
  destruct (str_eqb t (ETHERNET_PORT_ITEM v)) eqn:E3; [apply str_eqb_eq in E3 as ->; destruct v; reflexivity|].
  discriminate.
Qed.

Lemma hset_length : forall h k i, (length (hset k i h) <= S (length h))%nat /\
  (taken h k -> length (hset k i h) = length h).
Proof.
  intros h k i. destruct (dmem str_eqb k h) eqn:Em.
  - assert (length (hset k i h) = length h) as ->; [|split; [lia|reflexivity]].
    rewrite <- !(map_length fst). unfold hset. rewrite (dset_keys str_eqb). now rewrite Em.
  - assert (~ taken h k) by (intros F; apply dmem_taken in F; congruence).
    rewrite hset_fresh by assumption. rewrite app_length. cbn. split; [lia|contradiction].
Qed.

Lemma read_item_ok : forall E h x h' n, read_ok (e_ver E) n h -> read_item E h x = Ok h' ->
  read_ok (e_ver E) (if is_item_elem (e_ver E) x then S n else n) h'.
Proof.
  intros E h x h' n (Hi & Hn & Hl) H. pose proof (ids_read_item E h x h' Hi H) as Hi'.
  split; [exact Hi'|]. unfold read_item in H.
  destruct (namespace_for_item_tag (e_ver E) (etag x)) as [ns|] eqn:En.
  2: { injection H as <-. split; [exact Hn|]. destruct (is_item_elem _ x); lia. }
  unfold is_item_elem. rewrite (namespace_item _ _ _ En).
  destruct (filter _ (echildren x)) as [|c cs] eqn:Ef; [discriminate|].
  assert (Hc : In c (c :: cs)) by now left. rewrite <- Ef in Hc.
  apply filter_In in Hc as [Hc Htag]. apply str_eqb_eq in Htag.
  assert (Ic : iid_child (e_ver E) c).
  { unfold iid_child. rewrite Htag. now apply (strip_ns_IID _ x). }
  destruct (etext c) as [[|a t]|] eqn:Et; [discriminate| |discriminate].
  assert (Tc : child_text c <> []) by (unfold child_text; rewrite Et; discriminate).
  set (k := a :: t) in *. clearbody k.
  destruct (negb _); [discriminate|].
  destruct Hi as [ND Hids].
  assert (A : forall i0 i', reachable (e_ver E) i0 -> add_item E i0 x = Ok i' ->
    (forall k' i, In (k', i) (hset k i' h) -> ~ no_iid (e_ver E) i) /\
    (length (hset k i' h) <= S n)%nat).
  { intros i0 i' R0 Ha. split.
    - intros k' j Hj. apply hset_In in Hj as [[-> ->]|[_ Hj]]; [|now apply (Hn k')|exact ND].
      now apply (add_item_iid E i0 x i' c).
    - destruct (hset_length h k i') as [Hlen _]. lia. }
  destruct (hget k h) as [i|] eqn:Eg.
  - destruct (add_item E i x) as [i'|[]] eqn:Ea; try discriminate. injection H as <-.
    apply (A i i'); [|exact Ea]. apply (Hids k). now apply hget_In.
  - destruct (add_item E (new_ovfitem E) x) as [i'|] eqn:Ea; [|discriminate]. cbn [rbind] in H.
    injection H as <-. apply (A (new_ovfitem E) i'); [now apply R_new|exact Ea].
Qed.

Lemma read_fold_ok : forall E l h h' n, read_ok (e_ver E) n h -> fold_result (read_item E) l h = Ok h' ->
  read_ok (e_ver E) (n + length (filter (is_item_elem (e_ver E)) l)) h'.
Proof.
  intros E. induction l as [|x l IH]; intros h h' n Hh H; cbn [fold_result filter] in *.
  - injection H as <-. now rewrite Nat.add_0_r.
  - destruct (read_item E h x) as [h1|] eqn:E1; [|discriminate]. cbn [rbind] in H.
    apply (read_item_ok E h x h1 n Hh) in E1. apply (IH h1 h' _ E1) in H.
    destruct (is_item_elem (e_ver E) x); cbn [length]; [|exact H].
    now rewrite <- Nat.add_succ_comm.
Qed.

Theorem read_hardware_ok : forall E sec h, read_hardware E sec = Ok h ->
  read_ok (e_ver E) (length (item_children (e_ver E) sec)) h /\
  forall k i, In (k, i) h -> i_modified i = false.
Proof.
  intros E sec h H. pose proof (ids_read E sec h H) as Hi. unfold read_hardware in H.
  destruct (fold_result (read_item E) (echildren sec) []) as [h0|] eqn:E0; [|discriminate].
  cbn [rbind] in H. injection H as <-.
  apply (read_fold_ok E _ [] h0 0) in E0 as (_ & Hn & Hl).
  2: { split; [apply ids_nil|]. split; [contradiction|cbn; lia]. }
  split; [split; [exact Hi|split]|].
  - intros k i Hin. apply in_map_iff in Hin as ([k' i'] & Heq & Hin). injection Heq as <- <-.
    exact (Hn _ _ Hin).
  - rewrite map_length. exact Hl.
  - intros k i Hin. apply in_map_iff in Hin as ([k' i'] & Heq & Hin). now injection Heq as <- <-.
Qed.

(** ** Devices with an InstanceID are written *)

Lemma generate_nonempty : forall E i xs, reachable (e_ver E) i -> ~ no_iid (e_ver E) i ->
  generate_items E i = Ok xs -> xs <> [].
Proof.
  intros E i xs R Hi H ->. apply reachable_good in R as G. unfold generate_items in H.
  destruct (get_nonintersecting_set_list _) as [l|] eqn:El; [|discriminate]. cbn [rbind] in H.
  destruct (item_tag_for_namespace _ _) as [tag|]; [|discriminate]. cbn [rbind] in H.
  apply rmap_ok_inv in H. inversion H; subst l. clear H.
  unfold get_nonintersecting_set_list in El.
  destruct (rmap set_string (partition (i_props i))) as [l0|] eqn:E0; [|discriminate]. cbn [rbind] in El.
  apply natural_sort_sound in El as [P _]. apply Permutation_sym, Permutation_nil in P. subst l0.
  apply rmap_ok_inv in E0. inversion E0 as [Hp|]. clear E0.
  pose proof (p_cover _ _ (partition_parts _ _ G)) as C. rewrite <- Hp in C.
  apply Hi. intros q v Ho. destruct (proj2 (C q)) as (s & [] & _). eauto.
Qed.

Lemma concat_length : forall (A : Type) (l : list (list A)), (forall x, In x l -> x <> []) ->
  (length l <= length (concat l))%nat.
Proof.
  induction l as [|x l IH]; intros H; [cbn; lia|]. cbn [concat length]. rewrite app_length.
  assert (x <> []) by (apply H; now left). destruct x; [congruence|]. cbn [length].
  assert (length l <= length (concat l))%nat by (apply IH; intros y Hy; apply H; now right). lia.
Qed.

Lemma generated_length : forall E h xs, ids_ok (e_ver E) h -> generated E h xs ->
  (forall k i, In (k, i) h -> ~ no_iid (e_ver E) i) -> (length h <= length xs)%nat.
Proof.
  intros E h xs [_ Hh] (keys & xss & Hk & HF & ->) Hn.
  apply natural_sort_sound in Hk as [P _]. apply Permutation_length in P. rewrite map_length in P.
  assert (HL : forall ks ls, Forall2 (fun k ys => exists i, In (k, i) h /\ generate_items E i = Ok ys) ks ls ->
    length ks = length ls /\ forall y, In y ls -> y <> []).
  { intros ks ls H. induction H as [|k ys ks ls (i & Hin & Hg) H [IH1 IH2]]; [split; [reflexivity|contradiction]|].
    split; [cbn; now rewrite IH1|]. intros y [<- |Hy]; [|now apply IH2].
    apply (generate_nonempty E i); [apply (Hh k i Hin)|now apply (Hn k)|exact Hg]. }
  destruct (HL _ _ HF) as [L1 L2]. apply concat_length in L2. lia.
Qed.

(** ** The history *)

Definition based (ver : version) (h0 : hw) (sec : elem) : Prop :=
  describes ver sec h0 /\
  ((forall k i, In (k, i) h0 -> ~ no_iid ver i) -> (length h0 <= length (item_children ver sec))%nat).

Record tracked (ver : version) (h : hw) (sec : elem) (h0 : hw) : Prop := {
  t_now : ids_ok ver h;
  t_old : ids_ok ver h0;
  t_based : based ver h0 sec;
  t_marks : forall k i', In (k, i') h -> i_modified i' = false ->
     exists i, In (k, i) h0 /\ i_modified i = false /\ i_props i' = i_props i;
  t_gone : forall k i, In (k, i) h0 -> no_iid ver i -> exists i', In (k, i') h /\ no_iid ver i';
  t_have : forall k i, In (k, i) h -> i_modified i = false -> ~ no_iid ver i }.

Lemma split_length : forall (A : Type) (f : A -> bool) l,
  length (filter f l ++ filter (fun x => negb (f x)) l) = length l.
Proof.
  intros A f l. rewrite app_length. induction l as [|x l IH]; [reflexivity|]. cbn.
  destruct (f x); cbn; lia.
Qed.

Lemma same_refl : forall h, same_devices h h.
Proof. intros h k ps. reflexivity. Qed.

Lemma written_based : forall E h sec xs sec', ids_ok (e_ver E) h -> generated E h xs ->
  holds_items (e_ver E) sec xs sec' -> based (e_ver E) h sec'.
Proof.
  intros E h sec xs sec' Hi G Hh. pose proof (other_children_after E h sec xs sec' G Hh) as [_ Hc]. split.
  - right. exists E, h, xs. split; [reflexivity|]. split; [exact G|]. split; [apply same_refl|exact Hc].
  - intros Hn. rewrite Hc, split_length. now apply (generated_length E).
Qed.

Lemma describes_items : forall ver h sec sec', item_children ver sec' = item_children ver sec ->
  based ver h sec -> based ver h sec'.
Proof.
  intros ver h sec sec' Hc [Hd Hl]. split; [|now rewrite Hc].
  destruct Hd as [(E & s0 & h0 & H1 & H2 & H3 & H4)|(E & h0 & xs & H1 & H2 & H3 & H4)]; [left|right].
  - exists E, s0, h0. rewrite Hc. auto.
  - exists E, h0, xs. rewrite Hc. auto.
Qed.

Lemma history_tracked : forall ver h sec, history ver h sec -> exists h0, tracked ver h sec h0.
Proof.
  intros ver h sec H. induction H as [E sec h <- H|h h' sec H [h0 T] Hs|E h sec sec' <- H [h0 T] Hw|h sec sec' H [h0 T] Hc].
  - pose proof (read_hardware_ok E sec h H) as [(Hi & Hn & Hl) Hm]. exists h. constructor; eauto.
    split; [|auto]. left. exists E, sec, h. repeat split; auto.
  - destruct T. pose proof (step_edits ver h h' t_now0 Hs) as [He Hi].
    destruct (edits_keep ver h h' t_now0 He) as [K1 K2]. exists h0. constructor; auto.
    + intros k i' Hin Hf. destruct (K1 k i' Hin Hf) as (i & Hi1 & Hi2 & ->). eauto.
    + intros k i Hin Hno. destruct (t_gone0 k i Hin Hno) as (j & Hj & Hnj). eauto.
    + intros k i' Hin Hf Hno. destruct (K1 k i' Hin Hf) as (i & Hi1 & Hi2 & Hp).
      apply (t_have0 k i Hi1 Hi2). intros q v. rewrite <- Hp. apply Hno.
  - destruct (update_content E h sec sec' (proj1 (t_now _ _ _ _ T)) Hw) as [[L ->]|[L (xs & G & Hh)]];
      [now exists h0|].
    destruct T. exists h. constructor; eauto. now apply (written_based E h sec xs).
  - destruct T. exists h0. constructor; auto. now apply (describes_items ver h0 sec).
Qed.

Lemma same_devices_trans : forall a b c, same_devices a b -> same_devices b c -> same_devices a c.
Proof. intros a b c H1 H2 k ps. rewrite (H1 k ps). apply H2. Qed.

Theorem no_lost_update : forall E h sec sec', history (e_ver E) h sec ->
  update_xml E h sec = Ok sec' -> describes (e_ver E) sec' h.
Proof.
  intros E h sec sec' H Hw. destruct (history_tracked _ _ _ H) as [h0 T].
  destruct (update_content E h sec sec' (proj1 (t_now _ _ _ _ T)) Hw) as [[[Lc Lm] ->]|[_ (xs & G & Hh)]].
  2: { apply (written_based E h sec xs sec' (t_now _ _ _ _ T) G Hh). }
  destruct T. destruct t_based0 as [Hd Hl]. destruct t_now0 as [ND _]. destruct t_old0 as [ND0 _].
  assert (Hall : forall k i, In (k, i) h0 -> ~ no_iid (e_ver E) i).
  { intros k i Hin Hno. destruct (t_gone0 k i Hin Hno) as (j & Hj & Hnj).
    apply (t_have0 k j Hj); [|exact Hnj]. now apply (Lm k). }
  apply Hl in Hall. rewrite <- Lc in Hall.
  assert (Hinc : incl (map fst h) (map fst h0)).
  { intros k Hk. apply in_map_iff in Hk as ([k' i] & <- & Hin). cbn [fst].
    destruct (t_marks0 k' i Hin (Lm _ _ Hin)) as (j & Hj & _). apply in_map_iff. now exists (k', j). }
  assert (Hinc' : incl (map fst h0) (map fst h)).
  { apply NoDup_length_incl; [exact ND|now rewrite !map_length|exact Hinc]. }
  assert (S : same_devices h h0).
  { intros k ps. split.
    - intros (i & Hin & <-). destruct (t_marks0 k i Hin (Lm _ _ Hin)) as (j & Hj & _ & Hp). eauto.
    - intros (j & Hj & <-). assert (Hk : In k (map fst h)).
      { apply Hinc'. apply in_map_iff. now exists (k, j). }
      apply in_map_iff in Hk as ([k' i] & Ek & Hin). cbn in Ek. subst k'. exists i. split; [exact Hin|].
      destruct (t_marks0 k i Hin (Lm _ _ Hin)) as (j' & Hj' & _ & Hp). rewrite Hp. f_equal.
      apply (hget_In _ _ _ ND0) in Hj, Hj'. congruence. }
  destruct Hd as [(E0 & s0 & g & H1 & H2 & H3 & H4)|(E0 & g & xs & H1 & H2 & H3 & H4)]; [left|right].
  - exists E0, s0, g. repeat (split; [assumption|]). now apply (same_devices_trans _ h0).
  - exists E0, g, xs. split; [exact H1|]. split; [exact H2|]. split; [now apply (same_devices_trans _ h0)|exact H4].
Qed.

Lemma history_reachable : forall ver h sec, history ver h sec -> hw_reachable ver h.
Proof.
  intros ver h sec H. induction H as [E sec h HE H|h h' sec H IH Hs| |]; auto.
  - exact (H_read ver E sec h HE H).
  - exact (H_step ver h h' IH Hs).
Qed.
