(** Proofs about COT/vm_description/ovf/item.py: the invariant and set_property. *)
From Coq Require Import Lia.
From Verif Require Import PyBase PyBaseProofs PyDict PyDictProofs XmlModel NamesModel
  ItemModel ItemSpec PsetProofs.

(** ** Records of one dictionary *)

Definition own_d (d : vdict) (p : profile) (v : value) : Prop :=
  exists s, In (v, s) d /\ In p s.

Lemma prget_In : forall ps n d, NoDup (map fst ps) ->
  (prget n ps = Some d <-> In (n, d) ps).
Proof.
  intros ps n d H. unfold prget. split.
  - apply dget_In. apply str_eqb_eq.
  - apply dget_Some_In; [apply str_eqb_eq|exact H].
Qed.

Lemma prget_None : forall ps n, prget n ps = None <-> ~ In n (map fst ps).
Proof. intros. apply dget_None. apply str_eqb_eq. Qed.

Lemma own_iff : forall ps n p v, NoDup (map fst ps) ->
  (own ps n p v <-> exists d, prget n ps = Some d /\ own_d d p v).
Proof.
  intros ps n p v H. split.
  - intros (d & s & Hd & Hs & Hp). exists d. split; [now apply prget_In|]. now exists s.
  - intros (d & Hd & s & Hs & Hp). exists d, s. apply prget_In in Hd; auto.
Qed.

Lemma own_Some : forall ps n d p v, NoDup (map fst ps) -> prget n ps = Some d ->
  (own ps n p v <-> own_d d p v).
Proof.
  intros ps n d p v H Hd. rewrite own_iff by exact H. split.
  - intros (d' & Hd' & Ho). congruence.
  - intros Ho. now exists d.
Qed.

Lemma own_None : forall ps n p v, NoDup (map fst ps) -> prget n ps = None -> ~ own ps n p v.
Proof.
  intros ps n p v H Hn Ho. apply own_iff in Ho as (d & Hd & _); congruence.
Qed.

Lemma vget_In : forall d v s, NoDup (map fst d) -> (vget v d = Some s <-> In (v, s) d).
Proof.
  intros d v s H. unfold vget. split.
  - apply dget_In. apply value_eqb_eq.
  - apply dget_Some_In; [apply value_eqb_eq|exact H].
Qed.

Lemma key_unique : forall (d : vdict) v s t, NoDup (map fst d) ->
  In (v, s) d -> In (v, t) d -> s = t.
Proof.
  intros d v s t H Hs Ht. apply vget_In in Hs; [|exact H]. apply vget_In in Ht; [|exact H].
  congruence.
Qed.

Lemma own_d_unique : forall d p v w, good_values d -> own_d d p v -> own_d d p w -> v = w.
Proof. intros d p v w (_ & _ & H) (s & Hs & Hp) (t & Ht & Hq). eauto. Qed.

Lemma own_unique : forall ver ps n p v w, good_props ver ps ->
  own ps n p v -> own ps n p w -> v = w.
Proof.
  intros ver ps n p v w (Hnd & Hg & _) Hv Hw.
  apply own_iff in Hv as (d & Hd & Hv); auto. apply own_iff in Hw as (d' & Hd' & Hw); auto.
  assert (d' = d) by congruence. subst. apply prget_In in Hd; auto.
  apply (own_d_unique d p); eauto.
Qed.

Lemma own_dec : forall ps n p, NoDup (map fst ps) ->
  (exists v, own ps n p v) \/ (forall v, ~ own ps n p v).
Proof.
  intros ps n p H. destruct (prget n ps) as [d|] eqn:E.
  - assert (Hd : (exists v, own_d d p v) \/ (forall v, ~ own_d d p v)).
    { clear E. induction d as [|[v s] d IH].
      - right. intros v (s & [] & _).
      - destruct (In_profile_dec p s) as [Hp|Hp].
        + left. exists v, s. split; [now left|exact Hp].
        + destruct IH as [(w & t & Ht & Hq)|IH].
          * left. exists w, t. split; [now right|exact Hq].
          * right. intros w (t & [Ht|Ht] & Hq).
            -- injection Ht as -> ->. contradiction.
            -- apply (IH w). now exists t. }
    destruct Hd as [(v & Hv)|Hd].
    + left. exists v. now apply (own_Some ps n d).
    + right. intros v Hv. apply (Hd v). now apply (own_Some ps n d) in Hv.
  - right. intros v. now apply own_None.
Qed.

(** ** Normalisation by validate *)

Definition norm_set (s : pset) : pset :=
  if pmem None s && (1 <? length s) then [None] else s.
Definition norm_entry (vs : value * pset) : value * pset := (fst vs, norm_set (snd vs)).

Lemma norm_set_In : forall s p, In p (norm_set s) -> In p s.
Proof.
  intros s p. unfold norm_set. destruct (pmem None s && _) eqn:E; [|auto].
  apply andb_true_iff in E as [E _]. apply pmem_In in E. intros [<-|[]]. exact E.
Qed.
Lemma norm_set_None : forall s, In None (norm_set s) <-> In None s.
Proof.
  intros s. unfold norm_set. destruct (pmem None s && _) eqn:E; [|reflexivity].
  apply andb_true_iff in E as [E _]. apply pmem_In in E. cbn. tauto.
Qed.
Lemma norm_set_named : forall s p, ~ In None s -> (In p (norm_set s) <-> In p s).
Proof.
  intros s p H. unfold norm_set. apply pmem_false in H. rewrite H. reflexivity.
Qed.
Lemma norm_set_good : forall s, (In None s -> s = [None]) -> norm_set s = s.
Proof.
  intros s H. unfold norm_set. destruct (pmem None s) eqn:E; [|reflexivity].
  apply pmem_In in E. rewrite (H E). reflexivity.
Qed.
Lemma norm_set_default : forall s, NoDup s -> In None (norm_set s) -> norm_set s = [None].
Proof.
  intros s Hnd H. apply (proj1 (norm_set_None s)) in H. unfold norm_set.
  rewrite (proj2 (pmem_In None s) H). cbn [andb]. destruct (1 <? length s) eqn:E; [reflexivity|].
  apply Nat.ltb_ge in E. now apply only_None.
Qed.
Lemma norm_set_NoDup : forall s, NoDup s -> NoDup (norm_set s).
Proof.
  intros s H. unfold norm_set. destruct (pmem None s && _); [|exact H].
  repeat constructor. intros [].
Qed.
Lemma norm_set_nonempty : forall s, s <> [] -> norm_set s <> [].
Proof. intros s H. unfold norm_set. destruct (pmem None s && _); [discriminate|exact H]. Qed.

Definition disjoint_values (d : vdict) : Prop :=
  forall v s w t p, In (v, s) d -> In (w, t) d -> In p s -> In p t -> v = w.

Lemma validate_sets_ok : forall d so_far, NoDup (map fst d) -> disjoint_values d ->
  (forall v s p, In (v, s) d -> In p s -> ~ In p so_far) ->
  validate_sets so_far d = Ok (map norm_entry d).
Proof.
  induction d as [|[v s] d IH]; intros so_far Hnd Hdis Hso; [reflexivity|].
  cbn [validate_sets map]. cbn zeta.
  change (if pmem None s && (1 <? length s) then [None] else s) with (norm_set s).
  change (norm_entry (v, s)) with (v, norm_set s).
  inversion Hnd as [|? ? Hni Hnd']; subst.
  assert (E : is_nil (pinter so_far (norm_set s)) = true).
  { apply is_nil_pinter. intros q Hq Hs. apply norm_set_In in Hs.
    apply (Hso v s q); auto. now left. }
  rewrite E. cbn [negb]. rewrite IH; [reflexivity|exact Hnd'| |].
  - intros v1 s1 w t p H1 H2. apply Hdis; now right.
  - intros w t p Hw Hp Hin. apply punion_In in Hin as [Hin|Hin].
    + apply (Hso w t p); auto. now right.
    + apply norm_set_In in Hin. apply Hni.
      assert (v = w). { apply (Hdis v s w t p); auto; [now left|now right]. }
      subst. apply in_map_iff. now exists (w, t).
Qed.

Lemma norm_entries_good : forall d, good_values d -> map norm_entry d = d.
Proof.
  intros d (_ & H & _). rewrite <- (map_id d) at 2. apply map_ext_in.
  intros [v s] Hin. unfold norm_entry. cbn. rewrite norm_set_good; [reflexivity|].
  intros HN. now apply (H v s Hin).
Qed.

Lemma norm_entries_values : forall d, NoDup (map fst d) -> disjoint_values d ->
  (forall v s, In (v, s) d -> truthy v = true /\ s <> [] /\ NoDup s) ->
  good_values (map norm_entry d).
Proof.
  intros d Hnd Hdis H. repeat split.
  - rewrite map_map. cbn. exact Hnd.
  - apply in_map_iff in H0 as ((v' & s') & E & Hin). injection E as <- <-.
    now apply (H v' s').
  - apply in_map_iff in H0 as ((v' & s') & E & Hin). injection E as <- <-.
    apply norm_set_nonempty. now apply (H v' s').
  - apply in_map_iff in H0 as ((v' & s') & E & Hin). injection E as <- <-.
    apply norm_set_NoDup. now apply (H v' s').
  - intros HN. apply in_map_iff in H0 as ((v' & s') & E & Hin). injection E as <- <-.
    apply norm_set_default; [now apply (H v' s')|exact HN].
  - intros v s w t p H1 H2 Hs Ht.
    apply in_map_iff in H1 as ((v' & s') & E & Hin). injection E as <- <-.
    apply in_map_iff in H2 as ((w' & t') & E & Hin'). injection E as <- <-.
    apply norm_set_In in Hs. apply norm_set_In in Ht. eauto.
Qed.

Lemma good_disjoint : forall d, good_values d -> disjoint_values d.
Proof. intros d (_ & _ & H). exact H. Qed.

Lemma validate_sets_good : forall d, good_values d -> validate_sets [] d = Ok d.
Proof.
  intros d H. rewrite validate_sets_ok.
  - now rewrite norm_entries_good.
  - apply H.
  - now apply good_disjoint.
  - intros v s p _ _ [].
Qed.

Lemma validate_props_good : forall ps, (forall n d, In (n, d) ps -> good_values d) ->
  validate_props ps = Ok ps.
Proof.
  induction ps as [|[n d] ps IH]; intros H; [reflexivity|]. cbn [validate_props].
  rewrite validate_sets_good by (apply (H n); now left). cbn [rbind].
  rewrite IH by (intros m e Hm; apply (H m); now right). reflexivity.
Qed.

Lemma single_valued_ok : forall ver ps n, good_props ver ps ->
  n = INSTANCE_ID ver \/ n = RESOURCE_TYPE -> single_valued ps n = true.
Proof.
  intros ver ps n (Hnd & _ & Hs) Hn. unfold single_valued.
  destruct (prget n ps) as [d|] eqn:E; [|reflexivity]. apply prget_In in E; auto.
  specialize (Hs n d E Hn). destruct d as [|a [|b d]]; auto. cbn in Hs. lia.
Qed.

Lemma validate_good : forall E i, good_props (e_ver E) (i_props i) -> validate E i = Ok i.
Proof.
  intros E i H. unfold validate.
  rewrite (single_valued_ok (e_ver E)), (single_valued_ok (e_ver E)) by (auto; now right).
  cbn [andb]. destruct H as (_ & H & _). rewrite validate_props_good by exact H.
  cbn. now destruct i.
Qed.

(** Replacing one dictionary. *)
Lemma In_prset : forall ps n d m e, NoDup (map fst ps) ->
  (In (m, e) (prset n d ps) <-> (m = n /\ e = d) \/ (m <> n /\ In (m, e) ps)).
Proof.
  intros ps n d m e Hnd.
  assert (Hnd' : NoDup (map fst (prset n d ps))) by (apply dset_NoDup; [apply str_eqb_eq|exact Hnd]).
  rewrite <- (prget_In (prset n d ps)) by exact Hnd'.
  destruct (str_eq_dec m n) as [->|Hne].
  - unfold prget, prset. rewrite dget_dset_same by apply str_eqb_eq. split.
    + intros H. injection H as ->. now left.
    + intros [[_ ->]|[H _]]; [reflexivity|contradiction].
  - unfold prget, prset. rewrite dget_dset_other by (auto; apply str_eqb_eq).
    fold (prget m ps). rewrite prget_In by exact Hnd. intuition.
Qed.

Lemma In_prdel : forall ps n m e, NoDup (map fst ps) ->
  (In (m, e) (prdel n ps) <-> m <> n /\ In (m, e) ps).
Proof.
  intros ps n m e Hnd.
  assert (Hnd' : NoDup (map fst (prdel n ps))) by (apply ddel_NoDup; [apply str_eqb_eq|exact Hnd]).
  rewrite <- (prget_In (prdel n ps)) by exact Hnd'. unfold prdel.
  destruct (str_eq_dec m n) as [->|Hne].
  - unfold prget. rewrite dget_ddel_same by (auto; apply str_eqb_eq).
    split; [discriminate|tauto].
  - unfold prget. rewrite dget_ddel_other by (auto; apply str_eqb_eq).
    fold (prget m ps). rewrite prget_In by exact Hnd. tauto.
Qed.

Lemma validate_props_set : forall ps n d d', validate_sets [] d = Ok d' ->
  (forall m e, In (m, e) ps -> m <> n -> good_values e) ->
  NoDup (map fst ps) ->
  validate_props (prset n d ps) = Ok (prset n d' ps).
Proof.
  intros ps n d d' Hd. induction ps as [|[m e] ps IH]; intros Hg Hnd; cbn [prset dset].
  - cbn. now rewrite Hd.
  - inversion Hnd as [|? ? Hni Hnd']; subst.
    unfold prset. cbn [dset]. destruct (str_eqb n m) eqn:E.
    + cbn [validate_props]. rewrite Hd. cbn [rbind].
      apply str_eqb_eq in E. subst m.
      rewrite validate_props_good; [reflexivity|]. intros k f Hk.
      apply (Hg k f); [now right|]. intros ->. apply Hni. apply in_map_iff. now exists (n, f).
    + apply str_eqb_neq in E. cbn [validate_props].
      rewrite validate_sets_good by (apply (Hg m e); [now left|congruence]). cbn [rbind].
      fold (prset n d ps). fold (prset n d' ps).
      rewrite IH; [reflexivity| |exact Hnd']. intros k f Hk. apply Hg. now right.
Qed.

(** ** set_property on an existing property *)

Definition new_set (v : value) (P : pset) (k : value) (s : pset) : pset :=
  if negb (value_eqb k v) then pdiff s P
  else if pmem None s then s else punion s P.
Definition upd_entry (v : value) (P : pset) (ks : value * pset) : vdict :=
  let (k, s) := ks in
  let new := new_set v P k s in
  if pset_eqb new s then [(k, s)] else if is_nil new then [] else [(k, new)].
Definition upd (v : value) (P : pset) (d : vdict) : vdict := flat_map (upd_entry v P) d.
Definition changes (v : value) (P : pset) (d : vdict) : bool :=
  existsb (fun ks => negb (pset_eqb (new_set v P (fst ks) (snd ks)) (snd ks))) d.
Definition conflicts (P : pset) (d : vdict) : bool :=
  existsb (fun ks => negb (is_nil (pinter (snd ks) P))) d.

Lemma vdel_mid : forall a k s b, ~ In k (map fst a) -> vdel k (a ++ (k, s) :: b) = a ++ b.
Proof.
  induction a as [|[k' s'] a IH]; intros k s b H; unfold vdel; cbn.
  - now rewrite value_eqb_refl.
  - destruct (value_eqb k k') eqn:E.
    + apply value_eqb_eq in E. subst. exfalso. apply H. now left.
    + f_equal. apply IH. intros Hin. apply H. now right.
Qed.
Lemma vset_mid : forall a k s t b, ~ In k (map fst a) ->
  vset k t (a ++ (k, s) :: b) = a ++ (k, t) :: b.
Proof.
  induction a as [|[k' s'] a IH]; intros k s t b H; unfold vset; cbn.
  - now rewrite value_eqb_refl.
  - destruct (value_eqb k k') eqn:E.
    + apply value_eqb_eq in E. subst. exfalso. apply H. now left.
    + f_equal. apply IH. intros Hin. apply H. now right.
Qed.

Lemma upd_keys : forall v P d k, In k (map fst (upd v P d)) -> In k (map fst d).
Proof.
  intros v P d k. induction d as [|[k' s] d IH]; cbn [upd flat_map map]; [auto|].
  rewrite map_app, in_app_iff. intros [H|H]; [|right; now apply IH].
  left. cbn [upd_entry] in H. destruct (pset_eqb _ _).
  - destruct H as [<-|[]]. reflexivity.
  - destruct (is_nil _); [contradiction|]. destruct H as [<-|[]]. reflexivity.
Qed.

Lemma upd_NoDup : forall v P d, NoDup (map fst d) -> NoDup (map fst (upd v P d)).
Proof.
  intros v P d. induction d as [|[k s] d IH]; intros H; cbn [upd flat_map map]; [constructor|].
  inversion H as [|? ? Hni Hnd]; subst. specialize (IH Hnd).
  rewrite map_app. cbn [upd_entry]. destruct (pset_eqb _ _).
  - cbn. constructor; [|exact IH]. intros Hin. apply Hni. now apply (upd_keys v P).
  - destruct (is_nil _); cbn; [exact IH|]. constructor; [|exact IH].
    intros Hin. apply Hni. now apply (upd_keys v P).
Qed.

Lemma existing_loop_eq : forall ow v P snap done m, NoDup (map fst snap) ->
  (forall k, In k (map fst snap) -> ~ In k (map fst done)) ->
  existing_loop ow v P snap (done ++ snap) m =
  if negb ow && conflicts P snap then Err EOVFItemData
  else Ok (done ++ upd v P snap, m || changes v P snap).
Proof.
  intros ow v P. induction snap as [|[k s] snap IH]; intros done m Hnd Hdone.
  - cbn. now rewrite andb_false_r, orb_false_r.
  - inversion Hnd as [|? ? Hni Hnd']; subst.
    assert (Hk : ~ In k (map fst done)) by (apply Hdone; now left).
    cbn [existing_loop conflicts existsb changes fst snd upd flat_map upd_entry].
    fold (conflicts P snap). fold (changes v P snap). fold (upd v P snap).
    fold (new_set v P k s).
    destruct (negb ow) eqn:Eow; cbn [andb].
    + destruct (is_nil (pinter s P)) eqn:Ei; cbn [negb orb]; [|reflexivity].
      assert (IHs := fun done' m' H => IH done' m' Hnd' H). cbn [andb] in IHs.
      destruct (pset_eqb (new_set v P k s) s) eqn:Ep; cbn [negb orb app].
      * change (done ++ (k, s) :: snap) with (done ++ [(k, s)] ++ snap).
        rewrite app_assoc, IHs.
        -- now rewrite <- app_assoc.
        -- intros k' Hk' Hin. rewrite map_app, in_app_iff in Hin. destruct Hin as [Hin|[<-|[]]].
           ++ apply (Hdone k'); [now right|exact Hin].
           ++ contradiction.
      * destruct (is_nil (new_set v P k s)).
        -- rewrite vdel_mid by exact Hk. rewrite IHs.
           ++ cbn [app]. destruct (conflicts P snap); [reflexivity|]. now rewrite orb_true_r.
           ++ intros k' Hk'. apply Hdone. now right.
        -- rewrite vset_mid by exact Hk.
           change (done ++ (k, new_set v P k s) :: snap)
             with (done ++ [(k, new_set v P k s)] ++ snap).
           rewrite app_assoc, IHs.
           ++ rewrite <- app_assoc. cbn [app]. destruct (conflicts P snap); [reflexivity|].
              now rewrite orb_true_r.
           ++ intros k' Hk' Hin. rewrite map_app, in_app_iff in Hin.
              destruct Hin as [Hin|[<-|[]]].
              ** apply (Hdone k'); [now right|exact Hin].
              ** contradiction.
    + assert (IHs := fun done' m' H => IH done' m' Hnd' H). cbn [andb] in IHs.
      destruct (pset_eqb (new_set v P k s) s) eqn:Ep; cbn [negb orb app].
      * change (done ++ (k, s) :: snap) with (done ++ [(k, s)] ++ snap).
        rewrite app_assoc, IHs.
        -- now rewrite <- app_assoc.
        -- intros k' Hk' Hin. rewrite map_app, in_app_iff in Hin. destruct Hin as [Hin|[<-|[]]].
           ++ apply (Hdone k'); [now right|exact Hin].
           ++ contradiction.
      * destruct (is_nil (new_set v P k s)).
        -- rewrite vdel_mid by exact Hk. rewrite IHs.
           ++ cbn [app]. now rewrite orb_true_r.
           ++ intros k' Hk'. apply Hdone. now right.
        -- rewrite vset_mid by exact Hk.
           change (done ++ (k, new_set v P k s) :: snap)
             with (done ++ [(k, new_set v P k s)] ++ snap).
           rewrite app_assoc, IHs.
           ++ rewrite <- app_assoc. cbn [app]. now rewrite orb_true_r.
           ++ intros k' Hk' Hin. rewrite map_app, in_app_iff in Hin.
              destruct Hin as [Hin|[<-|[]]].
              ** apply (Hdone k'); [now right|exact Hin].
              ** contradiction.
Qed.

Lemma upd_unchanged : forall v P d, changes v P d = false -> upd v P d = d.
Proof.
  intros v P d. induction d as [|[k s] d IH]; [reflexivity|].
  cbn [changes existsb fst snd upd flat_map upd_entry]. intros H.
  apply orb_false_iff in H as [H1 H2]. apply negb_false_iff in H1. rewrite H1.
  cbn [app]. f_equal. now apply IH.
Qed.

(** Entries of the updated dictionary, as sets. *)
Lemma upd_In : forall v P d k t, In (k, t) (upd v P d) ->
  exists s, In (k, s) d /\ (forall p, In p t <-> In p (new_set v P k s)) /\
  (s <> [] -> t <> []) /\ (NoDup s -> NoDup t).
Proof.
  intros v P d k t H. apply in_flat_map in H as ((k' & s) & Hin & H). cbn in H.
  destruct (pset_eqb (new_set v P k' s) s) eqn:E.
  - destruct H as [H|[]]. injection H as -> ->. exists t. split; [exact Hin|].
    rewrite pset_eqb_spec in E. split; [intros p; symmetry; apply E|]. now split.
  - destruct (is_nil (new_set v P k' s)) eqn:En; [contradiction|].
    destruct H as [H|[]]. injection H as -> <-. exists s. split; [exact Hin|].
    split; [reflexivity|]. split.
    + intros _. now apply is_nil_false.
    + intros Hnd. unfold new_set. destruct (negb _); [now apply pdiff_NoDup|].
      destruct (pmem None s); [exact Hnd|now apply punion_NoDup].
Qed.

Lemma upd_own : forall v P d p w,
  own_d (upd v P d) p w <-> exists s, In (w, s) d /\ In p (new_set v P w s).
Proof.
  intros v P d p w. split.
  - intros (t & Ht & Hp). apply upd_In in Ht as (s & Hs & Heq & _). exists s.
    split; [exact Hs|]. now apply Heq.
  - intros (s & Hs & Hp). destruct (pset_eqb (new_set v P w s) s) eqn:E.
    + exists s. split.
      * apply in_flat_map. exists (w, s). split; [exact Hs|]. cbn. rewrite E. now left.
      * rewrite pset_eqb_spec in E. now apply E.
    + exists (new_set v P w s). split; [|exact Hp]. apply in_flat_map. exists (w, s).
      split; [exact Hs|]. cbn. rewrite E.
      destruct (is_nil (new_set v P w s)) eqn:En; [|now left].
      apply is_nil_true in En. rewrite En in Hp. contradiction.
Qed.

Lemma new_set_other : forall v P k s p, k <> v ->
  (In p (new_set v P k s) <-> In p s /\ ~ In p P).
Proof.
  intros v P k s p H. unfold new_set. apply value_eqb_neq in H. rewrite H. cbn.
  apply pdiff_In.
Qed.
Lemma new_set_same : forall v P s p,
  In p (new_set v P v s) <-> In p s \/ (~ In None s /\ In p P).
Proof.
  intros v P s p. unfold new_set. rewrite value_eqb_refl. cbn [negb].
  destruct (pmem None s) eqn:E.
  - apply pmem_In in E. tauto.
  - apply pmem_false in E. rewrite punion_In. tauto.
Qed.

(** The dictionary after set_property, before and after normalisation. *)
Definition added (v : value) (P : pset) (d : vdict) : vdict :=
  if truthy v && negb (dmem value_eqb v (upd v P d)) then [(v, P)] else [].
Definition pre (v : value) (P : pset) (d : vdict) : vdict := upd v P d ++ added v P d.
Definition fin (v : value) (P : pset) (d : vdict) : vdict := map norm_entry (pre v P d).

Lemma dmem_keys : forall v (d : vdict), dmem value_eqb v d = true <-> In v (map fst d).
Proof.
  intros v d. unfold dmem. destruct (dget value_eqb v d) eqn:E.
  - apply dget_In in E; [|apply value_eqb_eq]. split; [|reflexivity]. intros _.
    apply in_map_iff. now exists (v, p).
  - apply dget_None in E; [|apply value_eqb_eq]. split; [discriminate|contradiction].
Qed.

Lemma pre_keys : forall v P d, NoDup (map fst d) -> NoDup (map fst (pre v P d)).
Proof.
  intros v P d H. unfold pre. rewrite map_app. unfold added.
  destruct (truthy v && negb (dmem value_eqb v (upd v P d))) eqn:E.
  - apply andb_true_iff in E as [_ E]. apply negb_true_iff in E.
    apply NoDup_snoc; [now apply upd_NoDup|]. cbn [fst]. intros Hin. apply dmem_keys in Hin. congruence.
  - cbn. rewrite app_nil_r. now apply upd_NoDup.
Qed.

(** Exactly what is recorded before normalisation. *)
Lemma pre_own : forall v P d p w, good_values d ->
  (own_d (pre v P d) p w <->
   (w <> v /\ own_d d p w /\ ~ In p P) \/
   (w = v /\ truthy v = true /\
    (own_d d p v \/ (~ own_d d None v /\ In p P)))).
Proof.
  intros v P d p w Hg.
  assert (Hsplit : own_d (pre v P d) p w <-> own_d (upd v P d) p w \/ own_d (added v P d) p w).
  { unfold pre, own_d. split.
    - intros (s & Hs & Hp). apply in_app_iff in Hs as [Hs|Hs]; eauto.
    - intros [(s & Hs & Hp)|(s & Hs & Hp)]; exists s; rewrite in_app_iff; auto. }
  rewrite Hsplit, upd_own.
  destruct (value_eqb w v) eqn:Ew.
  - apply value_eqb_eq in Ew. subst w. split.
    + intros [(s & Hs & Hp)|(s & Hs & Hp)].
      * right. split; [reflexivity|]. destruct Hg as (Hnd & Hgs & _).
        split; [now apply (Hgs v s)|]. apply new_set_same in Hp as [Hp|[Hn Hp]].
        -- left. now exists s.
        -- right. split; [|exact Hp]. intros (t & Ht & Hq).
           assert (s = t) by (apply (key_unique d v); auto).
           subst. contradiction.
      * unfold added in Hs. destruct (truthy v && _) eqn:E; [|contradiction].
        destruct Hs as [Hs|[]]. injection Hs as <-. apply andb_true_iff in E as [Et Em].
        right. split; [reflexivity|]. split; [exact Et|]. right. split; [|exact Hp].
        intros (t & Ht & Hq). apply negb_true_iff in Em.
        assert (Hm : dmem value_eqb v (upd v P d) = true); [|congruence].
        apply dmem_keys. assert (Ho : own_d (upd v P d) None v).
        { apply upd_own. exists t. split; [exact Ht|]. apply new_set_same. now left. }
        destruct Ho as (t' & Ht' & _). apply in_map_iff. now exists (v, t').
    + intros [[H _]|(_ & Ht & H)]; [contradiction|].
      destruct (dmem value_eqb v (upd v P d)) eqn:Em.
      * apply dmem_keys, in_map_iff in Em as ((k & t) & Ek & Hin). cbn in Ek. subst k.
        apply upd_In in Hin as (s & Hs & _). left. exists s. split; [exact Hs|].
        apply new_set_same. destruct H as [(s' & Hs' & Hp)|[Hn Hp]].
        -- assert (s = s') by (apply (key_unique d v); auto; apply Hg).
           subst. now left.
        -- right. split; [|exact Hp]. intros HN. apply Hn. now exists s.
      * destruct H as [(s & Hs & Hp)|[Hn Hp]].
        -- exfalso. assert (Hm : dmem value_eqb v (upd v P d) = true); [|congruence].
           apply dmem_keys. assert (Ho : own_d (upd v P d) p v).
           { apply upd_own. exists s. split; [exact Hs|]. apply new_set_same. now left. }
           destruct Ho as (t & Hin & _). apply in_map_iff. now exists (v, t).
        -- right. exists P. split; [|exact Hp]. unfold added. rewrite Ht, Em. now left.
  - apply value_eqb_neq in Ew. split.
    + intros [(s & Hs & Hp)|(s & Hs & Hp)].
      * apply new_set_other in Hp as [Hp Hn]; [|exact Ew]. left. split; [exact Ew|].
        split; [now exists s|exact Hn].
      * unfold added in Hs. destruct (truthy v && _); [|contradiction].
        destruct Hs as [Hs|[]]. injection Hs as <- _. contradiction.
    + intros [(_ & (s & Hs & Hp) & Hn)|[H _]]; [|contradiction].
      left. exists s. split; [exact Hs|]. now apply new_set_other.
Qed.

Lemma pre_disjoint : forall v P d, good_values d -> disjoint_values (pre v P d).
Proof.
  intros v P d Hg a s b t p Ha Hb Hs Ht.
  assert (Oa : own_d (pre v P d) p a) by now exists s.
  assert (Ob : own_d (pre v P d) p b) by now exists t.
  apply pre_own in Oa; [|exact Hg]. apply pre_own in Ob; [|exact Hg].
  destruct Oa as [(Ha1 & Ha2 & Ha3)|(-> & Ha1 & Ha2)];
    destruct Ob as [(Hb1 & Hb2 & Hb3)|(-> & Hb1 & Hb2)]; auto.
  - now apply (own_d_unique d p).
  - destruct Hb2 as [Hb2|[_ Hb2]]; [|contradiction]. now apply (own_d_unique d p).
  - destruct Ha2 as [Ha2|[_ Ha2]]; [|contradiction]. symmetry. now apply (own_d_unique d p).
Qed.

Lemma pre_entries : forall v P d, good_values d -> NoDup P -> P <> [] ->
  forall k s, In (k, s) (pre v P d) -> truthy k = true /\ s <> [] /\ NoDup s.
Proof.
  intros v P d (Hnd & Hg & _) HP HPn k s Hin. apply in_app_iff in Hin as [Hin|Hin].
  - apply upd_In in Hin as (t & Ht & _ & Hn & Hd). destruct (Hg k t Ht) as (H1 & H2 & H3 & _).
    auto.
  - unfold added in Hin. destruct (truthy v && _) eqn:E; [|contradiction].
    destruct Hin as [Hin|[]]. injection Hin as <- <-. apply andb_true_iff in E as [E _]. auto.
Qed.

Lemma fin_good : forall v P d, good_values d -> NoDup P -> P <> [] -> good_values (fin v P d).
Proof.
  intros v P d Hg HP HPn. apply norm_entries_values.
  - apply pre_keys. apply Hg.
  - now apply pre_disjoint.
  - now apply pre_entries.
Qed.

Lemma fin_own_None : forall v P d w, good_values d ->
  (own_d (fin v P d) None w <-> own_d (pre v P d) None w).
Proof.
  intros v P d w Hg. split; intros (s & Hs & Hp).
  - apply in_map_iff in Hs as ((k & t) & E & Hin). injection E as <- <-.
    exists t. split; [exact Hin|]. now apply norm_set_None.
  - exists (norm_set s). split; [|now apply norm_set_None].
    apply in_map_iff. now exists (w, s).
Qed.

Lemma fin_own_named : forall v P d x w, good_values d ->
  (own_d (fin v P d) (Some x) w <->
   own_d (pre v P d) (Some x) w /\ ~ own_d (pre v P d) None w).
Proof.
  intros v P d x w Hg. split.
  - intros (s & Hs & Hp). apply in_map_iff in Hs as ((k & t) & E & Hin). injection E as <- <-.
    split.
    + exists t. split; [exact Hin|]. now apply norm_set_In.
    + intros (t' & Ht' & HN).
      assert (t = t').
      { apply (key_unique (pre v P d) k); auto. apply pre_keys. apply Hg. }
      subst t'. unfold norm_set in Hp. rewrite (proj2 (pmem_In None t) HN) in Hp.
      cbn [andb] in Hp. destruct (1 <? length t) eqn:El.
      * destruct Hp as [Hp|[]]. discriminate.
      * apply Nat.ltb_ge in El. destruct t as [|a [|b t]]; cbn in El; [contradiction| |lia].
        destruct Hp as [->|[]]. destruct HN as [HN|[]]. discriminate.
  - intros [(s & Hs & Hp) Hn]. exists (norm_set s). split.
    + apply in_map_iff. now exists (w, s).
    + apply norm_set_named; [|exact Hp]. intros HN. apply Hn. now exists s.
Qed.

(** ** The effect of set_property in one equation *)

Definition profs_of (ps : props) (name : str) (P : list profile) : pset :=
  pset_of (match P with
           | [] => match all_profiles ps name with Some s => s | None => [None] end
           | _ => P
           end).

Lemma vset_app : forall v P (d : vdict), ~ In v (map fst d) -> vset v P d = d ++ [(v, P)].
Proof. intros v P d H. apply dset_fresh; [apply value_eqb_eq|exact H]. Qed.

Definition retag (E : env) (n : str) (x : inval) (i : item) : item :=
  if str_eqb n RESOURCE_TYPE
  then with_ns (namespace_for_resource_type (e_ver E) (vtext E (to_value E n x))) i else i.

Lemma retag_props : forall E n x i, i_props (retag E n x i) = i_props i.
Proof. intros. unfold retag. now destruct (str_eqb n RESOURCE_TYPE). Qed.
Lemma retag_modified : forall E n x i, i_modified (retag E n x i) = i_modified i.
Proof. intros. unfold retag. now destruct (str_eqb n RESOURCE_TYPE). Qed.
Lemma retag_frozen : forall E n x i, i_frozen (retag E n x i) = i_frozen i.
Proof. intros. unfold retag. now destruct (str_eqb n RESOURCE_TYPE). Qed.

(** Properties after storing value [v] of [n] for the set [P]. *)
Definition stored (ps : props) (n : str) (v : value) (P : pset) : props :=
  match prget n ps with
  | None => if truthy v then prset n [(v, norm_set P)] ps else ps
  | Some d => if is_nil (fin v P d) then prdel n ps else prset n (fin v P d) ps
  end.
(** The dictionary of [n] afterwards. *)
Definition stored_values (ps : props) (n : str) (v : value) (P : pset) : vdict :=
  match prget n ps with
  | None => if truthy v then [(v, norm_set P)] else []
  | Some d => fin v P d
  end.

Definition refused (ow : bool) (ps : props) (n : str) (P : pset) : bool :=
  negb ow && match prget n ps with Some d => conflicts P d | None => false end.
Definition too_many (ver : version) (n : str) (d : vdict) : bool :=
  (str_eqb n (INSTANCE_ID ver) || str_eqb n RESOURCE_TYPE) && (1 <? length d).

Lemma profs_NoDup : forall ps n P, NoDup (profs_of ps n P).
Proof. intros. apply pset_of_NoDup. Qed.

Lemma all_profiles_of_In : forall d s, all_profiles_of d = Some s ->
  forall p, In p s <-> exists v t, In (v, t) d /\ In p t.
Proof.
  intros d s H p. destruct d as [|[v0 s0] d]; [discriminate|]. cbn in H. injection H as <-.
  assert (G : forall (d : vdict) a, In p (fold_left (fun a vs => punion a (snd vs)) d a) <->
              In p a \/ exists v t, In (v, t) d /\ In p t).
  { clear. induction d as [|[v t] d IH]; intros a; cbn [fold_left snd].
    - split; [tauto|]. intros [H|(v & t & [] & _)]. exact H.
    - rewrite IH, punion_In. split.
      + intros [[H|H]|(v' & t' & H1 & H2)]; [tauto| |].
        * right. exists v, t. split; [now left|exact H].
        * right. exists v', t'. split; [now right|exact H2].
      + intros [H|(v' & t' & [H1|H1] & H2)]; [tauto| |].
        * injection H1 as -> ->. tauto.
        * right. exists v', t'. auto. }
  rewrite G. split.
  - intros [H|(v & t & H1 & H2)]; [exists v0, s0|exists v, t]; split; auto; [now left|now right].
  - intros (v & t & [H1|H1] & H2); [injection H1 as -> ->; tauto|]. right. eauto.
Qed.

Lemma profs_requested : forall ps n P, NoDup (map fst ps) ->
  (forall d, prget n ps = Some d -> good_values d) ->
  forall p, In p (profs_of ps n P) <-> requested ps n P p.
Proof.
  intros ps n P Hnd Hg p. unfold profs_of. rewrite pset_of_In. unfold requested.
  destruct P as [|q P]; [|reflexivity].
  unfold all_profiles. destruct (prget n ps) as [d|] eqn:E.
  - destruct (all_profiles_of d) as [s|] eqn:Es.
    + rewrite (all_profiles_of_In d s Es). split.
      * intros (v & t & H1 & H2). left. exists v. apply (own_Some ps n d); auto. now exists t.
      * intros [(v & Hv)|[Hno ->]].
        -- apply (own_Some ps n d) in Hv as (t & H1 & H2); eauto.
        -- destruct d as [|[v t] d]; [discriminate|]. exfalso.
           destruct (Hg _ eq_refl) as (_ & H & _). destruct (H v t) as (_ & Hne & _); [now left|].
           destruct t as [|q t]; [contradiction|]. apply (Hno q v).
           apply (own_Some ps n ((v, q :: t) :: d)); auto. exists (q :: t). split; now left.
    + destruct d; [|destruct p0; discriminate]. cbn. split.
      * intros [<-|[]]. right. split; [|reflexivity]. intros q v Hv.
        apply (own_Some ps n []) in Hv as (t & [] & _); auto.
      * intros [(v & Hv)|[_ ->]]; [|now left].
        apply (own_Some ps n []) in Hv as (t & [] & _); auto.
  - cbn. split.
    + intros [<-|[]]. right. split; [|reflexivity]. intros q v. now apply own_None.
    + intros [(v & Hv)|[_ ->]]; [|now left]. now apply own_None in Hv.
Qed.

Lemma profs_nonempty : forall ps n P, NoDup (map fst ps) ->
  (forall d, prget n ps = Some d -> good_values d) -> profs_of ps n P <> [].
Proof.
  intros ps n P Hnd Hg E.
  assert (H : exists p, requested ps n P p).
  { destruct P as [|q P].
    - destruct (prget n ps) as [[|[v s] d]|] eqn:Ed.
      + exists None. right. split; [|reflexivity]. intros q w Hw.
        apply (own_Some ps n []) in Hw as (t & [] & _); auto.
      + destruct (Hg _ eq_refl) as (_ & H & _). destruct (H v s) as (_ & Hne & _); [now left|].
        destruct s as [|q s]; [contradiction|]. exists q. left. exists v.
        apply (own_Some ps n ((v, q :: s) :: d)); auto. exists (q :: s). split; now left.
      + exists None. right. split; [|reflexivity]. intros q w. now apply own_None.
    - exists q. now left. }
  destruct H as [p Hp]. apply (profs_requested ps n P Hnd Hg) in Hp. rewrite E in Hp. contradiction.
Qed.

Lemma good_dict : forall ver ps n d, good_props ver ps -> prget n ps = Some d -> good_values d.
Proof. intros ver ps n d (Hnd & Hg & _) H. apply prget_In in H; eauto. Qed.

Lemma single_valued_prset : forall ps n d m,
  single_valued (prset n d ps) m =
  if str_eqb m n then match d with _ :: _ :: _ => false | _ => true end
  else single_valued ps m.
Proof.
  intros ps n d m. unfold single_valued, prget, prset. destruct (str_eqb m n) eqn:E.
  - apply str_eqb_eq in E. subst. now rewrite dget_dset_same by apply str_eqb_eq.
  - apply str_eqb_neq in E. now rewrite dget_dset_other by (auto; apply str_eqb_eq).
Qed.

Lemma length_fin : forall v P d, length (fin v P d) = length (pre v P d).
Proof. intros. apply map_length. Qed.

Lemma too_many_match : forall (A : Type) (d : list A),
  match d with _ :: _ :: _ => false | _ => true end = negb (1 <? length d).
Proof. intros A [|a [|b d]]; reflexivity. Qed.

Lemma set_property_eq : forall E i n x P ow, good_props (e_ver E) (i_props i) ->
  set_property E i n x P ow =
  do v <- add_wildcards E (i_props i) n (to_value E n x) (profs_of (i_props i) n P);
  if refused ow (i_props i) n (profs_of (i_props i) n P) then Err EOVFItemData
  else if too_many (e_ver E) n (stored_values (i_props i) n v (profs_of (i_props i) n P))
  then Err ERuntimeError
  else Ok (mkItem (stored (i_props i) n v (profs_of (i_props i) n P))
             (i_ns (retag E n x i))
             (i_modified i ||
              match prget n (i_props i) with
              | None => truthy v
              | Some d => changes v (profs_of (i_props i) n P) d
                          || negb (is_nil (added v (profs_of (i_props i) n P) d))
                          || is_nil (fin v (profs_of (i_props i) n P) d)
              end)
             (i_frozen i)).
Proof.
  intros E i n x P ow Hgood. unfold set_property. cbn zeta. fold (retag E n x i).
  rewrite !retag_props. fold (profs_of (i_props i) n P).
  set (PP := profs_of (i_props i) n P).
  assert (Hnd : NoDup (map fst (i_props i))) by apply Hgood.
  assert (Hgd : forall d, prget n (i_props i) = Some d -> good_values d).
  { intros d. now apply (good_dict (e_ver E)). }
  assert (HPn : PP <> []) by now apply profs_nonempty.
  assert (HPd : NoDup PP) by apply profs_NoDup.
  destruct (add_wildcards E (i_props i) n (to_value E n x) PP) as [v|e]; [|reflexivity].
  cbn [rbind]. unfold refused, stored, stored_values.
  (* validate on an item whose property n was replaced by d *)
  assert (Hval : forall j d, i_props j = prset n d (i_props i) ->
            validate_sets [] d = Ok (map norm_entry d) ->
            validate E j = if too_many (e_ver E) n d then Err ERuntimeError
                           else Ok (with_props (prset n (map norm_entry d) (i_props i)) j)).
  { intros j d Hj Hd. unfold validate. rewrite Hj, !single_valued_prset.
    assert (Hs1 : single_valued (i_props i) (INSTANCE_ID (e_ver E)) = true)
      by (apply (single_valued_ok (e_ver E)); auto).
    assert (Hs2 : single_valued (i_props i) RESOURCE_TYPE = true)
      by (apply (single_valued_ok (e_ver E)); auto).
    rewrite Hs1, Hs2, too_many_match. unfold too_many.
    rewrite (validate_props_set _ _ _ (map norm_entry d)); auto.
    2: { intros m e Hm _. destruct Hgood as (_ & H & _). now apply (H m). }
    rewrite (str_eqb_sym (INSTANCE_ID (e_ver E)) n), (str_eqb_sym RESOURCE_TYPE n).
    destruct (str_eqb n (INSTANCE_ID (e_ver E))), (str_eqb n RESOURCE_TYPE),
      (1 <? length d); reflexivity. }
  assert (Htm : forall d d' : vdict, length d = length d' ->
            too_many (e_ver E) n d = too_many (e_ver E) n d').
  { intros d d' H. unfold too_many. now rewrite H. }
  destruct (prget n (i_props i)) as [d|] eqn:Ed.
  - specialize (Hgd d eq_refl). unfold set_existing.
    assert (Hdnd : NoDup (map fst d)) by apply Hgd.
    pose proof (existing_loop_eq ow v PP d [] (i_modified (retag E n x i)) Hdnd) as Hloop.
    cbn [app] in Hloop. rewrite Hloop by (intros k _ []). clear Hloop.
    destruct (negb ow && conflicts PP d) eqn:Ec; [reflexivity|]. cbn [rbind].
    rewrite retag_modified, retag_props.
    assert (Hpre : validate_sets [] (pre v PP d) = Ok (fin v PP d)).
    { apply validate_sets_ok; [now apply pre_keys|now apply pre_disjoint|]. intros ? ? ? _ _ []. }
    assert (Hfin : is_nil (fin v PP d) = is_nil (pre v PP d)) by (unfold fin; now destruct (pre v PP d)).
    unfold added at 1. unfold pre, added in Hfin.
    destruct (truthy v && negb (dmem value_eqb v (upd v PP d))) eqn:Ea.
    + (* the value is new *)
      apply andb_true_iff in Ea as [Et Em]. apply negb_true_iff in Em.
      assert (Hk : ~ In v (map fst (upd v PP d))).
      { intros Hin. apply dmem_keys in Hin. congruence. }
      rewrite vset_app by exact Hk.
      assert (Epre : upd v PP d ++ [(v, PP)] = pre v PP d).
      { unfold pre, added. now rewrite Et, Em. }
      rewrite Epre. cbn [rbind i_modified with_modified].
      rewrite (Hval _ (pre v PP d)); [| |exact Hpre].
      2: { reflexivity. }
      rewrite (Htm (pre v PP d) (fin v PP d)) by (symmetry; apply length_fin).
      destruct (too_many (e_ver E) n (fin v PP d)); [reflexivity|].
      assert (Hnn : is_nil (fin v PP d) = false).
      { rewrite Hfin. now destruct (upd v PP d). }
      rewrite Hnn. unfold with_props, with_modified. cbn.
      rewrite retag_frozen. cbn [orb negb]. rewrite orb_true_r. cbn. now rewrite orb_true_r.
    + assert (Epre : pre v PP d = upd v PP d).
      { unfold pre, added. rewrite Ea. apply app_nil_r. }
      rewrite app_nil_r in Hfin. cbn [is_nil negb]. rewrite orb_false_r.
      destruct (is_nil (upd v PP d)) eqn:En.
      * (* no values left *)
        rewrite Hfin. cbn [rbind i_modified with_modified].
        apply is_nil_true in En.
        assert (Hv : validate E (with_modified true
                       (with_props (prdel n (i_props i)) (retag E n x i))) =
                     Ok (with_modified true
                       (with_props (prdel n (i_props i)) (retag E n x i)))).
        { apply validate_good. cbn. split; [apply ddel_NoDup; [apply str_eqb_eq|exact Hnd]|].
          split.
          - intros m e Hm. apply In_prdel in Hm as [_ Hm]; [|exact Hnd].
            destruct Hgood as (_ & H & _). now apply (H m).
          - intros m e Hm. apply In_prdel in Hm as [_ Hm]; [|exact Hnd].
            destruct Hgood as (_ & _ & H). now apply (H m). }
        rewrite Hv.
        assert (Et : too_many (e_ver E) n (fin v PP d) = false).
        { unfold too_many, fin. rewrite Epre, En. cbn. apply andb_false_r. }
        rewrite Et. unfold with_modified, with_props. cbn.
        rewrite retag_frozen, orb_true_r, orb_true_r. reflexivity.
      * rewrite Hfin. rewrite orb_false_r.
        destruct (i_modified i || changes v PP d) eqn:Em.
        -- cbn [rbind i_modified with_modified].
           rewrite (Hval _ (pre v PP d)); [| |exact Hpre].
           2: { cbn. now rewrite Epre. }
           rewrite (Htm (pre v PP d) (fin v PP d)) by (symmetry; apply length_fin).
           destruct (too_many (e_ver E) n (fin v PP d)); [reflexivity|].
           unfold with_modified, with_props. cbn. now rewrite retag_frozen.
        -- cbn [rbind i_modified with_modified].
           apply orb_false_iff in Em as [_ Em].
           assert (Eu : fin v PP d = upd v PP d).
           { unfold fin. rewrite Epre, (upd_unchanged v PP d Em). now apply norm_entries_good. }
           rewrite Eu. assert (Et : too_many (e_ver E) n (upd v PP d) = false).
           { rewrite (upd_unchanged v PP d Em). unfold too_many.
             destruct (str_eqb n (INSTANCE_ID (e_ver E)) || str_eqb n RESOURCE_TYPE) eqn:E1;
               [|reflexivity].
             cbn [andb]. apply Nat.ltb_ge. destruct Hgood as (_ & _ & Hs).
             apply (Hs n); [now apply prget_In|]. apply orb_true_iff in E1.
             destruct E1 as [E1|E1]; apply str_eqb_eq in E1; auto. }
           rewrite Et. unfold with_modified, with_props. cbn. now rewrite retag_frozen.
  - rewrite andb_false_r. unfold set_new. destruct (truthy v) eqn:Et.
    + cbn [rbind i_modified with_modified].
      assert (Es : (if pmem None PP then [None] else PP) = norm_set PP).
      { unfold norm_set. destruct (pmem None PP) eqn:Em; [|reflexivity]. cbn [andb].
        apply pmem_In in Em. destruct (1 <? length PP) eqn:El; [reflexivity|].
        apply Nat.ltb_ge in El. symmetry. now apply only_None. }
      rewrite Es.
      rewrite (Hval _ [(v, norm_set PP)]).
      * assert (Ef : too_many (e_ver E) n [(v, norm_set PP)] = false)
          by (unfold too_many; cbn; apply andb_false_r).
        rewrite Ef. unfold with_props, with_modified. cbn.
        assert (Enn : norm_set (norm_set PP) = norm_set PP).
        { apply norm_set_good. now apply norm_set_default. }
        unfold norm_entry. cbn. rewrite Enn, retag_frozen, orb_true_r. reflexivity.
      * cbn. now rewrite retag_props.
      * apply validate_sets_ok.
        -- cbn. repeat constructor. intros [].
        -- intros a s b t p [Ha|[]] [Hb|[]] _ _. congruence.
        -- intros ? ? ? _ _ [].
    + cbn [rbind]. rewrite orb_false_r. rewrite retag_modified.
      assert (Ef : too_many (e_ver E) n [] = false) by (unfold too_many; cbn; apply andb_false_r).
      rewrite Ef. destruct (i_modified i) eqn:Em.
      * rewrite validate_good by (now rewrite retag_props).
        rewrite <- Em, <- (retag_modified E n x i), <- (retag_props E n x i) at 1.
        rewrite <- (retag_frozen E n x i). now destruct (retag E n x i).
      * rewrite <- Em, <- (retag_modified E n x i), <- (retag_props E n x i) at 1.
        rewrite <- (retag_frozen E n x i). now destruct (retag E n x i).
Qed.
