(** Proofs about COT/vm_description/ovf/item.py: what set_property changes. *)
From Coq Require Import Lia.
From Verif Require Import PyBase PyBaseProofs PyDict PyDictProofs XmlModel NamesModel
  ItemModel ItemSpec PsetProofs ItemProofs.

Lemma In_dec_profile : forall (p : profile) s, In p s \/ ~ In p s.
Proof. intros p s. destruct (In_profile_dec p s); auto. Qed.

Lemma own_d_dec : forall d p v, own_d d p v \/ ~ own_d d p v.
Proof.
  induction d as [|[w s] d IH]; intros p v.
  - right. intros (s & [] & _).
  - destruct (value_eqb v w) eqn:E.
    + apply value_eqb_eq in E. subst. destruct (In_dec_profile p s) as [H|H].
      * left. exists s. split; [now left|exact H].
      * destruct (IH p w) as [(t & Ht & Hp)|Hn].
        -- left. exists t. split; [now right|exact Hp].
        -- right. intros (t & [Ht|Ht] & Hp).
           ++ injection Ht as ->. contradiction.
           ++ apply Hn. now exists t.
    + apply value_eqb_neq in E. destruct (IH p v) as [(t & Ht & Hp)|Hn].
      * left. exists t. split; [now right|exact Hp].
      * right. intros (t & [Ht|Ht] & Hp).
        -- congruence.
        -- apply Hn. now exists t.
Qed.

Lemma own_dec2 : forall ps n p v, NoDup (map fst ps) -> own ps n p v \/ ~ own ps n p v.
Proof.
  intros ps n p v H. destruct (prget n ps) as [d|] eqn:E.
  - rewrite (own_Some ps n d) by assumption. apply own_d_dec.
  - right. now apply own_None.
Qed.

Lemma good_named_default : forall ver ps n x v w, good_props ver ps ->
  own ps n (Some x) v -> own ps n None w -> v <> w.
Proof.
  intros ver ps n x v w Hg Hv Hw ->. destruct Hg as (Hnd & Hg & _).
  apply own_iff in Hv as (d & Hd & s & Hs & Hp); auto.
  apply (own_Some ps n d) in Hw as (t & Ht & Hq); auto.
  apply prget_In in Hd; auto. specialize (Hg n d Hd).
  assert (s = t) by (apply (key_unique d w); auto; apply Hg). subst t.
  destruct Hg as (_ & Hg & _). destruct (Hg w s Hs) as (_ & _ & _ & HN).
  rewrite (HN Hq) in Hp. destruct Hp as [Hp|[]]. discriminate.
Qed.

Lemma fin_nil_own : forall v P d p w, is_nil (fin v P d) = true -> ~ own_d (fin v P d) p w.
Proof.
  intros v P d p w H (s & Hs & _). apply is_nil_true in H. rewrite H in Hs. contradiction.
Qed.

Lemma prget_prset_same : forall ps n d, prget n (prset n d ps) = Some d.
Proof. intros. apply dget_dset_same. apply str_eqb_eq. Qed.
Lemma prget_prset_other : forall ps n d m, m <> n -> prget m (prset n d ps) = prget m ps.
Proof. intros. apply dget_dset_other; [apply str_eqb_eq|assumption]. Qed.
Lemma prget_prdel_same : forall ps n, NoDup (map fst ps) -> prget n (prdel n ps) = None.
Proof. intros. apply dget_ddel_same; [apply str_eqb_eq|assumption]. Qed.
Lemma prget_prdel_other : forall ps n m, m <> n -> prget m (prdel n ps) = prget m ps.
Proof. intros. apply dget_ddel_other; [apply str_eqb_eq|assumption]. Qed.
Lemma prset_NoDup : forall ps n d, NoDup (map fst ps) -> NoDup (map fst (prset n d ps)).
Proof. intros. apply dset_NoDup; [apply str_eqb_eq|assumption]. Qed.
Lemma prdel_NoDup : forall ps n, NoDup (map fst ps) -> NoDup (map fst (prdel n ps)).
Proof. intros. apply ddel_NoDup; [apply str_eqb_eq|assumption]. Qed.

Lemma stored_NoDup : forall ps n v P, NoDup (map fst ps) -> NoDup (map fst (stored ps n v P)).
Proof.
  intros ps n v P H. unfold stored. destruct (prget n ps).
  - destruct (is_nil _); [now apply prdel_NoDup|now apply prset_NoDup].
  - destruct (truthy v); [now apply prset_NoDup|exact H].
Qed.

Lemma prget_stored_other : forall ps n v P m, m <> n -> prget m (stored ps n v P) = prget m ps.
Proof.
  intros ps n v P m H. unfold stored. destruct (prget n ps).
  - destruct (is_nil _); [now apply prget_prdel_other|now apply prget_prset_other].
  - destruct (truthy v); [now apply prget_prset_other|reflexivity].
Qed.

Lemma own_same_get : forall ps ps' n, NoDup (map fst ps) -> NoDup (map fst ps') ->
  prget n ps = prget n ps' -> forall p v, own ps n p v <-> own ps' n p v.
Proof.
  intros ps ps' n H H' E p v. rewrite !own_iff by assumption. rewrite E. reflexivity.
Qed.

Lemma stored_other : forall ps n v P m p w, NoDup (map fst ps) -> m <> n ->
  (own (stored ps n v P) m p w <-> own ps m p w).
Proof.
  intros ps n v P m p w H Hm. apply own_same_get; [now apply stored_NoDup|exact H|].
  now apply prget_stored_other.
Qed.

Lemma stored_own : forall ps n v P p w, NoDup (map fst ps) ->
  (own (stored ps n v P) n p w <-> own_d (stored_values ps n v P) p w).
Proof.
  intros ps n v P p w H.
  assert (H' := stored_NoDup ps n v P H). revert H'.
  unfold stored, stored_values. destruct (prget n ps) as [d|] eqn:E; intros H'.
  - destruct (is_nil (fin v P d)) eqn:En.
    + split; intros Ho; exfalso.
      * revert Ho. apply own_None; [exact H'|]. now apply prget_prdel_same.
      * now apply fin_nil_own in Ho.
    + apply own_Some; [exact H'|apply prget_prset_same].
  - destruct (truthy v).
    + apply own_Some; [exact H'|apply prget_prset_same].
    + split; intros Ho; exfalso; [now apply own_None in Ho|]. now destruct Ho as (s & [] & _).
Qed.

(** What is recorded for the default profile afterwards. *)
Lemma stored_own_default : forall ver ps n v P w, good_props ver ps ->
  (own (stored ps n v P) n None w <->
   (w <> v /\ own ps n None w /\ ~ In None P) \/
   (w = v /\ truthy v = true /\ (own ps n None v \/ In None P))).
Proof.
  intros ver ps n v P w Hg. assert (Hnd : NoDup (map fst ps)) by apply Hg.
  rewrite stored_own by exact Hnd. unfold stored_values.
  destruct (prget n ps) as [d|] eqn:E.
  - assert (Hd := good_dict ver ps n d Hg E).
    rewrite fin_own_None, pre_own by exact Hd. rewrite !(own_Some ps n d) by assumption.
    destruct (own_d_dec d None v); tauto.
  - assert (Hn : forall p u, ~ own ps n p u) by (intros; now apply own_None).
    destruct (truthy v) eqn:Et.
    + split.
      * intros (s & [Hs|[]] & Hp). injection Hs as <- <-. right.
        split; [reflexivity|]. split; [reflexivity|]. right. now apply norm_set_None.
      * intros [(_ & Ho & _)|(-> & _ & [Ho|Ho])]; [now apply Hn in Ho|now apply Hn in Ho|].
        exists (norm_set P). split; [now left|]. now apply norm_set_None.
    + split.
      * intros (s & [] & _).
      * intros [(_ & Ho & _)|(_ & F & _)]; [now apply Hn in Ho|discriminate].
Qed.

(** What is recorded for a named profile afterwards. *)
Lemma stored_own_named : forall ver ps n v P x w, good_props ver ps -> NoDup P ->
  (own (stored ps n v P) n (Some x) w <->
   (w <> v /\ own ps n (Some x) w /\ ~ In (Some x) P) \/
   (w = v /\ truthy v = true /\ ~ own ps n None v /\ ~ In None P /\
    (own ps n (Some x) v \/ In (Some x) P))).
Proof.
  intros ver ps n v P x w Hg HP. assert (Hnd : NoDup (map fst ps)) by apply Hg.
  rewrite stored_own by exact Hnd. unfold stored_values.
  destruct (prget n ps) as [d|] eqn:E.
  - assert (Hd := good_dict ver ps n d Hg E).
    rewrite fin_own_named, !pre_own by exact Hd.
    assert (Hex : own_d d (Some x) w -> own_d d None w -> False).
    { intros H1 H2. apply (own_Some ps n d) in H1; auto. apply (own_Some ps n d) in H2; auto.
      now apply (good_named_default ver ps n x w w). }
    rewrite !(own_Some ps n d) by assumption.
    destruct (value_eqb w v) eqn:Ev.
    + apply value_eqb_eq in Ev. subst w.
      destruct (own_d_dec d None v), (In_dec_profile None P); tauto.
    + apply value_eqb_neq in Ev. tauto.
  - assert (Hn : forall p u, ~ own ps n p u) by (intros; now apply own_None).
    destruct (truthy v) eqn:Et.
    + split.
      * intros (s & [Hs|[]] & Hp). injection Hs as <- <-. right.
        split; [reflexivity|]. split; [reflexivity|]. split; [apply Hn|].
        destruct (In_dec_profile None P) as [HN|HN].
        -- rewrite norm_set_default in Hp; [|exact HP|now apply norm_set_None].
           destruct Hp as [Hp|[]]. discriminate.
        -- split; [exact HN|]. right. now apply norm_set_In.
      * intros [(_ & Ho & _)|(-> & _ & _ & HN & [Ho|Ho])];
          [now apply Hn in Ho|now apply Hn in Ho|].
        exists (norm_set P). split; [now left|]. now apply norm_set_named.
    + split.
      * intros (s & [] & _).
      * intros [(_ & Ho & _)|(_ & F & _)]; [now apply Hn in Ho|discriminate].
Qed.

(** A value stored for [P] is reported for [P], and for those who inherit from the
    default if it is in [P]. *)
Lemma stored_holds : forall ver ps n v P p w, good_props ver ps -> NoDup P ->
  truthy v = true ->
  (holds (stored ps n v P) n p w <->
   ((In p P \/ (In None P /\ forall u, ~ own ps n p u)) /\ w = v) \/
   (~ In p P /\ (~ In None P \/ exists u, own ps n p u) /\ holds ps n p w)).
Proof.
  intros ver ps n v P p w Hg HP Ht.
  assert (Hnd : NoDup (map fst ps)) by apply Hg.
  assert (Huniq := own_unique ver ps n). unfold holds.
  destruct p as [x|].
  - setoid_rewrite (stored_own_named ver ps n v P x) at 1; [|exact Hg|exact HP].
    assert (Hsn : forall u, own (stored ps n v P) n (Some x) u <->
       (u <> v /\ own ps n (Some x) u /\ ~ In (Some x) P) \/
       (u = v /\ truthy v = true /\ ~ own ps n None v /\ ~ In None P /\
        (own ps n (Some x) v \/ In (Some x) P)))
      by (intros u; now apply (stored_own_named ver)).
    rewrite (stored_own_default ver ps n v P w Hg).
    destruct (In_dec_profile (Some x) P) as [HxP|HxP];
      destruct (In_dec_profile None P) as [HNP|HNP].
    + (* both named and default requested *)
      split.
      * intros [[(_ & _ & F)|(_ & _ & _ & F & _)]|(_ & [(_ & _ & F)|(-> & _)])]; try contradiction.
        left. split; [now left|reflexivity].
      * intros [(_ & ->)|(F & _)]; [|contradiction]. right. split.
        -- intros u Hu. apply Hsn in Hu as [(_ & _ & F)|(_ & _ & _ & F & _)]; contradiction.
        -- right. auto.
    + destruct (own_dec2 ps n None v Hnd) as [HNv|HNv].
      * split.
        -- intros [[(_ & _ & F)|(-> & _)]|(Hno & [(Hne & HN & _)|(-> & _)])]; try contradiction.
           ++ left. split; [now left|reflexivity].
           ++ exfalso. apply Hne. now apply (own_unique ver ps n None).
           ++ left. split; [now left|reflexivity].
        -- intros [(_ & ->)|(F & _)]; [|contradiction]. right. split.
           ++ intros u Hu. apply Hsn in Hu as [(_ & _ & F)|(_ & _ & F & _)]; contradiction.
           ++ right. auto.
      * split.
        -- intros [[(_ & _ & F)|(-> & _)]|(Hno & _)]; [contradiction| |].
           ++ left. split; [now left|reflexivity].
           ++ exfalso. apply (Hno v). apply Hsn. right. auto 6.
        -- intros [(_ & ->)|(F & _)]; [|contradiction]. left. right. auto 6.
    + destruct (own_dec ps n (Some x) Hnd) as [(u & Hu)|Hno].
      * destruct (value_eqb u v) eqn:Euv.
        -- apply value_eqb_eq in Euv. subst u. split.
           ++ intros [[(Hne & Ho & _)|(_ & _ & _ & F & _)]|(Hno & [(_ & _ & F)|(-> & _)])];
                try contradiction.
              ** exfalso. apply Hne. now apply (own_unique ver ps n (Some x)).
              ** right. split; [exact HxP|]. split; [right; now exists v|]. now left.
           ++ intros [([F|(_ & F)] & _)|(_ & _ & [Ho|(F & _)])].
              ** contradiction.
              ** now apply F in Hu.
              ** assert (w = v) by now apply (own_unique ver ps n (Some x)). subst w.
                 right. split; [|right; auto].
                 intros u Hu'. apply Hsn in Hu' as [(Hne & Ho' & _)|(_ & _ & _ & F & _)];
                   [|contradiction].
                 apply Hne. now apply (own_unique ver ps n (Some x)).
              ** now apply F in Hu.
        -- apply value_eqb_neq in Euv. split.
           ++ intros [[(Hne & Ho & _)|(_ & _ & _ & F & _)]|(Hno & _)]; [|contradiction|].
              ** right. split; [exact HxP|]. split; [right; now exists u|]. now left.
              ** exfalso. apply (Hno u). apply Hsn. left. auto.
           ++ intros [([F|(_ & F)] & _)|(_ & _ & [Ho|(F & _)])].
              ** contradiction.
              ** now apply F in Hu.
              ** assert (w = u) by now apply (own_unique ver ps n (Some x)). subst w.
                 left. left. auto.
              ** now apply F in Hu.
      * split.
        -- intros [[(_ & Ho & _)|(_ & _ & _ & F & _)]|(_ & [(_ & _ & F)|(-> & _)])];
             try contradiction.
           ++ now apply Hno in Ho.
           ++ left. split; [right; auto|reflexivity].
        -- intros [(_ & ->)|(_ & [F|(u & Hu)] & _)]; [|contradiction|now apply Hno in Hu].
           right. split; [|right; auto]. intros u Hu.
           apply Hsn in Hu as [(_ & Ho & _)|(_ & _ & _ & F & _)]; [|contradiction].
           now apply Hno in Ho.
    + (* neither requested *)
      assert (Hsame : forall u, own (stored ps n v P) n (Some x) u <-> own ps n (Some x) u).
      { intros u. rewrite Hsn. split.
        - intros [(_ & Ho & _)|(-> & _ & _ & _ & [Ho|F])]; [exact Ho|exact Ho|contradiction].
        - intros Ho. destruct (value_eqb u v) eqn:Euv.
          + apply value_eqb_eq in Euv. subst u. right. split; [reflexivity|].
            split; [exact Ht|]. split; [|auto]. intros HN.
            now apply (good_named_default ver ps n x v v).
          + apply value_eqb_neq in Euv. left. auto. }
      split.
      * intros H. right. split; [exact HxP|]. split; [now left|].
        destruct H as [H|(Hno & H)].
        -- left. apply Hsame. apply Hsn. exact H.
        -- right. split; [intros u Hu; apply (Hno u); now apply Hsame|].
           destruct H as [(_ & H & _)|(-> & _ & [H|H])]; [exact H|exact H|contradiction].
      * intros [([F|(F & _)] & _)|(_ & _ & [Ho|(Hno & Ho)])]; try contradiction.
        -- left. apply Hsn. now apply Hsame.
        -- right. split; [intros u Hu; apply (Hno u); now apply Hsame|].
           destruct (value_eqb w v) eqn:Ewv.
           ++ apply value_eqb_eq in Ewv. subst w. right. auto.
           ++ apply value_eqb_neq in Ewv. left. auto.
  - setoid_rewrite (stored_own_default ver ps n v P); [|exact Hg..].
    destruct (In_dec_profile None P) as [HNP|HNP].
    + split.
      * intros [[(_ & _ & F)|(-> & _)]|(_ & [(_ & _ & F)|(-> & _)])]; try contradiction;
          (left; split; [now left|reflexivity]).
      * intros [(_ & ->)|(F & _)]; [|contradiction]. left. right. auto.
    + destruct (own_dec2 ps n None v Hnd) as [HNv|HNv].
      * split.
        -- intros H. right. split; [exact HNP|]. split; [now left|]. left.
           destruct H as [[(_ & H & _)|(-> & _ & [H|H])]|(_ & [(_ & H & _)|(-> & _ & [H|H])])];
             auto; contradiction.
        -- intros [([F|(F & _)] & _)|(_ & _ & [Ho|(F & _)])]; try contradiction.
           ++ left. right. split; [now apply (own_unique ver ps n None)|]. auto.
           ++ now apply F in HNv.
      * split.
        -- intros H. right. split; [exact HNP|]. split; [now left|]. left.
           destruct H as [[(_ & H & _)|(-> & _ & [H|H])]|(_ & [(_ & H & _)|(-> & _ & [H|H])])];
             auto; contradiction.
        -- intros [([F|(F & _)] & _)|(_ & _ & [Ho|(F & Ho)])]; try contradiction.
           ++ left. left. split; [intros ->; contradiction|]. auto.
           ++ now apply F in Ho.
Qed.

(** An empty value only removes records. *)
Lemma stored_own_empty : forall ver ps n v P p w, good_props ver ps -> NoDup P ->
  truthy v = false ->
  (own (stored ps n v P) n p w <-> own ps n p w /\ ~ In p P).
Proof.
  intros ver ps n v P p w Hg HP Ht.
  assert (Hne : forall q, own ps n q v -> False).
  { intros q Hq. destruct Hg as (Hnd & Hg & _). apply own_iff in Hq as (d & Hd & s & Hs & _); auto.
    apply prget_In in Hd; auto. destruct (Hg n d Hd) as (_ & H & _).
    destruct (H v s Hs) as (H1 & _). congruence. }
  assert (Hwv : own ps n p w -> w <> v) by (intros Ho ->; now apply Hne in Ho).
  destruct p as [x|].
  - rewrite (stored_own_named ver) by assumption. rewrite Ht. intuition; discriminate.
  - rewrite (stored_own_default ver) by assumption. rewrite Ht. intuition; discriminate.
Qed.


Lemma stored_good : forall ver ps n v P, good_props ver ps -> NoDup P -> P <> [] ->
  too_many ver n (stored_values ps n v P) = false -> good_props ver (stored ps n v P).
Proof.
  intros ver ps n v P Hg HP HPn Htm. assert (Hnd : NoDup (map fst ps)) by apply Hg.
  assert (Hnd' := stored_NoDup ps n v P Hnd).
  assert (Hcase : forall m e, In (m, e) (stored ps n v P) ->
            (m <> n /\ In (m, e) ps) \/ (m = n /\ e = stored_values ps n v P /\
              (prget n ps = None -> truthy v = true))).
  { intros m e Hin. apply prget_In in Hin; auto. destruct (str_eq_dec m n) as [->|Hne].
    - right. split; [reflexivity|]. revert Hin. unfold stored, stored_values.
      destruct (prget n ps) as [d|] eqn:E.
      + destruct (is_nil (fin v P d)) eqn:En.
        * rewrite prget_prdel_same by exact Hnd. discriminate.
        * rewrite prget_prset_same. intros H. injection H as <-. split; [reflexivity|discriminate].
      + destruct (truthy v) eqn:Et.
        * rewrite prget_prset_same. intros H. injection H as <-. auto.
        * congruence.
    - left. split; [exact Hne|]. rewrite prget_stored_other in Hin by exact Hne.
      now apply prget_In. }
  split; [exact Hnd'|]. split.
  - intros m e Hin. destruct (Hcase m e Hin) as [(_ & H)|(-> & -> & Ht)].
    + destruct Hg as (_ & H1 & _). now apply (H1 m).
    + unfold stored_values. destruct (prget n ps) as [d|] eqn:E.
      * apply fin_good; auto. now apply (good_dict ver ps n).
      * rewrite Ht by reflexivity. split; [|split].
        -- cbn. repeat constructor. intros [].
        -- intros a s [H|[]]. injection H as <- <-. split; [now apply Ht|].
           split; [now apply norm_set_nonempty|]. split; [now apply norm_set_NoDup|].
           now apply norm_set_default.
        -- intros a s b t p [H|[]] [H'|[]] _ _. congruence.
  - intros m e Hin Hm. destruct (Hcase m e Hin) as [(_ & H)|(-> & -> & Ht)].
    + destruct Hg as (_ & _ & H1). now apply (H1 m).
    + unfold too_many in Htm. assert (Eb : str_eqb n (INSTANCE_ID ver) || str_eqb n RESOURCE_TYPE = true).
      { apply orb_true_iff. destruct Hm as [-> | ->]; [left|right]; apply str_eqb_eq; reflexivity. }
      rewrite Eb in Htm. cbn [andb] in Htm. now apply Nat.ltb_ge in Htm.
Qed.

(** ** What set_property does, by cases on its outcome *)

Definition conflict (ps : props) (n : str) (P : pset) : Prop :=
  exists p v, In p P /\ own ps n p v.

Lemma refused_spec : forall ow ps n P, NoDup (map fst ps) ->
  (refused ow ps n P = true <-> ow = false /\ conflict ps n P).
Proof.
  intros ow ps n P H. unfold refused. rewrite andb_true_iff, negb_true_iff.
  assert (G : match prget n ps with Some d => conflicts P d | None => false end = true <->
              conflict ps n P); [|tauto].
  destruct (prget n ps) as [d|] eqn:E.
  - unfold conflicts. rewrite existsb_exists. split.
    + intros ((v & s) & Hin & Hn). apply negb_true_iff in Hn. cbn in Hn.
      apply is_nil_pinter_false in Hn as (p & Hp & HP). exists p, v. split; [exact HP|].
      apply (own_Some ps n d); auto. now exists s.
    + intros (p & v & HP & Ho). apply (own_Some ps n d) in Ho as (s & Hs & Hp); auto.
      exists (v, s). split; [exact Hs|]. apply negb_true_iff. cbn.
      apply is_nil_pinter_false. now exists p.
  - split; [discriminate|]. intros (p & v & _ & Ho). now apply own_None in Ho.
Qed.

Lemma set_property_inv : forall E i n x P ow i', good_props (e_ver E) (i_props i) ->
  set_property E i n x P ow = Ok i' ->
  exists v, add_wildcards E (i_props i) n (to_value E n x) (profs_of (i_props i) n P) = Ok v /\
    refused ow (i_props i) n (profs_of (i_props i) n P) = false /\
    too_many (e_ver E) n (stored_values (i_props i) n v (profs_of (i_props i) n P)) = false /\
    i_props i' = stored (i_props i) n v (profs_of (i_props i) n P) /\
    i_ns i' = i_ns (retag E n x i) /\ i_frozen i' = i_frozen i.
Proof.
  intros E i n x P ow i' Hg H. rewrite set_property_eq in H by exact Hg.
  destruct (add_wildcards _ _ _ _ _) as [v|] eqn:Ea; [|discriminate]. cbn [rbind] in H.
  destruct (refused _ _ _ _) eqn:Er; [discriminate|].
  destruct (too_many _ _ _) eqn:Et; [discriminate|]. injection H as <-.
  exists v. cbn. auto 6.
Qed.

Lemma set_property_good : forall E i n x P ow i', good_props (e_ver E) (i_props i) ->
  set_property E i n x P ow = Ok i' -> good_props (e_ver E) (i_props i').
Proof.
  intros E i n x P ow i' Hg H. apply set_property_inv in H as (v & _ & _ & Ht & -> & _); auto.
  apply stored_good; auto; [apply profs_NoDup|].
  apply profs_nonempty; [apply Hg|]. intros d. now apply (good_dict (e_ver E)).
Qed.
