(** Proofs about COT/vm_description/ovf/item.py: add_profile. *)
From Coq Require Import Lia.
From Verif Require Import PyBase PyBaseProofs PyDict PyDictProofs XmlModel NamesModel
  ItemModel ItemSpec PsetProofs ItemProofs ItemSetProofs ItemProfileProofs ItemReachProofs.

Lemma stored_own_outside : forall ver ps n v P m p w, good_props ver ps -> NoDup P ->
  ~ In None P -> ~ In p P -> (own (stored ps n v P) m p w <-> own ps m p w).
Proof.
  intros ver ps n v P m p w Hg HP HN Hp. destruct (str_eq_dec m n) as [-> |Hm].
  2: { apply stored_other; [apply Hg|exact Hm]. }
  destruct (truthy v) eqn:Et.
  - destruct p as [x|].
    + rewrite (stored_own_named ver) by assumption. split.
      * intros [(_ & H & _)|(-> & _ & _ & _ & [H|H])]; [exact H|exact H|contradiction].
      * intros H. destruct (value_eqb w v) eqn:Ew.
        -- apply value_eqb_eq in Ew. subst w. right. split; [reflexivity|].
           split; [exact Et|]. split; [|auto].
           intros HNv. now apply (good_named_default ver ps n x v v).
        -- apply value_eqb_neq in Ew. left. auto.
    + rewrite (stored_own_default ver) by assumption. split.
      * intros [(_ & H & _)|(-> & _ & [H|H])]; [exact H|exact H|contradiction].
      * intros H. destruct (value_eqb w v) eqn:Ew.
        -- apply value_eqb_eq in Ew. subst w. right. auto.
        -- apply value_eqb_neq in Ew. left. auto.
  - rewrite (stored_own_empty ver) by assumption. tauto.
Qed.

Lemma inherited_In : forall d all v, inherited d all = Some v ->
  exists s, In (v, s) d /\ (In None s \/ length all = 1).
Proof.
  induction d as [|[w s] d IH]; intros all v H; cbn [inherited] in H; [discriminate|].
  destruct (pmem None s || (length all =? 1)) eqn:E.
  - injection H as <-. exists s. split; [now left|]. apply orb_true_iff in E as [E|E].
    + left. now apply pmem_In.
    + right. now apply Nat.eqb_eq.
  - apply IH in H as (t & Ht & H). exists t. split; [now right|exact H].
Qed.
Lemma inherited_None : forall d all, inherited d all = None ->
  forall v s, In (v, s) d -> ~ In None s /\ length all <> 1.
Proof.
  induction d as [|[w s] d IH]; intros all H v t Hin; cbn [inherited] in H; [contradiction|].
  destruct (pmem None s || (length all =? 1)) eqn:E; [discriminate|].
  apply orb_false_iff in E as [E1 E2]. apply pmem_false in E1. apply Nat.eqb_neq in E2.
  destruct Hin as [Hin|Hin]; [injection Hin as <- <-; auto|]. now apply (IH all H v t).
Qed.

Lemma source_value_unique : forall ver ps n v w, good_props ver ps ->
  source_value ps n v -> source_value ps n w -> v = w.
Proof.
  intros ver ps n v w Hg [Hv|((p & Hp) & Hv)] [Hw|((q & Hq) & Hw)].
  - now apply (own_unique ver ps n None).
  - now apply (Hw None).
  - symmetry. now apply (Hv None).
  - now apply (Hw p).
Qed.

Lemma inherited_source : forall ver ps n d v, good_props ver ps -> prget n ps = Some d ->
  (inherited d d = Some v <-> source_value ps n v).
Proof.
  intros ver ps n d v Hg Hd. assert (Hnd : NoDup (map fst ps)) by apply Hg.
  assert (Gd := good_dict ver ps n d Hg Hd).
  assert (Hfwd : forall v, inherited d d = Some v -> source_value ps n v).
  { clear v. intros v H. apply inherited_In in H as (s & Hs & [HN|Hl]).
    - left. apply (own_Some ps n d); auto. now exists s.
    - right. destruct d as [|[w t] [|]]; cbn in Hl; try lia. destruct Hs as [Hs|[]].
      injection Hs as -> ->. split.
      + destruct Gd as (_ & Gd & _). destruct (Gd v s) as (_ & Hne & _); [now left|].
        destruct s as [|p s]; [contradiction|]. exists p.
        apply (own_Some ps n _ p v Hnd Hd). exists (p :: s). split; now left.
      + intros q w Hw. apply (own_Some ps n _ q w Hnd Hd) in Hw as (t & [Ht|[]] & _). congruence. }
  split; [apply Hfwd|]. intros Hsv. destruct (inherited d d) as [w|] eqn:E.
  - f_equal. apply (source_value_unique ver ps n); auto.
  - exfalso. pose proof (inherited_None d d E) as Hno. destruct Hsv as [Hv|((p & Hp) & Huniq)].
    + apply (own_Some ps n d) in Hv as (s & Hs & HN); auto. destruct (Hno v s Hs) as (F & _). now apply F.
    + apply (own_Some ps n d) in Hp as (s & Hs & Hps); auto.
      destruct (Hno v s Hs) as (_ & Hl). apply Hl.
      destruct d as [|[a sa] [|[b sb] d]]; [contradiction|reflexivity|]. exfalso.
      destruct Gd as (Gnd & Gd & _).
      assert (Ha : a = v).
      { destruct (Gd a sa) as (_ & Hne & _); [now left|]. destruct sa as [|q sa]; [contradiction|].
        apply (Huniq q). apply (own_Some ps n _ q a Hnd Hd). exists (q :: sa). split; now left. }
      assert (Hb : b = v).
      { destruct (Gd b sb) as (_ & Hne & _); [right; now left|].
        destruct sb as [|q sb]; [contradiction|].
        apply (Huniq q). apply (own_Some ps n _ q b Hnd Hd). exists (q :: sb).
        split; [right; now left|now left]. }
      subst. cbn in Gnd. inversion Gnd as [|? ? Hni _]; subst. apply Hni. now left.
Qed.

Lemma as_arg_value : forall E n v,
  (if str_eqb n RESOURCE_SUB_TYPE then exists l, v = VTuple l else exists s, v = VStr s) ->
  to_value E n (as_arg v) = v.
Proof.
  intros E n v H. unfold to_value, as_arg. destruct (str_eqb n RESOURCE_SUB_TYPE).
  - destruct H as (l & ->). reflexivity.
  - destruct H as (s & ->). reflexivity.
Qed.

Lemma pset_of_one : forall p, pset_of [p] = [p].
Proof. reflexivity. Qed.

Lemma fold_names : forall E x (src : props) (from : option props) names i i',
  NoDup names -> good_props (e_ver E) src -> well_typed src ->
  good_props (e_ver E) (i_props i) -> well_typed (i_props i) ->
  (from = Some src \/ (from = None /\ forall n, In n names -> prget n (i_props i) = prget n src)) ->
  fold_result (add_profile_step E from (Some x)) names i = Ok i' ->
  good_props (e_ver E) (i_props i') /\
  (forall m q w, q <> Some x -> (own (i_props i') m q w <-> own (i_props i) m q w)) /\
  (forall m q w, ~ In m names -> (own (i_props i') m q w <-> own (i_props i) m q w)) /\
  (forall m, In m names -> exists d, prget m src = Some d /\
     (d = [] -> forall q w, own (i_props i') m q w <-> own (i_props i) m q w) /\
     (d <> [] -> exists v, source_value src m v /\
        (is_text E m = false -> forall w, holds (i_props i') m (Some x) w <-> w = v))).
Proof.
  intros E x src from. induction names as [|n names IH];
    intros i i' Hnn Hsg Hst Hg Ht Hfrom H; cbn [fold_result] in H.
  { injection H as <-. split; [exact Hg|]. split; [reflexivity|]. split; [reflexivity|].
    intros m []. }
  inversion Hnn as [|? ? Hni Hnn']; subst.
  destruct (add_profile_step E from (Some x) i n) as [i1|] eqn:E1; [|discriminate].
  cbn [rbind] in H.
  assert (Hsrc : prget n (match from with Some ps => ps | None => i_props i end) = prget n src).
  { destruct Hfrom as [-> |(-> & Hf)]; [reflexivity|]. apply Hf. now left. }
  unfold add_profile_step in E1. rewrite Hsrc in E1.
  (* the effect of this step *)
  assert (Hstep : good_props (e_ver E) (i_props i1) /\ well_typed (i_props i1) /\
    (forall m, m <> n -> prget m (i_props i1) = prget m (i_props i)) /\
    (forall m q w, q <> Some x -> (own (i_props i1) m q w <-> own (i_props i) m q w)) /\
    (exists d, prget n src = Some d /\
     (d = [] -> i1 = i) /\
     (d <> [] -> exists v, source_value src n v /\
        (is_text E n = false -> forall w, holds (i_props i1) n (Some x) w <-> w = v)))).
  { destruct (prget n src) as [[|e d]|] eqn:Ed; [| |discriminate].
    - injection E1 as <-. split; [exact Hg|]. split; [exact Ht|]. split; [reflexivity|].
      split; [reflexivity|]. exists []. split; [reflexivity|]. split; [reflexivity|]. congruence.
    - destruct (inherited (e :: d) (e :: d)) as [v|] eqn:Ei; [|discriminate].
      apply (inherited_source (e_ver E) src n) in Ei; auto.
      destruct (set_property_ok E i n (as_arg v) [Some x] true i1 Hg Ht E1) as (G1 & T1).
      apply set_property_inv in E1 as (u & Hu & _ & _ & Hps & _); auto.
      change (profs_of (i_props i) n [Some x]) with [Some x] in Hu, Hps.
      assert (HP1 : NoDup [Some x]) by (repeat constructor; intros []).
      assert (HP2 : ~ In None [Some x]) by (intros [F|[]]; discriminate).
      split; [exact G1|]. split; [exact T1|].
      split; [intros m Hm; rewrite Hps; now apply prget_stored_other|].
      split; [intros m q w Hq; rewrite Hps; apply (stored_own_outside (e_ver E)); auto;
              intros [F|[]]; congruence|].
      exists (e :: d). split; [reflexivity|]. split; [discriminate|]. intros _.
      exists v. split; [exact Ei|]. intros Htx w. rewrite add_wildcards_plain in Hu by exact Htx.
      assert (Hvo : exists p, own src n p v) by (destruct Ei as [Ho|(Ho & _)]; eauto).
      destruct Hvo as (p & Ho).
      assert (u = v). { injection Hu as <-. apply as_arg_value. now apply (Hst n p). }
      subst u. rewrite Hps. rewrite (stored_holds (e_ver E)); auto.
      + split.
        * intros [(_ & ->)|(F & _)]; [reflexivity|]. exfalso. apply F. now left.
        * intros ->. left. split; [left; now left|reflexivity].
      + apply own_iff in Ho as (dd & Hdd & s & Hs & _); [|apply Hsg].
        assert (Gd := good_dict _ _ _ _ Hsg Hdd). destruct Gd as (_ & Gd & _).
        now apply (Gd v s). }
  destruct Hstep as (G1 & T1 & Hget & Hout & d & Hd & Hd1 & Hd2).
  assert (Hfrom' : from = Some src \/
            (from = None /\ forall m, In m names -> prget m (i_props i1) = prget m src)).
  { destruct Hfrom as [-> |(-> & Hf)]; [now left|]. right. split; [reflexivity|].
    intros m Hm. rewrite Hget; [apply Hf; now right|]. intros ->. contradiction. }
  destruct (IH i1 i' Hnn' Hsg Hst G1 T1 Hfrom' H) as (G2 & A1 & A2 & A3).
  assert (Hother : forall m q w, m <> n -> (own (i_props i1) m q w <-> own (i_props i) m q w)).
  { intros m q w Hm. apply own_same_get; [apply G1|apply Hg|]. now apply Hget. }
  split; [exact G2|]. split; [|split].
  - intros m q w Hq. rewrite A1 by exact Hq. now apply Hout.
  - intros m q w Hm. rewrite A2 by (intros F; apply Hm; now right). apply Hother.
    intros ->. apply Hm. now left.
  - intros m [<-|Hm].
    + exists d. split; [exact Hd|]. split.
      * intros He q w. rewrite A2 by exact Hni. now rewrite (Hd1 He).
      * intros Hne. destruct (Hd2 Hne) as (v & Hv & Hh). exists v. split; [exact Hv|].
        intros Htx w. rewrite <- (Hh Htx w). apply holds_agree. intros q u _. now apply A2.
    + destruct (A3 m Hm) as (d' & Hd' & B1 & B2). exists d'. split; [exact Hd'|]. split.
      * intros He q w. rewrite (B1 He). apply Hother. intros ->. contradiction.
      * exact B2.
Qed.

Lemma add_profile_spec : forall E i x from i',
  reachable (e_ver E) i -> (forall f, from = Some f -> reachable (e_ver E) f) ->
  has_profile E i (Some x) = false ->
  add_profile E i (Some x) from = Ok i' ->
  let src := i_props (match from with Some f => f | None => i end) in
  good_props (e_ver E) (i_props i') /\
  (forall n q w, q <> Some x -> (own (i_props i') n q w <-> own (i_props i) n q w)) /\
  (forall n, (forall q w, ~ own src n q w) ->
     forall q w, own (i_props i') n q w <-> own (i_props i) n q w) /\
  (forall n, (exists q w, own src n q w) -> exists v, source_value src n v /\
     (is_text E n = false -> forall w, holds (i_props i') n (Some x) w <-> w = v)).
Proof.
  intros E i x from i' Hr Hrf Hp H src. unfold add_profile in H. rewrite Hp in H.
  assert (Esrc : match from with Some f => i_props f | None => i_props i end = src)
    by (unfold src; now destruct from).
  rewrite Esrc in H.
  destruct (prget (INSTANCE_ID (e_ver E)) src) as [d0|]; [|discriminate].
  destruct (fold_result _ (map fst src) i) as [i1|] eqn:E1; [|discriminate]. cbn [rbind] in H.
  assert (Hsr : good_props (e_ver E) src /\ well_typed src).
  { unfold src. destruct from as [f|].
    - split; [apply reachable_good|apply (reachable_typed (e_ver E))]; now apply Hrf.
    - split; [now apply reachable_good|now apply (reachable_typed (e_ver E))]. }
  destruct Hsr as (Hsg & Hst).
  assert (Hsnd : NoDup (map fst src)) by apply Hsg.
  apply (fold_names E x src) in E1; auto.
  2: now apply reachable_good.
  2: now apply (reachable_typed (e_ver E)).
  2: { unfold src. destruct from as [f|]; [now left|]. right. split; [reflexivity|]. reflexivity. }
  destruct E1 as (G1 & A1 & A2 & A3).
  rewrite validate_good in H by exact G1. injection H as <-. cbn.
  split; [exact G1|]. split; [exact A1|]. split.
  - intros n Hno q w. destruct (in_dec str_eq_dec n (map fst src)) as [Hin|Hin].
    + destruct (A3 n Hin) as (d & Hd & B1 & _). apply B1.
      destruct d as [|[v s] d]; [reflexivity|]. exfalso.
      assert (Gd := good_dict _ _ _ _ Hsg Hd). destruct Gd as (_ & Gd & _).
      destruct (Gd v s) as (_ & Hne & _); [now left|]. destruct s as [|p s]; [contradiction|].
      apply (Hno p v). apply (own_Some src n _ p v Hsnd Hd). exists (p :: s). split; now left.
    + now apply A2.
  - intros n (q & w & Hw). apply own_iff in Hw as (d & Hd & Hw); [|exact Hsnd].
    assert (Hin : In n (map fst src)).
    { apply prget_In in Hd; [|exact Hsnd]. apply in_map_iff. now exists (n, d). }
    destruct (A3 n Hin) as (d' & Hd' & _ & B2). assert (d' = d) by congruence. subst d'.
    apply B2. intros ->. now destruct Hw as (s & [] & _).
Qed.
