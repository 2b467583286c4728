(** The effect of item operations on what the item reports. *)
From Coq Require Import Lia.
From Verif Require Import PyBase PyBaseProofs PyDict PyDictProofs ValidationModel XmlModel NamesModel ItemModel ItemSpec
  PsetProofs ItemProofs ItemSetProofs ItemProfileProofs ItemReachProofs ItemAddProofs.

Lemma good_single : forall ver ps n p q v w, good_props ver ps ->
  n = INSTANCE_ID ver \/ n = RESOURCE_TYPE -> own ps n p v -> own ps n q w -> v = w.
Proof.
  intros ver ps n p q v w (G0 & _ & G) Hn (d & s & H1 & H2 & _) (d' & s' & H1' & H2' & _).
  assert (d' = d) as ->.
  { apply prget_In in H1; [|exact G0]. apply prget_In in H1'; [|exact G0]. congruence. }
  specialize (G n d H1 Hn). destruct d as [|a [|b d]]; cbn in G; [contradiction| |lia].
  destruct H2 as [-> |[]]. destruct H2' as [E|[]]. congruence.
Qed.

Lemma reports_plain : forall E i n p w, good_props (e_ver E) (i_props i) ->
  ~ text_property (e_ver E) n ->
  (reports E i n p = Ok (Some w) <-> holds (i_props i) n p w).
Proof.
  intros E i n p w G Ht. unfold reports. rewrite get_value_plain by now apply not_text.
  rewrite <- (get_raw_holds _ _ n p w G). split; congruence.
Qed.

(** A list of profiles as a set, in the statement of [requested]. *)
Lemma requested_profs : forall E i n P p, good_props (e_ver E) (i_props i) ->
  (In p (profs_of (i_props i) n P) <-> requested (i_props i) n P p).
Proof.
  intros E i n P p (G1 & G2 & G3). apply profs_requested; [exact G1|].
  intros d Hd. apply (G2 n). now apply prget_In.
Qed.

Theorem set_property_effect : forall E i n x P ow i',
  reachable (e_ver E) i -> set_property E i n x P ow = Ok i' ->
  exists v,
    add_wildcards E (i_props i) n (to_value E n x) (profs_of (i_props i) n P) = Ok v /\
    (forall p w, truthy v = true -> reaches (i_props i) n P p ->
       (holds (i_props i') n p w <-> w = v)) /\
    (forall p w, truthy v = true -> ~ reaches (i_props i) n P p ->
       (holds (i_props i') n p w <-> holds (i_props i) n p w)) /\
    (forall p w, truthy v = false ->
       (own (i_props i') n p w <-> own (i_props i) n p w /\ ~ requested (i_props i) n P p)) /\
    (forall m p w, m <> n -> (own (i_props i') m p w <-> own (i_props i) m p w)).
Proof.
  intros E i n x P ow i' R H. apply reachable_good in R as G.
  apply set_property_inv in H as (v & Hv & _ & _ & Hp & _); [|exact G]. rewrite Hp.
  exists v. split; [exact Hv|]. set (Q := profs_of (i_props i) n P).
  assert (HQ : forall p, In p Q <-> requested (i_props i) n P p) by (intros; now apply (requested_profs E)).
  assert (ND : NoDup Q) by apply profs_NoDup.
  split; [|split; [|split]].
  - intros p w Ht Hr. rewrite (stored_holds _ _ n v Q p w G ND Ht).
    split; [|intros ->; left; split; [|reflexivity]].
    + intros [[_ ->]|(H1 & H2 & _)]; [reflexivity|]. exfalso. rewrite HQ in H1.
      destruct Hr as [Hr|[Hr Hn]]; [contradiction|]. apply HQ in Hr.
      destruct H2 as [H2|[u Hu]]; [contradiction|]. now apply (Hn u).
    + destruct Hr as [Hr|[Hr Hn]]; [left; now apply HQ|]. right. split; [now apply HQ|exact Hn].
  - intros p w Ht Hr. rewrite (stored_holds _ _ n v Q p w G ND Ht).
    assert (~ In p Q) as H1 by (intros H1; apply Hr; left; now apply HQ).
    assert (~ In None Q \/ exists u, own (i_props i) n p u) as H2.
    { destruct (own_dec (i_props i) n p) as [H2|H2]; [apply G|now right|].
      left. intros H3. apply Hr. right. split; [now apply HQ|exact H2]. }
    split; [|tauto]. intros [[H3 ->]|(_ & _ & H3)]; [|exact H3].
    exfalso. apply Hr. destruct H3 as [H3|[H3 H4]]; [left; now apply HQ|].
    right. split; [now apply HQ|exact H4].
  - intros p w Ht. rewrite (stored_own_empty _ _ n v Q p w G ND Ht). rewrite HQ. reflexivity.
  - intros m p w Hm. apply stored_other; [apply G|exact Hm].
Qed.

(** The same in terms of what is reported, for all but the two free texts. *)
Theorem set_property_reports : forall E i n x P ow i',
  reachable (e_ver E) i -> ~ text_property (e_ver E) n ->
  truthy (to_value E n x) = true -> set_property E i n x P ow = Ok i' ->
  (forall p, reaches (i_props i) n P p -> reports E i' n p = Ok (Some (to_value E n x))) /\
  (forall p, ~ reaches (i_props i) n P p -> reports E i' n p = reports E i n p) /\
  (forall m p, m <> n -> ~ text_property (e_ver E) m -> reports E i' m p = reports E i m p).
Proof.
  intros E i n x P ow i' R Ht Hx H. apply reachable_good in R as G.
  assert (G' : good_props (e_ver E) (i_props i')).
  { apply (reachable_good (e_ver E)). exact (R_set _ E i n x P ow i' eq_refl R H). }
  apply set_property_effect in H as (v & Hv & H1 & H2 & _ & H4); [|exact R].
  rewrite add_wildcards_plain in Hv by now apply not_text. injection Hv as <-.
  assert (Same : forall m p, ~ text_property (e_ver E) m ->
    (forall w, holds (i_props i') m p w <-> holds (i_props i) m p w) ->
    reports E i' m p = reports E i m p).
  { intros m p Hm Hs. unfold reports. rewrite !get_value_plain by now apply not_text. f_equal.
    destruct (get_raw (i_props i') m (Some [p])) as [w|] eqn:E1.
    - apply (get_raw_holds _ _ _ _ _ G') in E1. apply Hs in E1.
      symmetry. now apply (get_raw_holds _ _ _ _ _ G).
    - destruct (get_raw (i_props i) m (Some [p])) as [w|] eqn:E2; [|reflexivity].
      apply (get_raw_holds _ _ _ _ _ G) in E2. apply Hs in E2.
      apply (get_raw_holds _ _ _ _ _ G') in E2. congruence. }
  split; [|split].
  - intros p Hp. apply reports_plain; [exact G'|exact Ht|]. now apply H1.
  - intros p Hp. apply Same; [exact Ht|]. intros w. now apply H2.
  - intros m p Hm Hmt. apply Same; [exact Hmt|]. intros w. apply holds_agree.
    intros q u _. now apply H4.
Qed.

(** Setting an empty value removes the records of the requested profiles. *)
Theorem set_property_empty : forall E i n x P ow i',
  reachable (e_ver E) i -> ~ text_property (e_ver E) n ->
  truthy (to_value E n x) = false -> set_property E i n x P ow = Ok i' ->
  forall p w, own (i_props i') n p w <-> own (i_props i) n p w /\ ~ requested (i_props i) n P p.
Proof.
  intros E i n x P ow i' R Ht Hx H.
  apply set_property_effect in H as (v & Hv & _ & _ & H3 & _); [|exact R].
  rewrite add_wildcards_plain in Hv by now apply not_text. injection Hv as <-.
  intros p w. now apply H3.
Qed.

(** When a call fails. *)
Lemma stored_values_two : forall ver ps n v Q, good_props ver ps -> NoDup Q -> Q <> [] ->
  1 < length (stored_values ps n v Q) ->
  exists p w, own ps n p w /\ w <> v /\ ~ In p Q.
Proof.
  intros ver ps n v Q G ND NE Hl.
  assert (K : exists d', stored_values ps n v Q = d' /\ NoDup (map fst d') /\
    forall w s, In (w, s) d' -> s <> []).
  { unfold stored_values in *. destruct (prget n ps) as [d|] eqn:Ed.
    - pose proof (fin_good v Q d (good_dict _ _ _ _ G Ed) ND NE) as F. eexists; split; [reflexivity|].
      split; [apply F|]. intros w s Hs. destruct F as (_ & F & _). now apply (F w s).
    - destruct (truthy v); cbn in Hl; lia. }
  destruct K as (d' & Ed & K1 & K2). rewrite Ed in Hl.
  assert (T : exists w s, In (w, s) d' /\ w <> v).
  { destruct d' as [|[w1 s1] [|[w2 s2] d']]; cbn in Hl; try lia.
    cbn in K1. inversion K1 as [|a b H1 H2]; subst.
    destruct (value_eqb w1 v) eqn:E1.
    - apply value_eqb_eq in E1. subst w1. exists w2, s2. split; [right; now left|].
      intros ->. apply H1. now left.
    - apply value_eqb_neq in E1. exists w1, s1. split; [now left|exact E1]. }
  destruct T as (w & s & Hs & Hw). specialize (K2 w s Hs).
  destruct s as [|p s]; [contradiction|]. exists p, w.
  assert (O : own (stored ps n v Q) n p w).
  { apply stored_own; [apply G|]. rewrite Ed. exists (p :: s). split; [exact Hs|now left]. }
  destruct p as [x|].
  - apply (stored_own_named ver) in O; [|exact G|exact ND].
    destruct O as [(_ & O & N)|(-> & _)]; [|contradiction]. auto.
  - apply (stored_own_default ver) in O; [|exact G].
    destruct O as [(_ & O & N)|(-> & _)]; [|contradiction]. auto.
Qed.

Theorem set_property_fails : forall E i n x P ow e,
  reachable (e_ver E) i -> ~ text_property (e_ver E) n ->
  set_property E i n x P ow = Err e ->
  (e = EOVFItemData /\ ow = false /\
   exists p v, requested (i_props i) n P p /\ own (i_props i) n p v) \/
  (e = ERuntimeError /\ (n = INSTANCE_ID (e_ver E) \/ n = RESOURCE_TYPE) /\
   exists p v, own (i_props i) n p v /\ v <> to_value E n x /\ ~ requested (i_props i) n P p).
Proof.
  intros E i n x P ow e R Ht H. apply reachable_good in R as G.
  rewrite set_property_eq in H by exact G.
  rewrite add_wildcards_plain in H by now apply not_text. cbn [rbind] in H.
  set (Q := profs_of (i_props i) n P) in *. set (v := to_value E n x) in *.
  destruct (refused ow (i_props i) n Q) eqn:Er.
  - injection H as <-. left. split; [reflexivity|].
    apply refused_spec in Er as (-> & p & w & Hp & Hw); [|apply G]. split; [reflexivity|].
    exists p, w. split; [now apply (requested_profs E)|exact Hw].
  - destruct (too_many (e_ver E) n (stored_values (i_props i) n v Q)) eqn:Em; [|discriminate].
    injection H as <-. right. split; [reflexivity|].
    unfold too_many in Em. apply andb_true_iff in Em as [En El].
    apply orb_true_iff in En. rewrite !str_eqb_eq in En. split; [exact En|].
    apply Nat.ltb_lt in El.
    destruct (stored_values_two (e_ver E) (i_props i) n v Q G) as (p & w & H1 & H2 & H3);
      [apply profs_NoDup|apply profs_nonempty; [apply G|intros d Hd; exact (good_dict _ _ _ _ G Hd)]
      |exact El|].
    exists p, w. split; [exact H1|]. split; [exact H2|].
    intros Hr. apply H3. now apply (requested_profs E).
Qed.

Theorem set_property_refuses : forall E i n x P p v,
  reachable (e_ver E) i -> ~ text_property (e_ver E) n ->
  requested (i_props i) n P p -> own (i_props i) n p v ->
  set_property E i n x P false = Err EOVFItemData.
Proof.
  intros E i n x P p v R Ht Hp Hv. apply reachable_good in R as G.
  rewrite set_property_eq by exact G.
  rewrite add_wildcards_plain by now apply not_text. cbn [rbind].
  rewrite (proj2 (refused_spec false _ n _ (proj1 G))); [reflexivity|].
  split; [reflexivity|]. exists p, v. split; [now apply (requested_profs E)|exact Hv].
Qed.

(** ** Profiles *)

Lemma reports_same : forall E i i' q r,
  good_props (e_ver E) (i_props i) -> good_props (e_ver E) (i_props i') ->
  (forall m v, holds (i_props i) m q v <-> holds (i_props i') m r v) ->
  forall n, reports E i' n r = reports E i n q.
Proof. intros E i i' q r G G' H n. symmetry. now apply get_value_same_holds. Qed.

Lemma reports_nothing : forall E i n q, good_props (e_ver E) (i_props i) ->
  (forall v, ~ holds (i_props i) n q v) -> reports E i n q = Ok None.
Proof.
  intros E i n q G H. unfold reports, get_value.
  destruct (get_raw (i_props i) n (Some [q])) as [v|] eqn:Ev.
  - apply (get_raw_holds _ _ _ _ _ G) in Ev. now apply H in Ev.
  - reflexivity.
Qed.

(** Removing a profile with the default split up among the others. *)
Theorem remove_profile_split : forall E i x,
  reachable (e_ver E) i -> has_profile E i (Some x) = true ->
  exists i', remove_profile E i (Some x) true = Ok i' /\
    (forall n, reports E i' n (Some x) = Ok None) /\
    (forall n c, In c (config_of E i) -> c <> x -> reports E i' n (Some c) = reports E i n (Some c)).
Proof.
  intros E i x R Hp. apply reachable_good in R as G. rewrite remove_profile_eq by exact G.
  rewrite Hp. eexists. split; [reflexivity|].
  pose proof (removed_good _ (config_of E i) true (Some x) _ G) as G'. split.
  - intros n. apply reports_nothing; [exact G'|]. intros v. cbn [i_props with_modified with_props].
    exact (removed_split_gone _ _ _ _ _ _ G).
  - intros n c Hc Hx. apply reports_same; [exact G|exact G'|]. intros m v.
    cbn [i_props with_modified with_props]. symmetry. exact (removed_split_holds _ _ _ _ _ _ _ G Hc Hx).
Qed.

(** Removing only the records of the profile itself. *)
Theorem remove_profile_only : forall E i x,
  reachable (e_ver E) i -> has_profile E i (Some x) = true ->
  exists i', remove_profile E i (Some x) false = Ok i' /\
    (forall n q, q <> Some x -> reports E i' n q = reports E i n q) /\
    (forall n, reports E i' n (Some x) = reports E i n None).
Proof.
  intros E i x R Hp. apply reachable_good in R as G. rewrite remove_profile_eq by exact G.
  rewrite Hp. eexists. split; [reflexivity|].
  pose proof (removed_good _ (config_of E i) false (Some x) _ G) as G'. split.
  - intros n q Hq. apply reports_same; [exact G|exact G'|]. intros m v.
    cbn [i_props with_modified with_props]. apply holds_agree. intros r w Hr.
    rewrite (removed_own_nosplit _ _ _ _ _ _ _ G).
    split; [|tauto]. intros Ho. split; [|exact Ho]. destruct Hr as [-> | ->]; [exact Hq|discriminate].
  - intros n. apply reports_same; [exact G|exact G'|]. intros m v.
    cbn [i_props with_modified with_props]. unfold holds.
    assert (N : forall w, ~ own (removed (config_of E i) false (Some x) (i_props i)) m (Some x) w).
    { intros w Hw. apply (removed_own_nosplit _ _ _ _ _ _ _ G) in Hw as [Hw _]. contradiction. }
    rewrite (removed_own_nosplit _ _ _ _ m None v G). split.
    + intros [Ho|[Hn Ho]]; right; (split; [exact N|]); (split; [discriminate|exact Ho]).
    + intros [Ho|[_ [_ Ho]]]; [now apply N in Ho|now left].
Qed.

Theorem remove_profile_absent : forall E i p split, has_profile E i p = false ->
  remove_profile E i p split = Ok i.
Proof. intros E i p split H. unfold remove_profile. now rewrite H. Qed.

(** Adding a profile. *)
Theorem add_profile_reports : forall E i x from i',
  reachable (e_ver E) i -> (forall f, from = Some f -> reachable (e_ver E) f) ->
  has_profile E i (Some x) = false -> add_profile E i (Some x) from = Ok i' ->
  let src := i_props (match from with Some f => f | None => i end) in
  (forall n q, q <> Some x -> reports E i' n q = reports E i n q) /\
  (forall n, ~ text_property (e_ver E) n -> (exists q w, own src n q w) ->
     exists v, source_value src n v /\ reports E i' n (Some x) = Ok (Some v)) /\
  (forall n, ~ text_property (e_ver E) n -> (forall q w, ~ own src n q w) ->
     reports E i' n (Some x) = reports E i n (Some x)).
Proof.
  intros E i x from i' R Rf Hp H src. apply reachable_good in R as G.
  destruct (add_profile_spec E i x from i' R Rf Hp H) as (G' & H1 & H2 & H3). fold src in H2, H3.
  split; [|split].
  - intros n q Hq. apply reports_same; [exact G|exact G'|]. intros m v. apply holds_agree.
    intros r w [-> | ->]; symmetry; apply H1; [exact Hq|discriminate].
  - intros n Hn Hs. destruct (H3 n Hs) as (v & Hv & Hh). exists v. split; [exact Hv|].
    apply reports_plain; [exact G'|exact Hn|]. apply Hh; [now apply not_text|reflexivity].
  - intros n Hn Hs. unfold reports. rewrite !get_value_plain by now apply not_text. f_equal.
    assert (S : forall w, holds (i_props i') n (Some x) w <-> holds (i_props i) n (Some x) w).
    { intros w. apply holds_agree. intros q u _. now apply H2. }
    set (q := Some x : profile) in *.
    destruct (get_raw (i_props i') n (Some [q])) as [w|] eqn:E1.
    + apply (get_raw_holds _ _ _ _ _ G') in E1. apply S in E1.
      symmetry. now apply (get_raw_holds _ _ _ _ _ G).
    + destruct (get_raw (i_props i) n (Some [q])) as [w|] eqn:E2; [|reflexivity].
      apply (get_raw_holds _ _ _ _ _ G) in E2. apply S in E2.
      apply (get_raw_holds _ _ _ _ _ G') in E2. congruence.
Qed.
