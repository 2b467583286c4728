(** C13, C14, C15: hardware items and their profiles. *)
From Verif Require Import PyBase PyDict ValidationModel XmlModel NamesModel ItemModel ItemSpec
  PsetProofs ItemProofs ItemReachProofs ItemEffectProofs.

(** ** An example: 4 CPUs, 8 under profile "big" *)
Definition env0 : env :=
  mkEnv V1 [L "small"; L "big"] (fun _ _ s => Ok s) (fun _ => L "()")
    (fun _ => []) (fun _ => Err EValueError).
Definition ok_item (r : result item) : item :=
  match r with Ok i => i | Err _ => new_ovfitem env0 end.
Definition cpus : item :=
  let i1 := ok_item (set_property env0 (new_ovfitem env0) (L "InstanceID") (IStr (L "1")) [] true) in
  let i2 := ok_item (set_property env0 i1 VIRTUAL_QUANTITY (IStr (L "4")) [] true) in
  ok_item (set_property env0 i2 VIRTUAL_QUANTITY (IStr (L "8")) [Some (L "big")] true).
Example cpus_props : i_props cpus =
  [(L "InstanceID", [(VStr (L "1"), [None])]);
   (VIRTUAL_QUANTITY, [(VStr (L "4"), [None]); (VStr (L "8"), [Some (L "big")])])].
Proof. vm_compute. reflexivity. Qed.
Example cpus_reachable : reachable V1 cpus.
Proof.
  assert (E : exists i1 i2,
    set_property env0 (new_ovfitem env0) (L "InstanceID") (IStr (L "1")) [] true = Ok i1 /\
    set_property env0 i1 VIRTUAL_QUANTITY (IStr (L "4")) [] true = Ok i2 /\
    set_property env0 i2 VIRTUAL_QUANTITY (IStr (L "8")) [Some (L "big")] true = Ok cpus).
  { eexists _, _. split; [vm_compute; reflexivity|]. split; [vm_compute; reflexivity|].
    vm_compute. reflexivity. }
  destruct E as (i1 & i2 & E1 & E2 & E3).
  apply (R_set V1 env0 _ _ _ _ _ _ eq_refl) in E1; [|now apply R_new].
  apply (R_set V1 env0 _ _ _ _ _ _ eq_refl) in E2; [|exact E1].
  apply (R_set V1 env0 _ _ _ _ _ _ eq_refl) in E3; [|exact E2]. exact E3.
Qed.

(** ** C13 *)

(** Whatever was done to an item, no profile has two values of one property, ... *)
Theorem C13_one_value_per_profile : forall ver i n p v w,
  reachable ver i -> own (i_props i) n p v -> own (i_props i) n p w -> v = w.
Proof.
  intros ver i n p v w R Hv Hw. apply reachable_good in R as G.
  exact (own_unique ver (i_props i) n p v w G Hv Hw).
Qed.
Print Assumptions C13_one_value_per_profile.

(** ... the sets of profiles of different values are disjoint, and the default
    profile shares its set with no other. *)
Theorem C13_disjoint_sets : forall ver i n (d : vdict),
  reachable ver i -> In (n, d) (i_props i) ->
  NoDup (map fst d) /\
  forall v s, In (v, s) d ->
    s <> [] /\ (In None s -> s = [None]) /\
    (forall w t p, In (w, t) d -> In p s -> In p t -> v = w /\ s = t).
Proof.
  intros ver i n d R Hd. apply reachable_good in R as (_ & G & _). specialize (G n d Hd).
  destruct G as (G1 & G2 & G3). split; [exact G1|].
  intros v s Hs. destruct (G2 v s Hs) as (_ & Hne & _ & Hn). split; [exact Hne|].
  split; [exact Hn|]. intros w t p Ht Hp Hp'.
  assert (v = w) as -> by exact (G3 v s w t p Hs Ht Hp Hp'). split; [reflexivity|].
  exact (key_unique d w s t G1 Hs Ht).
Qed.
Print Assumptions C13_disjoint_sets.

(** One instance ID and one resource type for all profiles. *)
Theorem C13_single_valued : forall ver i n p q v w,
  reachable ver i -> n = INSTANCE_ID ver \/ n = RESOURCE_TYPE ->
  own (i_props i) n p v -> own (i_props i) n q w -> v = w.
Proof.
  intros ver i n p q v w R. apply reachable_good in R as G.
  exact (good_single ver (i_props i) n p q v w G).
Qed.
Print Assumptions C13_single_valued.

(** The consistency check that raises RuntimeError on overlapping sets accepts
    every such item and changes nothing. *)
Theorem C13_check_passes : forall E i,
  reachable (e_ver E) i -> validate E i = Ok i.
Proof.
  intros E i R. apply reachable_good in R as G. rewrite (validate_good E i G).
  now destruct i.
Qed.
Print Assumptions C13_check_passes.
Example C13_example :
  own (i_props cpus) VIRTUAL_QUANTITY None (VStr (L "4")) /\
  own (i_props cpus) VIRTUAL_QUANTITY (Some (L "big")) (VStr (L "8")).
Proof.
  rewrite cpus_props. split.
  - exists [(VStr (L "4"), [None]); (VStr (L "8"), [Some (L "big")])], [None].
    cbn. tauto.
  - exists [(VStr (L "4"), [None]); (VStr (L "8"), [Some (L "big")])], [Some (L "big")].
    cbn. tauto.
Qed.

(** ** C14 *)

(** Setting a non-empty value: the profiles the call reaches report it, all other
    profiles and all other properties report what they did before. *)
Theorem C14_set_property : forall E i n x P ow i',
  reachable (e_ver E) i -> ~ text_property (e_ver E) n ->
  truthy (to_value E n x) = true -> set_property E i n x P ow = Ok i' ->
  (forall p, reaches (i_props i) n P p -> reports E i' n p = Ok (Some (to_value E n x))) /\
  (forall p, ~ reaches (i_props i) n P p -> reports E i' n p = reports E i n p) /\
  (forall m p, m <> n -> ~ text_property (e_ver E) m -> reports E i' m p = reports E i m p).
Proof. exact set_property_reports. Qed.
Print Assumptions C14_set_property.

(** For the two free texts the same holds of the recorded text, in which parts equal
    to other properties are replaced by wildcards (see C39). *)
Theorem C14_recorded : forall E i n x P ow i',
  reachable (e_ver E) i -> set_property E i n x P ow = Ok i' ->
  exists v,
    add_wildcards E (i_props i) n (to_value E n x) (profs_of (i_props i) n P) = Ok v /\
    (forall p w, truthy v = true -> reaches (i_props i) n P p ->
       (holds (i_props i') n p w <-> w = v)) /\
    (forall p w, truthy v = true -> ~ reaches (i_props i) n P p ->
       (holds (i_props i') n p w <-> holds (i_props i) n p w)) /\
    (forall p w, truthy v = false ->
       (own (i_props i') n p w <-> own (i_props i) n p w /\ ~ requested (i_props i) n P p)) /\
    (forall m p w, m <> n -> (own (i_props i') m p w <-> own (i_props i) m p w)).
Proof. exact set_property_effect. Qed.
Print Assumptions C14_recorded.

(** Setting an empty value removes exactly the records of the requested profiles. *)
Theorem C14_set_empty : forall E i n x P ow i',
  reachable (e_ver E) i -> ~ text_property (e_ver E) n ->
  truthy (to_value E n x) = false -> set_property E i n x P ow = Ok i' ->
  forall p w, own (i_props i') n p w <-> own (i_props i) n p w /\ ~ requested (i_props i) n P p.
Proof. exact set_property_empty. Qed.
Print Assumptions C14_set_empty.

(** The only failures: a requested profile already has a value and must not be
    overwritten, or a second instance ID or resource type would arise. *)
Theorem C14_failures : forall E i n x P ow e,
  reachable (e_ver E) i -> ~ text_property (e_ver E) n ->
  set_property E i n x P ow = Err e ->
  (e = EOVFItemData /\ ow = false /\
   exists p v, requested (i_props i) n P p /\ own (i_props i) n p v) \/
  (e = ERuntimeError /\ (n = INSTANCE_ID (e_ver E) \/ n = RESOURCE_TYPE) /\
   exists p v, own (i_props i) n p v /\ v <> to_value E n x /\ ~ requested (i_props i) n P p).
Proof. exact set_property_fails. Qed.
Print Assumptions C14_failures.
Theorem C14_refusal : forall E i n x P p v,
  reachable (e_ver E) i -> ~ text_property (e_ver E) n ->
  requested (i_props i) n P p -> own (i_props i) n p v ->
  set_property E i n x P false = Err EOVFItemData.
Proof. exact set_property_refuses. Qed.
Print Assumptions C14_refusal.

(** Not "exactly the requested profiles": a value set for the default profile shows
    under every profile without a value of its own. *)
Theorem C14_default_shows_refuted : ~ forall E i n x P i' p,
  reachable (e_ver E) i -> ~ text_property (e_ver E) n ->
  set_property E i n x P true = Ok i' -> ~ In p P -> P <> [] ->
  reports E i' n p = reports E i n p.
Proof.
  intros H.
  assert (Ei : exists i', set_property env0 cpus VIRTUAL_QUANTITY (IStr (L "2")) [None] true = Ok i' /\
    reports env0 i' VIRTUAL_QUANTITY (Some (L "small")) = Ok (Some (VStr (L "2")))).
  { eexists. split; vm_compute; reflexivity. }
  destruct Ei as (i' & E1 & E2).
  rewrite (H env0 cpus VIRTUAL_QUANTITY (IStr (L "2")) [None] i' (Some (L "small"))) in E2.
  - vm_compute in E2. discriminate.
  - exact cpus_reachable.
  - intros [Ht|Ht]; vm_compute in Ht; discriminate.
  - exact E1.
  - intros [Hp|[]]. discriminate.
  - discriminate.
Qed.
Print Assumptions C14_default_shows_refuted.

Example C14_example : exists i',
  set_property env0 cpus VIRTUAL_QUANTITY (IStr (L "2")) [Some (L "small")] true = Ok i' /\
  reports env0 i' VIRTUAL_QUANTITY (Some (L "small")) = Ok (Some (VStr (L "2"))) /\
  reports env0 i' VIRTUAL_QUANTITY (Some (L "big")) = Ok (Some (VStr (L "8"))) /\
  reports env0 i' VIRTUAL_QUANTITY None = Ok (Some (VStr (L "4"))) /\
  reaches (i_props cpus) VIRTUAL_QUANTITY [Some (L "small")] (Some (L "small")) /\
  ~ text_property V1 VIRTUAL_QUANTITY.
Proof.
  eexists. split; [vm_compute; reflexivity|]. split; [vm_compute; reflexivity|].
  split; [vm_compute; reflexivity|]. split; [vm_compute; reflexivity|].
  split; [left; cbn; tauto|]. intros [Ht|Ht]; vm_compute in Ht; discriminate.
Qed.

(** ** C15 *)

(** Removing a profile: it reports nothing afterwards, and every other profile of the
    document reports what it did before. *)
Theorem C15_remove_profile : forall E i x,
  reachable (e_ver E) i -> has_profile E i (Some x) = true ->
  exists i', remove_profile E i (Some x) true = Ok i' /\
    (forall n, reports E i' n (Some x) = Ok None) /\
    (forall n c, In c (config_of E i) -> c <> x -> reports E i' n (Some c) = reports E i n (Some c)).
Proof. exact remove_profile_split. Qed.
Print Assumptions C15_remove_profile.

(** Removing only the records of the profile itself, as is done when the profile is
    deleted from the document: it falls back to the default profile. *)
Theorem C15_remove_records : forall E i x,
  reachable (e_ver E) i -> has_profile E i (Some x) = true ->
  exists i', remove_profile E i (Some x) false = Ok i' /\
    (forall n q, q <> Some x -> reports E i' n q = reports E i n q) /\
    (forall n, reports E i' n (Some x) = reports E i n None).
Proof. exact remove_profile_only. Qed.
Print Assumptions C15_remove_records.
Theorem C15_remove_absent : forall E i p split, has_profile E i p = false ->
  remove_profile E i p split = Ok i.
Proof. exact remove_profile_absent. Qed.
Print Assumptions C15_remove_absent.

(** Adding a profile: all others report what they did before; the new one reports,
    for each property of the source, its default or only value. *)
Theorem C15_add_profile : forall E i x from i',
  reachable (e_ver E) i -> (forall f, from = Some f -> reachable (e_ver E) f) ->
  has_profile E i (Some x) = false -> add_profile E i (Some x) from = Ok i' ->
  let src := i_props (match from with Some f => f | None => i end) in
  (forall n q, q <> Some x -> reports E i' n q = reports E i n q) /\
  (forall n, ~ text_property (e_ver E) n -> (exists q w, own src n q w) ->
     exists v, source_value src n v /\ reports E i' n (Some x) = Ok (Some v)) /\
  (forall n, ~ text_property (e_ver E) n -> (forall q w, ~ own src n q w) ->
     reports E i' n (Some x) = reports E i n (Some x)).
Proof. exact add_profile_reports. Qed.
Print Assumptions C15_add_profile.

Example C15_example : exists i1 i2,
  has_profile env0 cpus (Some (L "big")) = true /\
  remove_profile env0 cpus (Some (L "big")) true = Ok i1 /\
  reports env0 i1 VIRTUAL_QUANTITY (Some (L "small")) = Ok (Some (VStr (L "4"))) /\
  has_profile env0 i1 (Some (L "big")) = false /\
  add_profile env0 i1 (Some (L "big")) None = Ok i2 /\
  reports env0 i2 VIRTUAL_QUANTITY (Some (L "big")) = Ok (Some (VStr (L "4"))).
Proof.
  eexists _, _. split; [vm_compute; reflexivity|]. split; [vm_compute; reflexivity|].
  split; [vm_compute; reflexivity|]. split; [vm_compute; reflexivity|].
  split; [vm_compute; reflexivity|]. vm_compute. reflexivity.
Qed.
