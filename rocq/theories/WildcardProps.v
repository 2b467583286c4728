(** C39: texts with wildcards. *)
From Coq Require Import Lia.
From Verif Require Import PyBase PyDict ValidationModel XmlModel NamesModel ItemModel ItemSpec
  ItemEffectProofs WildcardItemProofs ItemProps.

(** Setting an element name or description: the wildcards put into the recorded text
    are filled in again, so that exactly the given text is reported. *)
Theorem C39_text_is_reported : forall E i n t P ow i',
  reachable (e_ver E) i -> text_property (e_ver E) n -> t <> [] ->
  safe_values E (i_props i) n P -> safe_text E (i_props i) n P t ->
  (n = ITEM_DESCRIPTION -> forall q, requested (i_props i) n P q ->
     exists o, reports E i (ELEMENT_NAME (e_ver E)) q = Ok o) ->
  set_property E i n (IStr t) P ow = Ok i' ->
  forall p, requested (i_props i) n P p -> reports E i' n p = Ok (Some (VStr t)).
Proof. exact text_roundtrip. Qed.
Print Assumptions C39_text_is_reported.

(** A wildcard in a recorded text is filled in with the value of the profile that is
    asked for; if there is none, an error is raised. *)
Theorem C39_wildcard_per_profile : forall E i n p w a b,
  reachable (e_ver E) i -> text_property (e_ver E) n -> no_backslashes (e_ver E) (i_props i) p ->
  In w placeholder_words -> (w = L "EN" -> n = ITEM_DESCRIPTION) ->
  no_underscore a -> no_underscore b ->
  holds (i_props i) n p (VStr (a ++ (L "_" ++ w ++ L "_") ++ b)) ->
  (forall v, holds (i_props i) (property_of (e_ver E) w) p v -> no_underscore (slashed v) ->
     reports E i n p = Ok (Some (VStr (a ++ slashed v ++ b)))) /\
  ((forall v, ~ holds (i_props i) (property_of (e_ver E) w) p v) ->
     reports E i n p = Err EOVFItemData).
Proof. exact one_wildcard. Qed.
Print Assumptions C39_wildcard_per_profile.

(** Example: "8 CPUs" set under the profile with quantity 8, "4 CPUs" for the rest by
    the same wildcard. *)
Definition named_cpus : item :=
  ok_item (set_property env0 cpus (L "ElementName") (IStr (L "4 virtual CPUs")) [None] true).
Example C39_example :
  holds (i_props named_cpus) (L "ElementName") (Some (L "big")) (VStr (L "_VQ_ virtual CPUs")) /\
  reports env0 named_cpus (L "ElementName") None = Ok (Some (VStr (L "4 virtual CPUs"))) /\
  reports env0 named_cpus (L "ElementName") (Some (L "big")) = Ok (Some (VStr (L "8 virtual CPUs"))).
Proof.
  split; [|split; vm_compute; reflexivity]. right. split.
  - intros w (d & s & Hd & Hs & Hp). vm_compute in Hd.
    destruct Hd as [Hd|[Hd|[Hd|[]]]]; try discriminate Hd. injection Hd as <-.
    destruct Hs as [Hs|[]]. injection Hs as <- <-. destruct Hp as [Hp|[]]. discriminate.
  - exists [(VStr (L "_VQ_ virtual CPUs"), [None])], [None]. vm_compute. tauto.
Qed.
Lemma cpus_quantity : forall Q, Q <> [] -> (forall q, In q Q -> q = None) ->
  get_raw (i_props cpus) VIRTUAL_QUANTITY (Some Q) = Some (VStr (L "4")).
Proof.
  intros Q Hne HQ.
  apply (LookupProofs.get_raw_set V1); [exact (ItemReachProofs.reachable_good V1 cpus cpus_reachable)|exact Hne|].
  intros q Hq. rewrite (HQ q Hq). left. exists [(VStr (L "4"), [None]); (VStr (L "8"), [Some (L "big")])], [None].
  vm_compute. tauto.
Qed.
Example C39_hypotheses :
  reachable V1 cpus /\ text_property V1 (L "ElementName") /\
  safe_values env0 (i_props cpus) (L "ElementName") [None] /\
  safe_text env0 (i_props cpus) (L "ElementName") [None] (L "4 virtual CPUs").
Proof.
  split; [exact cpus_reachable|]. split; [now left|].
  assert (Only : forall Q w x, Q <> [] ->
    (forall q, In q Q -> requested (i_props cpus) (L "ElementName") [None] q) ->
    embeds env0 (i_props cpus) Q (L "ElementName") w x -> x = L "4").
  { intros Q w x Hne HQ H.
    assert (HQ' : forall q, In q Q -> q = None).
    { intros q Hq. destruct (HQ q Hq) as [<-|[]]. reflexivity. }
    remember (L "ElementName") as n eqn:En. destruct H as [n v H|n v H|n v H|v H].
    - rewrite ItemProfileProofs.get_value_plain in H by reflexivity.
      pose proof (eq_trans (eq_sym (f_equal Ok (cpus_quantity Q Hne HQ'))) H) as H'.
      injection H' as <-. reflexivity.
    - vm_compute in H. discriminate.
    - vm_compute in H. discriminate.
    - discriminate En. }
  split.
  - intros Q w x Hne HQ H. rewrite (Only Q w x Hne HQ H). split; [reflexivity|].
    split; [intros [F|[]]; discriminate|]. intros w' [<-|[<-|[<-|[<-|[]]]]]; reflexivity.
  - split.
    + intros F. vm_compute in F. repeat destruct F as [F|F]; try discriminate F. contradiction.
    + intros Q a w1 x w w2 y b Hne HQ H1 H2 Hw E.
      rewrite (Only Q w1 x Hne HQ H1), (Only Q w2 y Hne HQ H2) in E.
      (* "4" occurs only once *)
      apply (f_equal (fun s => count_occ ascii_dec s "4"%char)) in E.
      rewrite !count_occ_app in E. vm_compute (count_occ ascii_dec (L "4") "4"%char) in E.
      vm_compute (count_occ ascii_dec (L "4 virtual CPUs") "4"%char) in E. lia.
Qed.

(** Without these conditions the text may not come back: with quantity "1" and
    connection "Q", the name "1" can no longer be reported at all. *)
Theorem C39_text_is_reported_refuted : ~ forall E i t i',
  reachable (e_ver E) i -> t <> [] ->
  set_property E i (ELEMENT_NAME (e_ver E)) (IStr t) [None] true = Ok i' ->
  reports E i' (ELEMENT_NAME (e_ver E)) None = Ok (Some (VStr t)).
Proof.
  intros H.
  assert (K : exists i1 i2 i3,
    set_property env0 (new_ovfitem env0) VIRTUAL_QUANTITY (IStr (L "1")) [None] true = Ok i1 /\
    set_property env0 i1 CONNECTION (IStr (L "Q")) [None] true = Ok i2 /\
    set_property env0 i2 (L "ElementName") (IStr (L "1")) [None] true = Ok i3 /\
    reports env0 i3 (L "ElementName") None = Err EOVFItemData).
  { eexists _, _, _. split; [vm_compute; reflexivity|]. split; [vm_compute; reflexivity|].
    split; [vm_compute; reflexivity|]. vm_compute. reflexivity. }
  destruct K as (i1 & i2 & i3 & E1 & E2 & E3 & E4).
  apply (R_set V1 env0 _ _ _ _ _ _ eq_refl) in E1; [|now apply R_new].
  apply (R_set V1 env0 _ _ _ _ _ _ eq_refl) in E2; [|exact E1].
  apply (H env0 i2 (L "1") i3) in E3; [|exact E2|discriminate].
  change (ELEMENT_NAME (e_ver env0)) with (L "ElementName") in E3. congruence.
Qed.
Print Assumptions C39_text_is_reported_refuted.
