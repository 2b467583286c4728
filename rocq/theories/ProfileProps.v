(** C19: deleting configuration profiles; C43: listing and creating them. *)
From Coq Require Import Lia.
From Verif Require Import PyBase PyBaseProofs PyDict ValidationModel ValidationSpec XmlModel XmlSpec NamesModel
  ItemModel ItemSpec HardwareModel HardwareSpec HardwareIdProofs PyDictProofs PsetProofs ItemProps HardwareProps
  ProfileModel ProfileSpec ProfileProofs ProfileDocProofs.

(** ** An example: profiles "small" and "big" (the default), and hardware with memory
    that differs under "big" and a network card only in "big" *)
Definition config0 (attrs : list (str * str)) (label : string) : elem :=
  Elem (CONFIG V1) attrs None None
    [Elem (CFG_LABEL V1) [] (Some (L label)) None []; Elem (CFG_DESC V1) [] (Some (L "?")) None []].
Definition section1 : elem :=
  set_children (echildren section0 ++ [an_item [(ITEM_CONFIG V1, L "big")]
    [rasd "ElementName" "NIC"; rasd "InstanceID" "5"; rasd "ResourceType" "10"]]) section0.
Definition deploy0 : elem :=
  Elem (DEPLOY_OPT_SECTION V1) [] None None
    [Elem (INFO V1) [] (Some (L "options")) None [];
     config0 [(CONFIG_ID V1, L "small")] "Small";
     config0 [(CONFIG_ID V1, L "big"); (CONFIG_DEFAULT V1, L "true")] "Big"].
Definition envelope0 : elem :=
  Elem (OVF_NS V1 ++ L "Envelope") [] None None
    [Elem (OVF_NS V1 ++ L "References") [] None None []; deploy0;
     Elem (VIRTUAL_SYSTEM V1) [] None None [section1]].
Definition doc0 : pdoc :=
  match open_profiles env0 envelope0 section1 with Ok d => d | Err _ => mkPdoc envelope0 NoSection [] None end.
Example doc0_open : open_profiles env0 envelope0 section1 = Ok doc0.
Proof. vm_compute. reflexivity. Qed.
Example doc0_reachable : pdoc_reachable V1 doc0.
Proof. exact (P_open V1 env0 envelope0 section1 doc0 eq_refl doc0_open). Qed.

(** ** C43 *)

(** However the document came about, the profiles listed are those declared in it:
    the default ones first, then the others in document order. *)
Theorem C43_list : forall v d, pdoc_reachable v d ->
  fst (config_profiles v d) = listed v (declared v (p_env d)).
Proof. intros v d R. exact (profiles_listed v d (reachable_doc v d R)). Qed.
Print Assumptions C43_list.

Example C43_list_example : fst (config_profiles V1 doc0) = [Some (L "big"); Some (L "small")].
Proof. vm_compute. reflexivity. Qed.

(** Creating a profile changes the one Configuration with this ID, or adds one after
    the others; label and description become those given; other attributes and
    children stay. *)
Theorem C43_create : forall v d pid label desc d', pdoc_reachable v d ->
  create_profile v d pid label desc = Ok d' ->
  (exists pre c c' post, declared v (p_env d) = pre ++ c :: post /\
     get_attr c (CONFIG_ID v) = Some pid /\
     declared v (p_env d') = pre ++ c' :: post /\
     (forall x, In x (pre ++ post) -> get_attr x (CONFIG_ID v) <> Some pid) /\
     config_made v label desc c c') \/
  (exists c', (forall x, In x (declared v (p_env d)) -> get_attr x (CONFIG_ID v) <> Some pid) /\
     declared v (p_env d') = declared v (p_env d) ++ [c'] /\
     config_made v label desc (Elem (CONFIG v) [(CONFIG_ID v, pid)] None None []) c').
Proof. intros v d pid label desc d' R H. now apply (create_profile_doc v d pid label desc d' (reachable_doc v d R)). Qed.
Print Assumptions C43_create.

(** So an existing profile keeps its place in the list and a new one comes last. *)
Theorem C43_create_list : forall v d pid label desc d', pdoc_reachable v d ->
  create_profile v d pid label desc = Ok d' ->
  let old := fst (config_profiles v d) in
  (In (Some pid) old -> fst (config_profiles v d') = old) /\
  (~ In (Some pid) old -> fst (config_profiles v d') = old ++ [Some pid]).
Proof.
  intros v d pid label desc d' R H old. unfold old. rewrite (C43_list v d R).
  rewrite (C43_list v d' (P_create v d pid label desc d' R H)).
  assert (Hin : forall l, In (Some pid) (listed v l) <-> exists c, In c l /\ get_attr c (CONFIG_ID v) = Some pid).
  { intros l. unfold listed. rewrite in_app_iff, !in_map_iff. split.
    - intros [(c & H1 & H2)|(c & H1 & H2)]; exists c; (split; [|exact H1]).
      + apply in_rev in H2. now apply filter_In in H2.
      + now apply filter_In in H2.
    - intros (c & H1 & H2). destruct (is_default v c) eqn:Ed.
      + left. exists c. split; [exact H2|]. apply in_rev. rewrite rev_involutive. apply filter_In. auto.
      + right. exists c. split; [exact H2|]. apply filter_In. rewrite Ed. auto. }
  destruct (C43_create v d pid label desc d' R H)
    as [(pre & c & c' & post & E1 & E2 & E3 & E4 & Hm)|(c' & E1 & E2 & Hm)].
  - destruct (cm_same _ _ _ _ _ Hm) as (_ & Ha & _).
    assert (Hl : listed v (declared v (p_env d')) = listed v (declared v (p_env d))).
    { rewrite E1, E3. apply listed_same. rewrite !map_app. cbn [map]. unfold is_default, get_attr.
      now rewrite Ha. }
    rewrite Hl. split; [reflexivity|]. intros N. exfalso. apply N, Hin. exists c. split; [|exact E2].
    rewrite E1. apply in_or_app. right. now left.
  - destruct (cm_same _ _ _ _ _ Hm) as (_ & Ha & _). cbn [eattrib] in Ha.
    assert (Hid : get_attr c' (CONFIG_ID v) = Some pid).
    { unfold get_attr. rewrite <- Ha. cbn [dget]. now rewrite str_eqb_refl. }
    split.
    + intros N. apply Hin in N as (c & N1 & N2). exfalso. now apply (E1 c).
    + intros _. rewrite E2, listed_app_plain, Hid; [reflexivity|].
      unfold is_default, get_attr. rewrite <- Ha. cbn [dget].
      replace (str_eqb (CONFIG_DEFAULT v) (CONFIG_ID v)) with false by (now destruct v). reflexivity.
Qed.
Print Assumptions C43_create_list.

(** The rest of the document and the hardware stay.  A new section comes directly
    before the first VirtualSystem, or last if there is none. *)
Theorem C43_create_place : forall v d pid label desc d', pdoc_reachable v d ->
  create_profile v d pid label desc = Ok d' ->
  p_hw d' = p_hw d /\ same_but_children (p_env d) (p_env d') /\
  other_sections v (p_env d') = other_sections v (p_env d) /\
  exists sec' A B, echildren (p_env d') = A ++ sec' :: B /\ deploy_sections v (p_env d') = [sec'] /\
     ((exists sec, echildren (p_env d) = A ++ sec :: B /\ deploy_sections v (p_env d) = [sec] /\
         same_but_children sec sec') \/
      (echildren (p_env d) = A ++ B /\ deploy_sections v (p_env d) = [] /\
        (forall x, In x A -> etag x <> VIRTUAL_SYSTEM v) /\
        (forall x r, B = x :: r -> etag x = VIRTUAL_SYSTEM v))).
Proof.
  intros v d pid label desc d' R H.
  destruct (create_profile_doc v d pid label desc d' (reachable_doc v d R) H) as (H1 & H2 & H3 & _ & O).
  split; [exact H2|]. split; [exact H1|]. split; [|exact H3].
  destruct H3 as (sec' & A & B & E1 & E2 & H3). unfold other_sections. rewrite E1, filter_app. cbn [filter].
  assert (Hs : forall s e, deploy_sections v e = [s] -> str_eqb (etag s) (DEPLOY_OPT_SECTION v) = true).
  { intros s e Hs. assert (Hi : In s (deploy_sections v e)) by (rewrite Hs; now left).
    now apply filter_In in Hi. }
  rewrite (Hs _ _ E2). destruct H3 as [(sec & E3 & E4 & _)|(E3 & _)]; rewrite E3, filter_app; [|reflexivity].
  cbn [filter]. now rewrite (Hs _ _ E4).
Qed.
Print Assumptions C43_create_place.

Example C43_create_example : exists d' d'', create_profile V1 doc0 (L "mid") (Some (L "Mid")) None = Ok d' /\
  create_profile V1 d' (L "small") None (Some (L "tiny")) = Ok d'' /\
  fst (config_profiles V1 d'') = [Some (L "big"); Some (L "small"); Some (L "mid")].
Proof. do 2 eexists. do 2 (split; [vm_compute; reflexivity|]). vm_compute. reflexivity. Qed.

(** ** C19 *)

(** Deleting removes exactly the Configuration with this ID, and the list loses
    exactly this profile. *)
Theorem C19_declared : forall E d p d', pdoc_reachable (e_ver E) d -> delete_profile E d p = Ok d' ->
  (exists pre c post, declared (e_ver E) (p_env d) = pre ++ c :: post /\
     get_attr c (CONFIG_ID (e_ver E)) = Some p /\
     (forall x, In x (pre ++ post) -> get_attr x (CONFIG_ID (e_ver E)) <> Some p) /\
     declared (e_ver E) (p_env d') = pre ++ post) /\
  fst (config_profiles (e_ver E) d') = filter (not_id p) (fst (config_profiles (e_ver E) d)).
Proof.
  intros E d p d' R H.
  rewrite (C43_list _ d R), (C43_list _ d' (P_delete _ E d p d' eq_refl R H)).
  destruct (delete_profile_doc E d p d' (reachable_doc _ d R) H)
    as (sec & c & pre & post & _ & E1 & E2 & E3 & E4 & _).
  split; [exists pre, c, post; auto|]. rewrite E1, E4. now apply listed_without.
Qed.
Print Assumptions C19_declared.

(** The other sections of the document stay; the section with the Configurations goes
    with the last of them and otherwise loses nothing else. *)
Theorem C19_sections : forall E d p d', pdoc_reachable (e_ver E) d -> delete_profile E d p = Ok d' ->
  same_but_children (p_env d) (p_env d') /\
  other_sections (e_ver E) (p_env d') = other_sections (e_ver E) (p_env d) /\
  exists sec c, deploy_sections (e_ver E) (p_env d) = [sec] /\
    if is_nil (declared (e_ver E) (p_env d')) then deploy_sections (e_ver E) (p_env d') = []
    else exists sec', deploy_sections (e_ver E) (p_env d') = [sec'] /\ same_but_children sec sec' /\
       exists a b, echildren sec = a ++ c :: b /\ echildren sec' = a ++ b /\
         etag c = CONFIG (e_ver E) /\ get_attr c (CONFIG_ID (e_ver E)) = Some p.
Proof.
  intros E d p d' R H.
  destruct (delete_profile_doc E d p d' (reachable_doc _ d R) H)
    as (sec & c & pre & post & E0 & E1 & E2 & E3 & E4 & E5 & E6 & E7 & _).
  split; [exact E5|]. split; [exact E6|]. exists sec, c. split; [exact E0|]. rewrite E4.
  destruct (is_nil (pre ++ post)); [exact E7|]. destruct E7 as (sec' & F1 & F2 & a & b & F3 & F4).
  exists sec'. split; [exact F1|]. split; [exact F2|]. exists a, b. repeat split; auto.
  assert (Hc : In c (declared (e_ver E) (p_env d))) by (rewrite E1; apply in_or_app; right; now left).
  unfold declared in Hc. rewrite E0 in Hc. cbn [flat_map] in Hc. rewrite app_nil_r in Hc.
  apply filter_In in Hc as [_ Hc]. now apply str_eqb_eq.
Qed.
Print Assumptions C19_sections.

(** Each device that is in the profile loses its records under it and nothing else;
    the other devices stay as they are; what any other profile sees is unchanged. *)
Theorem C19_hardware : forall E d p d', pdoc_reachable (e_ver E) d -> delete_profile E d p = Ok d' ->
  map fst (p_hw d') = map fst (p_hw d) /\
  forall k i i', In (k, i) (p_hw d) -> In (k, i') (p_hw d') -> loses_profile (hw_env E d) p i i'.
Proof.
  intros E d p d' R H.
  destruct (delete_profile_doc E d p d' (reachable_doc _ d R) H)
    as (sec & c & pre & post & _ & _ & _ & _ & _ & _ & _ & _ & Hd & _).
  apply (drop_profile_spec (hw_env E d)); [|exact Hd].
  exact (reachable_ids _ _ (o_hw _ _ (reachable_doc _ d R))).
Qed.
Print Assumptions C19_hardware.

(** A device that was in the deleted profile only is gone from what is written. *)
Theorem C19_gone : forall E d p d' k i i', pdoc_reachable (e_ver E) d -> delete_profile E d p = Ok d' ->
  In (k, i) (p_hw d) -> In (k, i') (p_hw d') -> has_profile (hw_env E d) i (Some p) = true ->
  (forall n q v, own (i_props i) n q v -> q = Some p) ->
  forall E', e_ver E' = e_ver E -> generate_items E' i' = Ok [].
Proof.
  intros E d p d' k i i' R H Hi Hi' Hp Hq E' HE.
  destruct (C19_hardware E d p d' R H) as [_ Hl]. specialize (Hl k i i' Hi Hi'). unfold loses_profile in Hl.
  rewrite Hp in Hl. destruct Hl as (L1 & L2 & _). apply generate_husk.
  - pose proof (reachable_ids _ _ (o_hw _ _ (reachable_doc _ d' (P_delete _ E d p d' eq_refl R H)))) as [_ Hr].
    rewrite HE. now apply (Hr k i' Hi').
  - intros n q v Ho. destruct (profile_eq_dec q (Some p)) as [-> |N]; [now apply (L1 n v)|].
    apply (L2 n q v N) in Ho. apply N, (Hq _ _ _ Ho).
Qed.
Print Assumptions C19_gone.

(** Deletion succeeds for each profile that is declared once, provided the InstanceIDs
    can be ordered. *)
Theorem C19_succeeds : forall E d p pre c post, pdoc_reachable (e_ver E) d ->
  declared (e_ver E) (p_env d) = pre ++ c :: post -> get_attr c (CONFIG_ID (e_ver E)) = Some p ->
  (forall x, In x (pre ++ post) -> get_attr x (CONFIG_ID (e_ver E)) <> Some p) ->
  (forall k, taken (p_hw d) k -> plain_text k) ->
  exists d', delete_profile E d p = Ok d'.
Proof. intros E d p pre c post R. exact (delete_profile_ok E d p pre c post (reachable_doc _ d R)). Qed.
Print Assumptions C19_succeeds.

(** Deleting a profile that is not declared is refused. *)
Theorem C19_unknown : forall E d p, pdoc_reachable (e_ver E) d ->
  (forall x, In x (declared (e_ver E) (p_env d)) -> get_attr x (CONFIG_ID (e_ver E)) <> Some p) ->
  delete_profile E d p = Err EAssertion \/ delete_profile E d p = Err ELookupError.
Proof. intros E d p R. exact (delete_profile_unknown E d p (reachable_doc _ d R)). Qed.
Print Assumptions C19_unknown.

Example C19_example : exists d' d'', delete_profile env0 doc0 (L "big") = Ok d' /\
  fst (config_profiles V1 d') = [Some (L "small")] /\
  (exists i, hitem (L "3") (p_hw d') = Ok i /\ reports env0 i VIRTUAL_QUANTITY (Some (L "small")) = Ok (Some (VStr (L "512")))) /\
  (exists i, hitem (L "5") (p_hw d') = Ok i /\ generate_items env0 i = Ok []) /\
  delete_profile env0 d' (L "small") = Ok d'' /\
  map etag (echildren (p_env d'')) = [OVF_NS V1 ++ L "References"; VIRTUAL_SYSTEM V1].
Proof.
  do 2 eexists. do 2 (split; [vm_compute; reflexivity|]).
  split; [eexists; split; vm_compute; reflexivity|].
  split; [eexists; split; vm_compute; reflexivity|].
  split; [vm_compute; reflexivity|]. vm_compute. reflexivity.
Qed.

(** The original claim, that no device mentions a deleted profile, fails: a value set
    under "small" on a device that is only in "big" stays after "small" is deleted. *)
Theorem C19_stray_refuted : exists h' d d', 
  set_value_for_all_items env0 (p_hw doc0) (L "ethernet") (L "AutomaticAllocation") (IStr (L "true"))
    [Some (L "small")] false = Ok h' /\
  d = mkPdoc (p_env doc0) (p_deploy doc0) h' (p_cache doc0) /\ pdoc_reachable V1 d /\
  delete_profile env0 d (L "small") = Ok d' /\
  exists i, hitem (L "5") (p_hw d') = Ok i /\
    own (i_props i) (L "AutomaticAllocation") (Some (L "small")) (VStr (L "true")).
Proof.
  assert (X : exists h' d', 
    set_value_for_all_items env0 (p_hw doc0) (L "ethernet") (L "AutomaticAllocation") (IStr (L "true"))
      [Some (L "small")] false = Ok h' /\
    delete_profile env0 (mkPdoc (p_env doc0) (p_deploy doc0) h' (p_cache doc0)) (L "small") = Ok d' /\
    exists i vd, hitem (L "5") (p_hw d') = Ok i /\ 
      dget str_eqb (L "AutomaticAllocation") (i_props i) = Some vd /\ vd = [(VStr (L "true"), [Some (L "small")])]).
  { do 2 eexists. do 2 (split; [vm_compute; reflexivity|]). do 2 eexists.
    do 2 (split; [vm_compute; reflexivity|]). reflexivity. }
  destruct X as (h' & d' & X1 & X2 & i & vd & X3 & X4 & ->).
  exists h', (mkPdoc (p_env doc0) (p_deploy doc0) h' (p_cache doc0)), d'.
  split; [exact X1|]. split; [reflexivity|]. split.
  { apply (P_hardware V1 doc0 h' doc0_reachable).
    refine (H_set_all V1 _ env0 _ _ _ _ _ h' eq_refl _ X1). discriminate. }
  split; [exact X2|]. exists i. split; [exact X3|]. 
  exists [(VStr (L "true"), [Some (L "small")])], [Some (L "small")].
  split; [exact (dget_In str_eqb str_eqb_eq _ _ _ X4)|]. split; now left.
Qed.
Print Assumptions C19_stray_refuted.
