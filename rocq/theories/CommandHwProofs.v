(** A whole run of edit-hardware: the package that was opened is the VM of C53, and the edited
    package can be written. *)
From Coq Require Import List Ascii Bool ZArith Lia.
Import ListNotations.
From Verif Require Import PyBase PyBaseProofs PyDict PyDictProofs XmlModel XmlSpec XmlProofs NamesModel ItemModel ItemSpec HardwareModel HardwareSpec HardwareProofs HardwareIdProofs UpdateProofs UpdateHistoryProofs RereadSpec
  ProfileModel ProfileSpec ProfileDocProofs NetworkModel NetworkProofs RefreshModel EditPropModel PlatformModel PathSpec TarModel OpenModel OpenSpec OpenProofs SaveModel SaveSpec SaveProofs
  EditHwModel EditHwSpec EditHwProofs EditHwTreeProofs EditHwConfigProofs EditHwReadProofs CommandModel CommandSpec CommandProofs2 CommandHwModel.
From Verif Require InfoProfileProofs InfoModel.

(** ** The package that was opened *)
Lemma find_of_child : forall e t a x, find_child e t a false = Ok x -> find (child_match t a) (echildren e) = x.
Proof.
  intros e t a x H. pose proof (optional_spec e t a) as S. rewrite H in S. apply at_most_filter in S. unfold answering in S. rewrite find_filter, S. now destruct x.
Qed.
Lemma deploy_match : forall v e, child_match (DEPLOY_OPT_SECTION v) [] e = is_deploy v e.
Proof.
  intros v e. apply eq_true_iff_eq. rewrite child_match_spec. symmetry. apply deploy_answers.
Qed.
Lemma find_deploy : forall v e x, find_child e (DEPLOY_OPT_SECTION v) [] false = Ok x -> find (is_deploy v) (echildren e) = x.
Proof.
  intros v e x H. apply find_of_child in H. subst x. induction (echildren e) as [|y l IH]; [reflexivity|]. cbn [find]. rewrite deploy_match, IH. reflexivity.
Qed.
Lemma opened_envelope_vm : forall E digest w c p root o, open_envelope E digest w c p root = Ok o ->
  open_vm (env_of E o) (o_envelope o) (o_hardware_section o) = Ok (vm_of_package o).
Proof.
  intros E digest w c p root o H. pose proof (open_reads _ _ _ _ _ _ _ H) as RH. unfold open_envelope in H. destruct (negb _); [discriminate|].
  apply InfoProfileProofs.rbind_ok in H as (v & _ & H). apply InfoProfileProofs.rbind_ok in H as (refs & _ & H). apply InfoProfileProofs.rbind_ok in H as (disks & _ & H). apply InfoProfileProofs.rbind_ok in H as (nets & Hn & H).
  apply InfoProfileProofs.rbind_ok in H as (dep & Hd & H). do 4 (apply InfoProfileProofs.rbind_ok in H as (? & ? & H)). cbv zeta in H. apply InfoProfileProofs.rbind_ok in H as (h & Hh & H). do 2 (apply InfoProfileProofs.rbind_ok in H as (? & ? & H)).
  injection H as <-. cbn [o_hardware_section o_hardware o_version o_envelope o_profiles] in RH |- *. unfold env_of in *. cbn [o_version o_profiles o_hardware_section o_hardware o_envelope] in *.
  unfold open_vm, open_networks. cbn [e_ver]. rewrite Hn. cbn [rbind]. unfold open_profiles. cbn [e_ver]. rewrite Hd. cbn [rbind]. unfold config_profiles. cbn [p_cache p_env p_deploy].
  assert (Q : current_ids v {| p_env := root; p_deploy := match dep with Some _ => Attached | None => NoSection end; p_hw := []; p_cache := None |} = match dep with Some s => config_ids v s | None => [] end).
  { unfold current_ids, deploy_section. cbn [p_deploy p_env]. destruct dep as [s|]; [|reflexivity]. now rewrite (find_deploy _ _ _ Hd). }
  rewrite Q. unfold with_profiles. cbn [e_ver e_re_sub e_seq_repr e_tostring e_fromstring]. rewrite RH. cbn [rbind p_env p_deploy p_hw p_cache n_attached]. unfold vm_of_package.
  cbn [o_envelope o_deploy o_hardware o_version o_networks o_hardware_section]. reflexivity.
Qed.
Lemma opened_vm : forall E digest parse w wd input output o, factory E digest parse w wd input output = Ok o ->
  open_vm (env_of E o) (o_envelope o) (o_hardware_section o) = Ok (vm_of_package o).
Proof.
  intros E digest parse w wd input output o H. unfold factory in H. destruct (detect_type input) as [x|e]; [|destruct e; discriminate].
  assert (H' : open_ovf E digest parse w wd input output = Ok o) by (destruct (open_ovf E digest parse w wd input output) as [y|e]; [exact H|destruct e; discriminate]). clear H.
  unfold open_ovf in H'. apply InfoProfileProofs.rbind_ok in H' as (? & _ & H). apply InfoProfileProofs.rbind_ok in H as ([[p [t|]] w1] & _ & H); [|discriminate].
  destruct (parse t) as [root|]; [|discriminate]. exact (opened_envelope_vm _ _ _ _ _ _ _ H).
Qed.

Lemma opened_envelope_networks : forall E digest w c p root o, open_envelope E digest w c p root = Ok o ->
  network_section (o_version o) (net_of (vm_of_package o)) = o_networks o.
Proof.
  intros E digest w c p root o H. unfold open_envelope in H. destruct (negb _); [discriminate|].
  apply InfoProfileProofs.rbind_ok in H as (v & _ & H). apply InfoProfileProofs.rbind_ok in H as (refs & _ & H). apply InfoProfileProofs.rbind_ok in H as (disks & _ & H). apply InfoProfileProofs.rbind_ok in H as (nets & Hn & H).
  do 5 (apply InfoProfileProofs.rbind_ok in H as (? & ? & H)). cbv zeta in H. apply InfoProfileProofs.rbind_ok in H as (h & Hh & H). do 2 (apply InfoProfileProofs.rbind_ok in H as (? & ? & H)).
  injection H as <-. cbn [o_version o_networks]. unfold network_section, net_of, vm_of_package. cbn [o_networks v_net v_doc n_attached n_env p_env o_envelope].
  apply find_of_child in Hn. destruct nets as [nx|]; [exact Hn|reflexivity].
Qed.
Lemma opened_networks : forall E digest parse w wd input output o, factory E digest parse w wd input output = Ok o ->
  network_section (o_version o) (net_of (vm_of_package o)) = o_networks o.
Proof.
  intros E digest parse w wd input output o H. unfold factory in H. destruct (detect_type input) as [x|e]; [|destruct e; discriminate].
  assert (H' : open_ovf E digest parse w wd input output = Ok o) by (destruct (open_ovf E digest parse w wd input output) as [y|e]; [exact H|destruct e; discriminate]). clear H.
  unfold open_ovf in H'. apply InfoProfileProofs.rbind_ok in H' as (? & _ & H). apply InfoProfileProofs.rbind_ok in H as ([[p [t|]] w1] & _ & H); [|discriminate].
  destruct (parse t) as [root|]; [|discriminate]. exact (opened_envelope_networks _ _ _ _ _ _ _ H).
Qed.

(** ** The edited package is consistent *)
Section Edited.
Variables (E : env) (U : user) (P : hw_platform) (s : settings) (o : ovf) (m' : vm).
Notation v := (o_version o).
Notation EO := (env_of E o).
Notation m := (vm_of_package o).
Notation o1 := (package_of_vm EO o m').
Hypothesis K : consistent o.
Hypothesis OPEN : open_vm EO (o_envelope o) (o_hardware_section o) = Ok m.
Hypothesis RUN : edit_hardware EO U P m s = Ok m'.

Lemma ed_ok : vm_ok EO m /\ unfrozen (devices_of m).
Proof. destruct (open_vm_ok _ _ _ _ OPEN) as (A & B & _). now split. Qed.
Lemma ed_ok' : vm_ok EO m'.
Proof. exact (run_ok EO U P s m m' (proj1 ed_ok) (proj2 ed_ok) RUN). Qed.
Lemma ed_moved : moved v m m'. Proof. exact (run_moved EO U P s m m' RUN). Qed.
Lemma rest_answering : forall t a, apart (t, a) (sec_nets v) -> apart (t, a) (sec_deploy v) -> answering t a (p_env (v_doc m')) = answering t a (o_envelope o).
Proof.
  intros t a A1 A2. pose proof (mv_rest _ _ _ ed_moved) as R. cbn [vm_of_package v_doc p_env] in R.
  assert (Q : forall e, answering t a e = filter (child_match t a) (rest_of v e)).
  { intros e. unfold answering, rest_of. symmetry. apply filter_filter. intros x Hx. apply child_match_spec in Hx. apply negb_true_iff, orb_false_iff. split.
    - destruct (is_netsec v x) eqn:N; [|reflexivity]. apply child_match_spec in N. elim (A1 x Hx N).
    - destruct (is_deploy v x) eqn:N; [|reflexivity]. apply deploy_answers in N. elim (A2 x Hx N). }
  rewrite !Q. now rewrite R.
Qed.
Lemma section_kept : forall t a x, apart (t, a) (sec_nets v) -> apart (t, a) (sec_deploy v) -> holds_section (o_envelope o) t a x -> holds_section (p_env (v_doc m')) t a x.
Proof.
  intros t a [x|] A1 A2 H; unfold holds_section in *.
  - destruct H as [H (e0 & H0)]. split; [exact H|]. exists e0. apply only_filter. rewrite (rest_answering t a A1 A2). now apply only_filter.
  - apply none_filter. rewrite (rest_answering t a A1 A2). now apply none_filter.
Qed.
Lemma edited_consistent : consistent o1.
Proof.
  destruct K as [K1 K2 K3 K4 K5 K6 K7 K8 K9 K10 K11 K12]. destruct ed_ok' as [[S1 S2 S3] N]. destruct ed_moved as [_ M2 _ M4 _]. cbn [vm_of_package v_doc p_env v_sec] in M2, M4.
  destruct (apart_root v) as (R1 & R2 & R3 & R4 & R5 & R6 & R7 & R8 & R9 & R10 & R11 & R12 & _).
  constructor; cbn [package_of_vm o_version o_envelope o_references o_disks o_networks o_deploy o_system o_product o_annotation o_hardware_section o_profiles o_platform]; auto.
  - destruct M2 as [M2 _]. now rewrite <- M2.
  - now apply section_kept.
  - now apply section_kept.
  - apply net_ok_filter in N. unfold network_section. change (e_ver EO) with v in N. rewrite find_filter. destruct (n_attached (net_of m')); [|now apply none_filter]. destruct N as [sec N].
    change (n_env (net_of m')) with (p_env (v_doc m')) in N |- *. rewrite N. assert (O : only (p_env (v_doc m')) (NETWORK_SECTION v) (NETWORK_SECTION_ATTRIB v) sec) by (apply only_filter; exact N).
    split; [exact (proj2 (only_In _ _ _ _ O))|now exists sec].
  - assert (D : answering (DEPLOY_OPT_SECTION v) [] (p_env (v_doc m')) = filter (is_deploy v) (echildren (p_env (v_doc m')))).
    { unfold answering. apply filter_ext. intros x. apply deploy_match. }
    rewrite find_filter. rewrite <- D. destruct (answering (DEPLOY_OPT_SECTION v) [] (p_env (v_doc m'))) as [|x l] eqn:An; [now apply none_filter|].
    assert (L : l = []).
    { change (filter (is_deploy v) (echildren (p_env (v_doc m')))) with (deploy_sections v (p_env (v_doc m'))) in D. rewrite D in An. change (e_ver EO) with v in S1.
      destruct (p_deploy (v_doc m')) as [| |sc]; [congruence|destruct S1 as [sc S1]; rewrite S1 in An; congruence|destruct S1 as [S1 _]; congruence]. }
    subst l. assert (O : only (p_env (v_doc m')) (DEPLOY_OPT_SECTION v) [] x) by (apply only_filter; exact An). split; [exact (proj2 (only_In _ _ _ _ O))|now exists x].
  - now apply section_kept.
  - destruct K9 as [K9 K9']. split; [|exact K9']. exact (answers_same _ _ _ _ M4 K9).
  - unfold profiles_of. change (e_ver EO) with v in *. rewrite (profiles_listed v _ (proj1 ed_ok')). rewrite <- (current_listed v _ (proj1 ed_ok')). unfold current_ids, deploy_section. f_equal.
    rewrite find_filter. change (filter (is_deploy v) (echildren (p_env (v_doc m')))) with (deploy_sections v (p_env (v_doc m'))).
    destruct (p_deploy (v_doc m')) as [| |sc] eqn:Ed.
    + change (e_ver EO) with v in S1. rewrite S1. reflexivity.
    + reflexivity.
    + destruct S1 as [S1 S4]. change (e_ver EO) with v in *. rewrite S1. rewrite config_ids_listed, S4. reflexivity.
Qed.

(** ** The edited package can be written *)
Lemma steps_good : forall h h', ids_ok v h -> hw_steps v h h' -> good_edits v h h'.
Proof.
  intros h h' I H. induction H as [|g g' H IH ST]; [split; [apply ED_refl|exact I]|]. destruct IH as [IH1 IH2]. destruct (step_edits v g g' IH2 ST) as [S1 S2]. split; [exact (edits_trans _ _ _ _ IH1 S1)|exact S2].
Qed.
Lemma items_kept : filter (is_item_elem v) (echildren (v_sec m')) = filter (is_item_elem v) (echildren (o_hardware_section o)).
Proof.
  pose proof (mv_items _ _ _ ed_moved) as R. cbn [vm_of_package v_sec] in R.
  assert (Q : forall e, filter (is_item_elem v) (echildren e) = filter (is_item_elem v) (rest_of_section v e)).
  { intros e. unfold rest_of_section. symmetry. apply filter_filter. intros x Hx. apply negb_true_iff. destruct (str_eqb (etag x) (SYSTEM v)) eqn:T; [|reflexivity]. apply str_eqb_eq in T. exfalso. revert Hx. unfold is_item_elem. rewrite T.
    destruct v; vm_compute; discriminate. }
  rewrite !Q. now rewrite R.
Qed.
Lemma edited_unchanged : read_hardware EO (o_hardware_section o) = Ok (o_hardware o) ->
  (forall k i, In (k, i) (p_hw (v_doc m')) -> known_profiles (env_of E o1) i) -> plain_items v (v_sec m') ->
  looks_unchanged v (p_hw (v_doc m')) (v_sec m') ->
  exists h0, read_hardware (env_of E o1) (v_sec m') = Ok h0 /\ same_devices (p_hw (v_doc m')) h0 /\ plain_items v (v_sec m').
Proof.
  intros RH KP PI [L NM]. destruct (read_hardware_ok _ _ _ RH) as [(I0 & NI & L0) M0]. change (e_ver EO) with v in *.
  pose proof (mv_steps _ _ _ ed_moved) as ST. change (devices_of m) with (o_hardware o) in ST. change (devices_of m') with (p_hw (v_doc m')) in ST.
  destruct (steps_good _ _ I0 ST) as [ED I1]. destruct (edits_keep v _ _ I0 ED) as [KE _].
  assert (LI : length (p_hw (v_doc m')) = length (filter (is_item_elem v) (echildren (o_hardware_section o)))) by (rewrite L; unfold item_children; now rewrite <- items_kept).
  assert (LE : length (o_hardware o) <= length (p_hw (v_doc m'))) by (rewrite LI; exact L0).
  assert (SD : same_devices (p_hw (v_doc m')) (o_hardware o)).
  { intros k ps. split.
    - intros (i & Hi & Hp). destruct (KE k i Hi (NM k i Hi)) as (i0 & H0 & _ & E0). exists i0. split; [exact H0|congruence].
    - intros (i & Hi & Hp). assert (IN : incl (map fst (p_hw (v_doc m'))) (map fst (o_hardware o))).
      { intros x Hx. apply in_map_iff in Hx as ([k1 i1] & <- & Hx). destruct (KE k1 i1 Hx (NM k1 i1 Hx)) as (i0 & H0 & _). exact (in_map fst _ _ H0). }
      assert (RV : incl (map fst (o_hardware o)) (map fst (p_hw (v_doc m')))) by (apply (NoDup_length_incl (proj1 I1)); [now rewrite !map_length|exact IN]).
      assert (Hk : In k (map fst (p_hw (v_doc m')))) by (apply RV; exact (in_map fst _ _ Hi)). apply in_map_iff in Hk as ([k1 i1] & Ek & H1). cbn [fst] in Ek. subst k1. exists i1. split; [exact H1|].
      destruct (KE k i1 H1 (NM k i1 H1)) as (i0 & H0 & _ & E0). rewrite E0, <- Hp. f_equal. apply (hget_In _ _ _ (proj1 I0)) in H0. apply (hget_In _ _ _ (proj1 I0)) in Hi. congruence. }
  exists (o_hardware o). split; [|split; [exact SD|]].
  - change (env_of E o1) with (with_profiles EO (profiles_of EO m')). apply (read_again EO (o_hardware_section o) (v_sec m') _ _ RH); [exact items_kept| |].
    + change (length (o_hardware o) = length (filter (is_item_elem v) (echildren (o_hardware_section o)))). rewrite <- LI. apply PeanoNat.Nat.le_antisymm; [exact LE|].
      rewrite <- (map_length fst), <- (map_length fst (o_hardware o)). apply NoDup_incl_length; [exact (proj1 I1)|]. intros x Hx. apply in_map_iff in Hx as ([k1 i1] & <- & Hx). destruct (KE k1 i1 Hx (NM k1 i1 Hx)) as (i0 & H0 & _). exact (in_map fst _ _ H0).
    + intros k i n p w Hi Ho. destruct (proj2 (SD k (i_props i)) (ex_intro _ i (conj Hi eq_refl))) as (i1 & H1 & E1). rewrite <- E1 in Ho. exact (KP k i1 H1 n p w Ho).
  - exact PI.
Qed.
End Edited.
