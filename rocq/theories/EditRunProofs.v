(** More about whole runs of edit-properties: questions, refusals and transports. *)
From Coq Require Import Lia.
From Verif Require Import PyBase PyBaseProofs PyDict PyDictProofs XmlModel XmlSpec XmlProofs NamesModel ProfileSpec NetworkModel PropArgModel
  ChooseModel ChooseSpec ChooseProofs EnvPropModel EnvPropSpec EnvPropProofs ConfigPropProofs EditPropModel EditPropSpec EditPropProofs DialogueProofs.
Local Open Scope nat_scope.

Lemma run_questions : forall force ready v literal vs typed a, something_given a ->
  let o := run force ready v literal vs typed a in
  o_result o = Ok tt ->
  agreed force typed (o_asked o) (o_left o) /\
  (forall k, In k (o_asked o) -> exists j x t, nth_error (ep_properties (a_edit a)) j = Some (k, x, t)) /\
  (forall k p, In k (o_asked o) -> ~ config_sets literal a k -> with_key v vs k = [p] -> value_of v p = None) /\
  (forall j k x t, nth_error (ep_properties (a_edit a)) j = Some (k, x, t) -> ~ config_sets literal a k ->
     with_key v vs k = [] -> In k (o_asked o)).
Proof.
  intros force ready v literal vs typed a G o H. subst o.
  destruct (run_ok _ _ _ _ _ _ _ G H) as (vs1 & Hp & Hr & Ea & El & _). cbn zeta in *. rewrite Ea, El.
  pose proof (set_each_asked force v (a_user a) (ep_labels (a_edit a)) (ep_descriptions (a_edit a)) (ep_properties (a_edit a)) vs1 typed 0) as A.
  cbn zeta in A. rewrite Hr in A. split; [exact A|].
  assert (NA := fun k => asked_no_value force v (a_user a) (ep_labels (a_edit a)) (ep_descriptions (a_edit a)) (ep_properties (a_edit a)) vs1 typed 0 k).
  split; [intros k Hk; now apply NA|].
  assert (GS : forall j q, nth_error (ep_properties (a_edit a)) j = Some q -> v <> V0 /\ length (filter (is_prod_b v) (echildren vs1)) <= 1).
  { intros j q Hj. pose proof (set_each_chain _ _ _ _ _ _ _ _ _ Hr) as C.
    destruct (ep_properties (a_edit a)) as [|q0 qs]; [destruct j; discriminate|]. inversion C; subst.
    split; [intros ->; rewrite V0_nothing in *; discriminate|].
    match goal with Hs : set_property _ _ _ _ _ _ _ _ = (_, Ok _) |- _ => exact (proj1 (ok_sections _ _ _ _ _ _ _ _ _ _ Hs)) end. }
  split.
  - intros k p Hk Hc Hw. destruct (NA k Hk) as [(j & x & t & Hj) Hn]. destruct (GS _ _ Hj) as [Hv Hl].
    destruct (value_of v p) as [c|] eqn:Ev; [|reflexivity]. exfalso. apply (Hn c). rewrite (get_spec v vs1 k Hv).
    rewrite <- (prepared_with_key _ _ _ _ _ _ Hp k Hc) in Hw. unfold with_key in Hw. rewrite Hw, Ev.
    destruct (filter (is_prod_b v) (echildren vs1)) as [|s [|s2 r]]; cbn [length] in Hl; [reflexivity|reflexivity|lia].
  - intros j k x t Hj Hc Hw. destruct (GS _ _ Hj) as [Hv Hl].
    apply (set_each_value_asked _ _ _ _ _ _ _ _ _ Hr j k x t Hj). rewrite (get_spec v vs1 k Hv).
    rewrite <- (prepared_with_key _ _ _ _ _ _ Hp k Hc) in Hw. unfold with_key in Hw. rewrite Hw.
    destruct (filter (is_prod_b v) (echildren vs1)) as [|s [|s2 r]]; cbn [length] in Hl; [reflexivity|reflexivity|lia].
Qed.

(** ** No is no *)

Lemma set_each_declined : forall force v uc labels descs todo vs typed i ks k,
  o_result (set_each force v uc labels descs vs typed i todo) = Err ESystemExit ->
  o_asked (set_each force v uc labels descs vs typed i todo) = ks ++ [k] -> ~ In k ks -> with_key v vs k = [] ->
  with_key v (o_doc (set_each force v uc labels descs vs typed i todo)) k = [].
Proof.
  intros force v uc labels descs. induction todo as [|[[key value] ty] todo IH]; intros vs typed i ks k H Ha Hk Hw; [discriminate|].
  cbn [set_each] in *.
  destruct (note_at labels i) as [lb|e]; [|exact Hw]. destruct (note_at descs i) as [ds|e]; [|exact Hw].
  destruct (get_property_value v vs key) as [curr|e] eqn:Eg; [|exact Hw].
  destruct curr as [c|].
  - assert (Hne : k <> key).
    { intros ->. destruct (version_V0 v) as [->|Hv]; [discriminate|]. rewrite (get_spec v vs key Hv) in Eg.
      unfold with_key in Hw. rewrite Hw in Eg. destruct (filter (is_prod_b v) (echildren vs)) as [|s [|s2 r]]; discriminate. }
    destruct (set_property v vs key value uc ty lb ds) as [vs1 [w|e]] eqn:Es; cbn [o_result o_asked o_doc app] in *.
    + apply (IH vs1 typed (S i) ks k H Ha Hk). unfold with_key. rewrite (with_key_other _ _ _ _ _ _ _ _ _ _ _ Es Hne). exact Hw.
    + unfold with_key. rewrite (with_key_other _ _ _ _ _ _ _ _ _ _ _ Es Hne). exact Hw.
  - destruct (confirm force typed) as [[[|] typed']|]; [|exact Hw|exact Hw].
    destruct (set_property v vs key value uc ty lb ds) as [vs1 [w|e]] eqn:Es; cbn [o_result o_asked o_doc app] in *.
    + destruct ks as [|k0 ks].
      { exfalso. cbn in Ha. injection Ha as E0 E1.
        pose proof (set_each_asked force v uc labels descs todo vs1 typed' (S i)) as A. cbn zeta in A. rewrite H in A.
        destruct A as (ks & k' & before & t & E & _). rewrite E1 in E. destruct ks; discriminate. }
      cbn in Ha. injection Ha as <- Ha.
      assert (Hne : k <> key) by (intros ->; apply Hk; now left).
      apply (IH vs1 typed' (S i) ks k H Ha); [intros F; apply Hk; now right|].
      unfold with_key. rewrite (with_key_other _ _ _ _ _ _ _ _ _ _ _ Es Hne). exact Hw.
    + injection H as ->. destruct (set_refused _ _ _ _ _ _ _ _ _ _ Es) as [[F _]|[[F _]|[F _]]]; discriminate.
Qed.

Lemma set_no_exit : forall v vs key value uc ty lb ds vs1, set_property v vs key value uc ty lb ds <> (vs1, Err ESystemExit).
Proof. intros v vs key value uc ty lb ds vs1 H. destruct (set_refused _ _ _ _ _ _ _ _ _ _ H) as [[F _]|[[F _]|[F _]]]; discriminate. Qed.

Lemma import_no_exit : forall v literal uc ms vs num vs', import_kept v vs literal uc num ms <> (vs', Err ESystemExit).
Proof.
  intros v literal uc. induction ms as [|m ms IH]; intros vs num vs' H; cbn [import_kept] in H; [discriminate|].
  destruct (set_property v vs (config_key literal (num + 1)) (Some m) uc None None None) as [vs1 [q|e]] eqn:E.
  - now apply IH in H.
  - injection H as <- ->. now apply set_no_exit in E.
Qed.

Lemma prepared_no_exit : forall v literal vs a vs', prepared v literal vs a <> (vs', Err ESystemExit).
Proof.
  intros v literal vs a vs' H. unfold prepared in H. destruct (a_config a) as [text|]; [|discriminate].
  unfold config_file_to_properties in H. destruct literal; [|discriminate]. rewrite import_as_kept in H. now apply import_no_exit in H.
Qed.

Lemma find_child_no_exit : forall p t a r, find_child p t a r <> Err ESystemExit.
Proof. intros p t a r. unfold find_child. destruct (find_all_children p [t] a) as [|x [|y l]]; [destruct r|idtac|idtac]; discriminate. Qed.

Lemma env_props_no_exit : forall v vs, environment_properties v vs <> Err ESystemExit.
Proof.
  intros v vs H. unfold environment_properties, product_section in H.
  assert (F := find_child_no_exit vs (PRODUCT_SECTION v) (PRODUCT_SECTION_ATTRIB v) false).
  destruct (find_child vs (PRODUCT_SECTION v) (PRODUCT_SECTION_ATTRIB v) false) as [o|e]; destruct v; cbn [rbind] in H; congruence.
Qed.

Lemma dialogue_no_exit : forall v uc typed vs pa at_, snd (dialogue v uc vs pa at_ typed) <> Err ESystemExit.
Proof.
  intros v uc. induction typed as [|t typed IH]; intros vs pa at_.
  - destruct at_; cbn [dialogue]; [destruct (key_list pa)|]; discriminate.
  - destruct at_ as [|p]; cbn [dialogue].
    + destruct (key_list pa) as [keys|]; [|discriminate].
      destruct (choose_once keys (L "q") (get_input false (L "q") t)) as [k|]; [|apply IH].
      destruct (str_eqb k (L "q") || str_eqb k (L "Q")); [discriminate|].
      destruct (find (key_is k) pa); [apply IH|discriminate].
    + match goal with |- context [if ?b then _ else _] => destruct b end; [apply IH|].
      match goal with |- context [set_property ?a ?b ?c ?d ?e ?f ?g ?h] => destruct (set_property a b c d e f g h) as [vs' [w|e0]] eqn:Es end.
      * destruct (environment_properties v vs') as [ps|e] eqn:Ee; [apply IH|]. cbn [snd]. intros F. injection F as ->. now apply env_props_no_exit in Ee.
      * destruct (is_value_unsupported e0); [apply IH|]. cbn [snd]. intros F. injection F as ->. now apply set_no_exit in Es.
Qed.

Lemma interactive_no_exit : forall force v uc vs typed, snd (edit_properties_interactive force v uc vs typed) <> Err ESystemExit.
Proof.
  intros force v uc vs typed. unfold edit_properties_interactive. destruct (environment_properties v vs) as [ps|e] eqn:E.
  - destruct force; [destruct (key_list ps); discriminate|]. apply dialogue_no_exit.
  - cbn [snd]. intros F. injection F as ->. now apply env_props_no_exit in E.
Qed.

Lemma transports_no_exit : forall v vs ts vs', set_environment_transports v vs ts <> (vs', Err ESystemExit).
Proof.
  intros v vs ts vs' H. unfold set_environment_transports, virtual_hw_section in H.
  assert (F := find_child_no_exit vs (VIRTUAL_HW_SECTION v) (VIRTUAL_HW_SECTION_ATTRIB v) true).
  destruct (find_child vs (VIRTUAL_HW_SECTION v) (VIRTUAL_HW_SECTION_ATTRIB v) true) as [[o|]|e]; destruct v; congruence.
Qed.

Lemma run_declined : forall force ready v literal vs typed a,
  let o := run force ready v literal vs typed a in
  o_result o = Err ESystemExit ->
  exists ks k before t, o_asked o = ks ++ [k] /\ force = false /\
    agreed force typed ks (before ++ t :: o_left o) /\ (forall t', In t' before -> ~ means (yes ++ no) t') /\ means no t /\
    (~ In k ks -> with_key v vs k = [] -> ~ config_sets literal a k -> with_key v (o_doc o) k = []).
Proof.
  intros force ready v literal vs typed a o H. unfold o, run in *. clear o. fold (prepared v literal vs a) in *.
  destruct (negb (ready_to_run ready (a_edit a))); [discriminate|].
  destruct (prepared v literal vs a) as [vs1 [[]|x]] eqn:Ep.
  2:{ exfalso. cbn [o_result] in H. injection H as ->. now apply prepared_no_exit in Ep. }
  cbn zeta in *.
  set (o := set_each force v (a_user a) (ep_labels (a_edit a)) (ep_descriptions (a_edit a)) vs1 typed 0 (ep_properties (a_edit a))) in *.
  destruct (o_result o) as [[]|x] eqn:Er.
  - exfalso. destruct (ep_transports (a_edit a)) as [|t0 ts].
    + pose proof (interactive_no_exit force v (a_user a) (o_doc o) (o_left o)) as F.
      destruct (edit_properties_interactive force v (a_user a) (o_doc o) (o_left o)) as [vs3 r3]. cbn [snd] in F.
      destruct (a_config a), (ep_properties (a_edit a)); cbn [o_result] in H; congruence.
    + destruct (set_environment_transports v (o_doc o) (t0 :: ts)) as [vs2 [[]|x]] eqn:Et.
      * destruct (a_config a), (ep_properties (a_edit a)); discriminate.
      * cbn [o_result] in H. injection H as ->. now apply transports_no_exit in Et.
  - rewrite Er in H. injection H as ->.
    pose proof (set_each_asked force v (a_user a) (ep_labels (a_edit a)) (ep_descriptions (a_edit a)) (ep_properties (a_edit a)) vs1 typed 0) as A.
    cbn zeta in A. fold o in A. rewrite Er in A. destruct A as (ks & k & before & t & E & Ef & Ha & Hb & Ht).
    exists ks, k, before, t. do 5 (split; [assumption|]). intros Hk Hw Hc.
    apply (set_each_declined force v (a_user a) (ep_labels (a_edit a)) (ep_descriptions (a_edit a)) (ep_properties (a_edit a)) vs1 typed 0 ks k Er E Hk).
    now rewrite (prepared_with_key _ _ _ _ _ _ Ep k Hc).
Qed.

(** ** Transports *)

Lemma join_blank_nil : forall ts : list str, ts <> [] -> join (L " ") ts = [] -> ts = [[]].
Proof.
  intros [|x [|y l]] Hn H; [contradiction| |].
  - cbn [join] in H. now subst x.
  - exfalso. cbn [join] in H. apply app_eq_nil in H as [_ H]. discriminate.
Qed.

Lemma run_transports : forall force ready v literal vs typed a,
  let vs' := o_doc (run force ready v literal vs typed a) in
  let ts := ep_transports (a_edit a) in
  o_result (run force ready v literal vs typed a) = Ok tt -> ts <> [] -> ts <> [[]] ->
  (forall t, In t ts -> ~ In " "%char t) ->
  environment_transports v vs' = Ok (Some ts).
Proof.
  intros force ready v literal vs typed a vs' ts H Hn H1 Ht. subst vs'.
  assert (G : something_given a) by (right; right; exact Hn).
  destruct (run_ok _ _ _ _ _ _ _ G H) as (vs1 & Hp & Hr & _ & _ & Hd). cbn zeta in *. fold ts in Hd.
  destruct Hd as [[F _]|[_ Hd]]; [contradiction|].
  set (vs' := o_doc (run force ready v literal vs typed a)) in *. clearbody vs'.
  apply transports_ok in Hd as [Hv (_ & A & sec & sec' & B & _ & E' & Etag & Hno & Etag' & _ & _ & _ & Eattr & _)].
  assert (F : find_child vs' (VIRTUAL_HW_SECTION v) (VIRTUAL_HW_SECTION_ATTRIB v) true = Ok (Some sec')).
  { assert (Ea : VIRTUAL_HW_SECTION_ATTRIB v = []) by (destruct v; [contradiction| |]; reflexivity).
    unfold find_child, find_all_children. cbn [flat_map]. rewrite app_nil_r, E', filter_app. cbn [filter].
    assert (P : forall x, child_match (VIRTUAL_HW_SECTION v) (VIRTUAL_HW_SECTION_ATTRIB v) x = str_eqb (etag x) (VIRTUAL_HW_SECTION v)).
    { intros x. rewrite Ea. unfold child_match, attrib_match. cbn [forallb]. apply andb_true_r. }
    rewrite P, Etag', Etag, str_eqb_refl.
    rewrite !filter_all_out; [reflexivity| |]; intros x Hx; rewrite P; apply str_eqb_neq, Hno, in_or_app; auto. }
  unfold environment_transports, virtual_hw_section. rewrite F. cbn [rbind]. rewrite Eattr.
  assert (S : split_on " "%char (join (L " ") ts) = ts).
  { change (L " ") with [" "%char]. apply split_on_join; [exact Hn|]. intros w Hw. apply forallb_forall. intros c Hc.
    apply negb_true_iff. destruct (Ascii.eqb_spec c " "%char) as [->|]; [|reflexivity]. exfalso. now apply (Ht w Hw). }
  destruct (join (L " ") ts) as [|c s] eqn:Ej; [exfalso; apply H1, join_blank_nil; assumption|].
  destruct v; [contradiction| |]; now rewrite S.
Qed.
