(** Whole runs of edit-properties. *)
From Coq Require Import List Ascii Bool ZArith.
Import ListNotations.
From Verif Require Import PyBase PyBaseProofs PyDict PyDictProofs XmlModel XmlSpec XmlProofs NamesModel ItemModel HardwareModel HardwareSpec ProfileModel ProfileSpec NetworkModel RefreshModel RefreshSpec EnvPropModel EnvPropSpec EnvPropProofs PropArgModel EditPropModel EditPropSpec InfoModel PlatformModel
  ManifestSpec PathModel PathSpec TarModel TarSpec ArchiveProofs OvfWriteModel OvfWriteSpec OpenModel OpenSpec OpenProofs SaveModel SaveSpec SaveProofs CommandModel CommandSpec CommandProofs2.
From Verif Require PsetProofs PathProofs ProductModel ProductSpec ProductProofs CommandProofs EditPropProofs.

Lemma transported_replace : forall v ts vs hws, ts <> [] -> only vs (VIRTUAL_HW_SECTION v) (VIRTUAL_HW_SECTION_ATTRIB v) hws ->
  CommandProofs.transported v ts vs = replace (VIRTUAL_HW_SECTION v) (VIRTUAL_HW_SECTION_ATTRIB v) (set_attr (ENVIRONMENT_TRANSPORT v) (join (L " ") ts) hws) vs.
Proof.
  intros v ts vs hws N O. unfold CommandProofs.transported. destruct ts as [|t ts]; [contradiction|]. unfold replace. f_equal.
  destruct O as (A & B & Ec & An & NO). rewrite Ec. assert (NA : forall x, In x A -> child_match (VIRTUAL_HW_SECTION v) (VIRTUAL_HW_SECTION_ATTRIB v) x = false).
  { intros x Hx. destruct (child_match _ _ x) eqn:M; [|reflexivity]. apply child_match_spec in M. exfalso. apply (NO x); [apply in_or_app; now left|exact M]. }
  clear Ec NO. induction A as [|x A IH]; cbn [app update_first].
  - apply child_match_spec in An. now rewrite An.
  - rewrite (NA x (or_introl eq_refl)). f_equal. apply IH. intros y Hy. apply NA. now right.
Qed.
Lemma transport_answers : forall v x e, v <> V0 -> answers (VIRTUAL_HW_SECTION v) (VIRTUAL_HW_SECTION_ATTRIB v) e ->
  answers (VIRTUAL_HW_SECTION v) (VIRTUAL_HW_SECTION_ATTRIB v) (set_attr (ENVIRONMENT_TRANSPORT v) x e).
Proof. intros v x e N [T _]. split; [now destruct e|]. intros k y H. destruct v; [contradiction| |]; destruct H. Qed.
Lemma transported_like : forall o ts vs, system_like o vs (o_hardware_section o) -> (ts <> [] -> o_version o <> V0) ->
  system_like o (CommandProofs.transported (o_version o) ts vs) (o_hardware_section (with_transports ts o)) /\
  answering (PRODUCT_SECTION (o_version o)) (PRODUCT_SECTION_ATTRIB (o_version o)) (CommandProofs.transported (o_version o) ts vs) = answering (PRODUCT_SECTION (o_version o)) (PRODUCT_SECTION_ATTRIB (o_version o)) vs.
Proof.
  intros o ts vs S NV. destruct ts as [|t ts]; [now split|]. specialize (NV ltac:(discriminate)). destruct S as [S1 S2 S3 S4 S5].
  rewrite (transported_replace (o_version o) (t :: ts) vs _ ltac:(discriminate) S4). set (new := set_attr _ _ _).
  change (o_hardware_section (with_transports (t :: ts) o)) with new.
  pose proof (proj2 (only_In _ _ _ _ S4)) as AN. pose proof (transport_answers _ (join (L " ") (t :: ts)) _ NV AN) as AN'. fold new in AN'.
  assert (H : holds vs (sec_hw (o_version o)) (Some new)) by (split; [exact AN'|now exists (o_hardware_section o)]).
  split; [constructor|].
  - rewrite <- S1. now destruct vs.
  - rewrite <- S2. now destruct vs.
  - rewrite <- S3. apply (answering_replace _ _ _ _ _ _ _ S4 AN'). exact (apart_parts (o_version o) 2 1 (sec_hw (o_version o)) (sec_ann (o_version o)) ltac:(discriminate) eq_refl eq_refl).
  - exact (put_has _ _ _ H).
  - rewrite <- S5. apply (beyond_put (system_sections (o_version o)) vs (sec_hw (o_version o)) (Some new) H). cbn. tauto.
  - apply (answering_replace _ _ _ _ _ _ _ S4 AN'). exact (apart_parts (o_version o) 2 0 (sec_hw (o_version o)) (sec_prod (o_version o)) ltac:(discriminate) eq_refl eq_refl).
Qed.
Lemma properties_found : forall v vs s, answering (PRODUCT_SECTION v) (PRODUCT_SECTION_ATTRIB v) vs = match s with Some e => [e] | None => [] end ->
  properties v vs = match s with Some e => with_tag (PROPERTY v) e | None => [] end /\
  other_product_content v vs = match s with Some e => filter (fun c => negb (str_eqb (etag c) (PROPERTY v))) (echildren e) | None => [] end.
Proof.
  intros v vs s H. unfold properties, other_product_content. unfold answering in H. rewrite H. destruct s; cbn [flat_map]; [rewrite !app_nil_r|]; now split.
Qed.
Lemma section_answering : forall v vs s, product_section v vs = Ok s -> answering (PRODUCT_SECTION v) (PRODUCT_SECTION_ATTRIB v) vs = match s with Some e => [e] | None => [] end.
Proof.
  intros v vs s H. pose proof (optional_spec vs (PRODUCT_SECTION v) (PRODUCT_SECTION_ATTRIB v)) as Q. unfold product_section in H. rewrite H in Q. now apply at_most_filter.
Qed.
Lemma answering_section : forall v vs s, answering (PRODUCT_SECTION v) (PRODUCT_SECTION_ATTRIB v) vs = match s with Some e => [e] | None => [] end -> product_section v vs = Ok s.
Proof. intros v vs s H. apply at_most_filter in H. exact (optional_at_most _ _ _ _ H). Qed.
Lemma same_key : forall v key l l', Forall2 same_content l l' -> Forall2 same_content (filter (has_key v key) l) (filter (has_key v key) l').
Proof. intros v key l l' H. apply same_filter; [|exact H]. intros e e' S. unfold has_key, key_of. now rewrite (same_get _ _ _ S). Qed.
Lemma get_or_same : forall e e' k d, same_content e e' -> get_attr_or e' k d = get_attr_or e k d.
Proof. intros e e' k d S. unfold get_attr_or. now rewrite (same_get _ _ _ S). Qed.

Section Properties.
  Variables (E : env) (digest : str -> str -> str) (print : elem -> str) (parse : str -> option elem) (capacity : str -> result str) (fuel : nat).
  Variables (w w' : world) (d : list str) (u input : str) (same : bool) (output : str) (o : ovf) (d2 : list str) (u2 : str).
  Let wd := path_of (d ++ [u]).
  Let w1 := after_opening w wd input.
  Let v := o_version o.
  Hypothesis CAP : images_measured capacity.
  Hypothesis HEX : forall a x, hex_digest (digest a x).
  Hypothesis PD : forall c, In c (d ++ [u]) -> proper c.
  Hypothesis PD2 : forall c, In c (d2 ++ [u2]) -> proper c.
  Hypothesis PP : forall t r, parse t = Some r -> ~ In NL (etag r).
  Hypothesis OPEN : factory E digest parse w wd input output = Ok o.
  Hypothesis CW : can_be_written E w1 wd (destination input output) o.

  Theorem properties_command : forall force typed a,
    (forall o1, edit_properties_package force typed a o = Ok o1 -> read_as_printed E print parse capacity fuel w1 o1 /\ plain_properties o1) ->
    command E digest print parse capacity fuel (edit_properties_package force typed a) w wd input same output = (w', Ok tt) ->
    exists o2, factory E digest parse w' (path_of (d2 ++ [u2])) (destination input output) [] = Ok o2 /\
      (forall i key value ty, nth_error (ep_properties (a_edit a)) i = Some (key, value, ty) ->
         (forall j x t, nth_error (ep_properties (a_edit a)) j = Some (key, x, t) -> j <= i) ->
         exists p, with_key_in key o2 = [p] /\
           (forall x, value = Some x -> exists y, value_of v p = Some y /\ stored_as (get_attr_or p (PROP_TYPE v) []) x y /\
              conforms (get_attr_or p (PROP_TYPE v) []) (get_attr_or p (PROP_QUAL v) []) y) /\
           (forall t, ty = Some t -> get_attr p (PROP_TYPE v) = Some t) /\
           (forall b, a_user a = Some b -> get_attr p (PROP_USER_CONFIGABLE v) = Some (if b then L "true" else L "false")) /\
           (forall n, nth_error (ep_labels (a_edit a)) i = Some n -> exists e, with_tag (PROPERTY_LABEL v) p = [e] /\ etext e = Some n) /\
           (forall n, nth_error (ep_descriptions (a_edit a)) i = Some n -> exists e, with_tag (PROPERTY_DESC v) p = [e] /\ etext e = Some n)) /\
      (something_given a -> forall key, (forall j x t, nth_error (ep_properties (a_edit a)) j <> Some (key, x, t)) ->
         ~ config_sets (literal_cli_string (o_platform o)) a key -> Forall2 same_content (with_key_in key o) (with_key_in key o2)) /\
      class_of o2 = class_of o /\
      (forall s, o_product o = Some s -> exists s2, o_product o2 = Some s2 /\ forall k, get_attr s2 k = get_attr s k) /\
      (o_product o <> None -> Forall2 same_content (other_in_product [PROPERTY v] o) (other_in_product [PROPERTY v] o2)) /\
      (ep_transports (a_edit a) <> [] -> get_attr (o_hardware_section o2) (ENVIRONMENT_TRANSPORT v) = Some (join (L " ") (ep_transports (a_edit a)))) /\
      same_package E w1 w' (with_product (o_product o2) (o_platform o) (with_transports (ep_transports (a_edit a)) o)) o2.
  Proof.
    intros force typed a XML CMD.
    destruct (command_runs E digest print parse capacity fuel w w' d u input same output o OPEN _ CMD) as (o1 & ED & WR). specialize (XML o1 ED) as [XML PLP].
    pose proof (opened_consistent E digest parse w d u input output o PD PP OPEN) as K. pose proof (opened_sections E digest parse w d u input output o PD PP OPEN) as SF.
    unfold edit_properties_package in ED. cbv zeta in ED. rewrite (system_now_opened o SF) in ED. fold v in ED.
    set (r := run force true v (literal_cli_string (o_platform o)) (o_system o) typed a) in *. destruct (o_result r) as [[]|] eqn:OR; [|discriminate]. cbn [rbind] in ED.
    destruct (CommandProofs.run_kept force true v (literal_cli_string (o_platform o)) (o_system o) typed a OR) as (vs2 & KP & DOC & NV). fold r in DOC.
    set (ts := ep_transports (a_edit a)) in *.
    assert (SL2 : system_like o vs2 (o_hardware_section o)).
    { destruct KP as [->|(s & s' & R & _)]; [|exact (replaced_like o vs2 s s' SF R)]. constructor; try reflexivity. exact (sf_hardware o SF). }
    destruct (transported_like o ts vs2 SL2 NV) as [SL AP]. fold v in SL, AP. rewrite <- DOC in SL, AP.
    destruct (with_system_changed _ _ _ _ _ SL ED) as (prod & PS & ->). fold v in PS.
    pose proof (section_answering _ _ _ PS) as AS. pose proof AS as AS2. rewrite AP in AS2. pose proof (answering_section _ _ _ AS2) as PS2.
    pose proof (optional_at_most _ _ _ _ (sf_product o SF)) as PS0. fold v in PS0. change (product_section v (o_system o) = Ok (o_product o)) in PS0.
    assert (SEC : (prod = o_product o /\ vs2 = o_system o) \/ exists s s', prod = Some s' /\ (o_product o = Some s \/ (o_product o = None /\ s = ProductSpec.fresh_section v)) /\ same_but_children s s' /\
        (o_product o = Some s -> other_product_content v vs2 = other_product_content v (o_system o))).
    { destruct KP as [->|(s & s' & R & P & OC)]; [left; rewrite PS0 in PS2; injection PS2 as <-; now split|]. right. exists s, s'.
      rewrite (ProductProofs.replaced_found _ _ _ _ _ R) in PS2. injection PS2 as <-. split; [reflexivity|]. split; [|split; [exact P|]].
      - destruct (ProductProofs.replaced_before _ _ _ _ _ R) as [H|[H Hf]]; rewrite PS0 in H; injection H as H; [now left|now right].
      - intros H. apply OC. now rewrite PS0, H. }
    assert (CL : match prod with Some s => get_attr s (ProductModel.PRODUCT_CLASS v) | None => None end = class_of o).
    { unfold class_of. fold v. destruct SEC as [[-> _]|(s & s' & -> & B & (_ & At & _) & _)]; [reflexivity|]. unfold get_attr. rewrite <- At. fold (get_attr s (ProductModel.PRODUCT_CLASS v)).
      destruct B as [->|[-> ->]]; [reflexivity|]. apply ProductProofs.fresh_class. }
    assert (PL : o_platform o = for_product_string (match prod with Some s => get_attr s (ProductModel.PRODUCT_CLASS v) | None => None end)).
    { rewrite CL. unfold class_of. destruct K. assumption. }
    pose proof (changed_consistent o _ prod _ (o_platform o) K SL PS PL) as K1.
    assert (CH : echildren (o_hardware_section (with_transports ts o)) = echildren (o_hardware_section o)).
    { unfold with_transports. cbn [o_hardware_section]. destruct ts; [reflexivity|]. now destruct (o_hardware_section o). }
    pose proof (changed_writable E w1 wd _ o (o_doc r) prod _ (o_platform o) (opened_ready E digest parse w d u input output o w1 _ PD PP OPEN CW) CH) as CW1.
    destruct (written_reopens E digest print parse capacity fuel w1 w' wd input same _ _ d2 u2 K1 CW1 CAP XML HEX PD2 WR) as (o2 & F2 & SP).
    exists o2. split; [exact F2|].
    pose proof (sp_product _ _ _ _ _ SP) as S2. cbn [changed o_product] in S2.
    pose proof (sp_version _ _ _ _ _ SP) as V2. cbn [changed o_version] in V2. fold v in V2. pose proof (sp_platform _ _ _ _ _ SP) as PL2. cbn [changed o_platform] in PL2.
    destruct (properties_found _ _ _ AS) as [PF _].
    assert (PR : Forall2 same_content (properties v (o_doc r)) (properties_of o2)).
    { rewrite PF. unfold properties_of. rewrite V2. destruct prod as [s|], (o_product o2) as [s2|]; cbn [same_section] in S2; try contradiction; [|constructor]. exact (with_tag_same _ _ _ S2). }
    assert (PLP2 : forall p e, In p (properties v (o_doc r)) -> In e (echildren p) -> echildren e = []).
    { intros p e Hp He. apply (PLP p e); [|exact He]. unfold properties_of. cbn [changed o_product o_version]. fold v. rewrite PF in Hp. exact Hp. }
    split; [|split; [|split; [|split; [|split; [|split]]]]].
    - intros i key value ty Hi Hl. destruct (EditPropProofs.run_last force true v (literal_cli_string (o_platform o)) (o_system o) typed a i key value ty OR Hi Hl) as (p & WK & R1 & R2 & R3 & R4 & R5).
      fold r in WK. pose proof (same_key v key _ _ PR) as Q. change (filter (has_key v key) (properties v (o_doc r))) with (with_key v (o_doc r) key) in Q. rewrite WK in Q.
      assert (Hp : In p (properties v (o_doc r))).
      { assert (X : In p (with_key v (o_doc r) key)) by (rewrite WK; now left). apply filter_In in X. exact (proj1 X). }
      unfold with_key_in. rewrite V2. inversion Q as [|p0 p2 l0 l2 Sp Q' Ex Ey]. subst p0 l0. inversion Q'. subst l2. exists p2. split; [reflexivity|].
      assert (NOTE : forall tag n, (exists e, with_tag tag p = [e] /\ etext e = Some n) -> exists e, with_tag tag p2 = [e] /\ etext e = Some n).
      { intros tag n (e & We & Te). pose proof (with_tag_same tag _ _ Sp) as Qe. assert (He : In e (echildren p)).
        { assert (X : In e (with_tag tag p)) by (rewrite We; now left). apply filter_In in X. exact (proj1 X). }
        rewrite We in Qe. inversion Qe as [|e0 e2 m0 m2 Se Qe' Ee Ef]. subst e0 m0. inversion Qe'. subst m2. exists e2. split; [reflexivity|]. rewrite (same_leaf _ _ Se); [exact Te|]. exact (PLP2 p e Hp He). }
      split; [|split; [|split; [|split]]].
      + intros x Hx. destruct (R1 x Hx) as (y & Y1 & Y2 & Y3). exists y. unfold value_of in *. rewrite (same_get _ _ _ Sp), !(get_or_same _ _ _ _ Sp). now split.
      + intros t Ht. rewrite (same_get _ _ _ Sp). now apply R2.
      + intros b Hb. rewrite (same_get _ _ _ Sp). now apply R3.
      + intros n Hn. apply NOTE. now apply R4.
      + intros n Hn. apply NOTE. now apply R5.
    - intros SG key NK NC. pose proof (EditPropProofs.run_others force true v (literal_cli_string (o_platform o)) (o_system o) typed a key SG OR NK NC) as Q. fold r in Q.
      unfold with_key_in. rewrite V2. fold v. pose proof (same_key v key _ _ PR) as Q2. change (filter (has_key v key) (properties v (o_doc r))) with (with_key v (o_doc r) key) in Q2. rewrite Q in Q2.
      unfold with_key in Q2. rewrite (proj1 (properties_found _ _ _ (section_answering _ _ _ PS0))) in Q2. unfold properties_of at 1. exact Q2.
    - rewrite <- CL. unfold class_of. rewrite V2. destruct prod as [s|], (o_product o2) as [s2|]; cbn [same_section] in S2; try contradiction; [|reflexivity]. exact (same_get _ _ _ S2).
    - intros s Hs. assert (X : exists s', prod = Some s' /\ forall k, get_attr s' k = get_attr s k).
      { destruct SEC as [[-> _]|(s0 & s' & -> & [B|[B _]] & (_ & At & _) & _)]; [exists s; now split| |rewrite Hs in B; discriminate]. rewrite Hs in B. injection B as <-.
        exists s'. split; [reflexivity|]. intros k. unfold get_attr. now rewrite At. }
      destruct X as (s' & -> & At). destruct (o_product o2) as [s2|]; [|contradiction]. exists s2. split; [reflexivity|]. intros k. rewrite <- At. exact (same_get _ _ _ S2).
    - intros N. assert (OC : other_product_content v (o_doc r) = other_product_content v (o_system o)).
      { assert (T : other_product_content v (o_doc r) = other_product_content v vs2) by (unfold other_product_content; unfold answering in AP; now rewrite AP).
        rewrite T. destruct SEC as [[_ ->]|(s0 & s' & _ & [B|[B _]] & _ & OC)]; [reflexivity|exact (OC B)|contradiction]. }
      rewrite (proj2 (properties_found _ _ _ AS)), (proj2 (properties_found _ _ _ (section_answering _ _ _ PS0))) in OC.
      assert (FT : forall l, filter (fun e => negb (mem_str (etag e) [PROPERTY v])) l = filter (fun c => negb (str_eqb (etag c) (PROPERTY v))) l).
      { intros l. apply filter_ext. intros e. unfold mem_str. cbn [existsb]. now rewrite orb_false_r, str_eqb_sym. }
      unfold other_in_product. destruct (o_product o) as [s|]; [|contradiction]. rewrite !FT. rewrite <- OC.
      destruct prod as [s1|], (o_product o2) as [s2|]; cbn [same_section] in S2; try contradiction; [|constructor]. rewrite FT.
      apply same_filter; [|exact (same_children _ _ S2)]. intros e e' Se. now rewrite (same_tag _ _ Se).
    - intros N. pose proof (sp_section _ _ _ _ _ SP) as (_ & At & _). cbn [changed o_hardware_section] in At. unfold get_attr. rewrite At. unfold with_transports. cbn [o_hardware_section]. fold v.
      destruct ts as [|t l]; [contradiction|]. exact (attr_same _ _ _).
    - rewrite <- PL2. exact (same_but_edited E w1 w' o o2 _ _ _ _ ts SL SP eq_refl).
  Qed.
End Properties.

(** A command that is refused *)
Lemma opened_confined : forall w d u input, (forall c, In c (d ++ [u]) -> proper c) ->
  let w1 := after_opening w (path_of (d ++ [u])) input in
  (forall q, w_files w1 q <> w_files w q -> beside d u q) /\ (forall t, w_tars w1 t = w_tars w t).
Proof.
  intros w d u input PD. cbv zeta. unfold after_opening, descriptor. destruct (detect_type input) as [ext|]; cbn [rbind]; [|split; [intros q H; now elim H|reflexivity]].
  destruct (str_eqb ext (L ".ova") || str_eqb ext (L ".box")); [|split; [intros q H; now elim H|reflexivity]].
  pose proof (untar_iff d u (w_tars w (normpath input)) PD) as U. destruct (untar _ _) as [[m p]|e]; cbn [rbind fst snd]; [|split; [intros q H; now elim H|reflexivity]].
  destruct (t_link m); [split; [intros q H; now elim H|reflexivity]|]. split; [|reflexivity]. intros q H. cbn [put w_files] in H.
  destruct (strs_eqb q (place p)) eqn:Q; [|now elim H]. apply PsetProofs.strs_eqb_eq in Q. subst q.
  destruct U as (a & A & B & _ & Ea & _ & _ & -> & S). assert (I : In m a) by (rewrite Ea; apply in_or_app; right; now left).
  destruct (S m I) as [N Be]. rewrite PathProofs.join_place; [exact Be|now destruct d|exact PD].
Qed.
