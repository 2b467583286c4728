(** Whole runs of edit-product and edit-properties: the edited package can be written, and is read again. *)
From Coq Require Import List Ascii Bool ZArith.
Import ListNotations.
From Verif Require Import PyBase PyBaseProofs PyDict PyDictProofs XmlModel XmlSpec XmlProofs NamesModel ItemModel HardwareModel HardwareSpec ProfileModel ProfileSpec NetworkModel RefreshModel RefreshSpec EnvPropModel EnvPropSpec EnvPropProofs PropArgModel EditPropModel InfoModel PlatformModel
  ManifestSpec PathModel PathSpec TarModel TarSpec ArchiveProofs OvfWriteModel OvfWriteSpec OpenModel OpenSpec OpenProofs SaveModel SaveSpec SaveProofs CommandModel CommandSpec.
From Verif Require ProductModel ProductSpec ProductProofs CommandProofs InfoProfileProofs.

(** ** Opened packages *)
Record sections_found (o : ovf) : Prop := {
  sf_product : at_most (o_system o) (PRODUCT_SECTION (o_version o)) (PRODUCT_SECTION_ATTRIB (o_version o)) (o_product o);
  sf_annotation : at_most (o_system o) (ANNOTATION_SECTION (o_version o)) (ANNOTATION_SECTION_ATTRIB (o_version o)) (o_annotation o);
  sf_hardware : only (o_system o) (VIRTUAL_HW_SECTION (o_version o)) (VIRTUAL_HW_SECTION_ATTRIB (o_version o)) (o_hardware_section o) }.
Lemma opened_sections : forall E digest parse w d u input output o, (forall c, In c (d ++ [u]) -> proper c) -> (forall t r, parse t = Some r -> ~ In NL (etag r)) ->
  factory E digest parse w (path_of (d ++ [u])) input output = Ok o -> sections_found o.
Proof.
  intros E digest parse w d u input output o PD PP F. pose proof (factory_spec E digest parse w d u input output PD PP) as S. rewrite F in S.
  destruct S as (_ & c & p & t & w' & root & _ & _ & De). destruct De. now constructor.
Qed.
Lemma replace_self : forall p t a e, only p t a e -> replace t a e p = p.
Proof.
  intros p t a e O. unfold replace. rewrite ProductProofs.update_same; [now destruct p|]. intros x Hx M. apply child_match_spec in M. destruct O as (A & B & Ec & _ & N).
  rewrite Ec in Hx. apply in_app_or in Hx as [Hx|[Hx|Hx]].
  - exfalso. apply (N x); [apply in_or_app; now left|exact M].
  - now symmetry.
  - exfalso. apply (N x); [apply in_or_app; now right|exact M].
Qed.
Lemma system_now_opened : forall o, sections_found o -> system_now o = o_system o.
Proof.
  intros o [S1 S2 S3]. unfold system_now. cbv zeta.
  assert (P : forall t a x, at_most (o_system o) t a x -> SaveModel.put_section t a x (o_system o) = o_system o).
  { intros t a [x|] H; [exact (replace_self _ _ _ _ H)|reflexivity]. }
  rewrite (P _ _ _ S1), (P _ _ _ S2). exact (replace_self _ _ _ _ S3).
Qed.

(** ** The package with another virtual system *)
Record system_like (o : ovf) (vs hws : elem) : Prop := {
  sl_tag : etag vs = etag (o_system o);
  sl_attr : eattrib vs = eattrib (o_system o);
  sl_ann : answering (ANNOTATION_SECTION (o_version o)) (ANNOTATION_SECTION_ATTRIB (o_version o)) vs = answering (ANNOTATION_SECTION (o_version o)) (ANNOTATION_SECTION_ATTRIB (o_version o)) (o_system o);
  sl_hw : only vs (VIRTUAL_HW_SECTION (o_version o)) (VIRTUAL_HW_SECTION_ATTRIB (o_version o)) hws;
  sl_beyond : beyond (system_sections (o_version o)) vs = beyond (system_sections (o_version o)) (o_system o) }.
Definition changed (vs : elem) (prod : option elem) (hws : elem) (plat : platform) (o : ovf) : ovf :=
  mkOvf (o_version o) (o_envelope o) (o_references o) (o_disks o) (o_networks o) (o_deploy o) vs prod (o_annotation o) hws
    (o_profiles o) (o_hardware o) plat (o_files o) (o_complaints o).
Lemma with_system_changed : forall vs plat o hws o1, system_like o vs hws -> with_system vs plat o = Ok o1 ->
  exists prod, product_section (o_version o) vs = Ok prod /\ o1 = changed vs prod hws plat o.
Proof.
  intros vs plat o hws o1 [S1 S2 S3 S4 S5] H. unfold with_system in H. cbv zeta in H. destruct (product_section (o_version o) vs) as [prod|]; [|discriminate]. cbn [rbind] in H.
  rewrite (required_only _ _ _ _ S4) in H. cbn [rbind] in H. injection H as <-. now exists prod.
Qed.
Lemma changed_consistent : forall o vs prod hws plat, consistent o -> system_like o vs hws -> product_section (o_version o) vs = Ok prod ->
  plat = for_product_string (match prod with Some s => get_attr s (ProductModel.PRODUCT_CLASS (o_version o)) | None => None end) ->
  consistent (changed vs prod hws plat o).
Proof.
  intros o vs prod hws plat K [S1 S2 S3 S4 S5] P PL. destruct K as [K1 K2 K3 K4 K5 K6 K7 K8 K9 K10 K11 K12].
  constructor; cbn [changed o_version o_envelope o_references o_disks o_networks o_deploy o_system o_product o_annotation o_hardware_section o_profiles o_platform]; auto.
  - destruct K6 as [K6 K6']. split; [exact (answers_like _ _ _ _ S1 S2 K6)|exact K6'].
  - pose proof (optional_spec vs (PRODUCT_SECTION (o_version o)) (PRODUCT_SECTION_ATTRIB (o_version o))) as Q. unfold product_section in P. rewrite P in Q.
    destruct prod as [s|]; [|exact Q]. split; [exact (proj2 (only_In _ _ _ _ Q))|now exists s].
  - destruct (o_annotation o) as [s|].
    + destruct K8 as [K8 (e0 & O)]. split; [exact K8|]. exists e0. apply only_filter. apply only_filter in O. now rewrite S3.
    + apply none_filter. apply none_filter in K8. now rewrite S3.
  - split; [exact (proj2 (only_In _ _ _ _ S4))|now exists hws].
Qed.
Lemma changed_ready : forall E o vs prod hws plat, hardware_ready (env_of E o) (o_hardware o) (o_hardware_section o) -> echildren hws = echildren (o_hardware_section o) ->
  hardware_ready (env_of E (changed vs prod hws plat o)) (o_hardware (changed vs prod hws plat o)) (o_hardware_section (changed vs prod hws plat o)).
Proof.
  intros E o vs prod hws plat [H1 H2 H3] C. cbn [changed o_hardware o_hardware_section]. change (env_of E (changed vs prod hws plat o)) with (env_of E o). constructor; [exact H1|exact H2|].
  intros LU. unfold looks_unchanged, item_children in LU. rewrite C in LU. destruct (H3 LU) as (h0 & R & S & P). exists h0. split; [|split; [exact S|]].
  - unfold read_hardware in *. now rewrite C.
  - unfold plain_items in *. now rewrite C.
Qed.
Record ready_to_write (E : env) (w : world) (wd output : str) (o : ovf) : Prop := {
  rw_hardware : hardware_ready (env_of E o) (o_hardware o) (o_hardware_section o);
  rw_units : plain_units (o_version o) (vmd_of o);
  rw_files : fits w wd output o }.
Lemma open_reads : forall E digest w c p root o, open_envelope E digest w c p root = Ok o -> read_hardware (env_of E o) (o_hardware_section o) = Ok (o_hardware o).
Proof.
  intros E digest w c p root o H. unfold open_envelope in H. destruct (negb _); [discriminate|].
  do 9 (apply InfoProfileProofs.rbind_ok in H as (? & ? & H)). cbv zeta in H. apply InfoProfileProofs.rbind_ok in H as (h & Hh & H). do 2 (apply InfoProfileProofs.rbind_ok in H as (? & ? & H)).
  injection H as <-. unfold env_of. cbn [o_version o_profiles o_hardware_section o_hardware].
  destruct (read_hardware _ _) as [h'|e]; [injection Hh as ->; reflexivity|destruct e; discriminate].
Qed.
Lemma factory_reads : forall E digest parse w wd input output o, factory E digest parse w wd input output = Ok o -> read_hardware (env_of E o) (o_hardware_section o) = Ok (o_hardware o).
Proof.
  intros E digest parse w wd input output o H. unfold factory in H. destruct (detect_type input) as [x|e]; [|destruct e; discriminate].
  assert (H' : open_ovf E digest parse w wd input output = Ok o) by (destruct (open_ovf E digest parse w wd input output) as [y|e]; [exact H|destruct e; discriminate]). clear H.
  unfold open_ovf in H'. apply InfoProfileProofs.rbind_ok in H' as (? & _ & H). apply InfoProfileProofs.rbind_ok in H as ([[p [t|]] w1] & _ & H); [|discriminate].
  destruct (parse t) as [root|]; [|discriminate]. exact (open_reads _ _ _ _ _ _ _ H).
Qed.
Lemma opened_ready : forall E digest parse w0 d u input output o w dest, (forall c, In c (d ++ [u]) -> proper c) -> (forall t r, parse t = Some r -> ~ In NL (etag r)) ->
  factory E digest parse w0 (path_of (d ++ [u])) input output = Ok o -> can_be_written E w (path_of (d ++ [u])) dest o -> ready_to_write E w (path_of (d ++ [u])) dest o.
Proof.
  intros E digest parse w0 d u input output o w dest PD PP F [C1 C2 C3 C4].
  pose proof (factory_reads _ _ _ _ _ _ _ _ F) as RH.
  constructor; [constructor|exact C3|exact C4].
  - exact (H_read (o_version o) (env_of E o) _ _ eq_refl RH).
  - exact C1.
  - intros _. exists (o_hardware o). split; [exact RH|]. split; [apply UpdateHistoryProofs.same_refl|exact C2].
Qed.
Lemma changed_writable : forall E w wd output o vs prod hws plat, ready_to_write E w wd output o -> echildren hws = echildren (o_hardware_section o) ->
  ready_to_write E w wd output (changed vs prod hws plat o).
Proof.
  intros E w wd output o vs prod hws plat [C1 C2 C3] C. constructor; [now apply changed_ready|exact C2|].
  destruct C3 as [W B data H1 H2 H3 H4 H5 H6|W B data H1 H2 H3 H4 H5 H6 H7].
  - now apply (fits_descriptor w wd output (changed vs prod hws plat o) W B data).
  - now apply (fits_archive w wd output (changed vs prod hws plat o) W B data).
Qed.

(** ** Writing and opening, for both kinds of output *)
Lemma written_reopens : forall E digest print parse capacity fuel w w' wd input same output o d u,
  consistent o -> ready_to_write E w wd output o -> images_measured capacity -> read_as_printed E print parse capacity fuel w o ->
  (forall a x, hex_digest (digest a x)) -> (forall c, In c (d ++ [u]) -> proper c) ->
  write E digest print capacity fuel w wd input same output o = (w', Ok tt) ->
  exists o2, factory E digest parse w' (path_of (d ++ [u])) output [] = Ok o2 /\ same_package E w w' o o2.
Proof.
  intros E digest print parse capacity fuel w w' wd input same output o d u K [C1 C2 C3] CAP XML HEX PR WR.
  destruct C3 as [W B data H1 H2 H3 H4 H5 H6|W B data H1 H2 H3 H4 H5 H6 H7].
  - exact (saved_ovf E digest print parse capacity fuel w w' wd input same output o data d u K C1 CAP C2 XML HEX WR W B H1 H2 H3 H4 H5 H6).
  - exact (saved_ova E digest print parse capacity fuel w w' wd input same output o data d u K C1 CAP C2 XML HEX PR WR W B H1 H3 H2 H4 H5 H6 H7).
Qed.

(** The package as it was, but for the product and hardware sections *)
Lemma same_but_edited : forall E w w' o o2 vs prod hws plat t, system_like o vs hws -> same_package E w w' (changed vs prod hws plat o) o2 ->
  o_hardware_section (with_transports t o) = hws ->
  same_package E w w' (with_product (o_product o2) (o_platform o2) (with_transports t o)) o2.
Proof.
  intros E w w' o o2 vs prod hws plat t [S1 S2 S3 S4 S5] SP HW. destruct SP as [P1 P2 P3 P4 P5 P6 P7 P8 P9 P10 P11 P12 P13 P14 P15].
  change (env_of E (changed vs prod hws plat o)) with (env_of E o) in *. cbn [changed o_version o_envelope o_references o_disks o_networks o_deploy o_system o_product o_annotation o_hardware_section o_profiles o_hardware o_platform o_files] in *.
  set (T := with_product (o_product o2) (o_platform o2) (with_transports t o)).
  assert (EH : o_hardware_section T = hws) by exact HW.
  constructor; try rewrite EH; try assumption; try reflexivity.
  - unfold T. cbn [with_product o_product o_platform]. destruct (o_product o2); [apply same_itself|exact I].
  - destruct P14 as (Q1 & Q2 & Q3). split; [now rewrite Q1, S1|]. split; [now rewrite Q2, S2|]. change (o_system T) with (o_system o). change (o_version T) with (o_version o). now rewrite <- S5.
Qed.

(** ** edit-product *)
Lemma product_apart : forall v x, ProductSpec.is_section v x -> child_match (ANNOTATION_SECTION v) (ANNOTATION_SECTION_ATTRIB v) x = false /\ child_match (VIRTUAL_HW_SECTION v) (VIRTUAL_HW_SECTION_ATTRIB v) x = false.
Proof.
  intros v x S. split.
  - destruct (child_match _ _ x) eqn:M; [|reflexivity]. apply child_match_spec in M. exfalso. exact (apart_parts v 0 1 (sec_prod v) (sec_ann v) ltac:(discriminate) eq_refl eq_refl x S M).
  - destruct (child_match _ _ x) eqn:M; [|reflexivity]. apply child_match_spec in M. exfalso. exact (apart_parts v 0 2 (sec_prod v) (sec_hw v) ltac:(discriminate) eq_refl eq_refl x S M).
Qed.
Lemma replaced_like : forall o vs s s', sections_found o -> ProductSpec.section_replaced (o_version o) (o_system o) vs s s' -> system_like o vs (o_hardware_section o).
Proof.
  intros o vs s s' [F1 F2 F3] R. pose proof R as ((T & A & _) & _). constructor; [now symmetry|now symmetry| | |].
  - apply (CommandProofs.replaced_filter _ _ _ _ _ _ R). intros x S. exact (proj1 (product_apart _ _ S)).
  - apply only_filter. apply only_filter in F3. rewrite <- F3. apply (CommandProofs.replaced_filter _ _ _ _ _ _ R). intros x S. exact (proj2 (product_apart _ _ S)).
  - apply (CommandProofs.replaced_filter _ _ _ _ _ _ R). intros x S. apply negb_false_iff. apply existsb_exists. exists (sec_prod (o_version o)). split; [now left|]. now apply child_match_spec.
Qed.
Lemma opened_product : forall o, consistent o -> sections_found o ->
  ProductModel.open_product (o_version o) (o_system o) = Ok (ProductModel.mkPvm (o_system o) (ProductModel.read_class (o_version o) (o_product o)) (o_platform o)).
Proof.
  intros o K [F1 F2 F3]. unfold ProductModel.open_product, product_section. rewrite (optional_at_most _ _ _ _ F1). cbn [rbind]. cbv zeta. rewrite (k_platform o K). reflexivity.
Qed.

(** Texts without elements in them stay so. *)
Definition flat_in (tags : list str) (s : elem) : Prop := forall e, In e (echildren s) -> In (etag e) tags -> echildren e = [].
Definition flat_vm (v : version) (tags : list str) (m : ProductModel.pvm) : Prop :=
  forall s, product_section v (ProductModel.pv_vs m) = Ok (Some s) -> flat_in tags s.
Lemma flat_fresh : forall v tags, flat_in tags (ProductSpec.fresh_section v).
Proof. intros v tags e [<-|[]] _. reflexivity. Qed.
Lemma flat_ensured : forall v tags m vs1 sec, flat_vm v tags m -> ProductModel.ensure_product v (ProductModel.pv_vs m) = Ok (vs1, sec) -> flat_in tags sec /\ ProductSpec.is_section v sec.
Proof.
  intros v tags m vs1 sec F En. assert (S : ProductSpec.is_section v sec).
  { apply SectionProofs.ensure_section_spec in En as (A & B & _ & S & _); [exact S|apply product_NoDup]. }
  split; [|exact S]. destruct (ProductProofs.replaced_before _ _ _ _ _ (ProductProofs.ensure_cases v _ vs1 sec En sec S)) as [H|[_ H]]; [now apply F|]. subst. apply flat_fresh.
Qed.
Lemma flat_put : forall v tags m vs1 sec sec' c p, ProductModel.ensure_product v (ProductModel.pv_vs m) = Ok (vs1, sec) -> ProductSpec.is_section v sec' -> flat_in tags sec' ->
  flat_vm v tags (ProductModel.mkPvm (ProductModel.put_section v vs1 sec') c p).
Proof.
  intros v tags m vs1 sec sec' c p En S F s H. cbn [ProductModel.pv_vs] in H. pose proof (ProductProofs.replaced_found _ _ _ _ _ (ProductProofs.ensure_cases v _ vs1 sec En sec' S)) as Q.
  rewrite Q in H. injection H as <-. exact F.
Qed.
Lemma flat_class : forall v tags x m m', flat_vm v tags m -> ProductModel.when v x ProductModel.set_product_class m = Ok m' -> flat_vm v tags m'.
Proof.
  intros v tags [c|] m m' F H; cbn [ProductModel.when] in H; [|injection H as <-; exact F]. unfold ProductModel.set_product_class in H.
  destruct (ProductModel.product_class v m) as [old|]; [|discriminate]. cbn [rbind] in H. destruct (ProductModel.opt_str_eqb (Some c) old); [injection H as <-; exact F|].
  destruct (ProductModel.ensure_product v (ProductModel.pv_vs m)) as [[vs1 sec]|] eqn:En; [|discriminate]. cbn [rbind] in H. injection H as <-. destruct (flat_ensured _ _ _ _ _ F En) as [FS S].
  apply (flat_put v tags m vs1 sec _ _ _ En); [now apply ProductProofs.section_class|]. intros e He. apply FS. now destruct sec.
Qed.
Lemma flat_text : forall v tags tag x m m', flat_vm v tags m -> ProductModel.when v x (fun v m => ProductModel.set_product_text v m tag) m = Ok m' -> flat_vm v tags m'.
Proof.
  intros v tags tag [t|] m m' F H; cbn [ProductModel.when] in H; [|injection H as <-; exact F]. unfold ProductModel.set_product_text in H.
  destruct (ProductModel.ensure_product v (ProductModel.pv_vs m)) as [[vs1 sec]|] eqn:En; [|discriminate]. cbn [rbind] in H.
  pose proof (set_or_make_child_spec sec tag (Some t) [] [] (NoDup_nil _)) as SM. destruct (set_or_make_child sec tag (Some t) [] []) as [[sec' c]|]; [|discriminate]. cbn [rbind fst] in H. injection H as <-.
  destruct (flat_ensured _ _ _ _ _ F En) as [FS S]. destruct SM as (SB & _ & _ & _ & _ & SM). apply (flat_put v tags m vs1 sec _ _ _ En); [exact (ProductProofs.section_same v _ _ SB S)|].
  intros e He Te. destruct SM as [(A & old & B & E1 & E2 & _ & (X1 & _ & _ & X4) & _)|(A & B & E1 & E2 & _ & _ & X)]; rewrite E2 in He; apply in_app_or in He as [He|[He|He]].
  - apply FS; [rewrite E1; apply in_or_app; now left|exact Te].
  - subst e. rewrite <- X4. apply FS; [rewrite E1; apply in_or_app; right; now left|now rewrite X1].
  - apply FS; [rewrite E1; apply in_or_app; right; now right|exact Te].
  - apply FS; [rewrite E1; apply in_or_app; now left|exact Te].
  - subst e. now rewrite X.
  - apply FS; [rewrite E1; apply in_or_app; now right|exact Te].
Qed.
Lemma flat_edit : forall v tags opts m m', flat_vm v tags m -> ProductModel.edit_product v opts m = Ok m' -> flat_vm v tags m'.
Proof.
  intros v tags opts m m' F H. unfold ProductModel.edit_product in H. destruct (negb _); [discriminate|].
  match type of H with rbind ?x _ = _ => destruct x eqn:H1 end; [|discriminate]. cbn [rbind] in H. pose proof (flat_class _ _ _ _ _ F H1) as F1.
  do 6 (match type of H with rbind ?x _ = _ => let Hx := fresh "H" in destruct x eqn:Hx; [|discriminate]; cbn [rbind] in H; apply flat_text with (tags := tags) in Hx; [|assumption] end).
  apply flat_text with (tags := tags) in H; assumption.
Qed.

Lemma with_tag_same : forall tag s s', same_content s s' -> Forall2 same_content (with_tag tag s) (with_tag tag s').
Proof. intros tag s s' S. apply same_filter; [|exact (same_children _ _ S)]. intros e e' Se. now rewrite (same_tag _ _ Se). Qed.
Lemma same_leaf : forall e e', same_content e e' -> echildren e = [] -> etext e' = etext e.
Proof. intros e e' H L. destruct H. cbn in *. now rewrite (H0 L). Qed.
Lemma first_text : forall tag s s', same_content s s' -> flat_in [tag] s -> option_map etext (hd_error (with_tag tag s')) = option_map etext (hd_error (with_tag tag s)).
Proof.
  intros tag s s' S F. pose proof (with_tag_same tag s s' S) as Q.
  assert (L : forall e, In e (with_tag tag s) -> echildren e = []).
  { intros e He. apply filter_In in He as [He Te]. apply str_eqb_eq in Te. apply F; [exact He|now left]. }
  destruct Q as [|e e' l l' Se Q]; [reflexivity|]. cbn [hd_error option_map]. f_equal. apply (same_leaf _ _ Se). apply L. now left.
Qed.

Lemma asked_In : forall v opts tag, In tag (asked_for v opts) <-> exists t, In (tag, Some t) (ProductSpec.texts v opts).
Proof.
  intros v opts tag. unfold asked_for. rewrite in_flat_map. split.
  - intros ([g [t|]] & I & H); cbn [snd fst] in H; [|destruct H]. destruct H as [<-|[]]. now exists t.
  - intros (t & I). exists (tag, Some t). split; [exact I|now left].
Qed.
Lemma text_not_info : forall v opts tag x, In (tag, x) (ProductSpec.texts v opts) -> tag <> INFO v.
Proof. intros v opts tag x H F. subst tag. unfold ProductSpec.texts in H. cbn [In] in H. destruct v; repeat (destruct H as [H|H]; [vm_compute in H; discriminate H|]); exact H. Qed.

Section Product.
  Variables (E : env) (digest : str -> str -> str) (print : elem -> str) (parse : str -> option elem) (capacity : str -> result str) (fuel : nat).
  Variables (w w' : world) (d : list str) (u input : str) (same : bool) (output : str) (o : ovf) (d2 : list str) (u2 : str).
  Let wd := path_of (d ++ [u]).
  Let w1 := after_opening w wd input.
  Let v := o_version o.
  Hypothesis CAP : images_measured capacity.
  Hypothesis HEX : forall a x, hex_digest (digest a x).
  Hypothesis PD : forall c, In c (d ++ [u]) -> proper c.
  Hypothesis PD2 : forall c, In c (d2 ++ [u2]) -> proper c.
  Hypothesis PP : forall t r, parse t = Some r -> ~ In NL (etag r).
  Hypothesis OPEN : factory E digest parse w wd input output = Ok o.
  Hypothesis CW : can_be_written E w1 wd (destination input output) o.

  Lemma command_runs : forall edit, command E digest print parse capacity fuel edit w wd input same output = (w', Ok tt) ->
    exists o1, edit o = Ok o1 /\ write E digest print capacity fuel w1 wd input same (destination input output) o1 = (w', Ok tt).
  Proof. intros edit H. unfold command in H. rewrite OPEN in H. destruct (edit o) as [o1|e]; [|discriminate]. now exists o1. Qed.

  Theorem product_command : forall opts,
    (forall o1, edit_product_package opts o = Ok o1 -> read_as_printed E print parse capacity fuel w1 o1) ->
    plain_texts (map fst (ProductSpec.texts v opts)) o ->
    command E digest print parse capacity fuel (edit_product_package opts) w wd input same output = (w', Ok tt) ->
    exists o2, factory E digest parse w' (path_of (d2 ++ [u2])) (destination input output) [] = Ok o2 /\
      class_of o2 = match ProductModel.o_class opts with Some c => Some c | None => class_of o end /\
      o_platform o2 = for_product_string (class_of o2) /\
      (forall tag x, In (tag, x) (ProductSpec.texts v opts) -> text_of tag o2 = match x with Some t => Some (Some t) | None => text_of tag o end) /\
      (forall s, o_product o = Some s -> exists s2, o_product o2 = Some s2 /\ forall k, k <> ProductModel.PRODUCT_CLASS v -> get_attr s2 k = get_attr s k) /\
      (o_product o <> None -> Forall2 same_content (other_in_product (asked_for v opts) o) (other_in_product (asked_for v opts) o2)) /\
      Forall2 same_content (properties_of o) (properties_of o2) /\
      same_package E w1 w' (with_product (o_product o2) (o_platform o2) o) o2.
  Proof.
    intros opts XML PT CMD. destruct (command_runs _ CMD) as (o1 & ED & WR). specialize (XML o1 ED).
    pose proof (opened_consistent E digest parse w d u input output o PD PP OPEN) as K. pose proof (opened_sections E digest parse w d u input output o PD PP OPEN) as SF.
    unfold edit_product_package in ED. cbv zeta in ED. rewrite (system_now_opened o SF) in ED. fold v in ED.
    destruct (ProductModel.edit_product v opts _) as [m|] eqn:EP; [|discriminate]. cbn [rbind] in ED.
    pose proof (opened_product o K SF) as OP. fold v in OP.
    destruct (ProductProofs.edit_spec v _ _ opts m OP EP) as (OM & sec & sec' & R & SE).
    pose proof (replaced_like o _ _ _ SF R) as SL. destruct (with_system_changed _ _ _ _ _ SL ED) as (prod & PS & ->). fold v in PS.
    pose proof (ProductProofs.replaced_found _ _ _ _ _ R) as RF. rewrite RF in PS. injection PS as <-.
    assert (PL : ProductModel.pv_platform m = for_product_string (get_attr sec' (ProductModel.PRODUCT_CLASS v))).
    { destruct (ProductProofs.open_class v m OM) as (q & Q1 & _ & _ & Q4). rewrite RF in Q1. injection Q1 as <-. exact Q4. }
    pose proof (changed_consistent o _ (Some sec') _ (ProductModel.pv_platform m) K SL RF PL) as K1.
    pose proof (changed_writable E w1 wd _ o (ProductModel.pv_vs m) (Some sec') (o_hardware_section o) (ProductModel.pv_platform m) (opened_ready E digest parse w d u input output o w1 _ PD PP OPEN CW) eq_refl) as CW1.
    destruct (written_reopens E digest print parse capacity fuel w1 w' wd input same _ _ d2 u2 K1 CW1 CAP XML HEX PD2 WR) as (o2 & F2 & SP).
    exists o2. split; [exact F2|].
    pose proof (sp_product _ _ _ _ _ SP) as S2. cbn [changed o_product] in S2. destruct (o_product o2) as [s2|] eqn:P2; [|contradiction]. cbn [same_section] in S2.
    pose proof (sp_version _ _ _ _ _ SP) as V2. cbn [changed o_version] in V2. pose proof (sp_platform _ _ _ _ _ SP) as PL2. cbn [changed o_platform] in PL2.
    assert (C2 : class_of o2 = get_attr sec' (ProductModel.PRODUCT_CLASS v)).
    { unfold class_of. rewrite P2, V2. exact (same_get _ _ _ S2). }
    assert (BEF : o_product o = Some sec \/ (o_product o = None /\ sec = ProductSpec.fresh_section v)).
    { pose proof (optional_at_most _ _ _ _ (sf_product o SF)) as Q. fold v in Q. change (product_section v (o_system o) = Ok (o_product o)) in Q.
      destruct (ProductProofs.replaced_before _ _ _ _ _ R) as [H|[H Hf]]; rewrite Q in H; injection H as H; [now left|now right]. }
    assert (FL : forall tag x, In (tag, x) (ProductSpec.texts v opts) -> flat_in [tag] sec').
    { intros tag x I. assert (FV : flat_vm v (map fst (ProductSpec.texts v opts)) (ProductModel.mkPvm (o_system o) (ProductModel.read_class v (o_product o)) (o_platform o))).
      { intros s H. cbn [ProductModel.pv_vs] in H. pose proof (optional_at_most _ _ _ _ (sf_product o SF)) as Q. fold v in Q. change (product_section v (o_system o) = Ok (o_product o)) in Q.
        rewrite Q in H. injection H as H. intros e He Te. exact (PT s e H He Te). }
      pose proof (flat_edit v _ opts _ m FV EP sec' RF) as FE. intros e He [Te|[]]. apply FE; [exact He|]. rewrite <- Te. exact (in_map fst _ _ I). }
    assert (KEEP : forall tag, ~ In tag (asked_for v opts) -> with_tag tag sec' = with_tag tag sec).
    { intros tag N. apply (ProductSpec.se_rest _ _ _ _ SE (fun g => str_eqb g tag)). intros g t I. destruct (str_eqb g tag) eqn:Q; [|reflexivity]. apply str_eqb_eq in Q. subst g. elim N. apply asked_In. now exists t. }
    split; [|split; [|split; [|split; [|split; [|split]]]]].
    - rewrite C2, (ProductSpec.se_class _ _ _ _ SE). destruct (ProductModel.o_class opts); [reflexivity|]. unfold class_of. fold v.
      destruct BEF as [->|[-> ->]]; [reflexivity|]. apply ProductProofs.fresh_class.
    - now rewrite C2, PL2.
    - intros tag x I. unfold text_of at 1. rewrite P2. rewrite (first_text tag _ _ S2 (FL tag x I)). destruct x as [t|].
      + destruct (ProductSpec.se_set _ _ _ _ SE tag t I) as (e & W & T). rewrite W. cbn [hd_error option_map]. now rewrite T.
      + rewrite KEEP.
        * unfold text_of. destruct BEF as [->|[-> ->]]; [reflexivity|]. unfold with_tag, ProductSpec.fresh_section. cbn [echildren filter etag].
          destruct (str_eqb (INFO v) tag) eqn:Q; [|reflexivity]. apply str_eqb_eq in Q. elim (text_not_info v opts tag None I). now symmetry.
        * intros A. apply asked_In in A as (t & A). pose proof (ProductProofs.texts_unique v opts tag _ _ I A) as Q. discriminate Q.
    - intros s H. destruct BEF as [B|[B _]]; rewrite H in B; [|discriminate]. injection B as ->. exists s2. split; [reflexivity|]. intros k Nk.
      rewrite (same_get _ _ k S2). exact (ProductSpec.se_attrs _ _ _ _ SE k Nk).
    - intros N. destruct BEF as [B|[B _]]; [|contradiction]. unfold other_in_product. rewrite B, P2.
      rewrite <- (ProductSpec.se_rest _ _ _ _ SE (fun g => negb (mem_str g (asked_for v opts)))).
      + apply same_filter; [|exact (same_children _ _ S2)]. intros e e' Se. now rewrite (same_tag _ _ Se).
      + intros g t I. apply negb_false_iff. apply mem_str_In. apply asked_In. now exists t.
    - assert (Q : with_tag (PROPERTY v) sec' = with_tag (PROPERTY v) sec).
      { apply KEEP. intros A. apply asked_In in A as (t & A). clear -A. unfold ProductSpec.texts in A. cbn [In] in A. destruct v; repeat (destruct A as [A|A]; [vm_compute in A; discriminate A|]); exact A. }
      unfold properties_of. rewrite P2, V2. fold v. pose proof (with_tag_same (PROPERTY v) _ _ S2) as Q2. rewrite Q in Q2.
      destruct BEF as [->|[-> ->]]; [exact Q2|]. assert (Z : with_tag (PROPERTY v) (ProductSpec.fresh_section v) = []) by (clear; destruct v; vm_compute; reflexivity). rewrite Z in Q2. exact Q2.
    - pose proof (same_but_edited E w1 w' o o2 _ _ _ _ [] SL SP eq_refl) as Q. rewrite P2 in Q. exact Q.
  Qed.
End Product.
