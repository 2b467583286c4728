(** A whole run of inject-config: what is in the output. *)
From Coq Require Import List Ascii Bool ZArith Lia.
Import ListNotations.
From Verif Require Import PyBase PyBaseProofs PyDict PyDictProofs ValidationModel XmlModel XmlSpec XmlProofs NamesModel ItemModel ItemSpec ItemProofs HardwareModel HardwareSpec HardwareProofs HardwareIdProofs CountSpec FindSpec UpdateHistoryProofs RereadSpec
  ProfileModel ProfileSpec NetworkModel DriveModel DriveSpec LinkProofs SearchProofs AddProofs AddDiskProofs OrderlyProofs RefreshModel RefreshSpec InfoModel PlatformModel PathModel PathSpec ManifestSpec TarModel OpenModel OpenSpec OpenFileProofs OpenProofs SaveModel SaveSpec TwinProofs
  CommandModel CommandSpec CommandProofs2 CommandFileModel CommandFileSpec CommandFileProofs CommandFileProofs2 CommandInjectModel CommandInjectSpec.
From Verif Require InfoProfileProofs SaveProofs TarSpec OvfWriteSpec PsetProofs.
From Verif Require InjectModel InjectSpec InjectProofs.

(** ** Files *)
Lemma read_put : forall w p q data, read (put w p data) q = if strs_eqb (place q) (place p) then Some data else read w q.
Proof. reflexivity. Qed.
Lemma read_same : forall w p q data, place q = place p -> read (put w p data) q = Some data.
Proof. intros w p q data H. rewrite read_put, H. now rewrite (proj2 (PsetProofs.strs_eqb_eq _ _) eq_refl). Qed.
Lemma read_other : forall w p q data, place q <> place p -> read (put w p data) q = read w q.
Proof. intros w p q data H. rewrite read_put. destruct (strs_eqb (place q) (place p)) eqn:X; [apply PsetProofs.strs_eqb_eq in X; contradiction|reflexivity]. Qed.
Lemma host_read : forall w paths x c, dget str_eqb x (host_of w paths) = Some c -> read w x = Some c.
Proof.
  intros w paths x c H. induction paths as [|y l IH]; [discriminate H|]. unfold host_of in H. cbn [flat_map] in H. fold (host_of w l) in H.
  destruct (read w y) as [b|] eqn:R; [|exact (IH H)]. cbn [app dget] in H. destruct (str_eqb x y) eqn:X; [apply str_eqb_eq in X; subst; congruence|exact (IH H)].
Qed.
Lemma content_read : forall p w paths s l, InjectSpec.disk_content p (host_of w paths) s l -> on_the_disk w p s l.
Proof.
  intros p w paths s l (A & B & C & H1 & H2 & H3 & H4). exists A, B, C. split; [exact H1|].
  assert (ONE : forall src name l, InjectSpec.one_file (host_of w paths) src name l -> put_as w src name l).
  { intros [x|] name l0 H; [|exact H]. destruct H as (n & c & Q1 & Q2 & Q3). exists n, c. split; [exact Q1|]. split; [exact (host_read _ _ _ _ Q2)|exact Q3]. }
  split; [exact (ONE _ _ _ H2)|]. split; [exact (ONE _ _ _ H3)|].
  clear - H4. induction H4 as [|x nc xs ncs [Q1 Q2] H4 IH]; [constructor|constructor; [|exact IH]]. split; [exact Q1|exact (host_read _ _ _ _ Q2)].
Qed.

(** The files after the image was made *)
Section Made.
Variables (image_of : str -> list (str * str) -> str) (p : platform) (wd : str) (s : InjectModel.settings) (l : list (str * str)) (w : world).
Notation w2 := (made image_of p wd l (copied wd (InjectModel.s_secondary s) (secondary_config_text_file p) (copied wd (InjectModel.s_config s) (config_text_file p) w))).
Lemma made_names : fst (InjectModel.made_name (bootstrap_disk_type p)) = L "config.iso" \/ fst (InjectModel.made_name (bootstrap_disk_type p)) = L "config.img".
Proof. destruct p; vm_compute; tauto. Qed.
Lemma made_image : read w2 (path_join wd (InjectSpec.config_disk p)) = Some (image_of (disk_format p) l).
Proof.
  unfold made. cbv zeta. rewrite InjectProofs.added_is. destruct p; cbn [bootstrap_disk_type InjectSpec.config_disk disk_format];
    repeat match goal with |- context [str_eqb ?a ?b] => let r := eval vm_compute in (str_eqb a b) in change (str_eqb a b) with r end; cbn iota; apply read_same; reflexivity.
Qed.
Lemma made_other : forall q, (forall n, scratch_name p n -> place q <> place (path_join wd n)) -> read w2 q = read w q.
Proof.
  intros q H. assert (CP : forall src name w0, (forall n, name = Some n -> place q <> place (path_join wd n)) -> read (copied wd src name w0) q = read w0 q).
  { intros src name w0 Hn. unfold copied. destruct (InjectModel.given src) as [x|]; [|reflexivity]. destruct name as [n|]; [|reflexivity]. destruct (read w0 x); [|reflexivity]. apply read_other. now apply Hn. }
  assert (Z : read (copied wd (InjectModel.s_secondary s) (secondary_config_text_file p) (copied wd (InjectModel.s_config s) (config_text_file p) w)) q = read w q).
  { rewrite CP, CP; [reflexivity| |]; intros n Hn; apply H; unfold scratch_name; tauto. }
  unfold made. cbv zeta. rewrite InjectProofs.added_is.
  assert (P1 : place q <> place (path_join wd (fst (InjectModel.made_name (bootstrap_disk_type p))))) by (apply H; unfold scratch_name; destruct made_names as [-> | ->]; tauto).
  assert (P2 : place q <> place (path_join wd (InjectSpec.config_disk p))) by (apply H; unfold scratch_name; destruct p; cbn [InjectSpec.config_disk]; tauto).
  destruct (str_eqb (bootstrap_disk_type p) (L "harddisk")).
  - rewrite (read_other _ _ _ _ P2), (read_other _ _ _ _ P1). exact Z.
  - rewrite (read_other _ _ _ _ P1). exact Z.
Qed.
Lemma made_tars : w_tars w2 = w_tars w.
Proof.
  assert (CP : forall src name w0, w_tars (copied wd src name w0) = w_tars w0) by (intros src name w0; unfold copied; destruct (InjectModel.given src) as [x|]; [|reflexivity]; destruct name as [n|]; [|reflexivity]; now destruct (read w0 x)).
  unfold made. cbv zeta. destruct (str_eqb (bootstrap_disk_type p) (L "harddisk")); cbn [put w_tars]; now rewrite !CP.
Qed.
End Made.

Lemma made_stored : forall image_of wd s l w o h data, package_files_apart wd o ->
  (stored (made image_of (o_platform o) wd l (copied wd (InjectModel.s_secondary s) (secondary_config_text_file (o_platform o)) (copied wd (InjectModel.s_config s) (config_text_file (o_platform o)) w))) o h data <-> stored w o h data).
Proof.
  intros image_of wd s l w o h data PA. set (w2 := made image_of (o_platform o) wd l _).
  assert (C : forall x r, In (x, r) (o_files o) -> content w2 r = content w r).
  { intros x [d n|t n] Hr; cbn [content].
    - apply made_other. intros y Hy. exact (PA x d n y Hr Hy).
    - unfold w2. now rewrite made_tars. }
  split; intros (r & H1 & H2); exists r; (split; [exact H1|]); [now rewrite <- (C h r H1)|now rewrite (C h r H1)].
Qed.

(** ** The run *)
Section Commands.
Variables (E : env) (digest : str -> str -> str) (print : elem -> str) (parse : str -> option elem) (capacity : str -> result str) (fuel : nat).
Variables (w w' : world) (d : list str) (u input : str) (same : bool) (output : str) (o : ovf).
Notation v := (o_version o).
Notation EO := (env_of E o).
Notation m := (vmd_of o).
Notation p := (o_platform o).
Notation wd := (path_of (d ++ [u])).
Notation w1 := (after_opening w wd input).
Variables (d2 : list str) (u2 : str).
Hypothesis PD2 : forall c, In c (d2 ++ [u2]) -> proper c.
Hypothesis OIN : orderly EO m.

Lemma inject_worker : forall agree overwrite make E fuel p wd h s m m' k, InjectModel.inject_run agree overwrite make E fuel p wd h s m = Ok (m', k) -> shifts (e_ver E) m m'.
Proof.
  clear. intros agree overwrite make E fuel p wd h s m m' k H. unfold InjectModel.inject_run in H. cbv zeta in H. destruct (negb (InjectModel.inject_ready s)); [discriminate H|].
  apply InfoProfileProofs.rbind_ok in H as (nm & _ & H). apply InfoProfileProofs.rbind_ok in H as ([[[f0 d0] c0] dr] & _ & H). apply InfoProfileProofs.rbind_ok in H as (fd & _ & H).
  destruct (snd fd) as [drive|]; [|discriminate H]. do 6 (apply InfoProfileProofs.rbind_ok in H as (? & _ & H)). exact (worker_shifts _ _ _ _ _ _ _ _ _ _ _ _ _ _ _ H).
Qed.

Lemma inject_out : forall agree overwrite make image_of fuel2 s,
  changing_run E digest print parse capacity fuel (inject_package agree overwrite make image_of E fuel2 wd s) w w' d u input same output o ->
  InjectSpec.plain_places (o_hardware o) -> InjectSpec.drives_everywhere EO (o_hardware o) ->
  (InjectSpec.config_drive p = L "harddisk" -> disk_ids_apart v m (mkImage wd (InjectSpec.config_disk p) 0 0) None) ->
  user_files_apart p wd s -> package_files_apart wd o ->
  exists o2 h lf f ld k i j r l, opens E digest parse w' input output d2 u2 o2 /\ written_hardware E o o2 h /\
    replaced (files v m) lf f /\ same_files v lf (files v (vmd_of o2)) /\ get_attr f (FILE_HREF v) = Some (InjectSpec.config_disk p) /\
    same_disks v ld (disks v (vmd_of o2)) /\
    on_the_disk w1 p s l /\
    In (k, i) (o_hardware o) /\ In (k, j) (o_hardware o2) /\ present EO j None /\ is_a (InjectSpec.config_drive p) j /\
    only_value (i_props j) HOST_RESOURCE (VStr r) /\ (exists f2, file_of v (vmd_of o2) r f2 /\ alike_but [FILE_SIZE v] f f2) /\
    (forall n q x, n <> RESOURCE_TYPE -> n <> HOST_RESOURCE -> n <> ITEM_DESCRIPTION -> ~ text_property v n -> (holds (i_props j) n q x <-> holds (i_props i) n q x)) /\
    ((InjectSpec.config_drive p = L "harddisk" /\ exists dk, replaced (disks v m) ld dk /\ exists dk2, disk_of v (vmd_of o2) r dk2 /\ alike_but [DISK_CAPACITY v; DISK_CAP_UNITS v] dk dk2) \/
     (InjectSpec.config_drive p = L "cdrom" /\ removed (disks v m) ld)) /\
    (((forall g, In g (files v m) -> get_attr g (FILE_HREF v) <> Some (InjectSpec.config_disk p)) /\ InjectSpec.first_empty EO p m k i) \/
     (exists g, In g (files v m) /\ get_attr g (FILE_HREF v) = Some (InjectSpec.config_disk p) /\ InjectSpec.holds v m i g /\ overwrite (get_attr g (FILE_ID v)) = true)) /\
    (forall k', taken (o_hardware o2) k' <-> taken (o_hardware o) k') /\
    (forall k' i', k' <> k -> In (k', i') (o_hardware o) -> kept_in EO (o_hardware o2) k' i') /\
    (forall h data, stored w' o2 h data <->
      (h = InjectSpec.config_disk p /\ data = image_of (disk_format p) l) \/
      (h <> InjectSpec.config_disk p /\ stored w1 o h data /\ exists x, In x lf /\ get_attr x (FILE_HREF v) = Some h)).
Proof.
  intros agree overwrite make image_of fuel2 s RUN PP DE DA UA PA.
  assert (OS : InjectSpec.outside p wd s).
  { intros x n Hx Hn E0. apply (UA x n Hx); [unfold scratch_name; tauto|now rewrite E0]. }
  destruct RUN as [R1 R2 R3 R4 R5 R6 R7]. pose proof (SaveProofs.opened_consistent E digest parse w d u input output o R3 R4 R5) as K. pose proof (factory_reads _ _ _ _ _ _ _ _ R5) as RH.
  pose proof (factory_names _ _ _ _ _ _ _ _ R5) as NM0.
  unfold command_in in R7. rewrite R5 in R7. cbv zeta in R7. destruct (inject_package agree overwrite make image_of E fuel2 wd s w1 o) as [[w2 o1]|e] eqn:ED; [|discriminate R7].
  destruct (R6 w2 o1 eq_refl) as (CW & RP). unfold inject_package in ED. cbv zeta in ED. apply InfoProfileProofs.rbind_ok in ED as ([m' k] & IR & ED). apply InfoProfileProofs.rbind_ok in ED as (l & FI & ED).
  cbn [fst] in ED. rewrite InjectProofs.added_is in ED. injection ED as E2 E1. symmetry in E1, E2.
  set (im := mkImage wd (InjectSpec.config_disk p) 0 0) in *.
  set (hst := host_of w1 (looked_at p wd s)) in *.
  assert (OD : on_the_disk w1 p s l).
  { apply (content_read p w1 (looked_at p wd s)). unfold for_image in FI. apply InfoProfileProofs.rbind_ok in FI as ([fs1 h1] & C1 & FI). apply InfoProfileProofs.rbind_ok in FI as ([fs2 h2] & C2 & FI). cbn [fst snd] in *.
    exact (InjectProofs.content_spec p wd hst s fs1 h1 fs2 h2 l OS C1 C2 FI). }
  pose proof (InjectProofs.inject_spec agree overwrite make EO fuel2 p wd hst s m m' k OIN PP DE DA OS IR) as (OM & (f & i & i' & sz & cap & l' & r & _ & _ & F1 & F2 & _ & _ & F5 & F6 & F7 & F8 & F9 & F10 & F11 & F12 & F13 & F14) & F15 & F16).
  rewrite E1 in CW, RP, R7.
  destruct (written_again E digest print parse capacity fuel w2 w' wd input same (destination input output) o d2 u2 (Some im) (fun _ => True) PD2 R1 R2 R4 K RH m' I (inject_worker _ _ _ _ _ _ _ _ _ _ _ _ IR) OM CW RP R7)
    as (o2 & [FA1 FA2 FA3 FA4 FA5 FA6 FA7 FA8 FA9 FA10 FA11]).
  change (e_ver EO) with v in *. change (m_hw m) with (o_hardware o) in *.
  pose proof (o_named _ _ OM) as NM.
  destruct (kept_now _ _ _ o2 k i' NM F7 FA8) as (j & Hj & SR).
  assert (GI : good_props (e_ver EO) (i_props i')) by exact (good1 EO (m_hw m') FA6 k i' F7). assert (GJ : good_props (e_ver EO) (i_props j)) by exact (good1 EO (o_hardware o2) FA7 k j Hj).
  assert (TX : ~ text_property (e_ver EO) RESOURCE_TYPE) by (change (e_ver EO) with v; destruct v; intros [Q|Q]; discriminate Q).
  exists o2, (m_hw m'), (files v m'), f, (disks v m'), k, i, j, r, l. split; [split; [exact FA1|rewrite FA4; exact FA5]|]. split; [now split|]. split; [exact F1|]. split; [exact FA9|]. split; [exact F2|]. split; [exact FA10|].
  split; [exact OD|]. split; [exact F6|]. split; [exact Hj|]. split; [exact (ag_present EO m' (vmd_of o2) FA6 FA7 k i' j F7 Hj SR F8)|].
  split; [destruct F9 as (tt & T1 & T2); exists tt; split; [exact T1|]; apply (only_twin EO i' j _ _ GI GJ SR TX); exact T2|].
  split; [apply (only_twin EO i' j _ _ GI GJ SR (HOST_text _)); exact F10|]. split; [exact (ag_forth_file EO m' (vmd_of o2) FA9 FA10 r f F11)|].
  split; [|split; [|split; [|split; [|split]]]].
  - intros n q x N1 N2 N3 Ht. rewrite <- (holds_twin EO i' j GI GJ SR n q x Ht). pose proof (fun q x => F12 n q x N1 N2 N3) as SV. unfold holds. rewrite (SV q x), (SV None x).
    split; (intros [Q|[Q1 Q2]]; [now left|right; split; [|exact Q2]]; intros y Hy; apply (Q1 y); now apply SV).
  - destruct F13 as [(D1 & dk & D2 & D3)|(D1 & D2)]; [left|right; now split]. split; [exact D1|]. exists dk. split; [exact D2|]. exact (ag_forth_disk EO m' (vmd_of o2) FA10 r dk D3).
  - exact F14.
  - intros k'. assert (X : taken (m_hw m') k' <-> taken (o_hardware o) k').
    { assert (Y : forall h : hw, taken h k' <-> In k' (map fst h)) by (intros h; unfold taken; rewrite in_map_iff; split; [intros (x & Hx); now exists (k', x)|intros ([a x] & Hx & H); cbn in Hx; subst; now exists x]). now rewrite !Y, F15. }
    rewrite <- X. split.
    + intros (x & Hx). destruct FA8 as (_ & _ & BK). destruct (BK k' x Hx) as (i0 & H0 & _). now exists i0.
    + intros (x & Hx). destruct (kept_now _ _ _ o2 k' x NM Hx FA8) as (y & Hy & _). now exists y.
  - intros k' i0 N Hi. exact (kept_now _ _ _ o2 k' i0 NM (proj2 (F16 k' i0 N) Hi) FA8).
  - intros x data. rewrite FA11. pose proof (o_sourced _ _ OM) as SO. change (e_ver EO) with v in SO.
    rewrite (stored_now _ o (Some im) NM0).
    2: { intros y Hy. destruct (same_sources_keys v o m' _ y SO F5 Hy) as [->|Hy1]; [left; now exists im|now right]. }
    rewrite (source_keys v m' x SO). cbn [data_now]. change (im_name im) with (InjectSpec.config_disk p). change (im_dir im) with wd. cbn [content]. rewrite E2 at 1. rewrite made_image.
    rewrite E2. rewrite made_stored by exact PA.
    assert (NEW : exists f0, In f0 (files v m') /\ get_attr f0 (FILE_HREF v) = Some (InjectSpec.config_disk p)) by (exists f; split; [exact (proj1 F11)|exact F2]).
    split.
    + intros [H1 [[-> H2]|[H2 H3]]]; [left; split; [reflexivity|congruence]|right]. now split.
    + intros [[-> ->]|(H2 & H3 & H4)]; [split; [exact NEW|now left]|]. split; [exact H4|now right].
Qed.
End Commands.

(** ** The user's files are found *)
Lemma host_there : forall w paths x c, In x paths -> read w x = Some c -> dget str_eqb x (host_of w paths) = Some c.
Proof.
  intros w paths x c Hin R. induction paths as [|y l IH]; [destruct Hin|]. unfold host_of. cbn [flat_map]. fold (host_of w l).
  destruct (str_eqb x y) eqn:X.
  - apply str_eqb_eq in X. subst y. rewrite R. cbn [app dget]. now rewrite str_eqb_refl.
  - destruct Hin as [->|Hin]; [rewrite str_eqb_refl in X; discriminate X|]. specialize (IH Hin). destruct (read w y); [cbn [app dget]; now rewrite X|exact IH].
Qed.
Definition in_host (h : InjectModel.host) (x : str) : Prop := exists c, dget str_eqb x h = Some c.
Lemma in_host_dset : forall h x y c, in_host h x -> in_host (dset str_eqb y c h) x.
Proof.
  intros h x y c [d H]. unfold in_host. destruct (str_eqb x y) eqn:X.
  - apply str_eqb_eq in X. subst y. exists c. apply dget_dset_same. exact str_eqb_eq.
  - exists d. rewrite dget_dset_other; [exact H|exact str_eqb_eq|]. intros ->. rewrite str_eqb_refl in X. discriminate X.
Qed.
Lemma copy_found : forall o name wd h, (forall x, InjectModel.given o = Some x -> in_host h x /\ name <> None /\ forall n, name = Some n -> x <> path_join wd n) ->
  exists fs h', InjectModel.copy_as o name wd h = Ok (fs, h') /\ (forall x, In x fs -> in_host h' x) /\ forall x, in_host h x -> in_host h' x.
Proof.
  intros o name wd h H. unfold InjectModel.copy_as. destruct (InjectModel.given o) as [x|]; [|exists [], h; split; [reflexivity|]; split; [intros y []|auto]].
  destruct (H x eq_refl) as ([c Hc] & N & A). destruct name as [n|]; [|contradiction]. unfold InjectModel.copy, InjectModel.read. rewrite Hc. cbn [rbind].
  destruct (str_eqb x (path_join wd n)) eqn:X; [apply str_eqb_eq in X; exfalso; exact (A n eq_refl X)|]. cbn [rbind].
  exists [path_join wd n], (dset str_eqb (path_join wd n) c h). split; [reflexivity|]. split.
  - intros y [<-|[]]. exists c. apply dget_dset_same. exact str_eqb_eq.
  - intros y. apply in_host_dset.
Qed.
Lemma content_found : forall h l, (forall x, In x l -> in_host h x) -> exists r, InjectModel.content h l = Ok r.
Proof.
  intros h l. induction l as [|x l IH]; intros H; [now exists []|]. destruct (H x (or_introl eq_refl)) as [c Hc]. destruct IH as [r Hr]; [intros y Hy; apply H; now right|].
  cbn [InjectModel.content fold_right]. change (fold_right _ (Ok []) l) with (InjectModel.content h l). unfold InjectModel.read at 1. rewrite Hc. cbn [rbind]. rewrite Hr. cbn [rbind]. eexists; reflexivity.
Qed.

Lemma given_some : forall o x, InjectModel.given o = Some x -> o = Some x.
Proof. intros [[|a t]|] x H; try discriminate H; exact H. Qed.
Lemma image_files : forall w p wd s, user_files_apart p wd s ->
  (forall x, InjectModel.given (InjectModel.s_config s) = Some x -> (exists c, read w x = Some c) /\ config_text_file p <> None) ->
  (forall x, InjectModel.given (InjectModel.s_secondary s) = Some x -> (exists c, read w x = Some c) /\ secondary_config_text_file p <> None) ->
  (forall x, In x (InjectModel.s_extra s) -> exists c, read w x = Some c) ->
  exists l, for_image p wd (host_of w (looked_at p wd s)) s = Ok l /\ on_the_disk w p s l.
Proof.
  intros w p wd s UA HC HS HX. set (h := host_of w (looked_at p wd s)).
  assert (IN : forall x, InjectModel.s_config s = Some x \/ InjectModel.s_secondary s = Some x \/ In x (InjectModel.s_extra s) -> (exists c, read w x = Some c) -> in_host h x).
  { intros x Hx [c Hc]. exists c. apply host_there; [|exact Hc]. unfold looked_at. apply in_or_app. destruct Hx as [Hx|[Hx|Hx]].
    - left. rewrite Hx. now left.
    - right. apply in_or_app. left. rewrite Hx. now left.
    - right. apply in_or_app. right. apply in_or_app. now left. }
  destruct (copy_found (InjectModel.s_config s) (config_text_file p) wd h) as (fs1 & h1 & C1 & F1 & M1).
  { intros x Hx. destruct (HC x Hx) as [R N]. apply given_some in Hx. split; [apply IN; tauto|]. split; [exact N|]. intros n Hn ->. apply (UA _ n (or_introl Hx)); [unfold scratch_name; tauto|reflexivity]. }
  destruct (copy_found (InjectModel.s_secondary s) (secondary_config_text_file p) wd h1) as (fs2 & h2 & C2 & F2 & M2).
  { intros x Hx. destruct (HS x Hx) as [R N]. apply given_some in Hx. split; [apply M1; apply IN; tauto|]. split; [exact N|]. intros n Hn ->. apply (UA _ n (or_intror (or_introl Hx))); [unfold scratch_name; tauto|reflexivity]. }
  destruct (content_found h2 (fs1 ++ fs2 ++ InjectModel.s_extra s)) as [l Hl].
  { intros x Hx. apply in_app_or in Hx as [Hx|Hx]; [apply M2; now apply F1|]. apply in_app_or in Hx as [Hx|Hx]; [now apply F2|]. apply M2. apply M1. apply IN; [tauto|now apply HX]. }
  exists l. split; [unfold for_image; rewrite C1; cbn [rbind snd fst]; rewrite C2; cbn [rbind snd fst]; exact Hl|].
  apply (content_read p w (looked_at p wd s)). refine (InjectProofs.content_spec p wd h s fs1 h1 fs2 h2 l _ C1 C2 Hl).
  intros x n Hx Hn E0. apply (UA x n Hx); [unfold scratch_name; tauto|now rewrite E0].
Qed.
