(** Whole runs of add-file, add-disk and remove-file: what is in the output. *)
From Coq Require Import List Ascii Bool ZArith Lia.
Import ListNotations.
From Verif Require Import PyBase PyBaseProofs PyDict PyDictProofs ValidationModel XmlModel XmlSpec XmlProofs NamesModel ItemModel ItemSpec ItemProofs HardwareModel HardwareSpec HardwareProofs HardwareIdProofs CountSpec FindSpec UpdateHistoryProofs RereadSpec
  ProfileModel ProfileSpec NetworkModel DriveModel DriveSpec LinkProofs SearchProofs AddProofs AddDiskProofs OrderlyProofs RefreshModel RefreshSpec InfoModel PlatformModel PathSpec ManifestSpec TarModel OpenModel OpenSpec OpenFileProofs OpenProofs SaveModel SaveSpec TwinProofs
  CommandModel CommandSpec CommandProofs2 CommandFileModel CommandFileSpec CommandFileProofs.
From Verif Require InfoProfileProofs SaveProofs TarSpec OvfWriteSpec.

(** ** Lists of elements with the same attributes *)
Lemma columns_alike : forall ks k0 (l l2 : list elem), ~ In k0 ks -> (forall k, ~ In k ks -> map (fun e => get_attr e k) l2 = map (fun e => get_attr e k) l) -> Forall2 (alike_but ks) l l2.
Proof.
  intros ks k0 l. induction l as [|a l IH]; intros [|b l2] N H; [constructor|specialize (H k0 N); discriminate|specialize (H k0 N); discriminate|].
  constructor.
  - intros k Hk. specialize (H k Hk). cbn [map] in H. now injection H.
  - apply (IH l2 N). intros k Hk. specialize (H k Hk). cbn [map] in H. now injection H.
Qed.
Lemma alike_map : forall ks k l l2, Forall2 (alike_but ks) l l2 -> ~ In k ks -> map (fun e => get_attr e k) l2 = map (fun e => get_attr e k) l.
Proof. intros ks k l l2 F N. induction F as [|a b l l2 H F IH]; [reflexivity|]. cbn [map]. now rewrite (H k N), IH. Qed.
Lemma alike_back : forall ks l l2 b, Forall2 (alike_but ks) l l2 -> In b l2 -> exists a, In a l /\ alike_but ks a b.
Proof. intros ks l l2 b F. induction F as [|a b' l l2 H F IH]; [now intros []|]. intros [<-|Hb]; [exists a; split; [now left|exact H]|]. destruct (IH Hb) as (a' & Ha & Al). exists a'. split; [now right|exact Al]. Qed.
Lemma alike_forth : forall ks l l2 a, Forall2 (alike_but ks) l l2 -> In a l -> exists b, In b l2 /\ alike_but ks a b.
Proof. intros ks l l2 a F. induction F as [|a' b l l2 H F IH]; [now intros []|]. intros [<-|Ha]; [exists b; split; [now left|exact H]|]. destruct (IH Ha) as (b' & Hb & Al). exists b'. split; [now right|exact Al]. Qed.
Lemma unique_alike : forall ks k l l2, Forall2 (alike_but ks) l l2 -> ~ In k ks -> unique_attr k l -> unique_attr k l2.
Proof.
  intros ks k l l2 F N [U1 U2]. split.
  - intros b Hb. destruct (alike_back _ _ _ _ F Hb) as (a & Ha & Al). rewrite (Al k N). exact (U1 a Ha).
  - now rewrite (alike_map _ _ _ _ F N).
Qed.

(** ** A package in order stays so when it is written and read again *)
Lemma fid_kept : forall v, ~ In (FILE_ID v) [FILE_SIZE v]. Proof. intros v; destruct v; intros [H|[]]; discriminate H. Qed.
Lemma href_kept : forall v, ~ In (FILE_HREF v) [FILE_SIZE v]. Proof. intros v; destruct v; intros [H|[]]; discriminate H. Qed.
Lemma did_kept : forall v, ~ In (DISK_ID v) [DISK_CAPACITY v; DISK_CAP_UNITS v]. Proof. intros v; destruct v; intros [H|[H|[]]]; discriminate H. Qed.
Lemma dref_kept : forall v, ~ In (DISK_FILE_REF v) [DISK_CAPACITY v; DISK_CAP_UNITS v]. Proof. intros v; destruct v; intros [H|[H|[]]]; discriminate H. Qed.
Lemma HOST_text : forall v, ~ text_property v HOST_RESOURCE. Proof. intros v; destruct v; intros [H|H]; discriminate H. Qed.
Section Again.
Variables (F : env) (m m2 : vmd).
Notation v := (e_ver F).
Hypothesis O : orderly F m.
Hypothesis R : hw_reachable v (m_hw m).
Hypothesis R2 : hw_reachable v (m_hw m2).
Hypothesis SH : same_hardware F (m_hw m) (m_hw m2).
Hypothesis FS : same_files v (files v m) (files v m2).
Hypothesis DS : same_disks v (disks v m) (disks v m2).
Hypothesis SO : sourced v m2.


Lemma ag_good : forall k i, In (k, i) (m_hw m) -> good_props v (i_props i). Proof. exact (good1 F (m_hw m) R). Qed.
Lemma ag_good2 : forall k i, In (k, i) (m_hw m2) -> good_props v (i_props i). Proof. exact (good1 F (m_hw m2) R2). Qed.
Lemma ag_back : forall k j, In (k, j) (m_hw m2) -> exists i, In (k, i) (m_hw m) /\ same_reports F i j.
Proof. intros k j H. destruct SH as (_ & _ & B). destruct (B k j H) as (i & Hi & _ & S). now exists i. Qed.
Lemma ag_host : forall k i j p s, In (k, i) (m_hw m) -> In (k, j) (m_hw m2) -> same_reports F i j -> own (i_props j) HOST_RESOURCE p s -> exists q, own (i_props i) HOST_RESOURCE q s.
Proof.
  intros k i j p s Hi Hj S Ho. apply holds_own with p. apply (holds_twin F i j (ag_good _ _ Hi) (ag_good2 _ _ Hj) S HOST_RESOURCE p s (HOST_text _)). now apply own_holds.
Qed.
Lemma ag_disk_of : forall s d2, disk_of v m2 s d2 -> exists d, disk_of v m s d /\ alike_but [DISK_CAPACITY v; DISK_CAP_UNITS v] d d2.
Proof.
  intros s d2 (Hd & id & Hid & Rf). destruct (alike_back _ _ _ _ DS Hd) as (d & Hd1 & Al). exists d. split; [|exact Al]. split; [exact Hd1|]. exists id. split; [|exact Rf]. now rewrite <- (Al _ (did_kept _)).
Qed.
Lemma ag_file_of : forall s f2, file_of v m2 s f2 -> exists f, file_of v m s f /\ alike_but [FILE_SIZE v] f f2.
Proof.
  intros s f2 (Hf & id & Hid & Rf). destruct (alike_back _ _ _ _ FS Hf) as (f & Hf1 & Al). exists f. split; [|exact Al]. split; [exact Hf1|]. exists id. split; [now rewrite <- (Al _ (fid_kept _))|].
  destruct Rf as [Rf|(d2 & Hd & Hr)]; [now left|right]. destruct (ag_disk_of _ _ Hd) as (d & Hd1 & Ad). exists d. split; [exact Hd1|]. now rewrite <- (Ad _ (dref_kept _)).
Qed.
Lemma ag_forth_disk : forall s d, disk_of v m s d -> exists d2, disk_of v m2 s d2 /\ alike_but [DISK_CAPACITY v; DISK_CAP_UNITS v] d d2.
Proof.
  intros s d (Hd & id & Hid & Rf). destruct (alike_forth _ _ _ _ DS Hd) as (d2 & Hd1 & Al). exists d2. split; [|exact Al]. split; [exact Hd1|]. exists id. split; [|exact Rf]. now rewrite (Al _ (did_kept _)).
Qed.
Lemma ag_forth_file : forall s f, file_of v m s f -> exists f2, file_of v m2 s f2 /\ alike_but [FILE_SIZE v] f f2.
Proof.
  intros s f (Hf & id & Hid & Rf). destruct (alike_forth _ _ _ _ FS Hf) as (f2 & Hf1 & Al). exists f2. split; [|exact Al]. split; [exact Hf1|]. exists id. split; [now rewrite (Al _ (fid_kept _))|].
  destruct Rf as [Rf|(d & Hd & Hr)]; [now left|right]. destruct (ag_forth_disk _ _ Hd) as (d2 & Hd1 & Ad). exists d2. split; [exact Hd1|]. now rewrite (Ad _ (dref_kept _)).
Qed.
Lemma ag_linked : linked v m2.
Proof.
  pose proof (o_linked _ _ O) as [L1 L2 L3 L4 L5 L6]. constructor.
  - exact (unique_alike _ _ _ _ FS (fid_kept _) L1).
  - exact (unique_alike _ _ _ _ FS (href_kept _) L2).
  - exact (unique_alike _ _ _ _ DS (did_kept _) L3).
  - intros d2 r Hd Hr. destruct (alike_back _ _ _ _ DS Hd) as (d & Hd1 & Al). rewrite (Al _ (dref_kept _)) in Hr. destruct (L4 d r Hd1 Hr) as (f & Hf & Hi).
    destruct (alike_forth _ _ _ _ FS Hf) as (f2 & Hf2 & Af). exists f2. split; [exact Hf2|]. now rewrite (Af _ (fid_kept _)).
  - intros k j p s id Hj Ho Rf. destruct (ag_back k j Hj) as (i & Hi & S). destruct (ag_host k i j p _ Hi Hj S Ho) as (q & Hq). destruct (L5 k i q s id Hi Hq Rf) as (d & Hd & Hid).
    destruct (alike_forth _ _ _ _ DS Hd) as (d2 & Hd2 & Ad). exists d2. split; [exact Hd2|]. now rewrite (Ad _ (did_kept _)).
  - intros k j p s id Hj Ho Rf. destruct (ag_back k j Hj) as (i & Hi & S). destruct (ag_host k i j p _ Hi Hj S Ho) as (q & Hq). destruct (L6 k i q s id Hi Hq Rf) as (f & Hf & Hid).
    destruct (alike_forth _ _ _ _ FS Hf) as (f2 & Hf2 & Af). exists f2. split; [exact Hf2|]. now rewrite (Af _ (fid_kept _)).
Qed.
Lemma ag_present : forall k i j, In (k, i) (m_hw m) -> In (k, j) (m_hw m2) -> same_reports F i j -> present F i None -> present F j None.
Proof.
  intros k i j Hi Hj S [[x Hx]|[_ (x & Hx & _)]]; [|discriminate]. left. exists x. apply (own_twin F i j _ _ _ (ag_good _ _ Hi) (ag_good2 _ _ Hj) S (or_introl eq_refl)). exact Hx.
Qed.
Lemma ag_orderly : orderly F m2.
Proof.
  pose proof (reachable_ids _ _ R2) as I2. constructor.
  - exact I2.
  - intros k j Hj. destruct (ag_back k j Hj) as (i & Hi & S). destruct (o_named _ _ O k i Hi) as (p & Hp). exists p.
    apply (own_twin F i j _ _ _ (ag_good _ _ Hi) (ag_good2 _ _ Hj) S (or_introl eq_refl)). exact Hp.
  - exact ag_linked.
  - intros k j Hj. destruct (ag_back k j Hj) as (i & Hi & S). destruct (o_plain _ _ O k i Hi) as [P1 P2]. split.
    + intros p q x y Hx Hy. destruct (ag_host k i j p _ Hi Hj S Hx) as (p' & Hp). destruct (ag_host k i j q _ Hi Hj S Hy) as (q' & Hq). exact (P1 p' q' x y Hp Hq).
    + intros p x Hx. destruct (ag_host k i j p _ Hi Hj S Hx) as (p' & Hp). exact (ag_present k i j Hi Hj S (P2 p' x Hp)).
  - destruct (o_plain_ids _ _ O) as [P1 P2]. split.
    + intros f2 id Hf Hid. destruct (alike_back _ _ _ _ FS Hf) as (f & Hf1 & Al). rewrite (Al _ (fid_kept _)) in Hid. exact (P1 f id Hf1 Hid).
    + intros d2 id Hd Hid. destruct (alike_back _ _ _ _ DS Hd) as (d & Hd1 & Al). rewrite (Al _ (did_kept _)) in Hid. exact (P2 d id Hd1 Hid).
  - intros d2 d2' r Hd Hd' Hr Hr'. destruct (alike_back _ _ _ _ DS Hd) as (d & Hd1 & Al). destruct (alike_back _ _ _ _ DS Hd') as (d' & Hd1' & Al').
    pose proof Hr as Q. pose proof Hr' as Q'. rewrite (Al _ (dref_kept _)) in Q. rewrite (Al' _ (dref_kept _)) in Q'. pose proof (o_disk _ _ O d d' r Hd1 Hd1' Q Q') as Dd. subst d'.
    destruct (proj1 (l_disk_ids _ _ ag_linked) d2 Hd) as (x & Hx). apply (unique_same (DISK_ID v) (disks v m2) d2 d2' x (l_disk_ids _ _ ag_linked) Hd Hd' Hx).
    rewrite (Al' _ (did_kept _)). rewrite <- (Al _ (did_kept _)). exact Hx.
  - intros k j p s k' j' p' s' Hj Ho Hj' Ho' SHd. destruct (ag_back k j Hj) as (i & Hi & S). destruct (ag_back k' j' Hj') as (i' & Hi' & S').
    destruct (ag_host k i j p _ Hi Hj S Ho) as (q & Hq). destruct (ag_host k' i' j' p' _ Hi' Hj' S' Ho') as (q' & Hq'). apply (o_drive _ _ O k i q s k' i' q' s' Hi Hq Hi' Hq').
    destruct SHd as [(d2 & A1 & A2)|(f2 & A1 & A2)].
    + left. destruct (ag_disk_of _ _ A1) as (d & B1 & B2). destruct (ag_disk_of _ _ A2) as (d' & C1 & C2). exists d. split; [exact B1|]. enough (d' = d) as <- by exact C1.
      destruct (proj1 (l_disk_ids _ _ (o_linked _ _ O)) d (proj1 B1)) as (x & Hx). apply (unique_same (DISK_ID v) (disks v m) d' d x (l_disk_ids _ _ (o_linked _ _ O)) (proj1 C1) (proj1 B1)); [|exact Hx].
      rewrite <- (C2 _ (did_kept _)), (B2 _ (did_kept _)). exact Hx.
    + right. destruct (ag_file_of _ _ A1) as (d & B1 & B2). destruct (ag_file_of _ _ A2) as (d' & C1 & C2). exists d. split; [exact B1|]. enough (d' = d) as <- by exact C1.
      destruct (proj1 (l_file_ids _ _ (o_linked _ _ O)) d (proj1 B1)) as (x & Hx). apply (unique_same (FILE_ID v) (files v m) d' d x (l_file_ids _ _ (o_linked _ _ O)) (proj1 C1) (proj1 B1)); [|exact Hx].
      rewrite <- (C2 _ (fid_kept _)), (B2 _ (fid_kept _)). exact Hx.
  - exact SO.
Qed.
End Again.

(** ** The files of an opened package *)
Lemma load_each_names : forall digest w c entries files x, load_each digest w c entries files = Ok x -> NoDup (map fst files) -> NoDup (map fst (fst x)) /\ forall h, In h (map fst (fst x)) -> In h (map fst files).
Proof.
  intros digest w c entries files. induction files as [|[h s] l IH]; intros x H N; cbn [load_each] in H.
  - injection H as <-. split; [constructor|intros ? []].
  - cbn [map fst] in N. apply NoDup_cons_iff in N as [N1 N2]. destruct (create _ w c h _ s) as [[r cs]|e].
    + apply InfoProfileProofs.rbind_ok in H as (y & Hy & H). injection H as <-. destruct (IH y Hy N2) as [I1 I2]. cbn [fst map]. split; [constructor; [intros Hh; exact (N1 (I2 _ Hh))|exact I1]|].
      intros k [<-|Hk]; [now left|right; exact (I2 k Hk)].
    + destruct (is_environment_error e); [|discriminate]. apply InfoProfileProofs.rbind_ok in H as (y & Hy & H). injection H as <-. destruct (IH y Hy N2) as [I1 I2]. cbn [fst map]. split; [exact I1|]. intros k Hk. right. exact (I2 k Hk).
Qed.
Lemma factory_names : forall E digest parse w wd input output o, factory E digest parse w wd input output = Ok o -> NoDup (map fst (o_files o)).
Proof.
  intros E digest parse w wd input output o H. unfold factory in H. destruct (detect_type input) as [x|e]; [|destruct e; discriminate].
  assert (H' : open_ovf E digest parse w wd input output = Ok o) by (destruct (open_ovf E digest parse w wd input output) as [y|e]; [exact H|destruct e; discriminate]). clear H.
  unfold open_ovf in H'. apply InfoProfileProofs.rbind_ok in H' as (? & _ & H). apply InfoProfileProofs.rbind_ok in H as ([[p [t|]] w1] & _ & H); [|discriminate].
  destruct (parse t) as [root|]; [|discriminate]. unfold open_envelope in H. destruct (negb _); [discriminate|].
  do 9 (apply InfoProfileProofs.rbind_ok in H as (? & ? & H)). cbv zeta in H. apply InfoProfileProofs.rbind_ok in H as (h & Hh & H). apply InfoProfileProofs.rbind_ok in H as (fs & _ & H). apply InfoProfileProofs.rbind_ok in H as (fc & LF & H).
  injection H as <-. cbn [o_files]. unfold load_files in LF. cbv zeta in LF. apply InfoProfileProofs.rbind_ok in LF as (en & _ & LF). apply InfoProfileProofs.rbind_ok in LF as (dd & _ & LF). apply InfoProfileProofs.rbind_ok in LF as (y & LE & LF).
  injection LF as <-. cbn [fst]. exact (proj1 (load_each_names _ _ _ _ _ _ LE (as_dict_nodup fs))).
Qed.

(** ** One run *)
Lemma listed_files : forall o h, listed (o_version o) (o_references o) h <-> exists f, In f (files (o_version o) (vmd_of o)) /\ get_attr f (FILE_HREF (o_version o)) = Some h.
Proof.
  intros x h. unfold listed, files. cbn [vmd_of m_refs]. split.
  - intros (e & H1 & H2 & H3). exists e. split; [apply filter_In; split; [exact H1|now apply str_eqb_eq]|exact H3].
  - intros (e & H1 & H2). apply filter_In in H1 as [H1 H3]. exists e. split; [exact H1|]. split; [now apply str_eqb_eq|exact H2].
Qed.


(** What is where in the files [w1], once a command changed the package [o] *)
Section Where.
Variables (w1 : world) (o : ovf) (new : option image).
Hypothesis ND : NoDup (map fst (o_files o)).
(** Where the files come from *)
Definition data_now (h data : str) : Prop :=
  match new with Some im => (h = im_name im /\ content w1 (OnDisk (im_dir im) (im_name im)) = Some data) \/ (h <> im_name im /\ stored w1 o h data) | None => stored w1 o h data end.
Lemma stored_now : forall m' h data, (forall h, In h (map fst (m_sources m')) -> (exists im, new = Some im /\ h = im_name im) \/ In h (map fst (o_files o))) ->
  (stored w1 (package_of_vmd o new m') h data <-> In h (map fst (m_sources m')) /\ data_now h data).
Proof.
  intros m' h data HK. 
  assert (ST : forall r, dget str_eqb h (o_files o) = Some r -> (stored w1 o h data <-> content w1 r = Some data)).
  { intros r Hr. split.
    - intros (r' & H1 & H2). apply (dget_Some_In str_eqb str_eqb_eq _ _ _ ND) in H1. rewrite Hr in H1. injection H1 as <-. exact H2.
    - intros H. exists r. split; [|exact H]. clear - Hr. induction (o_files o) as [|[x a] l IH]; [discriminate|]. cbn in Hr. destruct (str_eqb h x) eqn:X; [injection Hr as ->; apply str_eqb_eq in X; subst; now left|right; exact (IH Hr)]. }
  assert (OLD : In h (map fst (o_files o)) -> exists r, dget str_eqb h (o_files o) = Some r).
  { intros H. apply in_map_iff in H as ([x r] & Hx & H). cbn in Hx. subst x. exists r. now apply (dget_Some_In str_eqb str_eqb_eq). }
  assert (Q : stored w1 (package_of_vmd o new m') h data <-> In h (map fst (m_sources m')) /\ content w1 (source_now o new h) = Some data).
  { unfold stored. cbn [package_of_vmd o_files]. split.
    - intros (r & H1 & H2). apply in_map_iff in H1 as ([x a] & H1 & H3). injection H1 as <- <-. cbn [fst] in *. split; [exact (in_map fst _ _ H3)|exact H2].
    - intros [H1 H2]. apply in_map_iff in H1 as ([x a] & H1 & H3). cbn in H1. subst x. exists (source_now o new h). split; [|exact H2]. apply in_map_iff. exists (h, a). now split. }
  rewrite Q. split; intros [H1 H2]; (split; [exact H1|]).
  - unfold source_now, data_now in *. destruct new as [im|].
    + destruct (str_eqb h (im_name im)) eqn:X; [apply str_eqb_eq in X; left; now split|]. apply str_eqb_neq in X. right. split; [exact X|].
      destruct (HK h H1) as [(im' & Hn & Hh)|Hh]; [congruence|]. destruct (OLD Hh) as (r & Hr). rewrite Hr in H2. now apply (ST r Hr).
    + destruct (HK h H1) as [(im' & Hn & Hh)|Hh]; [congruence|]. destruct (OLD Hh) as (r & Hr). rewrite Hr in H2. now apply (ST r Hr).
  - unfold source_now, data_now in *. destruct new as [im|].
    + destruct H2 as [[-> H2]|[X H2]]; [now rewrite str_eqb_refl|]. apply str_eqb_neq in X. rewrite X. pose proof H2 as (r & H3 & H4). apply (dget_Some_In str_eqb str_eqb_eq _ _ _ ND) in H3. rewrite H3. now apply (ST r H3).
    + pose proof H2 as (r & H3 & H4). apply (dget_Some_In str_eqb str_eqb_eq _ _ _ ND) in H3. rewrite H3. now apply (ST r H3).
Qed.

End Where.

(** A package that is written, from the files [w1], after a command changed it *)
Section Written.
Variables (E : env) (digest : str -> str -> str) (print : elem -> str) (parse : str -> option elem) (capacity : str -> result str) (fuel : nat).
Variables (w1 w' : world) (wd input : str) (same : bool) (dest : str) (o : ovf).
Notation v := (o_version o).
Notation EO := (env_of E o).
Notation m := (vmd_of o).
Variables (d2 : list str) (u2 : str).
Variables (new : option image).
Variable step : vmd -> Prop.
(** The output *)
Record found_again (m' : vmd) (o2 : ovf) : Prop := {
  fa_opened : factory E digest parse w' (path_of (d2 ++ [u2])) dest [] = Ok o2;
  fa_step : step m';
  fa_rest : rest_same E (m_hw m') o o2;
  fa_env : env_of E o2 = EO;
  fa_orderly : orderly EO (vmd_of o2);
  fa_reachable : hw_reachable v (m_hw m');
  fa_reachable2 : hw_reachable v (o_hardware o2);
  fa_hardware : same_hardware EO (m_hw m') (o_hardware o2);
  fa_files : same_files v (files v m') (files v (vmd_of o2));
  fa_disks : same_disks v (disks v m') (disks v (vmd_of o2));
  fa_stored : forall h data, stored w' o2 h data <-> stored w1 (package_of_vmd o new m') h data }.
Hypothesis PD2 : forall c, In c (d2 ++ [u2]) -> proper c.
Hypothesis R1 : images_measured capacity.
Hypothesis R2 : forall a x, hex_digest (digest a x).
Hypothesis R4 : forall t r, parse t = Some r -> ~ In NL (etag r).
Hypothesis K : consistent o.
Hypothesis RH : read_hardware EO (o_hardware_section o) = Ok (o_hardware o).
Variable m' : vmd.
Hypothesis ST : step m'.
Hypothesis SH : shifts v m m'.
Hypothesis OUT : orderly EO m'.
Hypothesis CW : can_be_written E w1 wd dest (package_of_vmd o new m').
Hypothesis RP : read_as_printed E print parse capacity fuel w1 (package_of_vmd o new m').
Hypothesis WR : write E digest print capacity fuel w1 wd input same dest (package_of_vmd o new m') = (w', Ok tt).
Lemma written_again : exists o2, found_again m' o2.
Proof.
  destruct (written_reopens E digest print parse capacity fuel w1 w' wd input same dest (package_of_vmd o new m') d2 u2) as (o2 & O2 & SP); try assumption.
  { exact (now_consistent o new m' K SH). }
  { exact (now_ready E o new m' SH RH _ _ _ CW). }
  exists o2. pose proof (sp_version _ _ _ _ _ SP) as V2. pose proof (sp_profiles _ _ _ _ _ SP) as P2. cbn [package_of_vmd o_version o_profiles] in V2, P2.
  assert (EV : env_of E o2 = EO) by (unfold env_of; now rewrite V2, P2).
  pose proof (now_reachable E o m' SH RH) as RA. pose proof (factory_reads _ _ _ _ _ _ _ _ O2) as RH2. rewrite EV in RH2. pose proof (H_read v EO _ _ eq_refl RH2) as RA2.
  assert (FF : same_files v (files v m') (files v (vmd_of o2))).
  { apply (columns_alike _ (FILE_ID v)); [exact (fid_kept _)|]. intros k Hk. apply (sp_references _ _ _ _ _ SP). intros ->. apply Hk. now left. }
  assert (DD : same_disks v (disks v m') (disks v (vmd_of o2))).
  { apply (columns_alike _ (DISK_ID v)); [exact (did_kept _)|]. intros k Hk. assert (X : forall s, map (fun e => get_attr e k) (match s with Some s => filter (fun e => str_eqb (etag e) (DISK v)) (echildren s) | None => [] end) = column (DISK v) k s) by now intros [s|].
    unfold disks. cbn [vmd_of m_disks]. rewrite !X. apply (sp_disks _ _ _ _ _ SP); intros ->; apply Hk; cbn; auto. }
  assert (SO : sourced v (vmd_of o2)).
  { assert (MM : map fst (m_sources (vmd_of o2)) = map fst (o_files o2)) by (cbn [vmd_of m_sources]; rewrite map_map; reflexivity).
    split; [rewrite MM; exact (factory_names _ _ _ _ _ _ _ _ O2)|]. intros h.
    assert (X : (exists dd, dget str_eqb h (m_sources (vmd_of o2)) = Some dd) <-> In h (map fst (o_files o2))).
    { rewrite <- MM. clear. induction (m_sources (vmd_of o2)) as [|[x a] l IH]; cbn; [split; [intros [? ?]; discriminate|intros []]|]. destruct (str_eqb h x) eqn:X.
      - apply str_eqb_eq in X. subst. split; [now left|intros _; now exists a].
      - rewrite IH. split; [now right|]. intros [->|H]; [rewrite str_eqb_refl in X; discriminate|exact H]. }
    rewrite X. pose proof (factory_spec E digest parse w' d2 u2 dest [] PD2 R4) as FSp. rewrite O2 in FSp. destruct FSp as (_ & c & p & t & w'' & root & _ & _ & De). split.
    - intros H. apply in_map_iff in H as ([x r] & Hx & H). cbn in Hx. subst x. apply (d_files _ _ _ _ _ _ _ De) in H as [H _]. apply listed_files in H. now rewrite V2 in H.
    - intros (f & Hf & Hh). destruct (alike_back _ _ _ _ FF Hf) as (f1 & Hf1 & Al). rewrite (Al _ (href_kept _)) in Hh.
      assert (LS : In h (names_in v (m_refs m'))).
      { unfold names_in. apply in_flat_map. exists f1. split; [exact Hf1|]. rewrite Hh. now left. }
      assert (ST1 : exists data, stored w1 (package_of_vmd o new m') h data).
      { destruct CW as [_ _ _ [W B data H1 H2 H3 H4 H5 H6|W B data H1 H2 H3 H4 H5 H6 H7]].
        - apply (OvfWriteSpec.c_all _ _ _ _ _ _ _ H6) in LS. apply in_map_iff in LS as ([x r] & Hx & LS). cbn in Hx. subst x. exists (data h), r. split; [exact LS|exact (OvfWriteSpec.c_data _ _ _ _ _ _ _ H6 h r LS)].
        - apply (TarSpec.p_all _ _ _ _ _ _ _ H7) in LS. apply in_map_iff in LS as ([x r] & Hx & LS). cbn in Hx. subst x. exists (data h), r. split; [exact LS|exact (TarSpec.p_data _ _ _ _ _ _ _ H7 h r LS)]. }
      destruct ST1 as (data & ST1). apply (sp_files _ _ _ _ _ SP) in ST1 as (r & ST1 & _). exact (in_map fst _ _ ST1). }
  constructor; try assumption.
  - destruct SP. constructor; cbn [package_of_vmd o_version o_envelope o_references o_disks o_networks o_deploy o_system o_product o_annotation o_hardware_section o_profiles o_hardware o_platform o_files] in *; try assumption.
    destruct sp_envelope as (Q1 & Q2 & Q3). destruct (now_like o (m_disks m')) as [L1 L2]. split; [now rewrite Q1, L1|]. split; [now rewrite Q2, L2|]. pose proof (now_beyond o new m' K SH) as NB. cbn [package_of_vmd o_envelope] in NB. now rewrite <- NB.
  - apply (ag_orderly EO m' (vmd_of o2)); try assumption. exact (sp_hardware _ _ _ _ _ SP).
  - exact (sp_hardware _ _ _ _ _ SP).
  - exact (sp_files _ _ _ _ _ SP).
Qed.
End Written.

Section Run.
Variables (E : env) (digest : str -> str -> str) (print : elem -> str) (parse : str -> option elem) (capacity : str -> result str) (fuel : nat).
Variables (edit : ovf -> result ovf) (w w' : world) (d : list str) (u input : str) (same : bool) (output : str) (o : ovf).
Hypothesis RUN : package_run E digest print parse capacity fuel edit w w' d u input same output o.
Notation v := (o_version o).
Notation EO := (env_of E o).
Notation m := (vmd_of o).
Notation wd := (path_of (d ++ [u])).
Notation w1 := (after_opening w wd input).
Variables (d2 : list str) (u2 : str).
Hypothesis PD2 : forall c, In c (d2 ++ [u2]) -> proper c.
Variables (new : option image).
Variable step : vmd -> Prop.
Hypothesis EDIT : forall o1, edit o = Ok o1 -> exists m', o1 = package_of_vmd o new m' /\ step m'.
Hypothesis STEP : forall m', step m' -> shifts v m m'.
Hypothesis OIN : orderly EO m.
Hypothesis OUT : forall m', step m' -> orderly EO m'.
Lemma run_names : NoDup (map fst (o_files o)).
Proof. destruct RUN as [R1 R2 R3 R4 R5 R6 R7]. exact (factory_names _ _ _ _ _ _ _ _ R5). Qed.
Lemma run_again : exists m' o2, found_again E digest parse w1 w' (destination input output) o d2 u2 new step m' o2.
Proof.
  destruct RUN as [R1 R2 R3 R4 R5 R6 R7].
  pose proof (SaveProofs.opened_consistent E digest parse w d u input output o R3 R4 R5) as K. pose proof (factory_reads _ _ _ _ _ _ _ _ R5) as RH.
  destruct (command_runs E digest print parse capacity fuel w w' d u input same output o R5 _ R7) as (o1 & ED & WR). pose proof (R6 o1 ED) as (CW & RP).
  destruct (EDIT o1 ED) as (m' & -> & ST). exists m'.
  exact (written_again E digest print parse capacity fuel w1 w' wd input same (destination input output) o d2 u2 new step PD2 R1 R2 R4 K RH m' ST (STEP m' ST) (OUT m' ST) CW RP WR).
Qed.
End Run.

(** ** add-file replaces exactly the File with this name or this identifier *)
Lemma add_file_which : forall agree E m im file_id m',
  ids_ok (e_ver E) (m_hw m) -> linked (e_ver E) m -> plain_drives E m -> ids_agree (e_ver E) m im file_id -> add_file_run agree E m im file_id = Ok m' ->
  exists f A R B, files (e_ver E) m = A ++ R ++ B /\ files (e_ver E) m' = A ++ f :: B /\
    (forall x, In x R <-> In x (files (e_ver E) m) /\ (get_attr x (FILE_HREF (e_ver E)) = Some (im_name im) \/ exists s, file_id = Some s /\ get_attr x (FILE_ID (e_ver E)) = Some s)) /\
    get_attr f (FILE_HREF (e_ver E)) = Some (im_name im) /\
    (forall s, file_id = Some s -> get_attr f (FILE_ID (e_ver E)) = Some s) /\
    (file_id = None -> forall x, In x R -> get_attr f (FILE_ID (e_ver E)) = get_attr x (FILE_ID (e_ver E))) /\
    (file_id = None -> R = [] -> get_attr f (FILE_ID (e_ver E)) = Some (im_name im)).
Proof.
  intros agree E m im file_id m' Hi Hl Hp [C1 C2] H. unfold add_file_run in H. set (v := e_ver E) in *.
  destruct (search_from_filename E m (Some (im_name im))) as [[[[f1 d1] c1] i1]|] eqn:S1; [|discriminate]. cbn [rbind] in H.
  pose proof (filename_says E m _ _ Hi Hl Hp S1) as [_ Z1]. cbn [fst] in Z1.
  match type of H with rbind ?r _ = _ => destruct r as [file|] eqn:EF; [|discriminate] end. cbn [rbind] in H.
  match type of H with rbind ?r _ = _ => destruct r as [id|] eqn:EI; [|discriminate] end. cbn [rbind] in H.
  match type of H with rbind ?r _ = _ => destruct r as [[]|]; [|discriminate] end. cbn [rbind] in H.
  destruct id as [fid|]; [|discriminate]. destruct (add_file v m im fid file None) as [[m1 j]|] eqn:EA; [|discriminate]. cbn [rbind fst] in H. injection H as <-.
  assert (FX : exists ox, (match file, ox with Some f, Some x => file_at v m f x | None, None => True | _, _ => False end) /\
    (forall x, ox = Some x -> get_attr x (FILE_ID v) = Some fid) /\
    (forall x, ox = Some x <-> In x (files v m) /\ (get_attr x (FILE_HREF v) = Some (im_name im) \/ exists s, file_id = Some s /\ get_attr x (FILE_ID v) = Some s)) /\
    (forall s, file_id = Some s -> fid = s) /\ (file_id = None -> ox = None -> fid = im_name im)).
  { destruct file_id as [s|].
    - destruct (search_from_file_id E m (Some s)) as [[[[f2 d2] c2] i2]|] eqn:S2; [|discriminate]. cbn [rbind] in EF. injection EI as ->.
      pose proof (file_id_says E m _ _ Hi Hl Hp S2) as [_ Z2]. cbn [fst] in Z2. destruct file as [f|].
      + assert (XX : exists x, file_at v m f x /\ get_attr x (FILE_ID v) = Some fid).
        { apply conflict_Some in EF as [[->|[->|[]]] _]; [| |exact Nat.eqb_eq].
          - destruct Z1 as (x & X1 & X2). exists x. split; [exact X1|]. apply (C2 fid x eq_refl); [now apply file_at_In in X1|exact X2].
          - destruct Z2 as (x & X1 & X2 & _). now exists x. }
        destruct XX as (x & X1 & X2). exists (Some x). split; [exact X1|]. split; [now intros y [= <-]|]. split; [|split; [congruence|discriminate]]. intros y. split.
        * intros [= <-]. split; [exact (file_at_In _ _ _ _ X1)|]. right. now exists fid.
        * intros [Hy HD]. f_equal. assert (Y : get_attr y (FILE_ID v) = Some fid) by (destruct HD as [HD|(s & [= <-] & HD)]; [exact (C2 fid y eq_refl Hy HD)|exact HD]).
          exact (unique_same _ _ _ _ _ (l_file_ids _ _ Hl) (file_at_In _ _ _ _ X1) Hy X2 Y).
      + pose proof (conflict_None _ _ _ Nat.eqb_eq EF) as CN. destruct f1 as [f1|]; [exfalso; apply (CN f1); now left|]. destruct f2 as [f2|]; [exfalso; apply (CN f2); right; now left|].
        exists None. split; [exact I|]. split; [discriminate|]. split; [|split; [congruence|discriminate]]. intros y. split; [discriminate|]. intros [Hy [HD|(s & [= <-] & HD)]].
        * destruct Z1 as [_ Z1]. now apply Z1 in HD.
        * now apply Z2 in HD.
    - injection EF as ->. destruct file as [f|].
      + destruct Z1 as (x & X1 & X2). rewrite (attr_file v m f x _ X1) in EI. injection EI as EI. exists (Some x). split; [exact X1|].
        split; [now intros y [= <-]|]. split; [|split; discriminate]. intros y. split.
        * intros [= <-]. split; [exact (file_at_In _ _ _ _ X1)|now left].
        * intros [Hy [HD|(s & F & _)]]; [|discriminate]. f_equal. exact (unique_same _ _ _ _ _ (l_file_names _ _ Hl) (file_at_In _ _ _ _ X1) Hy X2 HD).
      + injection EI as <-. destruct Z1 as [_ Z1]. exists None. split; [exact I|]. split; [discriminate|]. split; [|split; [discriminate|reflexivity]].
        intros y. split; [discriminate|]. intros [Hy [HD|(s & F & _)]]; [now apply Z1 in HD|discriminate]. }
  destruct FX as (ox & Hox & FA & FN & FI & FE).
  pose proof (add_file_spec v m im fid file None m1 j ox EA Hox) as (A1 & A2 & A3 & (A & B & A4 & A5) & A6).
  assert (ONE : forall x, In x (one ox) <-> ox = Some x) by (intros x; destruct ox as [y|]; cbn; split; [intros [->|[]]; reflexivity|intros [= ->]; now left|intros []|discriminate]).
  exists (new_file v im fid), A, (one ox), B. split; [exact A4|]. split; [exact A5|]. split; [intros x; rewrite ONE; apply FN|]. split; [apply new_file_href|].
  split; [intros s Hs; rewrite <- (FI s Hs); apply new_file_id|]. split.
  - intros Hn x Hx. apply ONE in Hx. rewrite (FA x Hx). apply new_file_id.
  - intros Hn HR. destruct ox as [y|]; [discriminate|]. rewrite <- (FE Hn eq_refl). apply new_file_id.
Qed.

(** ** The three commands *)
Lemma source_keys : forall v m h, sourced v m -> (In h (map fst (m_sources m)) <-> exists f, In f (files v m) /\ get_attr f (FILE_HREF v) = Some h).
Proof.
  intros v m h [N S]. rewrite <- S. clear S N. induction (m_sources m) as [|[x a] l IH]; cbn; [split; [intros []|intros [? ?]; discriminate]|]. destruct (str_eqb h x) eqn:X.
  - apply str_eqb_eq in X. subst. split; [intros _; now exists a|now left].
  - rewrite <- IH. split; [intros [->|H]; [rewrite str_eqb_refl in X; discriminate|exact H]|now right].
Qed.
Lemma dget_keys : forall {A} (l : list (str * A)) h, (exists x, dget str_eqb h l = Some x) <-> In h (map fst l).
Proof.
  intros A l h. induction l as [|[x a] l IH]; cbn; [split; [intros [? ?]; discriminate|intros []]|]. destruct (str_eqb h x) eqn:X.
  - apply str_eqb_eq in X. subst. split; [now left|intros _; now exists a].
  - rewrite IH. split; [now right|]. intros [->|H]; [rewrite str_eqb_refl in X; discriminate|exact H].
Qed.
Lemma keys_vmd : forall o, map fst (m_sources (vmd_of o)) = map fst (o_files o).
Proof. intros o. cbn [vmd_of m_sources]. rewrite map_map. reflexivity. Qed.
Lemma same_sources_keys : forall v o m' name h, sourced v m' -> same_sources v (vmd_of o) m' name -> In h (map fst (m_sources m')) -> h = name \/ In h (map fst (o_files o)).
Proof.
  intros v o m' name h S K H. destruct (str_eqb h name) eqn:X; [left; now apply str_eqb_eq|right]. apply str_eqb_neq in X. pose proof H as H1. apply (source_keys v m' h S) in H as (f & Hf & Hh).
  rewrite <- keys_vmd. apply dget_keys. rewrite <- (K f h Hf Hh X). now apply dget_keys.
Qed.
Lemma named_values : forall F h k i, identified F h -> In (k, i) h -> has_values i.
Proof. intros F h k i H Hi. destruct (H k i Hi) as (p & Hp). now exists (INSTANCE_ID (e_ver F)), p, (VStr k). Qed.
Lemma same_file_names : forall v l l2 h, same_files v l l2 -> ((exists f, In f l2 /\ get_attr f (FILE_HREF v) = Some h) <-> (exists f, In f l /\ get_attr f (FILE_HREF v) = Some h)).
Proof.
  intros v l l2 h F. split; intros (f & Hf & Hh).
  - destruct (alike_back _ _ _ _ F Hf) as (a & Ha & Al). exists a. split; [exact Ha|]. now rewrite <- (Al _ (href_kept _)).
  - destruct (alike_forth _ _ _ _ F Hf) as (a & Ha & Al). exists a. split; [exact Ha|]. now rewrite (Al _ (href_kept _)).
Qed.

Section Commands.
Variables (E : env) (digest : str -> str -> str) (print : elem -> str) (parse : str -> option elem) (capacity : str -> result str) (fuel : nat).
Variables (w w' : world) (d : list str) (u input : str) (same : bool) (output : str) (o : ovf).
Notation v := (o_version o).
Notation EO := (env_of E o).
Notation m := (vmd_of o).
Notation w1 := (after_opening w (path_of (d ++ [u])) input).
Variables (d2 : list str) (u2 : str).
Hypothesis PD2 : forall c, In c (d2 ++ [u2]) -> proper c.
Hypothesis OIN : orderly EO m.
Definition opens (o2 : ovf) : Prop := factory E digest parse w' (path_of (d2 ++ [u2])) (destination input output) [] = Ok o2 /\ orderly (env_of E o2) (vmd_of o2).

Lemma kept_now : forall h o2 k i, identified EO h -> In (k, i) h -> same_hardware EO h (o_hardware o2) -> kept_in EO (o_hardware o2) k i.
Proof. intros h o2 k i N Hi (_ & S & _). exact (S k i Hi (named_values EO h k i N Hi)). Qed.

Lemma add_file_out : forall agree im file_id,
  package_run E digest print parse capacity fuel (add_file_package agree E im file_id) w w' d u input same output o -> no_slash im file_id -> ids_agree v m im file_id ->
  exists o2 f A R B, opens o2 /\ written_hardware E o o2 (o_hardware o) /\ same_disks v (disks v m) (disks v (vmd_of o2)) /\
    files v m = A ++ R ++ B /\ same_files v (A ++ f :: B) (files v (vmd_of o2)) /\
    (forall x, In x R <-> In x (files v m) /\ (get_attr x (FILE_HREF v) = Some (im_name im) \/ exists s, file_id = Some s /\ get_attr x (FILE_ID v) = Some s)) /\
    get_attr f (FILE_HREF v) = Some (im_name im) /\
    (forall s, file_id = Some s -> get_attr f (FILE_ID v) = Some s) /\
    (file_id = None -> forall x, In x R -> get_attr f (FILE_ID v) = get_attr x (FILE_ID v)) /\
    (file_id = None -> R = [] -> get_attr f (FILE_ID v) = Some (im_name im)) /\
    (forall h data, stored w' o2 h data <->
      (h = im_name im /\ content w1 (OnDisk (im_dir im) (im_name im)) = Some data) \/
      (h <> im_name im /\ stored w1 o h data /\ exists x, In x (A ++ B) /\ get_attr x (FILE_HREF v) = Some h)).
Proof.
  intros agree im file_id RUN NS IA.
  destruct (run_again E digest print parse capacity fuel (add_file_package agree E im file_id) w w' d u input same output o RUN d2 u2 PD2 (Some im)
    (fun m' => add_file_run agree EO m im file_id = Ok m')) as (m' & o2 & [FA1 FA2 FA3 FA4 FA5 FA6 FA7 FA8 FA9 FA10 FA11]).
  { intros o1 H. unfold add_file_package in H. destruct (add_file_run agree EO m im file_id) as [m'|] eqn:X; [|discriminate]. cbn [rbind] in H. injection H as <-. now exists m'. }
  { intros m' H. exact (add_run_shifts agree EO m im file_id m' H). }
  { intros m' H. exact (proj1 (add_file_orderly agree EO m im file_id m' OIN NS IA H)). }
  destruct (add_file_orderly agree EO m im file_id m' OIN NS IA FA2) as (OM & HH & DD & SS & NN & _).
  destruct (add_file_which agree EO m im file_id m' (o_ids _ _ OIN) (o_linked _ _ OIN) (o_plain _ _ OIN) IA FA2) as (f & A & R & B & F1 & F2 & F3 & F4 & F5 & F6 & F7).
  change (e_ver EO) with v in *. rewrite HH in FA3, FA8. change (m_hw m) with (o_hardware o) in *.
  exists o2, f, A, R, B. split; [split; [exact FA1|rewrite FA4; exact FA5]|]. split; [split; [exact FA8|exact FA3]|].
  split; [unfold disks in *; now rewrite <- DD|]. split; [exact F1|]. split; [now rewrite <- F2|]. split; [exact F3|]. split; [exact F4|]. split; [exact F5|]. split; [exact F6|]. split; [exact F7|].
  intros h data. rewrite FA11. pose proof (o_sourced _ _ OM) as SO. change (e_ver EO) with v in SO.
  rewrite (stored_now _ o (Some im) (run_names _ _ _ _ _ _ _ _ _ _ _ _ _ _ _ RUN)).
  2: { intros x Hx. destruct (same_sources_keys v o m' _ x SO SS Hx) as [->|Hx1]; [left; now exists im|now right]. }
  rewrite (source_keys v m' h SO), F2. cbn [data_now].
  assert (NEW : exists f0, In f0 (A ++ f :: B) /\ get_attr f0 (FILE_HREF v) = Some (im_name im)) by (exists f; split; [apply in_or_app; right; now left|exact F4]).
  assert (OLD : h <> im_name im -> ((exists f0, In f0 (A ++ f :: B) /\ get_attr f0 (FILE_HREF v) = Some h) <-> (exists x, In x (A ++ B) /\ get_attr x (FILE_HREF v) = Some h))).
  { intros NH. split; intros (x & Hx & HX); exists x; (split; [|exact HX]); apply in_app_or in Hx as [Hx|Hx]; apply in_or_app; [now left| |now left|right; now right]. destruct Hx as [<-|Hx]; [congruence|now right]. }
  split.
  - intros [H1 [[-> H2]|[H2 H3]]]; [left; now split|right]. split; [exact H2|]. split; [exact H3|now apply OLD].
  - intros [[-> H2]|(H2 & H3 & H4)]; [split; [exact NEW|now left]|]. split; [now apply OLD|now right].
Qed.

Lemma remove_file_out : forall agree path id,
  package_run E digest print parse capacity fuel (remove_file_package agree E path id) w w' d u input same output o ->
  exists o2 f A B C X D h, opens o2 /\ written_hardware E o o2 h /\
    files v m = A ++ f :: B /\ same_files v (A ++ B) (files v (vmd_of o2)) /\
    (forall p, path = Some p -> get_attr f (FILE_HREF v) = Some p) /\ (forall s, id = Some s -> get_attr f (FILE_ID v) = Some s) /\
    disks v m = C ++ X ++ D /\ same_disks v (C ++ D) (disks v (vmd_of o2)) /\
    (forall x, In x X <-> In x (disks v m) /\ get_attr x (DISK_FILE_REF v) = get_attr f (FILE_ID v)) /\
    (forall k i, In (k, i) (o_hardware o) -> (forall p s, own (i_props i) HOST_RESOURCE p (VStr s) -> ~ file_of v m s f) -> kept_in EO (o_hardware o2) k i) /\
    (forall k i p s, In (k, i) (o_hardware o) -> own (i_props i) HOST_RESOURCE p (VStr s) -> file_of v m s f ->
       (only_value (i_props i) RESOURCE_TYPE (VStr (L "17")) /\ ~ taken (o_hardware o2) k) \/
       (only_value (i_props i) RESOURCE_TYPE (VStr (L "15")) /\ exists j, In (k, j) (o_hardware o2) /\
          (forall q x, ~ own (i_props j) HOST_RESOURCE q x) /\
          (forall n q x, n <> HOST_RESOURCE -> ~ text_property v n -> (holds (i_props j) n q x <-> holds (i_props i) n q x)))) /\
    (forall k, taken (o_hardware o2) k -> taken (o_hardware o) k) /\
    (forall h data, stored w' o2 h data <-> stored w1 o h data /\ get_attr f (FILE_HREF v) <> Some h).
Proof.
  intros agree path id RUN.
  destruct (run_again E digest print parse capacity fuel (remove_file_package agree E path id) w w' d u input same output o RUN d2 u2 PD2 None
    (fun m' => remove_file_run agree EO m path id = Ok m')) as (m' & o2 & [FA1 FA2 FA3 FA4 FA5 FA6 FA7 FA8 FA9 FA10 FA11]).
  { intros o1 H. unfold remove_file_package in H. destruct (remove_file_run agree EO m path id) as [m'|] eqn:X; [|discriminate]. cbn [rbind] in H. injection H as <-. now exists m'. }
  { intros m' H. exact (remove_run_shifts agree EO m path id m' H). }
  { intros m' H. exact (proj1 (remove_file_orderly agree EO m path id m' OIN H)). }
  destruct (remove_file_orderly agree EO m path id m' OIN FA2) as (OM & f & A & B & F1 & F2 & F3 & F4 & (hf & F5 & F6) & (X & C & D & G1 & G2 & G3) & G4 & G5 & G6).
  change (e_ver EO) with v in *. change (m_hw m) with (o_hardware o) in *.
  pose proof (o_named _ _ OM) as NM.
  exists o2, f, A, B, C, X, D, (m_hw m'). split; [split; [exact FA1|rewrite FA4; exact FA5]|]. split; [now split|]. split; [exact F1|]. split; [now rewrite <- F2|]. split; [exact F3|]. split; [exact F4|].
  split; [exact G1|]. split; [now rewrite <- G2|]. split; [exact G3|]. split; [|split; [|split]].
  - intros k i Hi HN. exact (kept_now _ o2 k i NM (G4 k i Hi HN) FA8).
  - intros k i p s Hi Ho Hf. destruct (G5 k i p s Hi Ho Hf) as [[T NT]|[T (i' & Hi' & NH & SV)]]; [left|right]; (split; [exact T|]).
    + intros (j & Hj). destruct FA8 as (_ & _ & BK). destruct (BK k j Hj) as (i0 & H0 & _). apply NT. now exists i0.
    + destruct (kept_now _ o2 k i' NM Hi' FA8) as (j & Hj & SR). exists j. split; [exact Hj|].
      assert (GI : good_props (e_ver EO) (i_props i')) by exact (good1 EO (m_hw m') FA6 k i' Hi'). assert (GJ : good_props (e_ver EO) (i_props j)) by exact (good1 EO (o_hardware o2) FA7 k j Hj). split.
      * intros q x Ho2. apply (own_holds (i_props j)) in Ho2. apply (holds_twin EO i' j GI GJ SR HOST_RESOURCE q x (HOST_text _)) in Ho2. apply holds_own in Ho2 as (q' & Ho2). exact (NH q' x Ho2).
      * intros n q x Hn Ht. rewrite <- (holds_twin EO i' j GI GJ SR n q x Ht). unfold holds. rewrite (SV n q x Hn), (SV n None x Hn). split; (intros [Q|[Q1 Q2]]; [now left|right; split; [|exact Q2]]; intros y Hy; apply (Q1 y); now apply SV).
  - intros k (j & Hj). destruct FA8 as (_ & _ & BK). destruct (BK k j Hj) as (i0 & H0 & _). apply G6. now exists i0.
  - intros h data. rewrite FA11. pose proof (o_sourced _ _ OM) as SO. pose proof (o_sourced _ _ OIN) as SI. change (e_ver EO) with v in SO, SI.
    pose proof (l_file_names _ _ (o_linked _ _ OIN)) as UN. change (e_ver EO) with v in UN.
    assert (KEYS : forall x, In x (map fst (m_sources m')) <-> x <> hf /\ In x (map fst (o_files o))).
    { intros x. rewrite (source_keys v m' x SO), <- keys_vmd, (source_keys v m x SI), F2, F1. rewrite F1 in UN. split.
      - intros (g & Hg & Hx). split; [|exists g; split; [apply in_app_or in Hg as [Hg|Hg]; apply in_or_app; [now left|right; now right]|exact Hx]]. intros ->.
        revert Hx; apply (unique_rest (FILE_HREF v) A f B); [exact UN|exact F5|exact Hg].
      - intros [Hx (g & Hg & Hy)]. exists g. split; [|exact Hy]. apply in_app_or in Hg as [Hg|[<-|Hg]]; apply in_or_app; [now left|congruence|now right]. }
    rewrite (stored_now _ o None (run_names _ _ _ _ _ _ _ _ _ _ _ _ _ _ _ RUN)).
    2: { intros x Hx. right. now apply KEYS in Hx. }
    rewrite KEYS. cbn [data_now]. rewrite F5. split.
    + intros [[H1 H2] H3]. split; [exact H3|congruence].
    + intros [H1 H2]. split; [|exact H1]. split; [congruence|]. destruct H1 as (r & H1 & _). exact (in_map fst _ _ H1).
Qed.

Lemma add_disk_out : forall agree fuel2 guess im dt file_id controller subtype address diskname desc,
  package_run E digest print parse capacity fuel (add_disk_package agree E fuel2 guess im dt file_id controller subtype address diskname desc) w w' d u input same output o ->
  no_slash im file_id -> (dt = L "harddisk" -> disk_ids_apart v m im file_id) -> (forall c, controller = Some c -> known_type c) -> known_type (guess (o_platform o) dt) ->
  exists o2 h lf f ld k j s t ck cj ct, opens o2 /\ written_hardware E o o2 h /\
    replaced (files v m) lf f /\ same_files v lf (files v (vmd_of o2)) /\ get_attr f (FILE_HREF v) = Some (im_name im) /\
    same_disks v ld (disks v (vmd_of o2)) /\
    In (k, j) (o_hardware o2) /\ present EO j None /\ dget str_eqb dt RES_MAP = Some t /\ only_value (i_props j) RESOURCE_TYPE (VStr t) /\
    only_value (i_props j) HOST_RESOURCE (VStr s) /\ (exists f2, file_of v (vmd_of o2) s f2 /\ alike_but [FILE_SIZE v] f f2) /\
    (dt = L "harddisk" -> exists dk, replaced (disks v m) ld dk /\ exists dk2, disk_of v (vmd_of o2) s dk2 /\ alike_but [DISK_CAPACITY v; DISK_CAP_UNITS v] dk dk2) /\
    (dt <> L "harddisk" -> removed (disks v m) ld) /\
    only_value (i_props j) PARENT (VStr ck) /\ In (ck, cj) (o_hardware o2) /\ (ck <> k -> is_a ct cj) /\ (forall c, controller = Some c -> ct = c) /\
    (forall k' i, k' <> k -> k' <> ck -> In (k', i) (o_hardware o) -> kept_in EO (o_hardware o2) k' i) /\
    (forall k' j', k' <> k -> k' <> ck -> In (k', j') (o_hardware o2) -> exists i, In (k', i) (o_hardware o) /\ same_reports EO i j') /\
    (forall h data, stored w' o2 h data <->
      (h = im_name im /\ content w1 (OnDisk (im_dir im) (im_name im)) = Some data) \/
      (h <> im_name im /\ stored w1 o h data /\ exists x, In x lf /\ get_attr x (FILE_HREF v) = Some h)).
Proof.
  intros agree fuel2 guess im dt file_id controller subtype address diskname desc RUN NS DA KC KG.
  destruct (run_again E digest print parse capacity fuel (add_disk_package agree E fuel2 guess im dt file_id controller subtype address diskname desc) w w' d u input same output o RUN d2 u2 PD2 (Some im)
    (fun m' => exists k, add_disk_worker agree EO fuel2 (guess (o_platform o)) m im dt file_id controller subtype address diskname desc = Ok (m', k))) as (m' & o2 & [FA1 FA2 FA3 FA4 FA5 FA6 FA7 FA8 FA9 FA10 FA11]).
  { intros o1 H. unfold add_disk_package in H. destruct (add_disk_worker agree EO fuel2 (guess (o_platform o)) m im dt file_id controller subtype address diskname desc) as [[m' k]|] eqn:X; [|discriminate]. cbn [rbind fst] in H. injection H as <-. exists m'. split; [reflexivity|now exists k]. }
  { intros m' (k & H). exact (worker_shifts agree EO fuel2 _ m im dt file_id controller subtype address diskname desc m' k H). }
  { intros m' (k & H). exact (proj1 (add_disk_orderly agree EO fuel2 _ m im dt file_id controller subtype address diskname desc m' k OIN NS DA KC KG H)). }
  destruct FA2 as (k & FA2).
  destruct (add_disk_orderly agree EO fuel2 _ m im dt file_id controller subtype address diskname desc m' k OIN NS DA KC KG FA2)
    as (OM & f & i & s & t & ck & ci & ct & F1 & F2 & F3 & F4 & F5 & F6 & F7 & F8 & F9 & F10 & F11 & F12 & F13 & F14 & F15 & F16 & F17 & F18).
  change (e_ver EO) with v in *. change (m_hw m) with (o_hardware o) in *.
  pose proof (o_named _ _ OM) as NM.
  destruct (kept_now _ o2 k i NM F6 FA8) as (j & Hj & SR). destruct (kept_now _ o2 ck ci NM F15 FA8) as (cj & Hcj & SRc).
  assert (GI : good_props (e_ver EO) (i_props i)) by exact (good1 EO (m_hw m') FA6 k i F6). assert (GJ : good_props (e_ver EO) (i_props j)) by exact (good1 EO (o_hardware o2) FA7 k j Hj).
  assert (GC : good_props (e_ver EO) (i_props ci)) by exact (good1 EO (m_hw m') FA6 ck ci F15). assert (GK : good_props (e_ver EO) (i_props cj)) by exact (good1 EO (o_hardware o2) FA7 ck cj Hcj).
  assert (TX : forall n, n = RESOURCE_TYPE \/ n = PARENT -> ~ text_property (e_ver EO) n) by (intros n [-> | ->]; change (e_ver EO) with v; destruct v; intros [Q|Q]; discriminate Q).
  exists o2, (m_hw m'), (files v m'), f, (disks v m'), k, j, s, t, ck, cj, ct. split; [split; [exact FA1|rewrite FA4; exact FA5]|]. split; [now split|]. split; [exact F1|]. split; [exact FA9|]. split; [exact F2|]. split; [exact FA10|].
  split; [exact Hj|]. split; [exact (ag_present EO m' (vmd_of o2) FA6 FA7 k i j F6 Hj SR F7)|]. split; [exact F8|]. split; [apply (only_twin EO i j _ _ GI GJ SR (TX _ (or_introl eq_refl))); exact F9|].
  split; [apply (only_twin EO i j _ _ GI GJ SR (HOST_text _)); exact F10|]. split; [exact (ag_forth_file EO m' (vmd_of o2) FA9 FA10 s f F11)|].
  split; [intros Hd; destruct (F12 Hd) as (dk & Hk1 & Hk2); exists dk; split; [exact Hk1|exact (ag_forth_disk EO m' (vmd_of o2) FA10 s dk Hk2)]|]. split; [exact F13|].
  split; [apply (only_twin EO i j _ _ GI GJ SR (TX _ (or_intror eq_refl))); exact F14|]. split; [exact Hcj|].
  split; [intros Hk; destruct (F16 Hk) as (tt & T1 & T2); exists tt; split; [exact T1|]; apply (only_twin EO ci cj _ _ GC GK SRc (TX _ (or_introl eq_refl))); exact T2|]. split; [exact F17|]. split; [|split].
  - intros k' i0 N1 N2 Hi. exact (kept_now _ o2 k' i0 NM (proj2 (F18 k' i0 N1 N2) Hi) FA8).
  - intros k' j0 N1 N2 Hj0. destruct FA8 as (_ & _ & BK). destruct (BK k' j0 Hj0) as (i0 & H0 & _ & S0). exists i0. split; [exact (proj1 (F18 k' i0 N1 N2) H0)|exact S0].
  - intros h data. rewrite FA11. pose proof (o_sourced _ _ OM) as SO. change (e_ver EO) with v in SO.
    rewrite (stored_now _ o (Some im) (run_names _ _ _ _ _ _ _ _ _ _ _ _ _ _ _ RUN)).
    2: { intros x Hx. destruct (same_sources_keys v o m' _ x SO F5 Hx) as [->|Hx1]; [left; now exists im|now right]. }
    rewrite (source_keys v m' h SO). cbn [data_now].
    assert (NEW : exists f0, In f0 (files v m') /\ get_attr f0 (FILE_HREF v) = Some (im_name im)) by (exists f; split; [exact (proj1 F11)|exact F2]).
    split.
    + intros [H1 [[-> H2]|[H2 H3]]]; [left; now split|right]. now split.
    + intros [[-> H2]|(H2 & H3 & H4)]; [split; [exact NEW|now left]|]. split; [exact H4|now right].
Qed.
End Commands.
