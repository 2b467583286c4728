(** Commands run one after another: by induction over the runs. *)
From Coq Require Import List Ascii Bool ZArith Lia.
Import ListNotations.
From Verif Require Import PyBase PyBaseProofs PyDict PyDictProofs XmlModel XmlSpec NamesModel ItemModel ItemSpec HardwareModel HardwareSpec EditPropModel CountSpec NetworkModel NetworkSpec DriveModel DriveSpec PlatformModel ManifestSpec PathSpec TarModel
  OvfWriteSpec RereadSpec OpenModel OpenSpec OpenProofs SaveModel SaveSpec CommandModel CommandSpec CommandFileModel CommandFileSpec CommandInjectModel CommandInjectSpec CommandHistorySpec.
From Verif Require EnvPropProofs HardwareIdProofs CommandProofs2 CommandProofs3 ProductModel ProductSpec TarSpec SaveProofs CommandFileProofs2 CommandInjectProofs InjectModel InjectSpec.
Local Open Scope nat_scope.

(** ** Opening *)
Lemma no_output : forall E digest parse w wd input output o, factory E digest parse w wd input output = Ok o -> factory E digest parse w wd input [] = Ok o.
Proof.
  intros E digest parse w wd input output o H. unfold factory in *. destruct (detect_type input) as [k|e]; [|exact H].
  unfold open_ovf in *. cbn [is_nil]. destruct (if is_nil output then Ok tt else do _ <- detect_type output; Ok tt) as [[]|e]; cbn [rbind] in *; [exact H|].
  destruct e; discriminate H.
Qed.
Lemma opened_stored : forall E digest parse w d u input output o, (forall c, In c (d ++ [u]) -> proper c) -> (forall t r, parse t = Some r -> ~ In NL (etag r)) ->
  factory E digest parse w (path_of (d ++ [u])) input output = Ok o ->
  forall h data, stored (after_opening w (path_of (d ++ [u])) input) o h data <-> stored w o h data.
Proof.
  intros E digest parse w d u input output o PD PT F h data. pose proof (factory_spec E digest parse w d u input output PD PT) as S. rewrite F in S.
  destruct S as (_ & c & p & t & w' & root & D & _ & De).
  pose proof (descriptor_spec E parse w d u input output PD) as DS. unfold after_opening.
  assert (W : exists c1 p1 t1, descriptor w (path_of (d ++ [u])) input = Ok (p1, Some t1, w') /\ descriptor_is w d u input c1 p1 t1 w').
  { destruct (descriptor w (path_of (d ++ [u])) input) as [[[p1 [t1|]] w1]|e] eqn:X.
    - destruct DS as (c1 & D1 & _). destruct (descriptor_fun w d u input _ _ _ _ _ _ _ _ D D1) as (<- & <- & <- & <-). exists c, p, t. now split.
    - exfalso. unfold factory in F. destruct (detect_type input); [|destruct e; discriminate F]. unfold open_ovf in F. destruct (if is_nil output then Ok tt else do _ <- detect_type output; Ok tt) as [[]|e]; cbn [rbind] in F; [|destruct e; discriminate F].
      rewrite X in F. discriminate F.
    - exfalso. unfold factory in F. destruct (detect_type input); [|destruct e0; discriminate F]. unfold open_ovf in F. destruct (if is_nil output then Ok tt else do _ <- detect_type output; Ok tt) as [[]|e']; cbn [rbind] in F; [|destruct e'; discriminate F].
      rewrite X in F. cbn [rbind] in F. destruct e; discriminate F. }
  destruct W as (c1 & p1 & t1 & X & D1). rewrite X. clear X DS c1 p1 t1 D1 F.
  unfold stored.
  assert (S : forall r, In (h, r) (o_files o) -> content w' r = content w r).
  { intros r I. apply (d_files _ _ _ _ _ _ _ De) in I. destruct I as (_ & x & _ & FO).
    inversion D; subst; try reflexivity; destruct FO as (a & n & _ & _ & ->); reflexivity. }
  split; intros (r & I & C); exists r; (split; [exact I|]); [rewrite <- (S r I)|rewrite (S r I)]; exact C.
Qed.

(** ** What is the same *)
Lemma section_refl : forall a, same_section a a.
Proof. intros [a|]; [apply SaveProofs.same_itself|exact I]. Qed.
Lemma section_trans : forall a b c, same_section a b -> same_section b c -> same_section a c.
Proof. intros [a|] [b|] [c|] H1 H2; cbn in *; try contradiction; try exact I. exact (SaveProofs.same_trans _ _ _ H1 H2). Qed.
Lemma contents_refl : forall l, Forall2 same_content l l.
Proof. induction l; constructor; [apply SaveProofs.same_itself|assumption]. Qed.
Lemma contents_trans : forall a b c, Forall2 same_content a b -> Forall2 same_content b c -> Forall2 same_content a c.
Proof.
  intros a b c H. revert c. induction H as [|x y a b S H IH]; intros c H2; inversion H2; subst; constructor; [exact (SaveProofs.same_trans _ _ _ S H3)|now apply IH].
Qed.
Lemma rest_refl : forall r e, same_rest r e e.
Proof. intros r e. repeat split. apply contents_refl. Qed.
Lemma rest_trans : forall r a b c, same_rest r a b -> same_rest r b c -> same_rest r a c.
Proof. intros r a b c (H1 & H2 & H3) (K1 & K2 & K3). split; [congruence|]. split; [congruence|]. exact (contents_trans _ _ _ H3 K3). Qed.
Lemma else_refl : forall ed o, else_same ed o o.
Proof. intros ed o. constructor; try reflexivity; try apply section_refl; try apply rest_refl. - intros n H; exact H. - repeat split. apply contents_refl. - intros _. repeat split. apply section_refl. Qed.
Lemma else_trans : forall (e1 e2 ed : Prop) a b c, (e1 -> ed) -> (e2 -> ed) -> else_same e1 a b -> else_same e2 b c -> else_same ed a c.
Proof.
  intros e1 e2 ed a b c I1 I2 H K. pose proof (es_version _ _ _ H) as V. constructor.
  - rewrite (es_version _ _ _ K). exact V.
  - rewrite (es_profiles _ _ _ K). exact (es_profiles _ _ _ H).
  - exact (section_trans _ _ _ (es_annotation _ _ _ H) (es_annotation _ _ _ K)).
  - exact (section_trans _ _ _ (es_deploy _ _ _ H) (es_deploy _ _ _ K)).
  - intros n I. apply (es_networks _ _ _ H). rewrite <- V in *. exact (es_networks _ _ _ K n I).
  - destruct (es_section _ _ _ H) as (H1 & H2 & H3). destruct (es_section _ _ _ K) as (K1 & K2 & K3). rewrite V in K2, K3. split; [congruence|]. split; [|exact (contents_trans _ _ _ H3 K3)].
    intros k N. rewrite (K2 k N). exact (H2 k N).
  - apply (rest_trans _ _ _ _ (es_envelope _ _ _ H)). rewrite <- V. exact (es_envelope _ _ _ K).
  - apply (rest_trans _ _ _ _ (es_system _ _ _ H)). rewrite <- V. exact (es_system _ _ _ K).
  - intros N. destruct (es_product _ _ _ H) as (H1 & H2 & H3); [tauto|]. destruct (es_product _ _ _ K) as (K1 & K2 & K3); [tauto|].
    split; [exact (section_trans _ _ _ H1 K1)|]. split; congruence.
Qed.
Lemma rest_else : forall E h o o2, rest_same E h o o2 -> else_same False o o2.
Proof.
  intros E h o o2 H. destruct H as [H1 H2 H3 H4 H5 H6 (sec & _ & H7) H8 H9 H10 _]. destruct H8 as (S1 & S2 & S3). constructor; try assumption.
  - intros n I. apply H7 in I. exact (proj1 I).
  - split; [exact S1|]. split; [|exact S3]. intros k _. unfold get_attr. now rewrite S2.
  - intros _. now repeat split.
Qed.
(** the product was edited *)
Lemma package_else : forall E w w' o ts s p o2, same_package E w w' (with_product s p (with_transports ts o)) o2 -> else_same True o o2.
Proof.
  intros E w w' o ts s p o2 H.
  destruct H as [H1 H2 _ _ (S1 & S2 & S3) _ H6 H7 (sec & _ & H8) _ _ _ H12 H13 _]. cbn [with_product with_transports o_version o_profiles o_annotation o_deploy o_networks o_hardware_section o_envelope o_system] in *.
  constructor; try assumption.
  - intros n I. apply H8 in I. exact (proj1 I).
  - assert (X : forall t, other_children (o_version o) (set_attr (ENVIRONMENT_TRANSPORT (o_version o)) t (o_hardware_section o)) = other_children (o_version o) (o_hardware_section o) /\ etag (set_attr (ENVIRONMENT_TRANSPORT (o_version o)) t (o_hardware_section o)) = etag (o_hardware_section o)).
    { intros t. destruct (o_hardware_section o). split; reflexivity. }
    destruct ts as [|t ts].
    + split; [exact S1|]. split; [|exact S3]. intros k _. unfold get_attr. now rewrite S2.
    + destruct (X (join (L " ") (t :: ts))) as (X1 & X2). rewrite X1 in S3. rewrite X2 in S1. split; [exact S1|]. split; [|exact S3]. intros k N. unfold get_attr at 1. rewrite S2. fold (get_attr (set_attr (ENVIRONMENT_TRANSPORT (o_version o)) (join (L " ") (t :: ts)) (o_hardware_section o)) k).
      apply EnvPropProofs.attr_other. exact N.
  - intros N. now contradiction N.
Qed.
Lemma else_env : forall E ed o o2, else_same ed o o2 -> env_of E o2 = env_of E o.
Proof. intros E ed o o2 H. unfold env_of. now rewrite (es_version _ _ _ H), (es_profiles _ _ _ H). Qed.

(** ** Devices *)
Lemma devices_refl : forall E h, devices_same_but E [] h h.
Proof.
  intros E h. split.
  - intros k i _ I. exists i. split; [exact I|]. intros n q. reflexivity.
  - intros k j _ I. exists j. split; [exact I|]. intros n q. reflexivity.
Qed.
Lemma devices_trans : forall E ks ks' a b c, devices_same_but E ks a b -> devices_same_but E ks' b c -> devices_same_but E (ks ++ ks') a c.
Proof.
  intros E ks ks' a b c (H1 & H2) (K1 & K2). split.
  - intros k i N I. destruct (H1 k i) as (j & Ij & Sj); [intros X; apply N, in_or_app; now left|exact I|].
    destruct (K1 k j) as (l & Il & Sl); [intros X; apply N, in_or_app; now right|exact Ij|].
    exists l. split; [exact Il|]. intros n q. now rewrite (Sl n q).
  - intros k l N I. destruct (K2 k l) as (j & Ij & Sl); [intros X; apply N, in_or_app; now right|exact I|].
    destruct (H2 k j) as (i & Ii & Sj); [intros X; apply N, in_or_app; now left|exact Ij|].
    exists i. split; [exact Ii|]. intros n q. now rewrite (Sl n q).
Qed.
(** keeping the others, and no others *)
Lemma devices_from : forall E ks h h2, NoDup (map fst h2) -> (forall k i, ~ In k ks -> In (k, i) h -> kept_in E h2 k i) -> (forall k, taken h2 k -> taken h k) -> devices_same_but E ks h h2.
Proof.
  intros E ks h h2 ND K T. split; [exact K|]. intros k j N I. destruct (T k (ex_intro _ j I)) as (i & Ii). exists i. split; [exact Ii|].
  destruct (K k i N Ii) as (j' & Ij & S). assert (j = j') as ->; [|exact S].
  pose proof (dget_Some_In str_eqb str_eqb_eq _ _ _ ND I) as G. pose proof (dget_Some_In str_eqb str_eqb_eq _ _ _ ND Ij) as G'. rewrite G in G'. now injection G'.
Qed.

(** ** Files *)
Lemma listed_files : forall o h, listed (o_version o) (o_references o) h <-> exists f, In f (files (o_version o) (vmd_of o)) /\ get_attr f (FILE_HREF (o_version o)) = Some h.
Proof.
  intros o h. unfold listed, files. split.
  - intros (e & I & T & A). exists e. split; [|exact A]. apply filter_In. split; [exact I|]. now apply str_eqb_eq.
  - intros (f & I & A). apply filter_In in I. destruct I as (I & T). exists f. apply str_eqb_eq in T. now repeat split.
Qed.
Lemma href_size : forall v, ~ In (FILE_HREF v) [FILE_SIZE v].
Proof. intros v [H|[]]. destruct v; discriminate H. Qed.
Lemma same_files_back : forall v l l2 h f2, same_files v l l2 -> In f2 l2 -> get_attr f2 (FILE_HREF v) = Some h -> exists f, In f l /\ get_attr f (FILE_HREF v) = Some h.
Proof.
  intros v l l2 h f2 S. induction S as [|a b l l2 AB S IH]; intros I A; [destruct I|]. destruct I as [->|I].
  - exists a. split; [now left|]. rewrite <- A. symmetry. exact (AB _ (href_size v)).
  - destruct (IH I A) as (f & If & Af). exists f. split; [now right|exact Af].
Qed.
Lemma unique_gone : forall k A f B h x, unique_attr k (A ++ f :: B) -> get_attr f k = Some h -> In x (A ++ B) -> get_attr x k <> Some h.
Proof.
  intros k A f B h x (_ & U) F I X. rewrite map_app in U. cbn [map] in U. apply NoDup_remove_2 in U. apply U. rewrite <- map_app. apply in_map_iff. exists x. split; [congruence|exact I].
Qed.

(** ** Whether some drive has the file *)
Lemma list_dec : forall (A : Type) (P : A -> Prop) l, (forall x, P x \/ ~ P x) -> (exists x, In x l /\ P x) \/ ~ exists x, In x l /\ P x.
Proof.
  intros A P l D. induction l as [|y l IH]; [right; intros (x & [] & _)|]. destruct (D y) as [Y|Y]; [left; exists y; split; [now left|exact Y]|].
  destruct IH as [(x & I & X)|N]; [left; exists x; split; [now right|exact X]|]. right. intros (x & [<-|I] & X); [contradiction|]. apply N. now exists x.
Qed.
Lemma str_dec : forall a b : str, a = b \/ a <> b.
Proof. intros a b. destruct (str_eqb a b) eqn:X; [left; now apply str_eqb_eq|right; intros ->; rewrite (proj2 (str_eqb_eq b b) eq_refl) in X; discriminate X]. Qed.
Lemma opt_dec : forall a b : option str, a = b \/ a <> b.
Proof. intros [a|] [b|]; try (right; discriminate); [|now left]. destruct (str_dec a b) as [->|N]; [now left|right; congruence]. Qed.
Lemma file_dec : forall v m s f, In f (files v m) -> file_of v m s f \/ ~ file_of v m s f.
Proof.
  intros v m s f If. destruct (get_attr f (FILE_ID v)) as [id|] eqn:A.
  2:{ right. intros (_ & id & X & _). congruence. }
  assert (D1 : refers_file v s id \/ ~ refers_file v s id).
  { unfold refers_file. destruct (str_dec s (FILE_REF v ++ id)) as [X|X]; [tauto|]. destruct (str_dec s (OLD_FILE_REF ++ id)); tauto. }
  assert (D2 : (exists d, In d (disks v m) /\ ((exists i, get_attr d (DISK_ID v) = Some i /\ refers_disk v s i) /\ get_attr d (DISK_FILE_REF v) = Some id)) \/
               ~ exists d, In d (disks v m) /\ ((exists i, get_attr d (DISK_ID v) = Some i /\ refers_disk v s i) /\ get_attr d (DISK_FILE_REF v) = Some id)).
  { apply list_dec. intros d. destruct (opt_dec (get_attr d (DISK_FILE_REF v)) (Some id)) as [X|X]; [|tauto]. destruct (get_attr d (DISK_ID v)) as [i|]; [|right; intros ((i & Y & _) & _); discriminate Y].
    destruct (str_dec s (DISK_REF v ++ i)) as [Y|Y]; [left; split; [exists i; split; [reflexivity|now left]|exact X]|].
    destruct (str_dec s (OLD_DISK_REF ++ i)) as [Z|Z]; [left; split; [exists i; split; [reflexivity|now right]|exact X]|].
    right. intros ((i' & I & [R|R]) & _); injection I as <-; contradiction. }
  destruct D1 as [D1|D1]; [left; split; [exact If|]; exists id; now split; [|left]|].
  destruct D2 as [(d & I & (J & R))|D2]; [left; split; [exact If|]; exists id; split; [exact A|right]; exists d; split; [now split|exact R]|].
  right. intros (_ & id' & A' & [R|(d & (I & J) & R)]); rewrite A in A'; injection A' as <-; [contradiction|]. apply D2. exists d. now repeat split.
Qed.
Lemma drive_dec : forall v m f, In f (files v m) ->
  (exists k i q s, In (k, i) (m_hw m) /\ own (i_props i) HOST_RESOURCE q (VStr s) /\ file_of v m s f) \/
  ~ exists k i q s, In (k, i) (m_hw m) /\ own (i_props i) HOST_RESOURCE q (VStr s) /\ file_of v m s f.
Proof.
  intros v m f If.
  assert (D : forall x : str * item, (exists q s, own (i_props (snd x)) HOST_RESOURCE q (VStr s) /\ file_of v m s f) \/ ~ exists q s, own (i_props (snd x)) HOST_RESOURCE q (VStr s) /\ file_of v m s f).
  { intros [k i]. cbn [snd].
    destruct (list_dec _ (fun nd : str * vdict => fst nd = HOST_RESOURCE /\ exists vs, In vs (snd nd) /\ ((exists q, In q (snd vs)) /\ exists s, fst vs = VStr s /\ file_of v m s f)) (i_props i)) as [(nd & I & N & vs & J & (q & Q) & s & V & F)|NO].
    - intros [n d]. cbn [fst snd]. destruct (str_dec n HOST_RESOURCE) as [->|N]; [|tauto].
      destruct (list_dec _ (fun vs : value * pset => (exists q, In q (snd vs)) /\ exists s, fst vs = VStr s /\ file_of v m s f) d) as [Y|Y]; [|left; now split|right; intros (_ & Z); contradiction].
      intros [x ss]. cbn [fst snd]. destruct ss as [|q ss]; [right; intros ((q & []) & _)|]. destruct x as [s|l]; [|right; intros (_ & s & Y & _); discriminate Y].
      destruct (file_dec v m s f If) as [Y|Y]; [left; split; [exists q; now left|now exists s]|right; intros (_ & s' & Z & F); injection Z as <-; contradiction].
    - left. exists q, s. split; [|exact F]. exists (snd nd), (snd vs). destruct nd, vs. cbn [fst snd] in *. subst. now repeat split.
    - right. intros (q & s & (d & ss & I & J & Q) & F). apply NO. exists (HOST_RESOURCE, d). split; [exact I|]. split; [reflexivity|]. exists (VStr s, ss). split; [exact J|]. split; [now exists q|now exists s]. }
  destruct (list_dec _ _ (m_hw m) D) as [((k & i) & I & q & s & OW & F)|NO]; [left; now exists k, i, q, s|].
  right. intros (k & i & q & s & I & OW & F). apply NO. exists (k, i). split; [exact I|]. now exists q, s.
Qed.

(** ** What is on the configuration disk *)
Lemma put_unique : forall w src name l l', put_as w src name l -> put_as w src name l' -> l = l'.
Proof.
  intros w [x|] name l l' H K; cbn in *; [|congruence]. destruct H as (n & c & H1 & H2 & ->), K as (n' & c' & K1 & K2 & ->). congruence.
Qed.
Lemma disk_unique : forall w p s l l', on_the_disk w p s l -> on_the_disk w p s l' -> l = l'.
Proof.
  intros w p s l l' (A & B & C & -> & H1 & H2 & H3) (A' & B' & C' & -> & K1 & K2 & K3). rewrite (put_unique _ _ _ _ _ H1 K1), (put_unique _ _ _ _ _ H2 K2). do 2 f_equal.
  clear - H3 K3. revert C' K3. induction H3 as [|x [n c] xs C [H1 H2] H3 IH]; intros C' K; inversion K as [|x' [n' c'] xs' C2 [K1 K2] K3]; subst; [reflexivity|].
  cbn [fst snd] in *. rewrite H2 in K2. injection K2 as ->. subst. f_equal. now apply IH.
Qed.

(** ** A package in order is in order after the product was edited *)
Lemma edited_orderly : forall E digest parse w1 w' wd dest d2 u2 o ts sec plat o2, (forall c, In c (d2 ++ [u2]) -> proper c) -> (forall t r, parse t = Some r -> ~ In NL (etag r)) ->
  can_be_written E w1 wd dest o -> read_hardware (env_of E o) (o_hardware_section o) = Ok (o_hardware o) -> orderly (env_of E o) (vmd_of o) ->
  factory E digest parse w' (path_of (d2 ++ [u2])) dest [] = Ok o2 -> same_package E w1 w' (with_product sec plat (with_transports ts o)) o2 -> orderly (env_of E o2) (vmd_of o2).
Proof.
  intros E digest parse w1 w' wd dest d2 u2 o ts sec plat o2 PD2 R4 CW RH O O2 SP. set (v := o_version o). set (EO := env_of E o) in *. set (m' := vmd_of o) in *.
  pose proof (sp_version _ _ _ _ _ SP) as V2. pose proof (sp_profiles _ _ _ _ _ SP) as P2. cbn [with_product with_transports o_version o_profiles] in V2, P2. fold v in V2.
  assert (EV : env_of E o2 = EO) by (unfold EO, env_of; now rewrite V2, P2). rewrite EV.
  pose proof (H_read v EO _ _ eq_refl RH) as RA. pose proof (CommandProofs2.factory_reads _ _ _ _ _ _ _ _ O2) as RH2. rewrite EV in RH2. pose proof (H_read v EO _ _ eq_refl RH2) as RA2.
  assert (FF : same_files v (files v m') (files v (vmd_of o2))).
  { apply (CommandFileProofs2.columns_alike _ (FILE_ID v)); [exact (CommandFileProofs2.fid_kept _)|]. intros k Hk. apply (sp_references _ _ _ _ _ SP). intros ->. apply Hk. now left. }
  assert (DD : same_disks v (disks v m') (disks v (vmd_of o2))).
  { apply (CommandFileProofs2.columns_alike _ (DISK_ID v)); [exact (CommandFileProofs2.did_kept _)|]. intros k Hk.
    assert (X : forall s, map (fun e => get_attr e k) (match s with Some s => filter (fun e => str_eqb (etag e) (DISK v)) (echildren s) | None => [] end) = column (DISK v) k s) by now intros [s|].
    unfold disks, m'. cbn [vmd_of m_disks]. rewrite !X. apply (sp_disks _ _ _ _ _ SP); intros ->; apply Hk; cbn; auto. }
  assert (SO : sourced v (vmd_of o2)).
  { assert (MM : map fst (m_sources (vmd_of o2)) = map fst (o_files o2)) by (cbn [vmd_of m_sources]; rewrite map_map; reflexivity).
    split; [rewrite MM; exact (CommandFileProofs2.factory_names _ _ _ _ _ _ _ _ O2)|]. intros h. rewrite (CommandFileProofs2.dget_keys (m_sources (vmd_of o2)) h), MM.
    pose proof (factory_spec E digest parse w' d2 u2 dest [] PD2 R4) as FSp. rewrite O2 in FSp. destruct FSp as (_ & c & p & t & w'' & root & _ & _ & De). split.
    - intros H. apply in_map_iff in H as ([x r] & Hx & H). cbn in Hx. subst x. apply (d_files _ _ _ _ _ _ _ De) in H as [H _]. apply listed_files in H. now rewrite V2 in H.
    - intros (f & Hf & Hh). destruct (same_files_back _ _ _ _ _ FF Hf Hh) as (f1 & Hf1 & Hh1).
      assert (LS : In h (names_in v (o_references o))).
      { unfold names_in. apply in_flat_map. exists f1. split; [exact Hf1|]. rewrite Hh1. now left. }
      assert (ST1 : exists data, stored w1 o h data).
      { destruct CW as [_ _ _ [W B data H1 H2 H3 H4 H5 H6|W B data H1 H2 H3 H4 H5 H6 H7]].
        - apply (OvfWriteSpec.c_all _ _ _ _ _ _ _ H6) in LS. apply in_map_iff in LS as ([x r] & Hx & LS). cbn in Hx. subst x. exists (data h), r. split; [exact LS|exact (OvfWriteSpec.c_data _ _ _ _ _ _ _ H6 h r LS)].
        - apply (TarSpec.p_all _ _ _ _ _ _ _ H7) in LS. apply in_map_iff in LS as ([x r] & Hx & LS). cbn in Hx. subst x. exists (data h), r. split; [exact LS|exact (TarSpec.p_data _ _ _ _ _ _ _ H7 h r LS)]. }
      destruct ST1 as (data & ST1). apply (sp_files _ _ _ _ _ SP) in ST1 as (r & ST1 & _). exact (in_map fst _ _ ST1). }
  apply (CommandFileProofs2.ag_orderly EO m' (vmd_of o2)); try assumption. exact (sp_hardware _ _ _ _ _ SP).
Qed.

(** ** One run *)
Lemma lifted : forall E digest print parse capacity fuel (edit : ovf -> result ovf) w w' d u input same output o,
  changing_run E digest print parse capacity fuel (fun w o => do o1 <- edit o; Ok (w, o1)) w w' d u input same output o ->
  package_run E digest print parse capacity fuel edit w w' d u input same output o.
Proof.
  intros E digest print parse capacity fuel edit w w' d u input same output o H. destruct H as [H1 H2 H3 H4 H5 H6 H7]. constructor; try assumption.
  - intros o1 X. apply H6. now rewrite X.
  - unfold command_in in H7. unfold command. rewrite H5 in *. destruct (edit o) as [o1|e]; exact H7.
Qed.

Section Run.
  Variables (E : env) (digest : str -> str -> str) (print : elem -> str) (parse : str -> option elem) (capacity : str -> result str) (fuel : nat).
  (** what a run leaves *)
  Definition leaves (st : step) (w : world) (p : str) (w' : world) (o o2 : ovf) : Prop :=
    orderly (env_of E o2) (vmd_of o2) /\ else_same (edits_product st) o o2 /\
    (exists ks, length ks <= 2 /\ devices_same_but (env_of E o) ks (o_hardware o) (o_hardware o2)) /\
    (forall h data, brings st o2 <> Some h -> (stored w' o2 h data <-> stored w o h data /\ listed (o_version o2) (o_references o2) h)) /\
    (exists wd, forall h data, brings st o2 = Some h -> (stored w' o2 h data <-> supplied st (after_opening w wd p) o data)).

  Lemma run_leaves : forall st w p o w' p' d2 u2, ran E digest print parse capacity fuel st w p o w' p' -> orderly (env_of E o) (vmd_of o) -> (forall c, In c (d2 ++ [u2]) -> proper c) ->
    exists o2, factory E digest parse w' (path_of (d2 ++ [u2])) p' [] = Ok o2 /\ leaves st w p w' o o2.
  Proof.
    intros st w p o w' p' d2 u2 (d & u & same & output & EP & SU & R) O PD. subst p'.
    assert (ST : forall h data, stored (after_opening w (path_of (d ++ [u])) p) o h data <-> stored w o h data).
    { exact (opened_stored E digest parse w d u p output o (cr_directory _ _ _ _ _ _ _ _ _ _ _ _ _ _ _ R) (cr_tags _ _ _ _ _ _ _ _ _ _ _ _ _ _ _ R) (cr_opened _ _ _ _ _ _ _ _ _ _ _ _ _ _ _ R)). }
    assert (HV : forall k i, In (k, i) (o_hardware o) -> has_values i).
    { intros k i I. destruct (o_named _ _ O k i I) as (q & OW). now exists (INSTANCE_ID (e_ver (env_of E o))), q, (VStr k). }
    assert (NEW : forall name lf o2, o_version o2 = o_version o -> same_files (o_version o) lf (files (o_version o) (vmd_of o2)) ->
      orderly (env_of E o2) (vmd_of o2) ->
      forall w1 h data, (stored w' o2 h data <-> (h = name /\ w1) \/ (h <> name /\ stored (after_opening w (path_of (d ++ [u])) p) o h data /\ exists x, In x lf /\ get_attr x (FILE_HREF (o_version o)) = Some h)) ->
      Some name <> Some h -> (stored w' o2 h data <-> stored w o h data /\ listed (o_version o2) (o_references o2) h)).
    { intros name lf o2 V SF O2 w1 h data S N. rewrite S, ST. split.
      - intros [[-> _]|(_ & X & f & If & Af)]; [contradiction|]. split; [exact X|]. apply listed_files. rewrite V.
        clear - SF If Af. induction SF as [|a b l l2 AB SF IH]; [destruct If|]. destruct If as [->|If].
        + exists b. split; [now left|]. rewrite <- Af. exact (AB _ (href_size _)).
        + destruct (IH If) as (f2 & I2 & A2). exists f2. split; [now right|exact A2].
      - intros (X & LI). right. split; [congruence|]. split; [exact X|]. apply listed_files in LI. rewrite V in LI. destruct LI as (f2 & I2 & A2). exact (same_files_back _ _ _ _ _ SF I2 A2). }
    assert (EDITED : forall ts sec plat o2, can_be_written E (after_opening w (path_of (d ++ [u])) p) (path_of (d ++ [u])) (destination p output) o ->
      read_hardware (env_of E o) (o_hardware_section o) = Ok (o_hardware o) -> (forall t r, parse t = Some r -> ~ In NL (etag r)) ->
      factory E digest parse w' (path_of (d2 ++ [u2])) (destination p output) [] = Ok o2 ->
      same_package E (after_opening w (path_of (d ++ [u])) p) w' (with_product sec plat (with_transports ts o)) o2 ->
      forall st, edits_product st -> (forall x, brings st x = None) -> exists o2, factory E digest parse w' (path_of (d2 ++ [u2])) (destination p output) [] = Ok o2 /\ leaves st w p w' o o2).
    { intros ts sec plat o2 CW RH R4 F2 SP st0 ED BR. exists o2. split; [exact F2|]. pose proof (package_else _ _ _ _ _ _ _ _ SP) as ES.
      assert (O2 : orderly (env_of E o2) (vmd_of o2)) by exact (edited_orderly E digest parse _ w' _ _ d2 u2 o ts sec plat o2 PD R4 CW RH O F2 SP).
      split; [exact O2|]. split; [|split; [|split]].
      - destruct st0; try destruct ED; exact ES.
      - exists []. split; [cbn; lia|]. destruct (sp_hardware _ _ _ _ _ SP) as (_ & H1 & H2). split.
        + intros k i _ I. exact (H1 k i I (HV k i I)).
        + intros k j _ I. destruct (H2 k j I) as (i & Ii & _ & Si). now exists i.
      - intros h data _. pose proof (sp_files _ _ _ _ _ SP h data) as SF. cbn [with_product with_transports o_files] in SF. fold (stored w' o2 h data) in SF. fold (stored (after_opening w (path_of (d ++ [u])) p) o h data) in SF.
        rewrite SF, ST. split; [|tauto]. intros X. split; [exact X|]. apply listed_files. apply (proj2 (o_sourced _ _ O2)). apply ST, SF in X. destruct X as (r & Ir & _). exists [].
        apply (dget_Some_In str_eqb str_eqb_eq); [exact (proj1 (o_sourced _ _ O2))|]. cbn. apply in_map_iff. now exists (h, r).
      - exists (path_of (d ++ [u])). intros h data B0. rewrite BR in B0. discriminate B0. }
    destruct st as [agree im file_id|agree path id|agree fuel2 guess im dt file_id controller subtype address diskname desc|agree overwrite make image_of fuel2 s|opts|force typed a].
    - destruct SU as (NS & IA). apply lifted in R.
      destruct (CommandFileProofs2.add_file_out E digest print parse capacity fuel w w' d u p same output o d2 u2 PD O agree im file_id R NS IA)
        as (o2 & f & A & RR & B & (F2 & O2) & (SH & RS) & _ & _ & SF & _ & HF & _ & _ & _ & S).
      exists o2. split; [exact F2|]. pose proof (rest_else _ _ _ _ RS) as ES. split; [exact O2|]. split; [exact ES|]. split; [|split].
      + exists []. split; [cbn; lia|]. destruct SH as (_ & H1 & H2). split.
        * intros k i _ I. exact (H1 k i I (HV k i I)).
        * intros k j _ I. destruct (H2 k j I) as (i & Ii & _ & Si). now exists i.
      + intros h data N. rewrite S, ST. cbn [brings] in N. split.
        * intros [[-> _]|(_ & X & x & Ix & Ax)]; [contradiction|]. split; [exact X|]. apply listed_files. rewrite (es_version _ _ _ ES).
          assert (Ix' : In x (A ++ f :: B)) by (apply in_app_or in Ix; apply in_or_app; cbn; tauto).
          clear - SF Ix' Ax. induction SF as [|a b l l2 AB SF IH]; [destruct Ix'|]. destruct Ix' as [->|I].
          -- exists b. split; [now left|]. rewrite <- Ax. exact (AB _ (href_size _)).
          -- destruct (IH I) as (f2 & I2 & A2). exists f2. split; [now right|exact A2].
        * intros (X & LI). right. split; [congruence|]. split; [exact X|]. apply listed_files in LI. rewrite (es_version _ _ _ ES) in LI. destruct LI as (f2 & I2 & A2).
          destruct (same_files_back _ _ _ _ _ SF I2 A2) as (x & Ix & Ax). exists x. split; [|exact Ax]. apply in_app_or in Ix. apply in_or_app. destruct Ix as [Ix|[<-|Ix]]; [now left| |now right].
          exfalso. apply N. congruence.
      + exists (path_of (d ++ [u])). intros h data B0. injection B0 as <-. rewrite S. cbn [supplied]. tauto.
    - apply lifted in R.
      destruct (CommandFileProofs2.remove_file_out E digest print parse capacity fuel w w' d u p same output o d2 u2 PD O agree path id R)
        as (o2 & f & A & B & C & X & D & hw' & (F2 & O2) & (SH & RS) & FS & SF & _ & _ & _ & _ & _ & KE & GO & TK & S).
      exists o2. split; [exact F2|]. pose proof (rest_else _ _ _ _ RS) as ES. split; [exact O2|]. split; [exact ES|]. split; [|split].
      + assert (DR : exists ks, length ks <= 1 /\ forall k i, ~ In k ks -> In (k, i) (o_hardware o) -> forall q s, own (i_props i) HOST_RESOURCE q (VStr s) -> ~ file_of (o_version o) (vmd_of o) s f).
        { destruct (drive_dec (o_version o) (vmd_of o) f ltac:(rewrite FS; apply in_or_app; right; now left)) as [(k & i & q & s & I & OW & FO)|NO]. 
          - exists [k]. split; [cbn; lia|]. intros k' i' N I' q' s' OW' FO'. apply N. left.
            exact (o_drive _ _ O k i q s k' i' q' s' I OW I' OW' (or_intror (ex_intro _ f (conj FO FO')))).
          - exists []. split; [cbn; lia|]. intros k i _ I q s OW FO. apply NO. now exists k, i, q, s. }
        destruct DR as (ks & L & DR). exists ks. split; [lia|]. apply devices_from; [exact (proj1 SH)| |exact TK].
        intros k i N I. apply KE; [exact I|]. exact (DR k i N I).
      + intros h data _. rewrite S, ST. rewrite listed_files, (es_version _ _ _ ES). split.
        * intros (Y & N). split; [exact Y|]. destruct Y as (r & Ir & _).
          assert (LI : exists g, In g (files (o_version o) (vmd_of o)) /\ get_attr g (FILE_HREF (o_version o)) = Some h).
          { apply (proj2 (o_sourced _ _ O)). exists []. apply (dget_Some_In str_eqb str_eqb_eq); [exact (proj1 (o_sourced _ _ O))|]. cbn. apply in_map_iff. now exists (h, r). }
          destruct LI as (g & Ig & Ag). rewrite FS in Ig.
          assert (Ig' : In g (A ++ B)). { apply in_app_or in Ig. apply in_or_app. destruct Ig as [Ig|[<-|Ig]]; [now left|contradiction|now right]. }
          clear - SF Ig' Ag. induction SF as [|a b l l2 AB SF IH]; [destruct Ig'|]. destruct Ig' as [->|I].
          -- exists b. split; [now left|]. rewrite <- Ag. exact (AB _ (href_size _)).
          -- destruct (IH I) as (f2 & I2 & A2). exists f2. split; [now right|exact A2].
        * intros (Y & f2 & I2 & A2). split; [exact Y|]. intros HF. destruct (same_files_back _ _ _ _ _ SF I2 A2) as (x & Ix & Ax).
          pose proof (l_file_names _ _ (o_linked _ _ O)) as U. cbn [e_ver env_of] in U. rewrite FS in U. exact (unique_gone _ _ _ _ _ _ U HF Ix Ax).
      + exists (path_of (d ++ [u])). intros h data B0. discriminate B0.
    - destruct SU as (NS & DA & KC & KG). apply lifted in R.
      destruct (CommandFileProofs2.add_disk_out E digest print parse capacity fuel w w' d u p same output o d2 u2 PD O agree fuel2 guess im dt file_id controller subtype address diskname desc R NS DA KC KG)
        as (o2 & hw' & lf & f & ld & k & j & s & t & ck & cj & ct & (F2 & O2) & (SH & RS) & _ & SF & HF & _ & _ & _ & _ & _ & _ & _ & _ & _ & _ & _ & _ & _ & KE & NE & S).
      exists o2. split; [exact F2|]. pose proof (rest_else _ _ _ _ RS) as ES. split; [exact O2|]. split; [exact ES|]. split; [|split].
      + exists [k; ck]. split; [cbn; lia|]. split.
        * intros k' i N I. apply KE; [intros ->; apply N; now left|intros ->; apply N; right; now left|exact I].
        * intros k' j' N I. apply NE; [intros ->; apply N; now left|intros ->; apply N; right; now left|exact I].
      + intros h data N. cbn [brings] in N. refine (NEW (im_name im) lf o2 (es_version _ _ _ ES) SF O2 _ h data (S h data) N).
      + exists (path_of (d ++ [u])). intros h data B0. injection B0 as <-. rewrite S. cbn [supplied]. tauto.
    - destruct SU as (PP & DE & DA & UA & PA).
      destruct (CommandInjectProofs.inject_out E digest print parse capacity fuel w w' d u p same output o d2 u2 PD O agree overwrite make image_of fuel2 s R PP DE DA UA PA)
        as (o2 & hw' & lf & f & ld & k & i & j & r & l & (F2 & O2) & (SH & RS) & _ & SF & HF & _ & OD & _ & _ & _ & _ & _ & _ & _ & _ & _ & TK & KE & S).
      exists o2. split; [exact F2|]. pose proof (rest_else _ _ _ _ RS) as ES. split; [exact O2|]. split; [exact ES|]. split; [|split].
      + exists [k]. split; [cbn; lia|]. apply devices_from; [exact (proj1 SH)| |intros k' T; now apply TK].
        intros k' i' N I. apply KE; [intros ->; apply N; now left|exact I].
      + intros h data N. cbn [brings] in N. rewrite (proj1 (proj2 (es_product _ _ _ ES (fun x => x)))) in N. exact (NEW _ lf o2 (es_version _ _ _ ES) SF O2 _ h data (S h data) N).
      + exists (path_of (d ++ [u])). intros h data B0. cbn [brings] in B0. rewrite (proj1 (proj2 (es_product _ _ _ ES (fun x => x)))) in B0. injection B0 as <-. rewrite S. cbn [supplied]. split.
        * intros [(_ & ->)|(N & _)]; [now exists l|now contradiction N].
        * intros (l' & OD' & ->). left. split; [reflexivity|]. now rewrite (disk_unique _ _ _ _ _ OD OD').
    - destruct SU as (CW & PT). apply lifted in R. destruct R as [R1 R2 R3 R4 R5 R6 R7].
      destruct (CommandProofs2.product_command E digest print parse capacity fuel w w' d u p same output o d2 u2 R1 R2 R3 PD R4 R5 CW opts (fun o1 X => proj2 (R6 o1 X)) PT R7)
        as (o2 & F2 & _ & _ & _ & _ & _ & _ & SP).
      exact (EDITED [] _ _ o2 CW (CommandProofs2.factory_reads _ _ _ _ _ _ _ _ R5) R4 F2 SP (EditProduct opts) I (fun _ => eq_refl)).
    - destruct SU as (CW & PT). apply lifted in R. destruct R as [R1 R2 R3 R4 R5 R6 R7].
      destruct (CommandProofs3.properties_command E digest print parse capacity fuel w w' d u p same output o d2 u2 R1 R2 R3 PD R4 R5 CW force typed a (fun o1 X => conj (proj2 (R6 o1 X)) (PT o1 X)) R7)
        as (o2 & F2 & _ & _ & _ & _ & _ & _ & SP).
      exact (EDITED _ _ _ o2 CW (CommandProofs2.factory_reads _ _ _ _ _ _ _ _ R5) R4 F2 SP (EditProperties force typed a) I (fun _ => eq_refl)).
  Qed.

  Theorem history_leaves : forall l w p o w' p' o', history E digest print parse capacity fuel w p o l w' p' o' -> orderly (env_of E o) (vmd_of o) ->
    orderly (env_of E o') (vmd_of o') /\ else_same (exists st x, In (st, x) l /\ edits_product st) o o' /\
    (exists ks, length ks <= 2 * length l /\ devices_same_but (env_of E o) ks (o_hardware o) (o_hardware o')) /\
    (forall h data, (forall st x, In (st, x) l -> brings st x <> Some h) ->
      (stored w' o' h data <-> stored w o h data /\ forall st x, In (st, x) l -> listed (o_version x) (o_references x) h)).
  Proof.
    intros l w p o w' p' o' H. induction H as [w p o|st w p o w1 p1 o1 l w2 p2 o2 R (d & u & out & PD & OP) H IH]; intros O.
    - split; [exact O|]. split; [apply else_refl|]. split; [exists []; split; [cbn; lia|apply devices_refl]|]. intros h data _. split; [intros S; split; [exact S|intros st x []]|intros (S & _); exact S].
    - destruct (run_leaves st w p o w1 p1 d u R O PD) as (o1' & F & O1 & ES & (ks & L & DE) & S & _). rewrite (no_output _ _ _ _ _ _ _ _ OP) in F. injection F as <-.
      destruct (IH O1) as (O2 & ES2 & (ks2 & L2 & DE2) & S2). rewrite (else_env E _ _ _ ES) in DE2.
      split; [exact O2|]. split; [refine (else_trans _ _ _ _ _ _ _ _ ES ES2); [intros X; exists st, o1; split; [now left|exact X]|intros (st' & x & I & X); exists st', x; split; [now right|exact X]]|]. split.
      + exists (ks ++ ks2). split; [rewrite app_length; cbn [length]; lia|]. exact (devices_trans _ _ _ _ _ _ DE DE2).
      + intros h data N. rewrite (S2 h data) by (intros st' x I; apply N; now right). rewrite (S h data) by (apply N; now left). split.
        * intros ((X & LI) & Y). split; [exact X|]. intros st' x [I|I]; [injection I as <- <-; exact LI|exact (Y st' x I)].
        * intros (X & Y). split; [split; [exact X|apply (Y st o1); now left]|]. intros st' x I. apply (Y st'). now right.
  Qed.

  Lemma history_app : forall l1 l2 w p o w' p' o', history E digest print parse capacity fuel w p o (l1 ++ l2) w' p' o' ->
    exists w1 p1 o1, history E digest print parse capacity fuel w p o l1 w1 p1 o1 /\ history E digest print parse capacity fuel w1 p1 o1 l2 w' p' o'.
  Proof.
    induction l1 as [|[st x] l1 IH]; intros l2 w p o w' p' o' H; [exists w, p, o; split; [constructor|exact H]|].
    cbn [app] in H. inversion H as [|st0 a b c w1 p1 o1 l w2 p2 o2 R OP H']; subst. destruct (IH _ _ _ _ _ _ _ H') as (w3 & p3 & o3 & H1 & H2).
    exists w3, p3, o3. split; [exact (run_first _ _ _ _ _ _ _ _ _ _ _ _ _ _ _ _ _ R OP H1)|exact H2].
  Qed.
  Theorem history_brought : forall l1 st x l2 w p o w' p' o', history E digest print parse capacity fuel w p o (l1 ++ (st, x) :: l2) w' p' o' -> orderly (env_of E o) (vmd_of o) ->
    forall h, brings st x = Some h -> (forall st' x', In (st', x') l2 -> brings st' x' <> Some h /\ listed (o_version x') (o_references x') h) ->
    exists w1 p1 o1 wd, history E digest print parse capacity fuel w p o l1 w1 p1 o1 /\ forall data, stored w' o' h data <-> supplied st (after_opening w1 wd p1) o1 data.
  Proof.
    intros l1 st x l2 w p o w' p' o' H O h B N. destruct (history_app _ _ _ _ _ _ _ _ H) as (w1 & p1 & o1 & H1 & H2).
    destruct (history_leaves _ _ _ _ _ _ _ H1 O) as (O1 & _).
    inversion H2 as [|st0 a b c w2 p2 o2 l w3 p3 o3 R (d & u & out & PD & OP) H']; subst.
    destruct (run_leaves st w1 p1 o1 w2 p2 d u R O1 PD) as (x' & F & O2 & _ & _ & _ & wd & S). rewrite (no_output _ _ _ _ _ _ _ _ OP) in F. injection F as <-.
    exists w1, p1, o1, wd. split; [exact H1|]. intros data.
    destruct (history_leaves _ _ _ _ _ _ _ H' O2) as (_ & _ & _ & S2). rewrite (S2 h data) by (intros st' x' I; exact (proj1 (N st' x' I))).
    rewrite (S h data B). split; [intros (X & _); exact X|]. intros X. split; [exact X|]. intros st' x' I. exact (proj2 (N st' x' I)).
  Qed.
End Run.
