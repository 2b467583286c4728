(** Proofs about the command add-file. *)
From Coq Require Import Lia Permutation ZArith.
From Verif Require Import PyBase PyBaseProofs PyDict PyDictProofs ValidationModel ValidationSpec ValidationProofs XmlModel NamesModel
  ItemModel ItemSpec HardwareModel HardwareSpec HardwareProofs FindSpec
  NetworkModel DriveModel DriveSpec LinkProofs SearchProofs AddProofs AddDiskProofs.
Local Open Scope nat_scope.

Theorem add_file_links : forall agree E m im file_id m',
  ids_ok (e_ver E) (m_hw m) -> linked (e_ver E) m -> plain_drives E m ->
  (file_id = None -> forall g, In g (files (e_ver E) m) -> get_attr g (FILE_ID (e_ver E)) = Some (im_name im) -> get_attr g (FILE_HREF (e_ver E)) = Some (im_name im)) ->
  (forall s g, file_id = Some s -> In g (files (e_ver E) m) -> get_attr g (FILE_HREF (e_ver E)) = Some (im_name im) -> get_attr g (FILE_ID (e_ver E)) = Some s) ->
  add_file_run agree E m im file_id = Ok m' ->
  linked (e_ver E) m' /\ m_hw m' = m_hw m /\ m_disks m' = m_disks m /\
  (sourced (e_ver E) m -> sourced (e_ver E) m') /\ same_sources (e_ver E) m m' (im_name im) /\
  dget str_eqb (im_name im) (m_sources m') = Some (im_dir im) /\
  (one_drive (e_ver E) m -> one_drive (e_ver E) m') /\
  (plain_ids (e_ver E) m -> ~ In "/"%char (im_name im) -> (forall s, file_id = Some s -> ~ In "/"%char s) -> plain_ids (e_ver E) m') /\
  exists f, replaced (files (e_ver E) m) (files (e_ver E) m') f /\
    get_attr f (FILE_HREF (e_ver E)) = Some (im_name im) /\ get_attr f (FILE_SIZE (e_ver E)) = Some (zdec (im_size im)) /\
    (forall s, file_id = Some s -> get_attr f (FILE_ID (e_ver E)) = Some s).
Proof.
  intros agree E m im file_id m' Hi Hl Hp C1 C2 H. unfold add_file_run in H. set (v := e_ver E) in *.
  destruct (search_from_filename E m (Some (im_name im))) as [[[[f1 d1] c1] i1]|] eqn:S1; [|discriminate]. cbn [rbind] in H.
  pose proof (filename_says E m _ _ Hi Hl Hp S1) as [_ Z1]. cbn [fst] in Z1.
  match type of H with rbind ?r _ = _ => destruct r as [file|] eqn:EF; [|discriminate] end. cbn [rbind] in H.
  match type of H with rbind ?r _ = _ => destruct r as [id|] eqn:EI; [|discriminate] end. cbn [rbind] in H.
  match type of H with rbind ?r _ = _ => destruct r as [[]|]; [|discriminate] end. cbn [rbind] in H.
  destruct id as [fid|]; [|discriminate]. destruct (add_file v m im fid file None) as [[m1 j]|] eqn:EA; [|discriminate]. cbn [rbind fst] in H. injection H as <-.
  (* the file that is replaced *)
  assert (FX : exists ox, (match file, ox with Some f, Some x => file_at v m f x | None, None => True | _, _ => False end) /\
    (forall x, ox = Some x -> get_attr x (FILE_ID v) = Some fid) /\ (ox = None -> forall e, In e (files v m) -> get_attr e (FILE_ID v) <> Some fid) /\
    (forall e, In e (files v m) -> get_attr e (FILE_HREF v) = Some (im_name im) -> ox = Some e) /\
    (forall s, file_id = Some s -> fid = s) /\ (file_id = None -> fid = im_name im \/ ox <> None)).
  { assert (N1 : forall j x, f1 = Some j -> file_at v m j x -> forall e, In e (files v m) -> get_attr e (FILE_HREF v) = Some (im_name im) -> e = x).
    { intros j0 x -> Hx e He Ee. destruct Z1 as (x' & X1 & X2). rewrite (file_at_fun _ _ _ _ _ Hx X1).
      exact (unique_same _ _ _ _ _ (l_file_names _ _ Hl) He (file_at_In _ _ _ _ X1) Ee X2). }
    destruct file_id as [s|].
    - destruct (search_from_file_id E m (Some s)) as [[[[f2 d2] c2] i2]|] eqn:S2; [|discriminate]. cbn [rbind] in EF. injection EI as ->.
      pose proof (file_id_says E m _ _ Hi Hl Hp S2) as [_ Z2]. cbn [fst] in Z2. destruct file as [f|].
      + assert (XX : exists x, file_at v m f x /\ get_attr x (FILE_ID v) = Some fid).
        { apply conflict_Some in EF as [[->|[->|[]]] _]; [| |exact Nat.eqb_eq].
          - destruct Z1 as (x & X1 & X2). exists x. split; [exact X1|]. apply (C2 fid x eq_refl); [now apply file_at_In in X1|exact X2].
          - destruct Z2 as (x & X1 & X2 & _). now exists x. }
        destruct XX as (x & X1 & X2). exists (Some x). split; [exact X1|]. split; [now intros y [= <-]|]. split; [discriminate|]. split; [|split; [congruence|discriminate]].
        intros e He Ee. f_equal. pose proof (C2 fid e eq_refl He Ee) as Ei.
        exact (unique_same _ _ _ _ _ (l_file_ids _ _ Hl) (file_at_In _ _ _ _ X1) He X2 Ei).
      + pose proof (conflict_None _ _ _ Nat.eqb_eq EF) as CN. destruct f1 as [f1|]; [exfalso; apply (CN f1); now left|]. destruct f2 as [f2|]; [exfalso; apply (CN f2); right; now left|].
        exists None. split; [exact I|]. split; [discriminate|]. split; [intros _ e He; now apply Z2|]. split; [|split; [congruence|discriminate]]. intros e He Ee. destruct Z1 as [_ Z1]. now apply Z1 in Ee.
    - injection EF as ->. destruct file as [f|].
      + destruct Z1 as (x & X1 & X2). rewrite (attr_file v m f x _ X1) in EI. injection EI as EI. exists (Some x). split; [exact X1|].
        split; [now intros y [= <-]|]. split; [discriminate|]. split; [|split; [discriminate|intros _; right; discriminate]]. intros e He Ee. f_equal. symmetry. now apply (N1 f x).
      + injection EI as <-. destruct Z1 as [_ Z1]. exists None. split; [exact I|]. split; [discriminate|]. split; [|split; [|split; [discriminate|intros _; now left]]].
        * intros _ e He Ee. apply (Z1 e He). now apply C1.
        * intros e He Ee. now apply Z1 in Ee. }
  destruct FX as (ox & Hox & FA & FB & FN & FI & FE).
  pose proof (add_file_spec v m im fid file None m1 j ox EA Hox) as (A1 & A2 & A3 & (A & B & A4 & A5) & A6).
  set (nf := new_file v im fid) in *.
  assert (UF : forall e, In e (A ++ B) -> get_attr e (FILE_ID v) <> Some fid).
  { intros e He. destruct ox as [x|].
    - apply (unique_rest (FILE_ID v) A x B); [rewrite <- A4; apply (l_file_ids _ _ Hl)|now apply FA|exact He].
    - apply FB; [reflexivity|]. rewrite A4. apply in_one. now right. }
  assert (UH : forall e, In e (A ++ B) -> get_attr e (FILE_HREF v) <> Some (im_name im)).
  { intros e He F. assert (E0 : ox = Some e) by (apply FN; [rewrite A4; apply in_one; now right|exact F]). apply (UF e He). now apply FA. }
  assert (KF : forall e r, In e (files v m) -> get_attr e (FILE_ID v) = Some r -> exists e', In e' (files v m1) /\ get_attr e' (FILE_ID v) = Some r).
  { intros e r He Hr. rewrite A5. rewrite A4 in He. apply in_one in He as [He|He].
    - exists nf. split; [apply in_mid; now left|]. rewrite <- Hr, (FA e He). apply new_file_id.
    - exists e. split; [apply in_mid; now right|exact Hr]. }
  assert (D1 : disks v m1 = disks v m) by (unfold disks; now rewrite A1).
  destruct (sources_added v m m1 (im_name im) (im_dir im) ox A B nf A4 A5 (l_file_names _ _ Hl) (new_file_href _ _ _) UH A6) as [SR1 SR2].
  split; [|split; [exact A2|split; [exact A1|split; [exact SR1|split; [exact SR2|split; [|split; [|split]]]]]]].
  - constructor.
    + rewrite A5. apply (unique_replace (FILE_ID v) A ox B nf fid); [rewrite <- A4; apply (l_file_ids _ _ Hl)|apply new_file_id|exact UF].
    + rewrite A5. apply (unique_replace (FILE_HREF v) A ox B nf (im_name im)); [rewrite <- A4; apply (l_file_names _ _ Hl)|apply new_file_href|exact UH].
    + rewrite D1. apply (l_disk_ids _ _ Hl).
    + intros d r Hd Hr. rewrite D1 in Hd. destruct (l_disk_files _ _ Hl d r Hd Hr) as (g & G1 & G2). now apply (KF g).
    + intros k i p s id Hin Ho Hr. rewrite A2 in Hin. rewrite D1. now apply (l_drive_disks _ _ Hl k i p s).
    + intros k i p s id Hin Ho Hr. rewrite A2 in Hin. destruct (l_drive_files _ _ Hl k i p s id Hin Ho Hr) as (g & G1 & G2). now apply (KF g).
  - rewrite A6. apply (dget_dset_same str_eqb str_eqb_eq).
  - intros OR k i p s k' i' p' s' K1 K2 K3 K4 SH. rewrite A2 in K1, K3. apply (OR k i p s k' i' p' s' K1 K2 K3 K4).
    assert (DD : forall s0 d, disk_of v m1 s0 d <-> disk_of v m s0 d) by (intros s0 d; unfold disk_of; now rewrite D1).
    assert (FF : forall k0 i0 p0 s0 f0, In (k0, i0) (m_hw m) -> own (i_props i0) HOST_RESOURCE p0 (VStr s0) -> file_of v m1 s0 f0 ->
      exists g r, file_of v m s0 g /\ get_attr g (FILE_ID v) = Some r /\ get_attr f0 (FILE_ID v) = Some r).
    { intros k0 i0 p0 s0 f0 X1 X2 (_ & r & X3 & X4). assert (G : exists g, In g (files v m) /\ get_attr g (FILE_ID v) = Some r).
      { destruct X4 as [X4|(d & X4 & X5)]; [now apply (l_drive_files _ _ Hl k0 i0 p0 s0)|]. apply (l_disk_files _ _ Hl d r); [apply DD in X4; apply X4|exact X5]. }
      destruct G as (g & G1 & G2). exists g, r. split; [|now split]. split; [exact G1|]. exists r. split; [exact G2|].
      destruct X4 as [X4|(d & X4 & X5)]; [now left|right]. exists d. split; [now apply DD|exact X5]. }
    destruct SH as [(d & X1 & X2)|(f0 & X1 & X2)]; [left; exists d; split; now apply DD|right].
    destruct (FF k i p s f0 K1 K2 X1) as (g & r & G1 & G2 & G3). destruct (FF k' i' p' s' f0 K3 K4 X2) as (g' & r' & G1' & G2' & G3').
    assert (r' = r) as -> by congruence. assert (g' = g) as -> by exact (unique_same _ _ _ _ _ (l_file_ids _ _ Hl) (proj1 G1') (proj1 G1) G2' G2).
    exists g. now split.
  - intros [P1 P2] Ns Nf. assert (NFID : ~ In "/"%char fid).
    { destruct ox as [x|]; [apply (P1 x); [rewrite A4; apply in_one; now left|now apply FA]|]. destruct file_id as [s|]; [rewrite (FI s eq_refl); now apply Nf|].
      destruct (FE eq_refl) as [->|F]; [exact Ns|congruence]. }
    split; [|intros d id Hd; rewrite D1 in Hd; now apply P2].
    intros f0 id Hf Eid. rewrite A5 in Hf. apply in_mid in Hf as [->|Hf].
    + unfold nf in Eid. fold v in Eid. rewrite new_file_id in Eid. congruence.
    + apply (P1 f0); [rewrite A4; apply in_one; now right|exact Eid].
  - exists nf. split; [exists A, (one ox), B; rewrite A4, A5; split; [reflexivity|]; split; [apply one_length|reflexivity]|].
    split; [apply new_file_href|]. split; [apply new_file_size|]. intros s Es. rewrite <- (FI s Es). apply new_file_id.
Qed.
