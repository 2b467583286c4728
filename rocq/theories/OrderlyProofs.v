(** Proofs that a package stays in order. *)
From Coq Require Import Lia ZArith.
From Verif Require Import PyBase PyBaseProofs PyDict PyDictProofs ValidationModel XmlModel NamesModel
  ItemModel ItemSpec HardwareModel HardwareSpec HardwareProofs HardwareIdProofs CountSpec FindSpec FindProofs
  NetworkModel DriveModel DriveSpec LinkProofs SearchProofs AddProofs AddDiskProofs RemoveProofs AddFileProofs.
Local Open Scope nat_scope.

Theorem add_disk_orderly : forall agree E fuel guess m im dt file_id controller subtype address diskname desc m' k,
  orderly E m -> no_slash im file_id -> (dt = L "harddisk" -> disk_ids_apart (e_ver E) m im file_id) ->
  (forall c, controller = Some c -> known_type c) -> known_type (guess dt) ->
  add_disk_worker agree E fuel guess m im dt file_id controller subtype address diskname desc = Ok (m', k) ->
  orderly E m' /\
  exists f i s t ck ci ct,
    replaced (files (e_ver E) m) (files (e_ver E) m') f /\
    get_attr f (FILE_HREF (e_ver E)) = Some (im_name im) /\ get_attr f (FILE_SIZE (e_ver E)) = Some (zdec (im_size im)) /\
    dget str_eqb (im_name im) (m_sources m') = Some (im_dir im) /\ same_sources (e_ver E) m m' (im_name im) /\
    In (k, i) (m_hw m') /\ present E i None /\
    dget str_eqb dt RES_MAP = Some t /\ only_value (i_props i) RESOURCE_TYPE (VStr t) /\
    only_value (i_props i) HOST_RESOURCE (VStr s) /\ file_of (e_ver E) m' s f /\
    (dt = L "harddisk" -> exists d, replaced (disks (e_ver E) m) (disks (e_ver E) m') d /\ disk_of (e_ver E) m' s d) /\
    (dt <> L "harddisk" -> removed (disks (e_ver E) m) (disks (e_ver E) m')) /\
    only_value (i_props i) PARENT (VStr ck) /\ In (ck, ci) (m_hw m') /\ (ck <> k -> is_a ct ci) /\ (forall c, controller = Some c -> ct = c) /\
    (forall k' j, k' <> k -> k' <> ck -> (In (k', j) (m_hw m') <-> In (k', j) (m_hw m))).
Proof.
  intros agree E fuel guess m im dt file_id controller subtype address diskname desc m' k [O1 O2 O3 O4 O5 O6 O7 O8] [N1 N2] HD HC HG H.
  apply worker_links in H as (A1 & A2 & A3 & A4 & A5 & A6 & A7 & f & i & s & t & ck & ci & ct & B1 & B2 & B3 & B4 & B5 & B6 & B7); try assumption; [|intros _; exact O7].
  split; [constructor; auto|]. exists f, i, s, t, ck, ci, ct. now repeat (split; [assumption|]).
Qed.

Theorem add_file_orderly : forall agree E m im file_id m',
  orderly E m -> no_slash im file_id -> ids_agree (e_ver E) m im file_id -> add_file_run agree E m im file_id = Ok m' ->
  orderly E m' /\ m_hw m' = m_hw m /\ m_disks m' = m_disks m /\
  same_sources (e_ver E) m m' (im_name im) /\ dget str_eqb (im_name im) (m_sources m') = Some (im_dir im) /\
  exists f, replaced (files (e_ver E) m) (files (e_ver E) m') f /\
    get_attr f (FILE_HREF (e_ver E)) = Some (im_name im) /\ get_attr f (FILE_SIZE (e_ver E)) = Some (zdec (im_size im)) /\
    (forall s, file_id = Some s -> get_attr f (FILE_ID (e_ver E)) = Some s).
Proof.
  intros agree E m im file_id m' [O1 O2 O3 O4 O5 O6 O7 O8] [N1 N2] [C1 C2] H.
  apply add_file_links in H as (A1 & A2 & A3 & A4 & A5 & A6 & A7 & A8 & A9); try assumption.
  assert (D : disks (e_ver E) m' = disks (e_ver E) m) by (unfold disks; now rewrite A3).
  split; [|now repeat (split; [assumption|])]. constructor; auto; try (rewrite A2; assumption).
  - intros k i Hin. rewrite A2 in Hin. exact (O4 k i Hin).
  - unfold one_disk. rewrite D. exact O6.
Qed.

Theorem remove_file_orderly : forall agree E m path id m',
  orderly E m -> remove_file_run agree E m path id = Ok m' ->
  orderly E m' /\
  exists f A B, files (e_ver E) m = A ++ f :: B /\ files (e_ver E) m' = A ++ B /\
    (forall p, path = Some p -> get_attr f (FILE_HREF (e_ver E)) = Some p) /\ (forall s, id = Some s -> get_attr f (FILE_ID (e_ver E)) = Some s) /\
    (exists h, get_attr f (FILE_HREF (e_ver E)) = Some h /\ forall h', h' <> h -> dget str_eqb h' (m_sources m') = dget str_eqb h' (m_sources m)) /\
    (exists o C D, disks (e_ver E) m = C ++ o ++ D /\ disks (e_ver E) m' = C ++ D /\
       (forall d, In d o <-> In d (disks (e_ver E) m) /\ get_attr d (DISK_FILE_REF (e_ver E)) = get_attr f (FILE_ID (e_ver E)))) /\
    (forall k i, In (k, i) (m_hw m) -> (forall p s, own (i_props i) HOST_RESOURCE p (VStr s) -> ~ file_of (e_ver E) m s f) -> In (k, i) (m_hw m')) /\
    (forall k i p s, In (k, i) (m_hw m) -> own (i_props i) HOST_RESOURCE p (VStr s) -> file_of (e_ver E) m s f ->
       (only_value (i_props i) RESOURCE_TYPE (VStr (L "17")) /\ ~ taken (m_hw m') k) \/
       (only_value (i_props i) RESOURCE_TYPE (VStr (L "15")) /\ exists i', In (k, i') (m_hw m') /\
          (forall q w, ~ own (i_props i') HOST_RESOURCE q w) /\
          (forall n q w, n <> HOST_RESOURCE -> (own (i_props i') n q w <-> own (i_props i) n q w)))) /\
    (forall k, taken (m_hw m') k -> taken (m_hw m) k).
Proof.
  intros agree E m path id m' [O1 O2 O3 O4 O5 O6 O7 O8] H.
  apply remove_links in H as (A1 & A2 & A3 & A4 & A5 & f & A & B & B1 & B2 & B3 & B4 & B5 & B6 & (o & C & D & D1 & D2 & D3) & B7); try assumption.
  assert (IF : forall e, In e (files (e_ver E) m') -> In e (files (e_ver E) m)).
  { intros e. rewrite B1, B2, !in_app_iff. cbn [In]. tauto. }
  assert (ID : forall e, In e (disks (e_ver E) m') -> In e (disks (e_ver E) m)).
  { intros e. rewrite D1, D2, !in_app_iff. tauto. }
  split.
  - constructor; auto.
    + split; [intros g x Hg; apply (proj1 O5 g x); now apply IF|intros g x Hg; apply (proj2 O5 g x); now apply ID].
    + intros d d' r Hd Hd'. apply (O6 d d' r); now apply ID.
  - exists f, A, B. do 4 (split; [assumption|]). split; [exact B6|]. split; [now exists o, C, D|exact B7].
Qed.

Theorem managed_orderly : forall E m m', orderly E m -> managed E m m' -> orderly E m'.
Proof.
  intros E m m' H M. induction M as [m|m m1 agree fuel guess im dt file_id controller subtype address diskname desc m2 k M IH N D C G R
    |m m1 agree im file_id m2 M IH N C R|m m1 agree path file_id m2 M IH R].
  - exact H.
  - exact (proj1 (add_disk_orderly agree E fuel guess m1 im dt file_id controller subtype address diskname desc m2 k (IH H) N D C G R)).
  - exact (proj1 (add_file_orderly agree E m1 im file_id m2 (IH H) N C R)).
  - exact (proj1 (remove_file_orderly agree E m1 path file_id m2 (IH H) R)).
Qed.
