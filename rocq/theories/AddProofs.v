(** Proofs about adding files and disks to the descriptor. *)
From Coq Require Import Lia Permutation Sorted.
From Verif Require Import PyBase PyBaseProofs PyDict PyDictProofs ValidationModel XmlModel NamesModel NetworkModel UnitsModel
  ItemModel ItemSpec HardwareModel HardwareSpec FindSpec DriveModel DriveSpec LinkProofs SearchProofs.
Local Open Scope nat_scope.

Definition new_file (v : version) (im : image) (fid : str) : elem := file_elem v fid (im_name im) (zdec (im_size im)).
Lemma new_file_id : forall v im fid, get_attr (new_file v im fid) (FILE_ID v) = Some fid.
Proof. intros []; reflexivity. Qed.
Lemma new_file_href : forall v im fid, get_attr (new_file v im fid) (FILE_HREF v) = Some (im_name im).
Proof. intros []; reflexivity. Qed.
Lemma new_file_size : forall v im fid, get_attr (new_file v im fid) (FILE_SIZE v) = Some (zdec (im_size im)).
Proof. intros []; reflexivity. Qed.
Lemma new_file_tag : forall v im fid, etag (new_file v im fid) = FILE v.
Proof. reflexivity. Qed.

Lemma children_set : forall c e, echildren (set_children c e) = c.
Proof. intros c []. reflexivity. Qed.

Definition one (o : option elem) : list elem := match o with Some x => [x] | None => [] end.

Theorem add_file_spec : forall v m im fid file disk m' j ox, add_file v m im fid file disk = Ok (m', j) ->
  (match file, ox with Some f, Some x => file_at v m f x | None, None => True | _, _ => False end) ->
  m_disks m' = m_disks m /\ m_hw m' = m_hw m /\ file_at v m' j (new_file v im fid) /\
  (exists A B, files v m = A ++ one ox ++ B /\ files v m' = A ++ new_file v im fid :: B) /\
  m_sources m' = dset str_eqb (im_name im) (im_dir im)
    (match ox with
     | Some x => match get_attr x (FILE_HREF v) with Some h => ddel str_eqb h (m_sources m) | None => m_sources m end
     | None => m_sources m end).
Proof.
  intros v m im fid file disk m' j ox H Hx. unfold add_file in H. fold (new_file v im fid) in H.
  destruct file as [f|], ox as [x|]; try contradiction.
  - rewrite (attr_file _ _ _ _ _ Hx) in H. cbn [rbind] in H. injection H as <- <-.
    destruct Hx as [Hx Ht]. destruct (split_at _ _ _ _ Hx) as (l1 & l2 & E1 & E2 & E3 & _).
    split; [reflexivity|]. split; [reflexivity|]. split.
    + split; [|reflexivity]. cbn. rewrite children_set, E3, <- E2. apply nth_mid.
    + split; [|reflexivity]. exists (tagged (FILE v) l1), (tagged (FILE v) l2). unfold files. cbn [m_refs with_refs with_sources].
      rewrite children_set, E3, E1. split; [apply (tagged_mid (FILE v) l1 x l2 Ht)|now apply (tagged_mid (FILE v) l1 _ l2)].
  - destruct disk as [d|].
    + destruct (the_disks m) as [sec|]; [|discriminate]. cbn [rbind] in H.
      destruct (index_nat d _) as [di|]; [|discriminate]. destruct (next_file _ _ _ _ _) as [p|]; [|discriminate]. cbn [rbind] in H.
      injection H as <- <-. destruct (insert_split _ p (new_file v im fid) (echildren (m_refs m))) as (l1 & l2 & E1 & E2 & E3).
      split; [reflexivity|]. split; [reflexivity|]. split.
      * split; [|reflexivity]. cbn. rewrite children_set, E2, <- E3. apply nth_mid.
      * split; [|reflexivity]. exists (tagged (FILE v) l1), (tagged (FILE v) l2). unfold files. cbn [m_refs with_refs with_sources].
        rewrite children_set, E2, E1. split; [apply tagged_app|now apply (tagged_mid (FILE v) l1 _ l2)].
    + injection H as <- <-. split; [reflexivity|]. split; [reflexivity|]. split.
      * split; [|reflexivity]. cbn. rewrite children_set. apply nth_mid.
      * split; [|reflexivity]. exists (files v m), []. unfold files. cbn [m_refs with_refs with_sources]. rewrite children_set.
        split; [cbn; now rewrite app_nil_r|]. now apply (tagged_mid (FILE v) _ _ []).
Qed.

(** ** Disks *)

Lemma capacity_shape : forall fuel v c cap, capacity_attrs fuel v c = Ok cap ->
  (v = V0 /\ exists a, cap = [(DISK_CAPACITY v, a)]) \/ (v <> V0 /\ exists a b, cap = [(DISK_CAPACITY v, a); (DISK_CAP_UNITS v, b)]).
Proof.
  intros fuel v c cap H. unfold capacity_attrs in H. destruct v.
  - left. split; [reflexivity|]. injection H as <-. eauto.
  - right. split; [discriminate|]. destruct (int_bytes_to_programmatic_units fuel c) as [[a b]|]; [|discriminate]. cbn [rbind fst snd] in H. injection H as <-. eauto.
  - right. split; [discriminate|]. destruct (int_bytes_to_programmatic_units fuel c) as [[a b]|]; [|discriminate]. cbn [rbind fst snd] in H. injection H as <-. eauto.
Qed.
Lemma disk_elem_id : forall fuel v c cap id fid, capacity_attrs fuel v c = Ok cap -> get_attr (disk_elem v cap (Some id) fid) (DISK_ID v) = Some id.
Proof. intros fuel v c cap id fid H. apply capacity_shape in H as [[-> (a & ->)]|[N (a & b & ->)]]; [reflexivity|]. destruct v; [congruence|reflexivity..]. Qed.
Lemma disk_elem_ref : forall fuel v c cap id fid, capacity_attrs fuel v c = Ok cap -> get_attr (disk_elem v cap (Some id) fid) (DISK_FILE_REF v) = Some fid.
Proof. intros fuel v c cap id fid H. apply capacity_shape in H as [[-> (a & ->)]|[N (a & b & ->)]]; [reflexivity|]. destruct v; [congruence|reflexivity..]. Qed.

Lemma disks_Some : forall v m sec, m_disks m = Some sec -> disks v m = tagged (DISK v) (echildren sec).
Proof. intros v m sec H. unfold disks. now rewrite H. Qed.

Theorem add_hard_disk : forall fuel v m im fid disk m' oj oy, add_disk fuel v m im fid (L "harddisk") disk = Ok (m', oj) ->
  (match disk, oy with Some d, Some y => disk_at v m d y /\ exists id, get_attr y (DISK_ID v) = Some id | None, None => True | _, _ => False end) ->
  m_refs m' = m_refs m /\ m_hw m' = m_hw m /\ m_sources m' = m_sources m /\
  exists j new A B, oj = Some j /\ disk_at v m' j new /\ disks v m = A ++ one oy ++ B /\ disks v m' = A ++ new :: B /\
    get_attr new (DISK_FILE_REF v) = Some fid /\
    get_attr new (DISK_ID v) = match oy with Some y => get_attr y (DISK_ID v) | None => Some fid end.
Proof.
  intros fuel v m im fid disk m' oj oy H Hy. unfold add_disk in H. rewrite str_eqb_refl in H. cbn [negb] in H.
  destruct (capacity_attrs fuel v (im_capacity im)) as [cap|] eqn:Ec; [|discriminate]. cbn [rbind] in H.
  destruct disk as [d|], oy as [y|]; try contradiction.
  - destruct Hy as [(sec & Hs & Hn & Ht) [id Hid]]. rewrite Hs in H. unfold attr_at, child_at in H. rewrite Hn in H. cbn [rbind] in H.
    rewrite Hid in H. injection H as <- <-. split; [reflexivity|]. split; [reflexivity|]. split; [reflexivity|].
    destruct (split_at _ _ _ _ Hn) as (l1 & l2 & E1 & E2 & E3 & _).
    exists d, (disk_elem v cap (Some id) fid), (tagged (DISK v) l1), (tagged (DISK v) l2).
    split; [reflexivity|]. split.
    { eexists. split; [reflexivity|]. rewrite children_set, E3, <- E2. split; [apply nth_mid|reflexivity]. }
    split; [rewrite (disks_Some v m sec Hs), E1; apply (tagged_mid (DISK v) l1 y l2 Ht)|].
    split. { unfold disks. cbn [m_disks with_disks]. rewrite children_set, E3. now apply (tagged_mid (DISK v) l1 _ l2). }
    rewrite (disk_elem_id _ _ _ _ _ _ Ec), (disk_elem_ref _ _ _ _ _ _ Ec), Hid. now split.
  - injection H as <- <-. split; [reflexivity|]. split; [reflexivity|]. split; [reflexivity|].
    set (sec := match m_disks m with Some s => s | None => new_disk_section v end).
    exists (length (echildren sec)), (disk_elem v cap (Some fid) fid), (disks v m), [].
    split; [reflexivity|]. split.
    { eexists. split; [reflexivity|]. rewrite children_set. split; [apply nth_mid|reflexivity]. }
    split; [cbn; now rewrite app_nil_r|]. split.
    { assert (D : disks v m = tagged (DISK v) (echildren sec)).
      { unfold sec. destruct (m_disks m) as [s|] eqn:Es; [now apply disks_Some|]. unfold disks. rewrite Es. destruct v; reflexivity. }
      rewrite D. unfold disks. cbn [m_disks with_disks]. rewrite children_set. now apply (tagged_mid (DISK v) (echildren sec) _ []). }
    rewrite (disk_elem_id _ _ _ _ _ _ Ec), (disk_elem_ref _ _ _ _ _ _ Ec). now split.
Qed.

Theorem add_other_disk : forall fuel v m im fid dt disk m' oj oy, dt <> L "harddisk" ->
  add_disk fuel v m im fid dt disk = Ok (m', oj) ->
  (match disk, oy with Some d, Some y => disk_at v m d y | None, None => True | _, _ => False end) ->
  m_refs m' = m_refs m /\ m_hw m' = m_hw m /\ m_sources m' = m_sources m /\
  exists A B, disks v m = A ++ one oy ++ B /\ disks v m' = A ++ B.
Proof.
  intros fuel v m im fid dt disk m' oj oy Hdt H Hy. unfold add_disk in H. apply str_eqb_neq in Hdt. rewrite Hdt in H. cbn [negb] in H.
  destruct disk as [d|], oy as [y|]; try contradiction.
  - destruct Hy as (sec & Hs & Hn & Ht). rewrite Hs in H. injection H as <- <-. split; [reflexivity|]. split; [reflexivity|]. split; [reflexivity|].
    destruct (split_at _ _ _ _ Hn) as (l1 & l2 & E1 & E2 & _ & E3). exists (tagged (DISK v) l1), (tagged (DISK v) l2).
    split; [rewrite (disks_Some v m sec Hs), E1; apply (tagged_mid (DISK v) l1 y l2 Ht)|].
    rewrite E3, <- tagged_app. destruct (existsb _ (l1 ++ l2)) eqn:Ee; unfold disks; cbn [m_disks with_disks].
    + now rewrite children_set.
    + destruct (tagged (DISK v) (l1 ++ l2)) as [|e l] eqn:El; [reflexivity|]. exfalso.
      assert (F : In e (tagged (DISK v) (l1 ++ l2))) by (rewrite El; now left). apply tagged_In in F as [F1 F2].
      assert (X : existsb (fun e => str_eqb (etag e) (DISK v)) (l1 ++ l2) = true) by (apply existsb_exists; exists e; split; [exact F1|now apply str_eqb_eq]).
      congruence.
  - assert (H' : Ok (m, None) = Ok (m', oj)) by (destruct (m_disks m); exact H). injection H' as <- <-.
    split; [reflexivity|]. split; [reflexivity|]. split; [reflexivity|]. exists (disks v m), []. cbn. rewrite !app_nil_r. now split.
Qed.

(** ** Identifiers and references afterwards *)

Lemma swap_perm : forall (A B : list elem) o, Permutation (A ++ one o ++ B) (one o ++ A ++ B).
Proof. intros A B o. rewrite !app_assoc. apply Permutation_app_tail, Permutation_app_comm. Qed.

(** A new or replaced element with an identifier that no other has. *)
Lemma unique_replace : forall k A o B x s, unique_attr k (A ++ one o ++ B) -> get_attr x k = Some s ->
  (forall e, In e (A ++ B) -> get_attr e k <> Some s) -> unique_attr k (A ++ x :: B).
Proof.
  intros k A o B x s U Hx Hn. apply (unique_perm k (x :: A ++ B)); [apply Permutation_middle|].
  apply unique_cons. split; [now exists s|].
  apply (unique_perm k _ _ (swap_perm A B o)) in U. destruct o as [y|]; [|exact U]. cbn in U. now apply unique_cons in U.
Qed.
Lemma unique_remove : forall k A o B, unique_attr k (A ++ one o ++ B) -> unique_attr k (A ++ B).
Proof.
  intros k A o B U. apply (unique_perm k _ _ (swap_perm A B o)) in U. destruct o as [y|]; [|exact U]. now apply unique_cons in U.
Qed.
Lemma unique_rest : forall k A x B s e, unique_attr k (A ++ one (Some x) ++ B) -> get_attr x k = Some s -> In e (A ++ B) -> get_attr e k <> Some s.
Proof.
  intros k A x B s e U Hx He. apply (unique_perm k _ _ (swap_perm A B (Some x))) in U. cbn in U.
  apply unique_cons in U as [(t & Ht & Hn) _]. assert (t = s) as -> by congruence. now apply Hn.
Qed.
