(** Proofs about places of File and Disk elements. *)
From Coq Require Import Lia Permutation.
From Verif Require Import PyBase PyBaseProofs PyDict PyDictProofs XmlModel NamesModel NetworkModel
  ItemModel ItemSpec HardwareModel HardwareSpec FindSpec DriveModel DriveSpec.
Local Open Scope nat_scope.

Lemma opt_eqb_eq : forall a b, opt_eqb a b = true <-> a = b.
Proof. intros [a|] [b|]; cbn; rewrite ?str_eqb_eq; split; congruence. Qed.

Lemma places_In : forall (A : Type) (f : A -> bool) l n j,
  In j (places f n l) <-> n <= j /\ exists x, nth_error l (j - n) = Some x /\ f x = true.
Proof.
  intros A f l. induction l as [|a l IH]; intros n j.
  - split; [intros []|]. intros (_ & x & H & _). now destruct (j - n).
  - assert (T : In j (places f (S n) l) <-> S n <= j /\ exists x, nth_error (a :: l) (j - n) = Some x /\ f x = true).
    { rewrite IH. split; intros (H1 & x & H2 & H3); (split; [exact H1|]); exists x; (split; [|exact H3]).
      - replace (j - n) with (S (j - S n)) by lia. exact H2.
      - replace (j - n) with (S (j - S n)) in H2 by lia. exact H2. }
    cbn [places]. destruct (f a) eqn:Ea.
    + cbn [In]. rewrite T. split.
      * intros [<-|(H1 & H2)]; [split; [lia|]; exists a; now rewrite Nat.sub_diag|split; [lia|exact H2]].
      * intros (H1 & H2). destruct (Nat.eq_dec n j) as [E|E]; [now left|right; split; [lia|exact H2]].
    + rewrite T. split; [intros (H1 & H2); split; [lia|exact H2]|]. intros (H1 & x & H2 & H3).
      destruct (Nat.eq_dec n j) as [<-|E]; [|split; [lia|now exists x]].
      rewrite Nat.sub_diag in H2. injection H2 as <-. congruence.
Qed.

Lemma find_place_Some : forall p tag k v j, find_place p tag k v = Ok (Some j) ->
  (exists e, nth_error (echildren p) j = Some e /\ etag e = tag /\ get_attr e k = v) /\
  forall j' e, nth_error (echildren p) j' = Some e -> etag e = tag -> get_attr e k = v -> j' = j.
Proof.
  intros p tag k v j H. unfold find_place in H.
  destruct (places (is_child tag k v) 0 (echildren p)) as [|a [|b l]] eqn:El; try discriminate. injection H as ->.
  assert (P : forall j', In j' [j] <-> exists e, nth_error (echildren p) j' = Some e /\ etag e = tag /\ get_attr e k = v).
  { intros j'. rewrite <- El, places_In, Nat.sub_0_r. unfold is_child. split.
    - intros (_ & x & H1 & H2). apply andb_true_iff in H2 as [H2 H3]. apply str_eqb_eq in H2. apply opt_eqb_eq in H3. eauto.
    - intros (x & H1 & H2 & H3). split; [lia|]. exists x. split; [exact H1|]. apply andb_true_iff. rewrite str_eqb_eq, opt_eqb_eq. now split. }
  split; [apply P; now left|]. intros j' e H1 H2 H3. destruct (proj2 (P j')) as [H|[]]; [eauto|congruence].
Qed.
Lemma find_place_None : forall p tag k v, find_place p tag k v = Ok None ->
  forall e, In e (echildren p) -> etag e = tag -> get_attr e k <> v.
Proof.
  intros p tag k v H e Hin H1 H2. unfold find_place in H.
  destruct (places (is_child tag k v) 0 (echildren p)) as [|a [|b l]] eqn:El; try discriminate.
  apply In_nth_error in Hin as [j Hj].
  assert (F : In j (places (is_child tag k v) 0 (echildren p))).
  { apply places_In. rewrite Nat.sub_0_r. split; [lia|]. exists e. split; [exact Hj|]. unfold is_child. apply andb_true_iff.
    rewrite str_eqb_eq, opt_eqb_eq. now split. }
  rewrite El in F. destruct F.
Qed.

(** ** Changing one child *)

Lemma split_at : forall (A : Type) (l : list A) j x, nth_error l j = Some x ->
  exists l1 l2, l = l1 ++ x :: l2 /\ length l1 = j /\ (forall f, update_at j f l = l1 ++ f x :: l2) /\ remove_at j l = l1 ++ l2.
Proof.
  intros A l. induction l as [|a l IH]; intros [|j] x H; try discriminate.
  - injection H as ->. exists [], l. repeat split.
  - apply IH in H as (l1 & l2 & -> & H1 & H2 & H3). exists (a :: l1), l2. cbn. rewrite H1, H3.
    split; [reflexivity|]. split; [reflexivity|]. split; [|reflexivity]. intros f. now rewrite H2.
Qed.
Lemma insert_split : forall (A : Type) j (x : A) l, exists l1 l2, l = l1 ++ l2 /\ insert_at j x l = l1 ++ x :: l2 /\ length l1 = Nat.min j (length l).
Proof.
  intros A j x. induction j as [|j IH]; intros l; [exists [], l; repeat split|].
  destruct l as [|a l]; [exists [], []; repeat split|]. destruct (IH l) as (l1 & l2 & -> & H1 & H2).
  exists (a :: l1), l2. cbn. rewrite H1, H2. repeat split.
Qed.

Lemma nth_mid : forall (A : Type) (l1 l2 : list A) x, nth_error (l1 ++ x :: l2) (length l1) = Some x.
Proof. intros. rewrite nth_error_app2 by lia. now rewrite Nat.sub_diag. Qed.

(** Elements with a tag. *)
Definition tagged (t : str) (l : list elem) : list elem := filter (fun e => str_eqb (etag e) t) l.
Lemma tagged_In : forall t l e, In e (tagged t l) <-> In e l /\ etag e = t.
Proof. intros. unfold tagged. rewrite filter_In, str_eqb_eq. reflexivity. Qed.
Lemma tagged_mid : forall t l1 x l2, etag x = t -> tagged t (l1 ++ x :: l2) = tagged t l1 ++ x :: tagged t l2.
Proof. intros t l1 x l2 <-. unfold tagged. rewrite filter_app. cbn [filter]. now rewrite str_eqb_refl. Qed.
Lemma tagged_app : forall t l1 l2, tagged t (l1 ++ l2) = tagged t l1 ++ tagged t l2.
Proof. intros. apply filter_app. Qed.

Lemma unique_perm : forall k l l', Permutation l l' -> unique_attr k l -> unique_attr k l'.
Proof.
  intros k l l' P [H1 H2]. split.
  - intros e He. apply H1. now apply (Permutation_in e (Permutation_sym P)).
  - now apply (Permutation_NoDup (Permutation_map (fun e => get_attr e k) P)).
Qed.
Lemma unique_cons : forall k x l, unique_attr k (x :: l) <->
  (exists s, get_attr x k = Some s /\ forall e, In e l -> get_attr e k <> Some s) /\ unique_attr k l.
Proof.
  intros k x l. unfold unique_attr. cbn [map]. split.
  - intros [H1 H2]. inversion H2 as [|a b Hn ND]; subst. destruct (H1 x (or_introl eq_refl)) as [s Hs].
    split; [|split; [intros e He; apply H1; now right|exact ND]]. exists s. split; [exact Hs|]. intros e He F. apply Hn.
    apply in_map_iff. exists e. split; [congruence|exact He].
  - intros [(s & Hs & Hn) [H1 H2]]. split.
    + intros e [<-|He]; [now exists s|now apply H1].
    + constructor; [|exact H2]. intros F. apply in_map_iff in F as (e & F & He). apply (Hn e He). congruence.
Qed.
Lemma unique_same : forall k l e f s, unique_attr k l -> In e l -> In f l -> get_attr e k = Some s -> get_attr f k = Some s -> e = f.
Proof.
  intros k l. induction l as [|a l IH]; intros e f s U He Hf E1 E2; [destruct He|].
  apply unique_cons in U as [(t & Ht & Hn) U]. destruct He as [<-|He], Hf as [<-|Hf]; [reflexivity| | |now apply (IH e f s)].
  - exfalso. apply (Hn f Hf). congruence.
  - exfalso. apply (Hn e He). congruence.
Qed.

(** The same by the lists of Files and Disks. *)
Record linked_lists (v : version) (fs ds : list elem) (h : hw) : Prop := {
  ll_file_ids : unique_attr (FILE_ID v) fs;
  ll_file_names : unique_attr (FILE_HREF v) fs;
  ll_disk_ids : unique_attr (DISK_ID v) ds;
  ll_disk_files : forall d r, In d ds -> get_attr d (DISK_FILE_REF v) = Some r ->
    exists f, In f fs /\ get_attr f (FILE_ID v) = Some r;
  ll_drive_disks : forall k i p s id, In (k, i) h -> own (i_props i) HOST_RESOURCE p (VStr s) ->
    refers_disk v s id -> exists d, In d ds /\ get_attr d (DISK_ID v) = Some id;
  ll_drive_files : forall k i p s id, In (k, i) h -> own (i_props i) HOST_RESOURCE p (VStr s) ->
    refers_file v s id -> exists f, In f fs /\ get_attr f (FILE_ID v) = Some id }.
Lemma linked_linked : forall v m, linked v m <-> linked_lists v (files v m) (disks v m) (m_hw m).
Proof. intros v m. split; intros [H1 H2 H3 H4 H5 H6]; constructor; assumption. Qed.
Lemma linked_perm : forall v fs fs' ds ds' h, Permutation fs fs' -> Permutation ds ds' ->
  linked_lists v fs ds h -> linked_lists v fs' ds' h.
Proof.
  intros v fs fs' ds ds' h P Q [H1 H2 H3 H4 H5 H6].
  assert (A : forall e, In e fs -> In e fs') by (intros e; now apply Permutation_in).
  assert (B : forall e, In e ds -> In e ds') by (intros e; now apply Permutation_in).
  constructor; [now apply (unique_perm _ fs)|now apply (unique_perm _ fs)|now apply (unique_perm _ ds)| | |].
  - intros d r Hd Hr. apply (Permutation_in d (Permutation_sym Q)) in Hd. destruct (H4 d r Hd Hr) as (f & Hf & E). eauto.
  - intros k i p s id K1 K2 K3. destruct (H5 k i p s id K1 K2 K3) as (f & Hf & E). eauto.
  - intros k i p s id K1 K2 K3. destruct (H6 k i p s id K1 K2 K3) as (f & Hf & E). eauto.
Qed.
