(** Proofs about when files can be added and removed. *)
From Coq Require Import Lia Permutation.
From Verif Require Import PyBase PyBaseProofs PyDict PyDictProofs ValidationModel ValidationSpec ValidationProofs XmlModel NamesModel
  ItemModel ItemSpec PsetProofs ItemProofs ItemSetProofs ItemReachProofs
  ItemEffectProofs HardwareModel HardwareSpec HardwareProofs HardwareIdProofs CountSpec CountItemProofs CountProofs FindSpec FindProofs
  RawModel NetworkModel DriveModel DriveSpec SlotProofs DeviceProofs LinkProofs SearchProofs AcceptSpec.
Local Open Scope nat_scope.

(** ** Finding one element *)

Lemma places_two : forall (A : Type) (f : A -> bool) l n a b r, places f n l = a :: b :: r ->
  exists l1 x l2 y l3, l = l1 ++ x :: l2 ++ y :: l3 /\ f x = true /\ f y = true.
Proof.
  intros A f. induction l as [|z l IH]; intros n a b r H; [discriminate|]. cbn [places] in H. destruct (f z) eqn:Fz.
  - injection H as <- H. assert (G : exists l2 y l3, l = l2 ++ y :: l3 /\ f y = true).
    { assert (P : In b (places f (S n) l)) by (rewrite H; now left). apply places_In in P as (_ & y & P1 & P2).
      apply split_at in P1 as (l2 & l3 & P1 & _). eauto. }
    destruct G as (l2 & y & l3 & -> & Fy). now exists [], z, l2, y, l3.
  - apply IH in H as (l1 & x & l2 & y & l3 & -> & Fx & Fy). now exists (z :: l1), x, l2, y, l3.
Qed.

Lemma find_place_ok : forall p tag k o,
  (forall l1 x l2 y l3, echildren p = l1 ++ x :: l2 ++ y :: l3 -> etag x = tag -> etag y = tag ->
     get_attr x k = o -> get_attr y k = o -> False) -> exists r, find_place p tag k o = Ok r.
Proof.
  intros p tag k o H. unfold find_place. destruct (places (is_child tag k o) 0 (echildren p)) as [|a [|b r]] eqn:P; [eauto..|].
  exfalso. apply places_two in P as (l1 & x & l2 & y & l3 & P & Fx & Fy). unfold is_child in Fx, Fy.
  apply andb_true_iff in Fx as [X1 X2]. apply andb_true_iff in Fy as [Y1 Y2].
  apply str_eqb_eq in X1, Y1. apply opt_eqb_eq in X2, Y2. eapply H; eassumption.
Qed.

Lemma unique_twice : forall k tag c l1 x l2 y l3, unique_attr k (tagged tag c) -> c = l1 ++ x :: l2 ++ y :: l3 ->
  etag x = tag -> etag y = tag -> get_attr x k <> get_attr y k.
Proof.
  intros k tag c l1 x l2 y l3 [_ N] -> Tx Ty E. rewrite tagged_mid, tagged_mid, map_app in N by assumption. cbn [map] in N.
  apply NoDup_remove_2 in N. apply N. rewrite map_app. apply in_or_app. right. apply in_or_app. right. left. now symmetry.
Qed.

Section Package.
  Variables (E : env) (m : vmd).
  Hypotheses (O : orderly E m) (A : attached E m) (S : sortable m).
  Local Notation v := (e_ver E).

  Lemma acc_ids : ids_ok v (m_hw m).
  Proof. exact (o_ids _ _ O). Qed.

  Lemma find_file_ok : forall k s, k = FILE_ID v \/ k = FILE_HREF v -> exists r, find_place (m_refs m) (FILE v) k s = Ok r.
  Proof.
    intros k s K. apply find_place_ok. intros l1 x l2 y l3 Ec Tx Ty Ax Ay.
    assert (U : unique_attr k (files v m)) by (destruct K as [-> | ->]; apply (o_linked _ _ O)).
    apply (unique_twice k (FILE v) _ l1 x l2 y l3 U Ec Tx Ty). congruence.
  Qed.

  Lemma find_disk_ok : forall id, exists r, find_disk_from_file_id v m (Some id) = Ok r.
  Proof.
    intros id. unfold find_disk_from_file_id. destruct (m_disks m) as [sec|] eqn:Ed; [|eauto].
    apply find_place_ok. intros l1 x l2 y l3 Ec Tx Ty Ax Ay.
    pose proof (l_disk_ids _ _ (o_linked _ _ O)) as U. unfold disks in U. rewrite Ed in U.
    apply (unique_twice _ (DISK v) _ l1 x l2 y l3 U Ec Tx Ty). f_equal.
    apply (o_disk _ _ O) with (r := id); try assumption; unfold disks; rewrite Ed; apply filter_In; rewrite str_eqb_eq;
      (split; [rewrite Ec|assumption]); apply in_or_app; right; [now left|right; apply in_or_app; right; now left].
  Qed.

  Lemma find_one_ok : forall o, (forall k k', (exists i, In (k, i) (m_hw m) /\ wanted E None o [None] i) ->
      (exists i, In (k', i) (m_hw m) /\ wanted E None o [None] i) -> k = k') -> plain_conditions v o ->
    exists r, find_item E (m_hw m) None o None = Ok r.
  Proof.
    intros o U P. pose proof (find_item_wanted E (m_hw m) None o None acc_ids P) as W.
    destruct (find_item E (m_hw m) None o None) as [r|e]; [eauto|]. exfalso. destruct S as [keys Sk].
    assert (X : (exists s, natural_sort (map fst (m_hw m)) = Err s) \/ (exists t, None = Some t /\ dget str_eqb t RES_MAP = None) -> False)
      by (intros [[s X]|(t & X & _)]; congruence).
    destruct e; try exact (X W). destruct W as (k & i & k' & i' & H1 & H2 & N & W1 & W2). apply N. apply U; eauto.
  Qed.

  Lemma by_host_ok : forall (new old id : str),
    (forall k k' s s', drive_ref m k s -> drive_ref m k' s' -> s = new ++ id \/ s = old ++ id -> s' = new ++ id \/ s' = old ++ id -> k = k') ->
    exists r, find_by_host E m new old (Some id) = Ok r.
  Proof.
    intros new old id U. unfold find_by_host. cbn [plus rbind].
    assert (G : forall t, t = new ++ id \/ t = old ++ id -> exists r, find_item E (m_hw m) None [(HOST_RESOURCE, Some (VStr t))] None = Ok r).
    { intros t T. apply find_one_ok; [|apply HR_plain_cond]. intros k k' (i & Hi & _ & _ & W) (i' & Hi' & _ & _ & W').
      destruct (W _ (or_introl eq_refl)) as [[p Hp] _]. destruct (W' _ (or_introl eq_refl)) as [[p' Hp'] _].
      apply (U k k' t t); [now exists i, p|now exists i', p'|exact T|exact T]. }
    destruct (G _ (or_introl eq_refl)) as [r ->]. cbn [rbind]. destruct r as [k|]; [eauto|]. apply G. now right.
  Qed.

  Lemma parent_ok : forall k s, drive_ref m k s -> exists c, find_parent_from_item E m (Some k) = Ok (Some c).
  Proof.
    intros k s (i & p & Hin & Ho). destruct (A k i p _ Hin Ho) as (ck & ci & Hp & Hc & Pc). cbn [find_parent_from_item].
    unfold value_of. rewrite (proj2 (hitem_In (m_hw m) k i (proj1 acc_ids)) Hin). cbn [rbind].
    destruct (value_only E i PARENT (proj2 (ids_good E (m_hw m) k i acc_ids Hin)) (PARENT_not_text E)) as (o & -> & Ev).
    rewrite (proj2 (Ev _) Hp). cbn [rbind].
    assert (PC : plain_conditions v [(INSTANCE_ID v, Some (VStr ck))]) by (intros x [<-|[]]; apply IID_not_text).
    assert (W : wanted E None [(INSTANCE_ID v, Some (VStr ck))] [None] ci).
    { split; [discriminate|]. split; [intros q [<-|[]]; exact Pc|]. intros c [<-|[]]. split.
      - exact (o_named _ _ O ck ci Hc).
      - intros q w Hw. exact (proj2 (proj2 (o_ids _ _ O) ck ci Hc) q w Hw). }
    destruct (find_one_ok [(INSTANCE_ID v, Some (VStr ck))]) as [r Hr]; [|exact PC|].
    { assert (K : forall k, (exists i, In (k, i) (m_hw m) /\ wanted E None [(INSTANCE_ID v, Some (VStr ck))] [None] i) -> k = ck).
      { intros k0 (i0 & H0 & _ & _ & W0). destruct (W0 _ (or_introl eq_refl)) as [[q Hq] _].
        pose proof (proj2 (proj2 (o_ids _ _ O) k0 i0 H0) q _ Hq) as X. congruence. }
      intros k1 k2 H1 H2. rewrite (K k1 H1). symmetry. exact (K k2 H2). }
    rewrite Hr. destruct r as [c|]; [eauto|]. exfalso.
    exact (found_nothing E _ _ _ _ acc_ids PC Hr ck ci Hc W).
  Qed.

  (** ** From a File to its disk and drive *)

  Definition from_file (j : nat) : result found :=
    do id <- attr_at (m_refs m) j (FILE_ID v);
    do disk <- find_disk_from_file_id v m id;
    from_file_and_disk E m (Some j) disk.

  Lemma from_file_ok : forall j x, file_at v m j x -> exists d c k, from_file j = Ok (Some j, d, c, k) /\
    (forall d', d = Some d' -> exists sec, m_disks m = Some sec) /\ (forall k', k = Some k' -> exists s, drive_ref m k' s).
  Proof.
    intros j x Hx. unfold from_file. rewrite (attr_file _ _ _ _ _ Hx). cbn [rbind].
    destruct (proj1 (l_file_ids _ _ (o_linked _ _ O)) x (file_at_In _ _ _ _ Hx)) as [id Hid]. rewrite Hid.
    destruct (find_disk_ok id) as [disk Ed]. rewrite Ed. cbn [rbind]. apply find_disk_file_id in Ed.
    unfold from_file_and_disk. cbn [find_item_from_file]. rewrite (attr_file _ _ _ _ _ Hx). cbn [rbind]. rewrite Hid.
    assert (FO : forall s, refers_file v s id -> file_of v m s x).
    { intros s R. split; [exact (file_at_In _ _ _ _ Hx)|]. exists id. split; [exact Hid|now left]. }
    destruct (by_host_ok (FILE_REF v) OLD_FILE_REF id) as [o1 E1].
    { intros k k' s s' (i & p & H1 & H2) (i' & p' & H1' & H2') R R'.
      apply (o_drive _ _ O k i p s k' i' p' s' H1 H2 H1' H2'). right. exists x. split; now apply FO. }
    rewrite E1. cbn [rbind]. apply by_host in E1 as [B1 _]; [|exact acc_ids].
    assert (G1 : forall k, o1 = Some k -> exists s, drive_ref m k s /\ file_of v m s x).
    { intros k Hk. destruct (B1 k Hk) as (i & s & p & H1 & _ & H2 & H3). exists s. split; [now exists i, p|now apply FO]. }
    assert (G2 : exists o2, find_item_from_disk E m disk = Ok o2 /\ (forall k, o2 = Some k -> exists s, drive_ref m k s /\ file_of v m s x)).
    { destruct disk as [d|]; [|exists None; split; [reflexivity|discriminate]]. destruct Ed as (y & Hy & Ey). cbn [find_item_from_disk].
      destruct (proj1 (l_disk_ids _ _ (o_linked _ _ O)) y (disk_at_In _ _ _ _ Hy)) as [did Hdid].
      assert (DO : forall s, refers_disk v s did -> disk_of v m s y).
      { intros s R. split; [exact (disk_at_In _ _ _ _ Hy)|]. now exists did. }
      assert (Ea : (do s <- the_disks m; do id0 <- attr_at s d (DISK_ID v); find_by_host E m (DISK_REF v) OLD_DISK_REF id0) =
                   find_by_host E m (DISK_REF v) OLD_DISK_REF (Some did)).
      { pose proof (attr_disk v m d y (DISK_ID v) Hy) as X. destruct (the_disks m) as [sec|]; [|discriminate]. cbn [rbind] in X |- *.
        rewrite X. cbn [rbind]. now rewrite Hdid. }
      rewrite Ea. destruct (by_host_ok (DISK_REF v) OLD_DISK_REF did) as [o2 E2].
      { intros k k' s s' (i & p & H1 & H2) (i' & p' & H1' & H2') R R'.
        apply (o_drive _ _ O k i p s k' i' p' s' H1 H2 H1' H2'). left. exists y. split; now apply DO. }
      exists o2. split; [exact E2|]. apply by_host in E2 as [B2 _]; [|exact acc_ids]. intros k Hk.
      destruct (B2 k Hk) as (i & s & p & H1 & _ & H2 & H3). exists s. split; [now exists i, p|].
      split; [exact (file_at_In _ _ _ _ Hx)|]. exists id. split; [exact Hid|]. right. exists y. split; [now apply DO|]. exact Ey. }
    destruct G2 as (o2 & -> & G2). cbn [rbind].
    assert (C : exists k, check_for_conflict str_eqb [o1; o2] = Ok k /\ (forall k', k = Some k' -> exists s, drive_ref m k' s)).
    { destruct (check_for_conflict_spec str_eqb str_eqb_eq [o1; o2]) as (_ & C1 & C2 & C3).
      destruct (check_for_conflict str_eqb [o1; o2]) as [k|e] eqn:Ec.
      - exists k. split; [reflexivity|]. intros k' ->. destruct (proj1 (C1 k') eq_refl) as [[X|[X|[]]] _];
          [destruct (G1 k' X) as (s & X' & _)|destruct (G2 k' X) as (s & X' & _)]; eauto.
      - exfalso. rewrite (C3 e eq_refl) in C2. destruct (proj1 C2 eq_refl) as (a & b & Ha & Hb & N). apply N.
        assert (G : forall k, In (Some k) [o1; o2] -> exists s, drive_ref m k s /\ file_of v m s x) by (intros k [X|[X|[]]]; [now apply G1|now apply G2]).
        destruct (G a Ha) as (s & (i & p & H1 & H2) & F). destruct (G b Hb) as (s' & (i' & p' & H1' & H2') & F').
        apply (o_drive _ _ O a i p s b i' p' s' H1 H2 H1' H2'). right. now exists x. }
    destruct C as (k & -> & Ck). cbn [rbind].
    assert (Dk : forall d', disk = Some d' -> exists sec, m_disks m = Some sec).
    { intros d' ->. destruct Ed as (y & (sec & Y & _) & _). eauto. }
    destruct k as [k|].
    - destruct (Ck k eq_refl) as [s Hs]. destruct (parent_ok k s Hs) as [c ->]. cbn [rbind]. exists disk, (Some c), (Some k). auto.
    - cbn [find_parent_from_item rbind]. exists disk, None, None. auto.
  Qed.

  Lemma filename_eq : forall o, exists f, find_place (m_refs m) (FILE v) (FILE_HREF v) o = Ok f /\
    search_from_filename E m o = match f with None => Ok nothing | Some j => from_file j end.
  Proof.
    intros o. destruct (find_file_ok (FILE_HREF v) o (or_intror eq_refl)) as [f Ef]. exists f. split; [exact Ef|].
    unfold search_from_filename. rewrite Ef. cbn [rbind]. destruct f as [j|]; reflexivity.
  Qed.

  Lemma file_id_eq : forall s, exists f, find_place (m_refs m) (FILE v) (FILE_ID v) (Some s) = Ok f /\
    search_from_file_id E m (Some s) = match f with None => Ok nothing | Some j => from_file j end.
  Proof.
    intros s. destruct (find_file_ok (FILE_ID v) (Some s) (or_introl eq_refl)) as [f Ef]. exists f. split; [exact Ef|].
    unfold search_from_file_id. rewrite Ef. cbn [rbind]. destruct (find_disk_ok s) as [disk Ed]. rewrite Ed. cbn [rbind]. destruct f as [j|].
    - apply find_file in Ef as [(x & Hx & Ex) _]. unfold from_file. rewrite (attr_file _ _ _ _ _ Hx). cbn [rbind]. rewrite Ex, Ed. cbn [rbind].
      now destruct disk.
    - apply find_disk_file_id in Ed. destruct disk as [d|]; [|reflexivity]. exfalso. destruct Ed as (y & Hy & Ey).
      destruct (l_disk_files _ _ (o_linked _ _ O) y s (disk_at_In _ _ _ _ Hy) Ey) as (f & Hf & Hs).
      exact (find_no_file _ _ _ _ Ef f Hf Hs).
  Qed.

  Lemma found_file : forall k s f, k = FILE_ID v \/ k = FILE_HREF v -> find_place (m_refs m) (FILE v) k (Some s) = Ok f ->
    match f with
    | Some j => exists x, file_at v m j x /\ get_attr x k = Some s /\ forall y, In y (files v m) -> get_attr y k = Some s -> y = x
    | None => forall y, In y (files v m) -> get_attr y k <> Some s
    end.
  Proof.
    intros k s f K H. destruct f as [j|]; [|now apply find_no_file].
    apply find_file in H as [(x & Hx & Ex) _]. exists x. split; [exact Hx|]. split; [exact Ex|]. intros y Hy Ey.
    apply (unique_same k (files v m) y x s); try assumption; [|exact (file_at_In _ _ _ _ Hx)].
    destruct K as [-> | ->]; apply (o_linked _ _ O).
  Qed.

  Lemma same_place : forall j j' x, file_at v m j x -> file_at v m j' x -> j = j'.
  Proof.
    intros j j' x Hx Hx'. destruct (proj1 (l_file_ids _ _ (o_linked _ _ O)) x (file_at_In _ _ _ _ Hx)) as [id Hid].
    destruct (find_file_ok (FILE_ID v) (Some id) (or_introl eq_refl)) as [f Ef]. destruct f as [j0|].
    - apply find_file in Ef as [_ U]. rewrite (U j x Hx Hid). symmetry. now apply (U j' x).
    - exfalso. exact (find_no_file _ _ _ _ Ef x (file_at_In _ _ _ _ Hx) Hid).
  Qed.

  (** ** add-file *)

  Variable agree : prompt -> bool.

  Lemma add_done : forall im s file, (forall j, file = Some j -> exists x, file_at v m j x) -> exists mf, add_file v m im s file None = Ok mf.
  Proof.
    intros im s [j|] H; unfold add_file; cbv zeta; [|eauto]. destruct (H j eq_refl) as [x Hx]. rewrite (attr_file _ _ _ _ _ Hx). cbn [rbind]. eauto.
  Qed.

  Theorem add_file_accepted : forall im file_id,
    match add_file_run agree E m im file_id with
    | Ok _ => (forall f g, meant v m (Some (im_name im)) file_id f -> meant v m (Some (im_name im)) file_id g -> f = g) /\
              (forall f, meant v m (Some (im_name im)) file_id f -> agree (ReplaceFile (get_attr f (FILE_HREF v)) (im_name im)) = true)
    | Err EValueMismatch => exists f g, meant v m (Some (im_name im)) file_id f /\ meant v m (Some (im_name im)) file_id g /\ f <> g
    | Err ESystemExit => exists f, meant v m (Some (im_name im)) file_id f /\ agree (ReplaceFile (get_attr f (FILE_HREF v)) (im_name im)) = false
    | Err _ => False
    end.
  Proof.
    intros im file_id. unfold add_file_run. cbv zeta.
    destruct (filename_eq (Some (im_name im))) as (f1 & P1 & ->). apply found_file in P1; [|now right].
    assert (R1 : exists d c k, match f1 with None => Ok nothing | Some j => from_file j end = Ok (f1, d, c, k)).
    { destruct f1 as [j|]; [|now exists None, None, None]. destruct P1 as (x & Hx & _).
      destruct (from_file_ok j x Hx) as (d & c & k & -> & _). eauto. }
    destruct R1 as (d1 & c1 & i1 & ->). cbn [rbind].
    (* the File *)
    assert (F : (exists file, (match file_id with
                | Some _ => do r2 <- search_from_file_id E m file_id; let '(f2, _, _, _) := (r2 : found) in check_for_conflict Nat.eqb [f1; f2]
                | None => Ok f1 end) = Ok file /\
                match file with
                | Some j => exists x, file_at v m j x /\ (forall y, meant v m (Some (im_name im)) file_id y <-> y = x)
                | None => forall y, ~ meant v m (Some (im_name im)) file_id y
                end) \/
              ((match file_id with
                | Some _ => do r2 <- search_from_file_id E m file_id; let '(f2, _, _, _) := (r2 : found) in check_for_conflict Nat.eqb [f1; f2]
                | None => Ok f1 end) = Err EValueMismatch /\
               exists f g, meant v m (Some (im_name im)) file_id f /\ meant v m (Some (im_name im)) file_id g /\ f <> g)).
    { destruct file_id as [s|].
      - destruct (file_id_eq s) as (f2 & P2 & ->). apply found_file in P2; [|now left].
        assert (R2 : exists d c k, match f2 with None => Ok nothing | Some j => from_file j end = Ok (f2, d, c, k)).
        { destruct f2 as [j|]; [|now exists None, None, None]. destruct P2 as (x & Hx & _).
          destruct (from_file_ok j x Hx) as (d & c & k & -> & _). eauto. }
        destruct R2 as (d2 & c2 & i2 & ->). cbn [rbind]. clear d1 c1 i1 d2 c2 i2. destruct f1 as [j1|], f2 as [j2|].
        + destruct P1 as (x & Hx & Ex & Ux), P2 as (y & Hy & Ey & Uy). cbn. destruct (Nat.eqb j1 j2) eqn:J; cbn.
          * apply Nat.eqb_eq in J as <-. left. exists (Some j1). split; [reflexivity|]. exists x. split; [exact Hx|]. intros z. split.
            -- intros (Hz & [(t & Et & Az)|(t & Et & Az)]); injection Et as <-; [now apply Ux|]. rewrite (Uy z Hz Az). exact (file_at_fun _ _ _ _ _ Hy Hx).
            -- intros ->. split; [exact (file_at_In _ _ _ _ Hx)|]. left. eauto.
          * right. split; [reflexivity|]. exists x, y. split; [split; [exact (file_at_In _ _ _ _ Hx)|left; eauto]|].
            split; [split; [exact (file_at_In _ _ _ _ Hy)|right; eauto]|]. intros <-. apply Nat.eqb_neq in J. apply J. exact (same_place _ _ _ Hx Hy).
        + destruct P1 as (x & Hx & Ex & Ux). left. exists (Some j1). split; [reflexivity|]. exists x. split; [exact Hx|]. intros z. split.
          * intros (Hz & [(t & Et & Az)|(t & Et & Az)]); injection Et as <-; [now apply Ux|]. now apply P2 in Az.
          * intros ->. split; [exact (file_at_In _ _ _ _ Hx)|]. left. eauto.
        + destruct P2 as (y & Hy & Ey & Uy). left. exists (Some j2). split; [reflexivity|]. exists y. split; [exact Hy|]. intros z. split.
          * intros (Hz & [(t & Et & Az)|(t & Et & Az)]); injection Et as <-; [now apply P1 in Az|]. now apply Uy.
          * intros ->. split; [exact (file_at_In _ _ _ _ Hy)|]. right. eauto.
        + left. exists None. split; [reflexivity|]. intros z (Hz & [(t & Et & Az)|(t & Et & Az)]); injection Et as <-; [now apply P1 in Az|now apply P2 in Az].
      - left. exists f1. split; [reflexivity|]. destruct f1 as [j1|].
        + destruct P1 as (x & Hx & Ex & Ux). exists x. split; [exact Hx|]. intros z. split.
          * intros (Hz & [(t & Et & Az)|(t & Et & _)]); [|discriminate]. injection Et as <-. now apply Ux.
          * intros ->. split; [exact (file_at_In _ _ _ _ Hx)|]. left. eauto.
        + intros z (Hz & [(t & Et & Az)|(t & Et & _)]); [|discriminate]. injection Et as <-. now apply P1 in Az. }
    destruct F as [(file & -> & F)|(-> & F)]; cbn [rbind]; [|exact F].
    assert (I : exists id, (match file_id, file with
              | Some s, _ => Ok (Some s)
              | None, Some f => attr_at (m_refs m) f (FILE_ID v)
              | None, None => Ok (Some (im_name im)) end) = Ok (Some id)).
    { destruct file_id as [s|]; [eauto|]. destruct file as [j|]; [|eauto]. destruct F as (x & Hx & _). rewrite (attr_file _ _ _ _ _ Hx).
      destruct (proj1 (l_file_ids _ _ (o_linked _ _ O)) x (file_at_In _ _ _ _ Hx)) as [id ->]. eauto. }
    destruct I as [id ->]. cbn [rbind]. destruct file as [j|].
    - destruct F as (x & Hx & F). rewrite (attr_file _ _ _ _ _ Hx). cbn [rbind]. unfold confirm_or_die.
      destruct (agree (ReplaceFile (get_attr x (FILE_HREF v)) (im_name im))) eqn:Ea; cbn [rbind].
      + destruct (add_done im id (Some j)) as [mf ->]; [intros j' X; injection X as <-; eauto|]. cbn [rbind]. split.
        * intros f g Hf Hg. apply F in Hf, Hg. congruence.
        * intros f Hf. apply F in Hf as ->. exact Ea.
      + exists x. split; [now apply F|exact Ea].
    - cbn [rbind]. destruct (add_done im id None) as [mf ->]; [discriminate|]. cbn [rbind]. split; intros f; [intros g Hf|intros Hf]; now apply F in Hf.
  Qed.

  (** ** remove-file *)

  Hypothesis D : only_drives m.

  Lemma remove_done : forall j x d k, file_at v m j x -> (forall d', d = Some d' -> exists sec, m_disks m = Some sec) ->
    (forall k', k = Some k' -> exists s, drive_ref m k' s) -> exists m', remove_file E m j d k = Ok m'.
  Proof.
    intros j x d k Hx Hd Hk. unfold remove_file. cbv zeta. rewrite (attr_file _ _ _ _ _ Hx). cbn [rbind].
    destruct (proj1 (l_file_names _ _ (o_linked _ _ O)) x (file_at_In _ _ _ _ Hx)) as [h Hh]. rewrite Hh.
    assert (M : dmem str_eqb h (m_sources m) = true).
    { destruct (proj2 (proj2 (o_sourced _ _ O) h)) as [dir Hdir]; [exists x; split; [exact (file_at_In _ _ _ _ Hx)|exact Hh]|].
      unfold dmem. now rewrite Hdir. }
    rewrite M. cbn [negb].
    match goal with |- context [rbind ?t _] => assert (T : exists m2, t = Ok m2 /\ m_hw m2 = m_hw m) end.
    { destruct d as [d|]; [|eauto]. destruct (Hd d eq_refl) as [sec Es]. unfold the_disks. cbn [with_sources with_refs m_disks]. rewrite Es. cbn [rbind]. eauto. }
    destruct T as (m2 & -> & Hm2). cbn [rbind]. destruct k as [k|]; [|eauto]. destruct (Hk k eq_refl) as (s & i & p & Hin & Ho).
    pose proof (proj2 (hitem_In (m_hw m) k i (proj1 acc_ids)) Hin) as Hi.
    pose proof (proj2 (ids_good E (m_hw m) k i acc_ids Hin)) as G.
    unfold value_of. rewrite Hm2, Hi. cbn [rbind].
    destruct (value_only E i RESOURCE_TYPE G (RT_plain _)) as (o & -> & Ev). cbn [rbind].
    destruct (D k i p _ Hin Ho) as [T|T]; apply Ev in T as ->.
    - replace (opt_value_eqb (Some (VStr (L "15"))) (Some (VStr (L "15")))) with true by (vm_compute; reflexivity).
      rewrite set_property_eq by exact G. unfold add_wildcards.
      replace (is_desc HOST_RESOURCE) with false by (vm_compute; reflexivity). cbn [rbind].
      rewrite (ItemProfileProofs.not_text E HOST_RESOURCE (HR_not_text E)). cbn [rbind refused negb andb].
      unfold too_many. replace (str_eqb HOST_RESOURCE (INSTANCE_ID v)) with false by (destruct v; vm_compute; reflexivity).
      replace (str_eqb HOST_RESOURCE RESOURCE_TYPE) with false by (vm_compute; reflexivity). cbn [orb andb rbind]. eauto.
    - replace (opt_value_eqb (Some (VStr (L "17"))) (Some (VStr (L "15")))) with false by (vm_compute; reflexivity).
      replace (opt_value_eqb (Some (VStr (L "17"))) (Some (VStr (L "17")))) with true by (vm_compute; reflexivity).
      unfold delete_item. rewrite Hi. cbn [rbind].
      destruct (value_only E i (INSTANCE_ID v) G (IID_not_text E)) as (o & -> & Ev'). cbn [rbind].
      rewrite (proj2 (Ev' (VStr k))).
      + rewrite str_eqb_refl. cbn [rbind]. eauto.
      + split; [exact (o_named _ _ O k i Hin)|]. intros q w Hw. exact (proj2 (proj2 (o_ids _ _ O) k i Hin) q w Hw).
  Qed.

  Definition leads (k : str) (o : option str) (r : found) : Prop :=
    (r = nothing /\ forall y s, In y (files v m) -> o = Some s -> get_attr y k <> Some s) \/
    (exists j x s d c dr, r = (Some j, d, c, dr) /\ from_file j = Ok r /\ o = Some s /\ file_at v m j x /\ get_attr x k = Some s /\
       (forall y, In y (files v m) -> get_attr y k = Some s -> y = x) /\
       (forall d', d = Some d' -> exists sec, m_disks m = Some sec) /\ (forall k', dr = Some k' -> exists s, drive_ref m k' s)).

  Lemma leads_file : forall k s f, k = FILE_ID v \/ k = FILE_HREF v -> find_place (m_refs m) (FILE v) k (Some s) = Ok f ->
    exists r, match f with None => Ok nothing | Some j => from_file j end = Ok r /\ leads k (Some s) r.
  Proof.
    intros k s f K H. apply found_file in H; [|exact K]. destruct f as [j|].
    - destruct H as (x & Hx & Ex & Ux). destruct (from_file_ok j x Hx) as (d & c & dr & R & R1 & R2).
      exists (Some j, d, c, dr). split; [exact R|]. right. exists j, x, s, d, c, dr. now repeat (split; [assumption || reflexivity|]).
    - exists nothing. split; [reflexivity|]. left. split; [reflexivity|]. intros y t Hy Et. injection Et as <-. now apply H.
  Qed.

  Lemma leads_name : forall o, exists r, search_from_filename E m o = Ok r /\ leads (FILE_HREF v) o r.
  Proof.
    intros o. destruct (filename_eq o) as (f & P & ->). destruct o as [s|]; [apply leads_file; [now right|exact P]|].
    destruct f as [j|].
    - apply find_file in P as [(x & Hx & Ex) _]. exfalso.
      destruct (proj1 (l_file_names _ _ (o_linked _ _ O)) x (file_at_In _ _ _ _ Hx)) as [h Hh]. congruence.
    - exists nothing. split; [reflexivity|]. left. split; [reflexivity|discriminate].
  Qed.

  Lemma leads_id : forall o, exists r, search_from_file_id E m o = Ok r /\ leads (FILE_ID v) o r.
  Proof.
    intros [s|].
    - destruct (file_id_eq s) as (f & P & ->). apply leads_file; [now left|exact P].
    - exists nothing. split; [reflexivity|]. left. split; [reflexivity|discriminate].
  Qed.

  Lemma alone : forall (B : Type) (eqb : B -> B -> bool) (x : option B), (forall a b, eqb a b = true <-> a = b) ->
    check_for_conflict eqb [x; None] = Ok x /\ check_for_conflict eqb [None; x] = Ok x /\ check_for_conflict eqb [x; x] = Ok x.
  Proof.
    intros B eqb x He.
    assert (G : forall l, In x l -> (forall y, In (Some y) l -> x = Some y) -> check_for_conflict eqb l = Ok x).
    { intros l Hl Hu. destruct (check_for_conflict_spec eqb He l) as (C0 & C1 & _). destruct x as [b|].
      - apply C1. split; [exact Hl|]. intros y Hy. apply Hu in Hy. congruence.
      - apply C0. intros y Hy. apply Hu in Hy. discriminate. }
    split; [|split]; apply G; cbn; try tauto; intros y Hy; repeat destruct Hy as [Hy|Hy]; try contradiction; congruence.
  Qed.

  Definition outcome (path id : option str) (r : result vmd) : Prop :=
    match r with
    | Ok _ => exists f h i, fits v m path id f /\ get_attr f (FILE_HREF v) = Some h /\ get_attr f (FILE_ID v) = Some i /\
                exists d k, agree (RemoveFile h i d k) = true
    | Err EInvalidInput => forall f, ~ meant v m path id f
    | Err EValueMismatch => (exists f, meant v m path id f) /\ forall f, ~ fits v m path id f
    | Err ESystemExit => exists f h i, fits v m path id f /\ get_attr f (FILE_HREF v) = Some h /\ get_attr f (FILE_ID v) = Some i /\
                exists d k, agree (RemoveFile h i d k) = false
    | Err _ => False
    end.

  Lemma one_found : forall path id j x d dr, file_at v m j x -> meant v m path id x ->
    (forall f, fits v m path id f -> f = x) -> (forall d', d = Some d' -> exists sec, m_disks m = Some sec) ->
    (forall k', dr = Some k' -> exists s, drive_ref m k' s) ->
    outcome path id
     (do i <- attr_at (m_refs m) j (FILE_ID v);
      do href <- attr_at (m_refs m) j (FILE_HREF v);
      do _ <- (match id with Some _ => match_or_die opt_eqb id i | None => Ok tt end);
      do _ <- (match path with Some _ => match_or_die opt_eqb path href | None => Ok tt end);
      do _ <- confirm_or_die agree (RemoveFile (match href with Some s => s | None => L "None" end)
                                         (match i with Some s => s | None => L "None" end) d dr);
      remove_file E m j d dr).
  Proof.
    intros path id j x d dr Hx Mx Ux Hd Hk. rewrite !(attr_file _ _ _ _ _ Hx). cbn [rbind].
    destruct (proj1 (l_file_names _ _ (o_linked _ _ O)) x (file_at_In _ _ _ _ Hx)) as [h Hh].
    destruct (proj1 (l_file_ids _ _ (o_linked _ _ O)) x (file_at_In _ _ _ _ Hx)) as [i Hi]. rewrite Hh, Hi.
    assert (Bad : ~ fits v m path id x -> outcome path id (Err EValueMismatch)).
    { intros N. split; [eauto|]. intros f Hf. apply N. now rewrite <- (Ux f Hf). }
    assert (C1 : forall s, id = Some s -> opt_eqb id (Some i) = true -> s = i) by (intros s -> X; apply opt_eqb_eq in X; congruence).
    destruct (match id with Some _ => match_or_die opt_eqb id (Some i) | None => Ok tt end) as [[]|e] eqn:Ei; cbn [rbind].
    2: { destruct id as [s|]; [|discriminate]. unfold match_or_die in Ei. destruct (opt_eqb (Some s) (Some i)) eqn:Q; [discriminate|].
         injection Ei as <-. apply Bad. intros (_ & _ & F). specialize (F s eq_refl). rewrite Hi in F. injection F as ->.
         assert (X : opt_eqb (Some s) (Some s) = true) by now apply opt_eqb_eq. congruence. }
    destruct (match path with Some _ => match_or_die opt_eqb path (Some h) | None => Ok tt end) as [[]|e] eqn:Eh; cbn [rbind].
    2: { destruct path as [s|]; [|discriminate]. unfold match_or_die in Eh. destruct (opt_eqb (Some s) (Some h)) eqn:Q; [discriminate|].
         injection Eh as <-. apply Bad. intros (_ & F & _). specialize (F s eq_refl). rewrite Hh in F. injection F as ->.
         assert (X : opt_eqb (Some s) (Some s) = true) by now apply opt_eqb_eq. congruence. }
    assert (Fx : fits v m path id x).
    { split; [exact Mx|]. split; intros s ->.
      - unfold match_or_die in Eh. destruct (opt_eqb (Some s) (Some h)) eqn:Q; [|discriminate]. apply opt_eqb_eq in Q. congruence.
      - unfold match_or_die in Ei. destruct (opt_eqb (Some s) (Some i)) eqn:Q; [|discriminate]. apply opt_eqb_eq in Q. congruence. }
    unfold confirm_or_die. destruct (agree (RemoveFile h i d dr)) eqn:Ea; cbn [rbind].
    - destruct (remove_done j x d dr Hx Hd Hk) as [m' ->]. exists x, h, i. split; [exact Fx|]. split; [exact Hh|]. split; [exact Hi|eauto].
    - exists x, h, i. split; [exact Fx|]. split; [exact Hh|]. split; [exact Hi|eauto].
  Qed.

  Theorem remove_file_accepted : forall path id, outcome path id (remove_file_run agree E m path id).
  Proof.
    intros path id. unfold remove_file_run. cbv zeta.
    destruct (leads_name path) as (r1 & -> & L1). destruct (leads_id id) as (r2 & -> & L2). cbn [rbind].
    destruct L1 as [[-> N1]|(j1 & x1 & s1 & d1 & c1 & k1 & -> & Q1 & -> & Hx1 & Ex1 & U1 & Hd1 & Hk1)];
    destruct L2 as [[-> N2]|(j2 & x2 & s2 & d2 & c2 & k2 & -> & Q2 & -> & Hx2 & Ex2 & U2 & Hd2 & Hk2)].
    - cbn. intros f (Hf & [(t & Et & Af)|(t & Et & Af)]); [exact (N1 f t Hf Et Af)|exact (N2 f t Hf Et Af)].
    - cbn [nothing]. rewrite (proj1 (proj2 (alone _ Nat.eqb (Some j2) Nat.eqb_eq))). cbn [rbind].
      rewrite (proj1 (proj2 (alone _ Nat.eqb d2 Nat.eqb_eq))). cbn [rbind]. rewrite (proj1 (proj2 (alone _ str_eqb k2 str_eqb_eq))). cbn [rbind].
      apply (one_found path (Some s2) j2 x2 d2 k2); try assumption.
      + split; [exact (file_at_In _ _ _ _ Hx2)|right; eauto].
      + intros f ((Hf & _) & _ & F). apply U2; auto.
    - cbn [nothing]. rewrite (proj1 (alone _ Nat.eqb (Some j1) Nat.eqb_eq)). cbn [rbind].
      rewrite (proj1 (alone _ Nat.eqb d1 Nat.eqb_eq)). cbn [rbind]. rewrite (proj1 (alone _ str_eqb k1 str_eqb_eq)). cbn [rbind].
      apply (one_found (Some s1) id j1 x1 d1 k1); try assumption.
      + split; [exact (file_at_In _ _ _ _ Hx1)|left; eauto].
      + intros f ((Hf & _) & F & _). apply U1; auto.
    - destruct (Nat.eq_dec j1 j2) as [<-|Nj].
      + rewrite Q1 in Q2. injection Q2 as <- <- <-.
        rewrite (proj2 (proj2 (alone _ Nat.eqb (Some j1) Nat.eqb_eq))). cbn [rbind].
        rewrite (proj2 (proj2 (alone _ Nat.eqb d1 Nat.eqb_eq))). cbn [rbind]. rewrite (proj2 (proj2 (alone _ str_eqb k1 str_eqb_eq))). cbn [rbind].
        apply (one_found (Some s1) (Some s2) j1 x1 d1 k1); try assumption.
        * split; [exact (file_at_In _ _ _ _ Hx1)|left; eauto].
        * intros f ((Hf & _) & F & _). apply U1; auto.
      + assert (X : check_for_conflict Nat.eqb [Some j1; Some j2] = Err EValueMismatch).
        { apply (check_for_conflict_spec Nat.eqb Nat.eqb_eq). exists j1, j2. cbn. auto. }
        rewrite X. cbn [rbind]. split.
        * exists x1. split; [exact (file_at_In _ _ _ _ Hx1)|left; eauto].
        * intros f ((Hf & _) & F1 & F2). apply Nj. pose proof (U1 f Hf (F1 s1 eq_refl)) as ->. pose proof (U2 x1 Hf (F2 s2 eq_refl)) as ->.
          exact (same_place _ _ _ Hx1 Hx2).
  Qed.
End Package.
