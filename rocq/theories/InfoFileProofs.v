(** Proofs about the list of files and disks. *)
From Coq Require Import List Ascii ZArith QArith Bool Lia.
Import ListNotations.
From Verif Require Import PyBase PyBaseProofs PyDict PyDictProofs ValidationModel NamesModel XmlModel ItemModel ItemSpec HardwareModel HardwareSpec HardwareProofs HardwareIdProofs CountSpec CountProofs
  FindSpec FindProofs PrettyModel PlatformModel DriveModel DriveSpec SlotProofs DeviceProofs LinkProofs SearchProofs WrapModel InfoModel InfoSpec InfoProfileProofs InfoFileSpec.
Local Open Scope nat_scope.

Fixpoint nodup_str (l : list str) : bool := match l with [] => true | x :: l' => negb (mem_str x l') && nodup_str l' end.
Lemma nodup_str_ok : forall l, nodup_str l = true -> NoDup l.
Proof.
  induction l as [ | x l IH]; intros H; constructor; cbn [nodup_str] in H; apply andb_true_iff in H as [A B]; [ | auto].
  apply negb_true_iff in A. intros C. apply mem_str_In in C. congruence.
Qed.
Lemma res_name_known : forall t n, res_name t RES_MAP = Some n <-> dget str_eqb n RES_MAP = Some t.
Proof.
  intros t n. assert (U : forall l t n, NoDup (map fst l) -> NoDup (map snd l) -> (res_name t l = Some n <-> In (n, t) l)).
  { clear t n. induction l as [ | [a b] l IH]; intros t n N1 N2; cbn [res_name]; [split; [discriminate | intros []] | ].
    cbn [map fst snd] in N1, N2. inversion N1 as [ | ? ? A1 B1]; subst. inversion N2 as [ | ? ? A2 B2]; subst.
    destruct (str_eqb t b) eqn:S.
    - apply str_eqb_eq in S. subst b. split; [intros [= <-]; now left | ]. intros [[= <-] | H]; [reflexivity | ].
      exfalso. apply A2. now apply (in_map snd) in H.
    - rewrite IH by assumption. split; [now right | ]. intros [[= <- <-] | H]; [ | assumption]. exfalso.
      rewrite str_eqb_refl in S. discriminate. }
  assert (N1 : NoDup (map fst RES_MAP)) by (apply nodup_str_ok; vm_compute; reflexivity).
  assert (N2 : NoDup (map snd RES_MAP)) by (apply nodup_str_ok; vm_compute; reflexivity).
  rewrite (U RES_MAP t n N1 N2). split; intros H.
  - now apply (dget_Some_In str_eqb str_eqb_eq).
  - now apply (dget_In str_eqb str_eqb_eq) in H.
Qed.

Lemma Forall2_weaken : forall A B (P Q : A -> B -> Prop) l l', (forall a b, P a b -> Q a b) -> Forall2 P l l' -> Forall2 Q l l'.
Proof. intros A B P Q l l' H F. induction F; constructor; auto. Qed.

Section Files.
Variables (E : env) (pretty_text : str -> result str) (m : info_vm).
Let d := iv_vmd m.
Let h := m_hw d.
Hypothesis R : hw_reachable (e_ver E) h.

Lemma ids : ids_ok (e_ver E) h.
Proof. exact (reachable_ids _ _ R). Qed.
Lemma the_item : forall k i, hitem k h = Ok i -> In (k, i) h.
Proof. intros k i H. unfold hitem in H. destruct (hget k h) as [x | ] eqn:G; [ | discriminate]. injection H as <-. apply hget_In; [exact (proj1 ids) | assumption]. Qed.
Lemma value_text : forall k i n o, In (k, i) h -> ~ text_property (e_ver E) n -> value_of E d k n = Ok o ->
  (forall v, o = Some v <-> only_value (i_props i) n v) /\ one_text E i n (shown_value E o).
Proof.
  intros k i n o Hin Hn H. unfold value_of in H. step H i' Hi. apply the_item in Hi.
  assert (i' = i) as ->.
  { pose proof (proj1 ids) as ND. apply (hget_In h k i' ND) in Hi. apply (hget_In h k i ND) in Hin. congruence. }
  destruct (value_only E i n (proj2 (ids_good E h k i ids Hin)) Hn) as (o' & Ho & Hv).
  rewrite Ho in H. injection H as <-. split; [exact Hv | ]. destruct o' as [x | ]; cbn [shown_value].
  - apply One_text. now apply Hv.
  - apply No_text. intros x Hx. apply Hv in Hx. discriminate.
Qed.
Lemma type_text : forall k i t, In (k, i) h -> hardware_type E d k = Ok t -> type_name E i t.
Proof.
  intros k i t Hin H. unfold hardware_type in H. step H o Ho. destruct (value_text k i _ o Hin (RT_not_text E) Ho) as [V T].
  apply ok_inj in H. subst t. destruct o as [[s | l] | ].
  - destruct (res_name s RES_MAP) as [n | ] eqn:N.
    + apply res_name_known in N. apply (Known_type E i s n); [now apply V | assumption].
    + apply Unknown_type; [ | exact T]. intros s' n Hs Hn. apply V in Hs. injection Hs as <-. apply res_name_known in Hn. congruence.
  - apply Unknown_type; [ | exact T]. intros s' n Hs _. apply V in Hs. discriminate.
  - apply Unknown_type; [ | exact T]. intros s' n Hs _. apply V in Hs. discriminate.
Qed.
Lemma controller_of : forall k i o, In (k, i) h -> find_parent_from_item E d (Some k) = Ok o ->
  match o with
  | Some ck => exists ci, controls E h i ck ci
  | None => forall ck ci, ~ controls E h i ck ci
  end.
Proof.
  intros k i o Hin H. cbn [find_parent_from_item] in H. step H p Hp.
  destruct (value_text k i _ p Hin (PARENT_not_text E) Hp) as [V _]. destruct p as [x | ].
  - pose proof (find_item_wanted E h None [(INSTANCE_ID (e_ver E), Some x)] None ids) as W.
    assert (C : plain_conditions (e_ver E) [(INSTANCE_ID (e_ver E), Some x)]) by (intros c [<- | []]; apply IID_not_text).
    specialize (W C). fold h in H. rewrite H in W. destruct o as [ck | ].
    + destruct W as (ci & Hci & (_ & P & M) & _). exists ci, x. split; [now apply V | ]. split; [assumption | ].
      split; [apply P; now left | ]. exact (M _ (or_introl eq_refl)).
    + intros ck ci (y & Hy & Hci & P & M). apply V in Hy. injection Hy as <-. apply (W ck ci Hci). split; [discriminate | ].
      split; [intros q [<- | []]; assumption | ]. intros c [<- | []]. exact M.
  - injection H as <-. intros ck ci (y & Hy & _). apply V in Hy. discriminate.
Qed.
Lemma device_some : forall k i t, In (k, i) h -> device_info_str E m (Some k) = Ok t -> drive_shown E h i t.
Proof.
  intros k i t Hin H. unfold device_info_str in H. fold d in H. step H c Hc. step H ty Hty. step H a Ha.
  apply (controller_of k i c Hin) in Hc. apply (type_text k i ty Hin) in Hty. destruct (value_text k i _ a Hin (AOP_not_text E) Ha) as [_ Ta].
  step H x Hx. destruct c as [ck | ].
  - destruct Hc as [ci Hci]. step Hx ct Hct. step Hx y Hy. apply ok_inj in Hx. subst x. cbn beta iota in H. apply ok_inj in H. subst t.
    pose proof Hci as (z & _ & Hin' & _). apply (type_text ck ci ct Hin') in Hct. destruct (value_text ck ci _ y Hin' (ADDRESS_not_text E) Hy) as [_ Ty].
    now apply (On_controller E h i ty (shown_value E a) ck ci ct (shown_value E y)).
  - apply ok_inj in Hx. subst x. cbn beta iota in H. apply ok_inj in H. subst t.
    exact (Without_controller E h i ty (shown_value E a) Hty Ta Hc).
Qed.
Lemma shown_nonempty : forall i t, drive_shown E h i t -> t <> [].
Proof. intros i t H. destruct H; intros X; apply app_eq_nil in X as [_ X]; discriminate. Qed.

Lemma wanted_holds : forall s k i, In (k, i) h -> wanted E None [(HOST_RESOURCE, Some (VStr s))] [None] i <-> holds E h s k i.
Proof.
  intros s k i Hin. split.
  - intros (_ & P & M). split; [assumption | ]. split; [apply P; now left | ]. exact (M _ (or_introl eq_refl)).
  - intros (_ & P & M). split; [discriminate | ]. split; [intros q [<- | []]; assumption | ]. intros c [<- | []]. exact M.
Qed.
Lemma find_host : forall s o, find_item E h None [(HOST_RESOURCE, Some (VStr s))] None = Ok o ->
  match o with Some k => exists i, holds E h s k i | None => forall k i, ~ holds E h s k i end.
Proof.
  intros s o H. pose proof (find_item_wanted E h None _ None ids (HR_plain_cond E (Some (VStr s)))) as W. rewrite H in W. destruct o as [k | ].
  - destruct W as (i & Hin & W & _). exists i. now apply wanted_holds.
  - intros k i Hh. pose proof Hh as (Hin & _). exact (W k i Hin (proj2 (wanted_holds s k i Hin) Hh)).
Qed.
Lemma host_device : forall new old id k t, find_by_host E d new old id = Ok k -> device_info_str E m k = Ok t ->
  exists x, id = Some x /\ device_text E h (new ++ x) (old ++ x) t.
Proof.
  intros new old id k t H Hd. unfold find_by_host in H. step H a Ha. destruct id as [x | ]; [ | discriminate]. cbn [plus] in Ha. injection Ha as <-.
  exists x. split; [reflexivity | ]. step H r Hr. apply find_host in Hr. destruct r as [k1 | ].
  - injection H as <-. destruct Hr as [i Hi]. left. exists k1, i. split; [now left | ]. apply (device_some k1); [exact (proj1 Hi) | assumption].
  - cbn [plus rbind] in H. apply find_host in H. destruct k as [k1 | ].
    + destruct H as [i Hi]. left. exists k1, i. split; [right; now split | ]. apply (device_some k1); [exact (proj1 Hi) | assumption].
    + cbn [device_info_str] in Hd. injection Hd as <-. right. split; [reflexivity | ]. intros k i [K | [_ K]]; [exact (Hr _ _ K) | exact (H _ _ K)].
Qed.

Lemma cut_name_cell : forall w name, 3 <= w -> name_cell w name (cut_name w name).
Proof.
  intros w name Hw. unfold cut_name, name_cell. set (s := L "  " ++ name). clearbody s. destruct (w <? length s) eqn:F.
  - apply Nat.ltb_lt in F. right. split; [assumption | ]. exists (firstn (w - 3) s), (skipn (w - 3) s).
    split; [symmetry; apply firstn_skipn | ]. split; [reflexivity | ]. rewrite app_length, firstn_length. change (length (L "...")) with 3. lia.
  - apply Nat.ltb_ge in F. left. now split.
Qed.
Lemma pretty_nonempty : forall q b t, pretty_bytes q b = Ok t -> t <> [].
Proof.
  intros q b t H X. subst t. unfold pretty_bytes in H. destruct (b <? 0)%Z; [discriminate | ].
  destruct (scale_up _ _ _) as [[v1 s1] | ]; [ | discriminate]. destruct (scale_down v1 s1) as [v2 s2].
  destruct (nth_error tags s2); [ | discriminate]. injection H as H. apply app_eq_nil in H as [_ H]. discriminate.
Qed.
Lemma file_row_of : forall w a b, file_row w a b = row_of [to_left w a; to_right 9 b].
Proof. reflexivity. Qed.
Lemma disk_row_of : forall w a b c e, disk_row w a b c e = row_of [to_left w a; to_right 9 b; to_right 9 c; firstn 20 e].
Proof. reflexivity. Qed.

Lemma file_lines_spec : forall verb w j f block, 3 <= w -> file_at (e_ver E) d j f -> file_lines_of E pretty_text m verb w j = Ok block ->
  exists row disk, file_shown E pretty_text d w f row disk /\
    block = row :: (if is_verbose verb
                    then (L "    File ID: " ++ name_or_none (get_attr f (FILE_ID (e_ver E))))
                         :: match disk with Some [] | None => [] | Some s => [L "    Disk ID: " ++ s] end
                    else []).
Proof.
  intros verb w j f block Hw Hf H. unfold file_lines_of in H. step H i Hi. fold d in H.
  pose proof Hf as [Hn Ht]. unfold child_at in H. rewrite Hn in H. cbn [rbind] in H. step H name Hname.
  destruct (get_attr f (FILE_HREF (e_ver E))) as [nm | ] eqn:Eh; [ | discriminate]. injection Hname as ->.
  unfold info_for_file in Hi. fold d in Hi. unfold child_at in Hi at 1. rewrite Hn in Hi. cbn [rbind] in Hi. step Hi size Hsize. step Hi disk Hdisk.
  assert (Sz : size_text pretty_text (e_ver E) f size).
  { unfold size_text. destruct (get_attr f (FILE_SIZE (e_ver E))); [exact Hsize | now injection Hsize]. }
  pose proof (cut_name_cell w name Hw) as C. destruct disk as [n | ].
  - step Hi s Hs. step Hi e He. step Hi c Hc. step Hi cap Hcap. step Hi k Hk. step Hi dev Hdev. injection Hi as <-.
    unfold the_disks in Hs. destruct (m_disks d) as [sec | ] eqn:Es; [ | discriminate]. injection Hs as <-.
    unfold child_at in He. destruct (nth_error (echildren sec) n) as [y | ] eqn:Ey; [ | discriminate]. injection He as ->.
    destruct (get_attr f (FILE_ID (e_ver E))) as [id | ] eqn:Eid; [ | discriminate].
    cbn [find_disk_from_file_id] in Hdisk. rewrite Es in Hdisk. apply (find_disk (e_ver E) d sec _ _ _ Es) in Hdisk as [(y & Hy & Ry) U].
    assert (y = e) as -> by (destruct Hy as (sec' & A & B & _); congruence).
    cbn [find_item_from_disk] in Hk. unfold the_disks, attr_at, child_at in Hk. rewrite Es in Hk. cbn [rbind] in Hk. rewrite Ey in Hk. cbn [rbind] in Hk.
    destruct (host_device _ _ _ _ _ Hk Hdev) as (did & Ed & T). apply capacity_spec in Hc.
    exists (disk_row w (cut_name w name) size cap dev), (Some did). split.
    + rewrite disk_row_of. apply (With_disk E pretty_text d w f e id did name (cut_name w name) size c cap dev); try assumption.
      * now apply disk_at_In in Hy.
      * intros d' Hd' Rd'. unfold disks in Hd'. rewrite Es in Hd'. apply tagged_In in Hd' as [I1 I2]. apply In_nth_error in I1 as [j' I1].
        assert (A : disk_at (e_ver E) d j' d') by (exists sec; auto). pose proof (U j' d' A Rd') as Uj. rewrite Uj in I1. congruence.
    + cbn [fi_capacity fi_device fi_size fi_id fi_disk] in H. apply ok_inj in H. rewrite <- H. clear H. rewrite Ed.
      pose proof (pretty_nonempty _ _ _ Hcap) as Ne. destruct cap as [ | c0 cap]; [congruence | ].
      destruct (is_verbose verb); [ | reflexivity]. destruct did; reflexivity.
  - step Hi k Hk. step Hi dev Hdev. injection Hi as <-.
    cbn [find_item_from_file] in Hk. unfold attr_at, child_at in Hk. rewrite Hn in Hk. cbn [rbind] in Hk.
    destruct (host_device _ _ _ _ _ Hk Hdev) as (id & Ed & T).
    assert (ND : forall y, In y (disks (e_ver E) d) -> get_attr y (DISK_FILE_REF (e_ver E)) <> Some id).
    { rewrite Ed in Hdisk. exact (find_disk_file_id _ _ _ _ Hdisk). }
    cbn [fi_capacity fi_device fi_size fi_id fi_disk] in H. apply ok_inj in H. rewrite <- H. clear H.
    destruct dev as [ | c0 dev].
    + exists (file_row w (cut_name w name) size), None. split; [ | destruct (is_verbose verb); reflexivity].
      rewrite file_row_of. now apply (With_nothing E pretty_text d w f id name (cut_name w name) size).
    + exists (disk_row w (cut_name w name) size [] (c0 :: dev)), None. split; [ | destruct (is_verbose verb); reflexivity].
      rewrite disk_row_of. apply (With_drive E pretty_text d w f id name (cut_name w name) size (c0 :: dev)); try assumption. discriminate.
Qed.
Lemma disk_lines_spec : forall w n e block, disk_at (e_ver E) d n e -> disk_lines_of E m w n = Ok block -> disk_shown E d w e block.
Proof.
  intros w n e block Hd H. pose proof Hd as (sec & Es & Ey & Ht). unfold disk_lines_of in H. fold d in H. unfold the_disks, child_at in H. rewrite Es in H. cbn [rbind] in H.
  rewrite Ey in H. cbn [rbind] in H. step H file Hfile. destruct file as [j | ].
  - injection H as <-. apply find_file in Hfile as [(x & Hx & Ax) _]. apply (Disk_of_file E d w e x); [now apply file_at_In in Hx | assumption].
  - step H c Hc. step H cap Hcap. step H k Hk. step H dev Hdev. injection H as <-.
    cbn [find_item_from_disk] in Hk. unfold the_disks, attr_at, child_at in Hk. rewrite Es in Hk. cbn [rbind] in Hk. rewrite Ey in Hk. cbn [rbind] in Hk.
    destruct (host_device _ _ _ _ _ Hk Hdev) as (did & Ed & T). apply capacity_spec in Hc. change (disk_shown E d w e [disk_row w (L "  (disk placeholder)") (L "--") cap dev]). rewrite disk_row_of.
    apply (Disk_alone E d w e did c cap dev); try assumption. exact (find_no_file _ _ _ _ Hfile).
Qed.

Lemma places_at : forall (f : elem -> bool) l n, Forall2 (fun j x => n <= j /\ nth_error l (j - n) = Some x /\ f x = true) (places f n l) (filter f l).
Proof.
  intros f l. induction l as [ | x l IH]; intros n; cbn [places filter]; [constructor | ].
  assert (S : Forall2 (fun j y => n <= j /\ nth_error (x :: l) (j - n) = Some y /\ f y = true) (places f (S n) l) (filter f l)).
  { specialize (IH (S n)). induction IH as [ | j y js ys (A & B & C) IH2 IH3]; constructor; [ | assumption].
    split; [lia | ]. replace (j - n) with (S (j - S n)) by lia. now split. }
  destruct (f x) eqn:F; [ | exact S]. constructor; [ | exact S]. rewrite Nat.sub_diag. now split.
Qed.
Lemma each_places : forall (f : nat -> result (list str)) tag p blocks, Forall2 (fun j b => f j = Ok b) (all_places tag p) blocks ->
  Forall2 (fun x b => exists j, nth_error (echildren p) j = Some x /\ etag x = tag /\ f j = Ok b) (filter (fun e => str_eqb (etag e) tag) (echildren p)) blocks.
Proof.
  intros f tag p blocks. unfold all_places. pose proof (places_at (fun e => str_eqb (etag e) tag) (echildren p) 0) as P.
  revert blocks P. generalize (places (fun e => str_eqb (etag e) tag) 0 (echildren p)), (filter (fun e => str_eqb (etag e) tag) (echildren p)).
  intros js xs blocks P. revert blocks. induction P as [ | j x js xs (A & B & C) P IH]; intros blocks F; inversion F as [ | ? b ? bs Hb F']; subst; constructor; [ | now apply IH].
  exists j. rewrite Nat.sub_0_r in B. split; [assumption | ]. split; [now apply str_eqb_eq | assumption].
Qed.
Lemma all_places_nil : forall tag p, all_places tag p = [] <-> filter (fun e => str_eqb (etag e) tag) (echildren p) = [].
Proof.
  intros tag p. unfold all_places. pose proof (places_at (fun e => str_eqb (etag e) tag) (echildren p) 0) as P.
  destruct P; split; congruence.
Qed.
Lemma hrefs_spec : forall l names, hrefs E l = Ok names -> map (fun f => get_attr f (FILE_HREF (e_ver E))) l = map Some names.
Proof.
  induction l as [ | x l IH]; intros names H; cbn [hrefs] in H; [now injection H as <- | ].
  destruct (get_attr x (FILE_HREF (e_ver E))) as [s | ] eqn:S; [ | discriminate]. step H r Hr. injection H as <-. cbn [map]. rewrite S. f_equal. now apply IH.
Qed.

Theorem files_disks_spec : forall width verb o, info_files_disks E pretty_text m width verb = Ok o ->
  match o with
  | None => files (e_ver E) d = [] /\ disks (e_ver E) d = []
  | Some text => (files (e_ver E) d <> [] \/ disks (e_ver E) d <> []) /\
      exists w names fblocks dblocks,
        map (fun f => get_attr f (FILE_HREF (e_ver E))) (files (e_ver E) d) = map Some names
        /\ Z.of_nat w = (Z.max 18 (Z.min (Z.of_nat (longest names)) (width - 43)) + 2)%Z
        /\ text = join [NL] (row_of [to_left w (L "Files and Disks:"); L "File Size"; L " Capacity"; L "Device"]
                    :: row_of [to_left w []; L "---------"; L "---------"; L "--------------------"] :: concat fblocks ++ concat dblocks)
        /\ Forall2 (fun f block => exists row disk, file_shown E pretty_text d w f row disk /\
             block = row :: (if is_verbose verb
                    then (L "    File ID: " ++ name_or_none (get_attr f (FILE_ID (e_ver E))))
                         :: match disk with Some [] | None => [] | Some s => [L "    Disk ID: " ++ s] end
                    else [])) (files (e_ver E) d) fblocks
        /\ Forall2 (disk_shown E d w) (disks (e_ver E) d) dblocks
  end.
Proof.
  intros width verb o H. unfold info_files_disks in H. fold d in H.
  set (fp := all_places (FILE (e_ver E)) (m_refs d)) in H.
  set (dp := match m_disks d with Some s => all_places (DISK (e_ver E)) s | None => [] end) in H.
  assert (NF : fp = [] <-> files (e_ver E) d = []) by apply all_places_nil.
  assert (NDk : dp = [] <-> disks (e_ver E) d = []).
  { unfold dp, disks. destruct (m_disks d); [apply all_places_nil | now split]. }
  assert (B : forall names a b, each (file_lines_of E pretty_text m verb (href_width width names)) fp = Ok a -> each (disk_lines_of E m (href_width width names)) dp = Ok b ->
    exists fblocks dblocks, a = concat fblocks /\ b = concat dblocks /\
      Forall2 (fun f block => exists row disk, file_shown E pretty_text d (href_width width names) f row disk /\
             block = row :: (if is_verbose verb
                    then (L "    File ID: " ++ name_or_none (get_attr f (FILE_ID (e_ver E))))
                         :: match disk with Some [] | None => [] | Some s => [L "    Disk ID: " ++ s] end
                    else [])) (files (e_ver E) d) fblocks
        /\ Forall2 (disk_shown E d (href_width width names)) (disks (e_ver E) d) dblocks).
  { intros names a b Ha Hb. apply each_spec in Ha as (fb & -> & Fa). apply each_spec in Hb as (db & -> & Fb). exists fb, db.
    split; [reflexivity | ]. split; [reflexivity | ]. split.
    - apply each_places in Fa. eapply Forall2_weaken; [ | exact Fa]. intros f block (j & A1 & A2 & A3).
      apply (file_lines_spec verb _ j f block); [ | split; assumption | exact A3]. unfold href_width. lia.
    - unfold disks, dp in *. destruct (m_disks d) as [s | ] eqn:Es; [ | inversion Fb; constructor].
      apply each_places in Fb. eapply Forall2_weaken; [ | exact Fb]. intros x block (j & A1 & A2 & A3).
      apply (disk_lines_spec _ j); [ | exact A3]. exists s. auto. }
  clearbody fp dp.
  assert (Main : (fp <> [] \/ dp <> []) -> (do names <- hrefs E (NetworkModel.findall (FILE (e_ver E)) (m_refs d));
      let w := href_width width names in
      do a <- each (file_lines_of E pretty_text m verb w) fp;
      do b <- each (disk_lines_of E m w) dp;
      Ok (Some (join [NL]
        ([disk_row w (L "Files and Disks:") (L "File Size") (L "Capacity") (L "Device");
          disk_row w [] (L "---------") (L "---------") (L "--------------------")] ++ a ++ b)))) = Ok o ->
      match o with
      | None => files (e_ver E) d = [] /\ disks (e_ver E) d = []
      | Some text => (files (e_ver E) d <> [] \/ disks (e_ver E) d <> []) /\
      exists w names fblocks dblocks,
        map (fun f => get_attr f (FILE_HREF (e_ver E))) (files (e_ver E) d) = map Some names
        /\ Z.of_nat w = (Z.max 18 (Z.min (Z.of_nat (longest names)) (width - 43)) + 2)%Z
        /\ text = join [NL] (row_of [to_left w (L "Files and Disks:"); L "File Size"; L " Capacity"; L "Device"]
                    :: row_of [to_left w []; L "---------"; L "---------"; L "--------------------"] :: concat fblocks ++ concat dblocks)
        /\ Forall2 (fun f block => exists row disk, file_shown E pretty_text d w f row disk /\
             block = row :: (if is_verbose verb
                    then (L "    File ID: " ++ name_or_none (get_attr f (FILE_ID (e_ver E))))
                         :: match disk with Some [] | None => [] | Some s => [L "    Disk ID: " ++ s] end
                    else [])) (files (e_ver E) d) fblocks
        /\ Forall2 (disk_shown E d w) (disks (e_ver E) d) dblocks
      end).
  { intros Ne G. step G names Hnames. cbv zeta in G. step G a Ha. step G b Hb. apply ok_inj in G. subst o.
    split; [rewrite <- NF, <- NDk; exact Ne | ]. destruct (B names a b Ha Hb) as (fb & db & -> & -> & F1 & F2).
    exists (href_width width names), names, fb, db. split; [now apply hrefs_spec in Hnames | ].
    split; [unfold href_width, COLUMNS_WIDTH; lia | ]. split; [reflexivity | ]. now split. }
  destruct fp as [ | f0 fp]; [destruct dp as [ | d0 dp] | ].
  - injection H as <-. split; [now apply NF | now apply NDk].
  - apply Main; [right; discriminate | exact H].
  - apply Main; [left; discriminate | destruct dp; exact H].
Qed.
End Files.
