(** Proofs about the command inject-config. *)
From Coq Require Import Lia ZArith Sorted.
From Verif Require Import PyBase PyBaseProofs PyDict PyDictProofs ValidationModel ValidationSpec ValidationProofs XmlModel NamesModel
  ItemModel ItemSpec HardwareModel HardwareSpec HardwareProofs HardwareIdProofs CountSpec CountItemProofs CountProofs FindSpec FindProofs
  RawModel PathModel NetworkModel PlatformModel DriveModel DriveSpec SlotProofs DeviceProofs LinkProofs SearchProofs AddProofs WorkerProofs AddDiskProofs
  OrderlyProofs ArchiveProofs InjectModel InjectSpec.
Local Open Scope nat_scope.

Lemma same_item : forall (h : hw) k i j, NoDup (map fst h) -> In (k, i) h -> In (k, j) h -> i = j.
Proof. intros h k i j N A B. apply (hitem_In _ _ _ N) in A. apply (hitem_In _ _ _ N) in B. congruence. Qed.

(** ** Where a drive is *)

Lemma location_spec : forall E m k i t a, ids_ok (e_ver E) (m_hw m) -> identified E (m_hw m) -> In (k, i) (m_hw m) ->
  find_device_location E m k = Ok (t, a) ->
  exists ck ci x y, In (ck, ci) (m_hw m) /\ present E ci None /\ only_value (i_props i) PARENT (VStr ck) /\
    hardware_type E m ck = Ok t /\ only_value (i_props ci) ADDRESS (VStr x) /\ only_value (i_props i) ADDRESS_ON_PARENT (VStr y) /\
    a = x ++ L ":" ++ y.
Proof.
  intros E m k i t a Hi Hd Hin H. unfold find_device_location, find_parent_from_item in H.
  destruct (value_of_only E m k i PARENT Hi Hin (PARENT_not_text E)) as (o & Eo & Ho). rewrite Eo in H. cbn [rbind] in H.
  destruct o as [v|]; [|discriminate]. cbn [rbind] in H.
  match type of H with rbind ?r _ = _ => destruct r as [[ck|]|] eqn:Ec; [| |discriminate] end; cbn [rbind] in H; [|discriminate].
  apply found_item in Ec as (ci & Hci & _ & Wp & Wc); [|exact Hi|intros z [<-|[]]; apply IID_not_text].
  specialize (Wc _ (or_introl eq_refl)). cbn in Wc. destruct Wc as [[q Hq] _].
  pose proof (proj2 (proj2 Hi ck ci Hci) q v Hq) as ->.
  destruct (hardware_type E m ck) as [t'|] eqn:Et; [|discriminate]. cbn [rbind] in H.
  destruct (value_of_only E m ck ci ADDRESS Hi Hci (ADDRESS_not_text E)) as (oa & Ea & Ha). rewrite Ea in H. cbn [rbind] in H.
  destruct oa as [[x|]|]; try discriminate. cbn [as_text rbind] in H.
  destruct (value_of_only E m k i ADDRESS_ON_PARENT Hi Hin (AOP_not_text E)) as (ob & Eb & Hb). rewrite Eb in H. cbn [rbind] in H.
  destruct ob as [[y|]|]; try discriminate. cbn [as_text rbind] in H. injection H as <- <-.
  exists ck, ci, x, y. split; [exact Hci|]. split; [apply Wp; now left|]. split; [now apply Ho|]. split; [exact Et|].
  split; [now apply Ha|]. split; [now apply Hb|reflexivity].
Qed.

Lemma colon_split : forall x y : str, ~ In ":"%char x -> ~ In ":"%char y -> split_on ":"%char (x ++ L ":" ++ y) = [x; y].
Proof.
  intros x y Hx Hy. pose proof (split_on_join ":"%char [x; y]) as H. cbn [join] in H. apply H; [discriminate|].
  assert (G : forall z : str, ~ In ":"%char z -> forallb (fun c => negb (Ascii.eqb c ":")) z = true).
  { intros z Hz. apply forallb_forall. intros c Hc. apply Bool.negb_true_iff, Ascii.eqb_neq. intros ->. contradiction. }
  intros s [<-|[<-|[]]]; now apply G.
Qed.

Lemma find_item_type : forall E h t l p o, h <> [] -> find_item E h (Some t) l p = Ok o -> exists v, dget str_eqb t RES_MAP = Some v.
Proof.
  intros E h t l p o N H. unfold find_item, find_all_items in H. destruct (natural_sort (map fst h)) as [keys|] eqn:Ek; [|discriminate].
  cbn [rbind] in H. apply natural_sort_sound in Ek as [Pm _].
  destruct keys as [|k0 keys]; [apply Permutation.Permutation_sym, Permutation.Permutation_nil in Pm; destruct h; [contradiction|discriminate]|].
  cbn [rfilter] in H. destruct (hitem k0 h) as [i0|]; [|discriminate]. cbn [rbind] in H.
  unfold item_match, type_match, res_map in H. destruct (dget str_eqb t RES_MAP) as [v|]; [now exists v|discriminate].
Qed.

(** Looking at the place where a drive is finds this drive. *)
Lemma same_place : forall E m k i ck ci t x y r, ids_ok (e_ver E) (m_hw m) -> identified E (m_hw m) ->
  In (k, i) (m_hw m) -> present E i None -> In (ck, ci) (m_hw m) -> present E ci None ->
  only_value (i_props i) PARENT (VStr ck) -> hardware_type E m ck = Ok t ->
  only_value (i_props ci) ADDRESS (VStr x) -> only_value (i_props i) ADDRESS_ON_PARENT (VStr y) ->
  ~ In ":"%char x -> ~ In ":"%char y ->
  search_from_controller E m (Some t) (Some (x ++ L ":" ++ y)) = Ok r ->
  r_ctrl r = Some ck /\ r_drive r = Some k /\ known_type t.
Proof.
  intros E m k i ck ci t x y r Hi Hd Hin Pi Hci Pc Hpar Ht Hx Hy Nx Ny H. unfold search_from_controller in H.
  rewrite (colon_split x y Nx Ny) in H.
  destruct (find_item E (m_hw m) (Some t) [(ADDRESS, Some (VStr x))] None) as [oc|] eqn:Ec; [|discriminate]. cbn [rbind] in H.
  assert (K : known_type t). { apply (find_item_type E (m_hw m) t _ _ _) in Ec; [exact Ec|]. intros F. now rewrite F in Hin. }
  destruct K as [tv Htv]. pose proof (hardware_type_is_a E m ck ci t tv Hi Hci Htv Ht) as Ia.
  assert (W1 : wanted E (Some t) [(ADDRESS, Some (VStr x))] [None] ci).
  { split; [intros t' E0; injection E0 as <-; exact Ia|]. split; [intros q [<-|[]]; exact Pc|]. intros z [<-|[]]. exact Hx. }
  pose proof (find_item_wanted E (m_hw m) (Some t) [(ADDRESS, Some (VStr x))] None Hi) as W. rewrite Ec in W.
  specialize (W ltac:(intros z [<-|[]]; apply ADDRESS_not_text)).
  destruct oc as [ck'|]; [|now apply (W ck ci Hci) in W1]. destruct W as (_ & _ & _ & U). rewrite <- (U ck ci Hci W1) in H. clear U.
  rewrite (value_of_id E m ck ci Hi Hd Hci) in H. cbn [rbind] in H.
  assert (PC : plain_conditions (e_ver E) [(PARENT, Some (VStr ck)); (ADDRESS_ON_PARENT, Some (VStr y))]).
  { intros z [<-|[<-|[]]]; [apply PARENT_not_text|apply AOP_not_text]. }
  assert (W2 : wanted E None [(PARENT, Some (VStr ck)); (ADDRESS_ON_PARENT, Some (VStr y))] [None] i).
  { split; [discriminate|]. split; [intros q [<-|[]]; exact Pi|]. intros z [<-|[<-|[]]]; assumption. }
  pose proof (find_item_wanted E (m_hw m) None _ None Hi PC) as W.
  destruct (find_item E (m_hw m) None _ None) as [od|] eqn:Ed; [|discriminate]. cbn [rbind] in H.
  destruct od as [dk|]; [|now apply (W k i Hin) in W2]. destruct W as (_ & _ & _ & U). rewrite <- (U k i Hin W2) in H. clear U.
  destruct (value_of E m k HOST_RESOURCE) as [[hv|]|]; [| |discriminate]; cbn [rbind] in H.
  - destruct (host_text hv) as [sv|]; [|discriminate]. cbn [rbind] in H. destruct (behind_drive E m sv) as [fd|]; [|discriminate]. cbn [rbind] in H.
    injection H as <-. split; [reflexivity|]. split; [reflexivity|]. now exists tv.
  - injection H as <-. split; [reflexivity|]. split; [reflexivity|]. now exists tv.
Qed.

(** ** The disk is put into this drive *)

Lemma worker_same_drive : forall agree E fuel guess m im dt file_id k0 i0 ck ci t x y desc m' k,
  ids_ok (e_ver E) (m_hw m) -> identified E (m_hw m) ->
  In (k0, i0) (m_hw m) -> present E i0 None -> In (ck, ci) (m_hw m) -> present E ci None ->
  only_value (i_props i0) PARENT (VStr ck) -> hardware_type E m ck = Ok t ->
  only_value (i_props ci) ADDRESS (VStr x) -> only_value (i_props i0) ADDRESS_ON_PARENT (VStr y) ->
  ~ In ":"%char x -> ~ In ":"%char y ->
  add_disk_worker agree E fuel guess m im dt file_id (Some t) None (Some (x ++ L ":" ++ y)) None (Some desc) = Ok (m', k) ->
  k = k0 /\ known_type t /\ exists i', m_hw m' = hset k0 i' (m_hw m) /\
    forall n q w, n <> RESOURCE_TYPE -> n <> HOST_RESOURCE -> n <> ITEM_DESCRIPTION -> (own (i_props i') n q w <-> own (i_props i0) n q w).
Proof.
  intros agree E fuel guess m im dt file_id k0 i0 ck ci t x y desc m' k Hi Hd Hin Pi Hci Pc Hpar Ht Hx Hy Nx Ny H.
  unfold add_disk_worker in H.
  destruct (search_for_elements E m (im_name im) file_id (Some t) (Some (x ++ L ":" ++ y))) as [[[[file disk] ctrl0] drive]|] eqn:E1; [|discriminate].
  cbn [rbind] in H. unfold search_for_elements in E1.
  match type of E1 with rbind ?r _ = _ => destruct r as [[[[f1 d1] c1] i1]|] eqn:R1; [|discriminate] end. cbn [rbind] in E1.
  match type of E1 with rbind ?r _ = _ => destruct r as [[[[f2 d2] c2] i2]|] eqn:R2; [|discriminate] end. cbn [rbind] in E1.
  match type of E1 with rbind ?r _ = _ => destruct r as [[[[f3 d3] c3] i3]|] eqn:R3; [|discriminate] end. cbn [rbind] in E1.
  destruct (same_place E m k0 i0 ck ci t x y _ Hi Hd Hin Pi Hci Pc Hpar Ht Hx Hy Nx Ny R3) as (S1 & S2 & S3).
  cbn in S1, S2. subst c3 i3.
  match type of E1 with rbind ?r _ = _ => destruct r as [f|] eqn:C1; [|discriminate] end. cbn [rbind] in E1.
  match type of E1 with rbind ?r _ = _ => destruct r as [d|] eqn:C2; [|discriminate] end. cbn [rbind] in E1.
  match type of E1 with rbind ?r _ = _ => destruct r as [c|] eqn:C3; [|discriminate] end. cbn [rbind] in E1.
  match type of E1 with rbind ?r _ = _ => destruct r as [ii|] eqn:C4; [|discriminate] end. cbn [rbind] in E1.
  injection E1 as -> -> -> ->.
  assert (ctrl0 = Some ck) as ->.
  { destruct ctrl0 as [c0|]; [|exfalso; apply (conflict_None _ _ _ str_eqb_eq C3 ck); right; right; now left].
    f_equal. symmetry. apply (proj2 (conflict_Some _ _ _ _ str_eqb_eq C3)). right. right. now left. }
  assert (drive = Some k0) as ->.
  { destruct drive as [c0|]; [|exfalso; apply (conflict_None _ _ _ str_eqb_eq C4 k0); right; right; now left].
    f_equal. symmetry. apply (proj2 (conflict_Some _ _ _ _ str_eqb_eq C4)). right. right. now left. }
  cbn [rbind] in H.
  match type of H with rbind ?r _ = _ => destruct r as [[]|] eqn:E4; [|discriminate] end. cbn [rbind] in H.
  match type of H with rbind ?r _ = _ => destruct r as [[]|] eqn:E5; [|discriminate] end. cbn [rbind] in H.
  match type of H with rbind ?r _ = _ => destruct r as [id1|] eqn:E6; [|discriminate] end. cbn [rbind] in H.
  match type of H with rbind ?r _ = _ => destruct r as [id2|] eqn:E7; [|discriminate] end. cbn [rbind] in H.
  match type of H with rbind ?r _ = _ => destruct r as [[m1 fj]|] eqn:E8; [|discriminate] end. cbn [rbind fst snd] in H.
  match type of H with rbind ?r _ = _ => destruct r as [[m2 oj]|] eqn:E9; [|discriminate] end. cbn [rbind fst snd] in H.
  rewrite (colon_split x y Nx Ny) in H. cbn [rbind option_map fst snd add_controller_device] in H.
  assert (HW2 : m_hw m2 = m_hw m).
  { transitivity (m_hw m1).
    - unfold add_disk in E9. destruct (negb (str_eqb dt (L "harddisk"))).
      + destruct disk as [d|]; [destruct (m_disks m1)|]; injection E9 as <- _; reflexivity.
      + destruct (capacity_attrs fuel (e_ver E) (im_capacity im)); [|discriminate]. cbn [rbind] in E9.
        destruct disk as [d|]; [|injection E9 as <- _; reflexivity].
        match type of E9 with rbind ?r _ = _ => destruct r; [|discriminate] end. cbn [rbind] in E9. injection E9 as <- _. reflexivity.
    - unfold add_file in E8. destruct file as [fl|].
      + match type of E8 with rbind ?r _ = _ => destruct r; [|discriminate] end. cbn [rbind] in E8. injection E8 as <- _. reflexivity.
      + destruct disk as [d|]; [|injection E8 as <- _; reflexivity].
        destruct (the_disks m); [|discriminate]. cbn [rbind] in E8. cbv zeta in E8.
        match type of E8 with match ?z with _ => _ end = _ => destruct z; [|discriminate] end.
        match type of E8 with rbind ?r _ = _ => destruct r; [|discriminate] end. cbn [rbind] in E8. injection E8 as <- _. reflexivity. }
  unfold add_disk_device in H. cbn [rbind] in H.
  destruct (res_map dt) as [tt'|]; [|discriminate]. cbn [rbind] in H.
  match type of H with rbind ?r _ = _ => destruct r as [host|] eqn:E13; [|discriminate] end. cbn [rbind] in H.
  match type of H with rbind ?r _ = _ => destruct r as [m3|] eqn:E14; [|discriminate] end. cbn [rbind] in H. injection H as <- <-.
  split; [reflexivity|]. split; [exact S3|].
  apply set_props_spec in E14 as (j & i' & J1 & -> & _ & _ & J4 & _).
  - exists i'. cbn [m_hw with_hw]. split; [now rewrite HW2|]. rewrite HW2 in J1.
    rewrite (same_item _ _ _ _ (proj1 Hi) Hin J1). intros n q w N1 N2 N3. apply J4. cbn. intros [F|[F|[F|[]]]]; [apply N1|apply N2|apply N3]; symmetry; exact F.
  - rewrite HW2. exact Hi.
  - cbn. destruct (e_ver E); intros [F|[F|[F|[]]]]; discriminate F.
Qed.

(** ** The files on the disk *)

Lemma basename_join : forall wd n, ~ In "/"%char n -> basename (path_join wd n) = n.
Proof.
  intros wd n H. unfold path_join.
  destruct (starts_with (L "/") n) eqn:E1; [now apply basename_plain|].
  destruct wd as [|c wd]; [now apply basename_plain|].
  destruct (ends_with (L "/") (c :: wd)) eqn:E2.
  - unfold ends_with in E2. change (list ascii) with str in *. apply starts_with_spec in E2 as [r Hr].
    apply (f_equal (@rev ascii)) in Hr. rewrite rev_involutive, rev_app_distr in Hr. change (rev (rev (L "/"))) with (L "/") in Hr.
    rewrite Hr. apply basename_dir; [right; now exists (rev r)|exact H].
  - change (L "/" ++ n) with (["/"%char] ++ n). rewrite app_assoc. apply basename_dir; [right; now exists (c :: wd)|exact H].
Qed.
Lemma join_inj : forall wd a b, ~ In "/"%char a -> ~ In "/"%char b -> path_join wd a = path_join wd b -> a = b.
Proof. intros wd a b Ha Hb H. apply (f_equal basename) in H. now rewrite !basename_join in H. Qed.

Definition plain_name (o : option str) : Prop := forall n, o = Some n -> ~ In "/"%char n.
Lemma config_plain : forall p, plain_name (config_text_file p).
Proof. intros p n H F. destruct p; cbn in H; try discriminate; injection H as <-; vm_compute in F; intuition discriminate. Qed.
Lemma secondary_plain : forall p, plain_name (secondary_config_text_file p).
Proof. intros p n H F. destruct p; cbn in H; try discriminate; injection H as <-; vm_compute in F; intuition discriminate. Qed.
Lemma names_differ : forall p a b, config_text_file p = Some a -> secondary_config_text_file p = Some b -> a <> b.
Proof. intros p a b Ha Hb. destruct p; cbn in *; try discriminate; injection Ha as <-; injection Hb as <-; discriminate. Qed.

Lemma read_ok : forall h x c, read h x = Ok c -> dget str_eqb x h = Some c.
Proof. intros h x c H. unfold read in H. destruct (dget str_eqb x h); [now injection H as ->|discriminate]. Qed.

Lemma copy_as_ok : forall o name wd h fs h', copy_as o name wd h = Ok (fs, h') ->
  match given o with
  | None => fs = [] /\ h' = h
  | Some src => exists n c, name = Some n /\ dget str_eqb src h = Some c /\ fs = [path_join wd n] /\ h' = dset str_eqb (path_join wd n) c h
  end.
Proof.
  intros o name wd h fs h' H. unfold copy_as in H. destruct (given o) as [src|]; [|injection H as <- <-; now split].
  destruct name as [n|]; [|discriminate]. unfold copy in H.
  destruct (read h src) as [c|] eqn:Er; [|discriminate]. cbn [rbind] in H. destruct (str_eqb src (path_join wd n)); [discriminate|].
  cbn [rbind] in H. injection H as <- <-. exists n, c. split; [reflexivity|]. split; [now apply read_ok|now split].
Qed.

Lemma content_app : forall h a b l, content h (a ++ b) = Ok l -> exists la lb, l = la ++ lb /\ content h a = Ok la /\ content h b = Ok lb.
Proof.
  intros h a b. induction a as [|x a IH]; intros l H; [exists [], l; now split|]. cbn [app content fold_right] in H.
  destruct (read h x) as [c|] eqn:Er; [|discriminate]. cbn [rbind] in H. fold (content h (a ++ b)) in H.
  destruct (content h (a ++ b)) as [r|] eqn:Ec; [|discriminate]. cbn [rbind] in H. injection H as <-.
  destruct (IH r eq_refl) as (la & lb & -> & Ea & Eb). exists ((basename x, c) :: la), lb. split; [reflexivity|]. split; [|exact Eb].
  cbn [content fold_right]. rewrite Er. cbn [rbind]. fold (content h a). now rewrite Ea.
Qed.
Lemma content_one : forall h x l, content h [x] = Ok l -> exists c, dget str_eqb x h = Some c /\ l = [(basename x, c)].
Proof.
  intros h x l H. cbn [content fold_right] in H. destruct (read h x) as [c|] eqn:Er; [|discriminate]. cbn [rbind] in H. injection H as <-.
  exists c. split; [now apply read_ok|reflexivity].
Qed.
Lemma content_all : forall h h' xs l, (forall x, In x xs -> dget str_eqb x h' = dget str_eqb x h) -> content h' xs = Ok l ->
  Forall2 (as_is h) xs l.
Proof.
  intros h h'. induction xs as [|x xs IH]; intros l Hs H; cbn [content fold_right] in H; [injection H as <-; constructor|].
  destruct (read h' x) as [c|] eqn:Er; [|discriminate]. cbn [rbind] in H. fold (content h' xs) in H.
  destruct (content h' xs) as [r|] eqn:Ec; [|discriminate]. cbn [rbind] in H. injection H as <-. constructor.
  - split; [reflexivity|]. cbn [snd]. rewrite <- (Hs x (or_introl eq_refl)). now apply read_ok.
  - apply IH; [|reflexivity]. intros y Hy. apply Hs. now right.
Qed.

Lemma given_is : forall o x, given o = Some x -> o = Some x.
Proof. intros [[|c o]|] x H; cbn in H; congruence. Qed.

Lemma content_spec : forall p wd h s fs1 h1 fs2 h2 l, outside p wd s ->
  copy_as (s_config s) (config_text_file p) wd h = Ok (fs1, h1) ->
  copy_as (s_secondary s) (secondary_config_text_file p) wd h1 = Ok (fs2, h2) ->
  content h2 (fs1 ++ fs2 ++ s_extra s) = Ok l -> disk_content p h s l.
Proof.
  intros p wd h s fs1 h1 fs2 h2 l O C1 C2 H. apply copy_as_ok in C1. apply copy_as_ok in C2.
  apply content_app in H as (A & BC & -> & HA & H). apply content_app in H as (B & C & -> & HB & HC).
  exists A, B, C. split; [reflexivity|].
  assert (D1 : forall x, (forall n, config_text_file p = Some n -> x <> path_join wd n) -> dget str_eqb x h1 = dget str_eqb x h).
  { intros x N. destruct (given (s_config s)) as [src|]; [|now destruct C1 as [_ ->]].
    destruct C1 as (n & c & En & _ & _ & ->). apply dget_dset_other; [exact str_eqb_eq|]. now apply N. }
  assert (D2 : forall x, (forall n, secondary_config_text_file p = Some n -> x <> path_join wd n) -> dget str_eqb x h2 = dget str_eqb x h1).
  { intros x N. destruct (given (s_secondary s)) as [src|]; [|now destruct C2 as [_ ->]].
    destruct C2 as (n & c & En & _ & _ & ->). apply dget_dset_other; [exact str_eqb_eq|]. now apply N. }
  split; [|split].
  - destruct (given (s_config s)) as [src|]; [|destruct C1 as [-> _]; now injection HA as <-].
    destruct C1 as (n & c & En & Ec & -> & Eh). exists n, c. split; [exact En|]. split; [exact Ec|].
    apply content_one in HA as (c' & Ec' & ->). rewrite D2, Eh, dget_dset_same in Ec' by
      (exact str_eqb_eq || (intros b Hb F; apply join_inj in F; [now apply (names_differ p n b En Hb)|now apply (config_plain p)|now apply (secondary_plain p)])).
    injection Ec' as <-. now rewrite basename_join by now apply (config_plain p).
  - destruct (given (s_secondary s)) as [src|] eqn:Eg; [|destruct C2 as [-> _]; now injection HB as <-].
    destruct C2 as (n & c & En & Ec & -> & Eh). exists n, c. split; [exact En|]. split.
    + rewrite <- D1; [exact Ec|]. intros b Hb. apply (O src b); [right; left; now apply given_is|now left].
    + apply content_one in HB as (c' & Ec' & ->). rewrite Eh, dget_dset_same in Ec' by exact str_eqb_eq. injection Ec' as <-.
      now rewrite basename_join by now apply (secondary_plain p).
  - refine (content_all h h2 _ _ _ HC). intros x Hx. rewrite D2, D1; [reflexivity| |]; intros b Hb; apply (O x b); tauto.
Qed.

(** ** Which drive is chosen *)

Lemma hold_file : forall E m f r x k, ids_ok (e_ver E) (m_hw m) -> linked (e_ver E) m ->
  search_from_filename E m f = Ok r -> r_drive r = Some k ->
  (exists j, r_file r = Some j /\ file_at (e_ver E) m j x) ->
  exists i, In (k, i) (m_hw m) /\ present E i None /\ holds (e_ver E) m i x.
Proof.
  intros E m f r x k Hi Hl H Hk (j & Hj & Hx). unfold search_from_filename in H.
  destruct (find_place (m_refs m) (FILE (e_ver E)) (FILE_HREF (e_ver E)) f) as [[j0|]|] eqn:Ef; [| |discriminate]; cbn [rbind] in H; [|injection H as <-; discriminate].
  apply find_file in Ef as [(x0 & Hx0 & Ex0) _]. rewrite (attr_file _ _ _ _ _ Hx0) in H. cbn [rbind] in H.
  destruct (proj1 (l_file_ids _ _ Hl) x0 (file_at_In _ _ _ _ Hx0)) as [id Hid]. rewrite Hid in H.
  destruct (find_disk_from_file_id (e_ver E) m (Some id)) as [disk|] eqn:Ed; [|discriminate]. cbn [rbind] in H. apply find_disk_file_id in Ed.
  unfold from_file_and_disk in H.
  destruct (find_item_from_file E m (Some j0)) as [o1|] eqn:E1; [|discriminate]. cbn [rbind] in H.
  destruct (find_item_from_disk E m disk) as [o2|] eqn:E2; [|discriminate]. cbn [rbind] in H.
  destruct (check_for_conflict str_eqb [o1; o2]) as [drive|] eqn:Ec; [|discriminate]. cbn [rbind] in H.
  destruct (find_parent_from_item E m drive) as [ctrl|]; [|discriminate]. cbn [rbind] in H.
  assert (R : r = (Some j0, disk, ctrl, drive)) by (destruct drive, ctrl; try discriminate; now injection H).
  subst r. cbn in Hk, Hj. subst drive. injection Hj as ->. rewrite (file_at_fun _ _ _ _ _ Hx0 Hx) in *. clear x0 Hx0.
  apply conflict_Some in Ec as [Ec _]; [|exact str_eqb_eq].
  destruct Ec as [->|[->|[]]].
  - cbn [find_item_from_file] in E1. rewrite (attr_file _ _ _ _ _ Hx), Hid in E1. cbn [rbind] in E1.
    apply by_host in E1 as [A _]; [|exact Hi]. destruct (A k eq_refl) as (i & s & q & H1 & H2 & H3 & H4). exists i. split; [exact H1|]. split; [exact H2|].
    exists q, s. split; [exact H3|]. split; [now apply file_at_In in Hx|]. exists id. split; [exact Hid|]. now left.
  - destruct disk as [d|]; [|discriminate]. destruct Ed as (y & Hy & Ey). cbn [find_item_from_disk] in E2.
    destruct (proj1 (l_disk_ids _ _ Hl) y (disk_at_In _ _ _ _ Hy)) as [did Hdid].
    pose proof (attr_disk (e_ver E) m d y (DISK_ID (e_ver E)) Hy) as Ad. destruct (the_disks m) as [sec|]; [|discriminate]. cbn [rbind] in *. rewrite Ad, Hdid in E2. cbn [rbind] in E2.
    apply by_host in E2 as [A _]; [|exact Hi]. destruct (A k eq_refl) as (i & s & q & H1 & H2 & H3 & H4). exists i. split; [exact H1|]. split; [exact H2|].
    exists q, s. split; [exact H3|]. split; [now apply file_at_In in Hx|]. exists id. split; [exact Hid|]. right. exists y.
    split; [|exact Ey]. split; [now apply disk_at_In in Hy|]. exists did. now split.
Qed.

Lemma places_head : forall (f g : elem -> bool) l n d ds, (forall e, f e = true -> g e = true) -> places f n l = d :: ds ->
  exists e A B, nth_error l (d - n) = Some e /\ n <= d /\ f e = true /\ filter g l = A ++ e :: B /\ forall a, In a A -> f a = false.
Proof.
  intros f g l. induction l as [|x l IH]; intros n d ds Hfg H; cbn [places] in H; [discriminate|].
  destruct (f x) eqn:Ef.
  - injection H as -> _. exists x, [], (filter g l). replace (d - d) with 0 by lia. split; [reflexivity|]. split; [lia|]. split; [exact Ef|].
    cbn [filter]. rewrite (Hfg x Ef). split; [reflexivity|]. intros a [].
  - apply IH in H as (e & A & B & H1 & H2 & H3 & H4 & H5); [|exact Hfg]. exists e.
    exists (if g x then x :: A else A), B. replace (d - n) with (S (d - S n)) by lia. split; [exact H1|]. split; [lia|]. split; [exact H3|].
    cbn [filter]. rewrite H4. destruct (g x); (split; [reflexivity|]); [intros a [<-|Ha]; [exact Ef|now apply H5]|exact H5].
Qed.

Lemma empty_drive_spec : forall E m p k, ids_ok (e_ver E) (m_hw m) -> linked (e_ver E) m -> plain_drives E m -> drives_everywhere E (m_hw m) ->
  find_empty_drive E m (bootstrap_disk_type p) = Ok (Some k) ->
  exists i, In (k, i) (m_hw m) /\ present E i None /\ first_empty E p m k i.
Proof.
  intros E m p k Hi Hl Hp Hev H.
  assert (CD : find_empty_drive E m (L "cdrom") = Ok (Some k) ->
     exists i, In (k, i) (m_hw m) /\ present E i None /\ empty_cd i /\ forall k' i', In (k', i') (m_hw m) -> empty_cd i' -> k' <> k -> ~ natural_lt k' k).
  { clear H. intros H. unfold find_empty_drive in H. rewrite str_eqb_refl in H.
    match type of H with rbind ?r _ = _ => destruct r as [ks|] eqn:Ek; [|discriminate] end. cbn [rbind] in H.
    destruct ks as [|k0 ks]; [discriminate|]. injection H as ->.
    apply find_all_wanted in Ek as (ND & SS & Wk); [|exact Hi|apply HR_plain_cond].
    assert (EC : forall k' i', In (k', i') (m_hw m) -> (wanted E (Some (L "cdrom")) [(HOST_RESOURCE, None)] [] i' <-> empty_cd i')).
    { intros k' i' Hin. split.
      - intros (Wt & _ & Wc). split; [now apply Wt|]. intros q w Ho. apply (Wc _ (or_introl eq_refl) w). split; [now exists q|].
        intros q' w' Ho'. now apply (proj1 (Hp k' i' Hin) q' q).
      - intros [Ia No]. split; [intros t E0; injection E0 as <-; exact Ia|]. split; [intros q []|]. intros c [<-|[]] v [[q Hq] _]. now apply No in Hq. }
    destruct (proj1 (Wk k) (or_introl eq_refl)) as (i & Hin & Wi). apply (EC k i Hin) in Wi. exists i. split; [exact Hin|].
    split; [apply (Hev k i Hin); apply Wi|]. split; [exact Wi|]. intros k' i' Hin' Hem Nk.
    assert (Hk' : In k' (k :: ks)) by (apply Wk; exists i'; split; [exact Hin'|now apply (EC k' i' Hin')]).
    destruct Hk' as [<-|Hk']; [contradiction|]. inversion SS as [|? ? _ Fa]; subst. rewrite Forall_forall in Fa. now apply Fa. }
  assert (HD : find_empty_drive E m (L "harddisk") = Ok (Some k) ->
     exists i, In (k, i) (m_hw m) /\ present E i None /\ exists A d B, disks (e_ver E) m = A ++ d :: B /\ (forall a, In a A -> ~ placeholder (e_ver E) m a) /\
      placeholder (e_ver E) m d /\ drive_of (e_ver E) m i d).
  { clear H CD. intros H. unfold find_empty_drive in H. change (str_eqb (L "harddisk") (L "cdrom")) with false in H. cbn iota in H. rewrite str_eqb_refl in H.
    destruct (m_disks m) as [sec|] eqn:Es; [|discriminate].
    destruct (places (no_file_ref (e_ver E)) 0 (echildren sec)) as [|d ds] eqn:Epl; [discriminate|].
    apply (places_head _ (fun e => str_eqb (etag e) (DISK (e_ver E)))) in Epl as (e & A & B & P1 & _ & P2 & P3 & P4);
      [|intros e Fe; unfold no_file_ref in Fe; now apply andb_prop in Fe].
    replace (d - 0) with d in P1 by lia. unfold no_file_ref in P2. apply andb_prop in P2 as [P2 P2'].
    assert (Ede : disks (e_ver E) m = A ++ e :: B) by (unfold disks; now rewrite Es).
    assert (Pe : placeholder (e_ver E) m e).
    { split; [rewrite Ede; apply in_or_app; right; now left|]. destruct (get_attr e (DISK_FILE_REF (e_ver E))); [discriminate|reflexivity]. }
    destruct (proj1 (l_disk_ids _ _ Hl) e (proj1 Pe)) as [did Hdid].
    cbn [find_item_from_disk] in H. unfold the_disks in H. rewrite Es in H. cbn [rbind] in H. unfold attr_at, child_at in H. rewrite P1 in H. cbn [rbind] in H.
    rewrite Hdid in H. apply by_host in H as [X _]; [|exact Hi]. destruct (X k eq_refl) as (i & s & q & H1 & H2 & H3 & H4).
    exists i. split; [exact H1|]. split; [exact H2|]. exists A, e, B. split; [exact Ede|]. split.
    - intros a Ha [Hin Hn]. specialize (P4 a Ha). unfold no_file_ref in P4. rewrite Hn in P4. rewrite andb_true_r in P4.
      assert (T : etag a = DISK (e_ver E)). { unfold disks in Hin. rewrite Es in Hin. apply filter_In in Hin as [_ T]. now apply str_eqb_eq. }
      rewrite T, str_eqb_refl in P4. discriminate.
    - split; [exact Pe|]. exists q, s. split; [exact H3|]. split; [apply Pe|]. exists did. now split. }
  destruct p; cbn [bootstrap_disk_type first_empty] in *; first [now apply CD|now apply HD].
Qed.

(** ** The command *)

Lemma worker_guess : forall agree E fuel g g' m im dt file_id t subtype address diskname desc,
  add_disk_worker agree E fuel g m im dt file_id (Some t) subtype address diskname desc =
  add_disk_worker agree E fuel g' m im dt file_id (Some t) subtype address diskname desc.
Proof. reflexivity. Qed.

Lemma added_is : forall p wd, added_name (bootstrap_disk_type p) (path_join wd (fst (made_name (bootstrap_disk_type p)))) = config_disk p.
Proof.
  intros p wd. unfold added_name. rewrite basename_join; [destruct p; reflexivity|].
  destruct p; vm_compute; intuition discriminate.
Qed.
Lemma wanted_is : forall p, wanted_name (bootstrap_disk_type p) = Ok (config_disk p).
Proof. now destruct p. Qed.
Lemma drive_is : forall p, bootstrap_disk_type p = config_drive p.
Proof. now destruct p. Qed.
Lemma format_is : forall p, snd (made_name (bootstrap_disk_type p)) = config_format p.
Proof. now destruct p. Qed.

Theorem inject_spec : forall agree overwrite make E fuel p wd h s m m' k,
  orderly E m -> plain_places (m_hw m) -> drives_everywhere E (m_hw m) ->
  (config_drive p = L "harddisk" -> disk_ids_apart (e_ver E) m (mkImage wd (config_disk p) 0 0) None) -> outside p wd s ->
  inject_run agree overwrite make E fuel p wd h s m = Ok (m', k) ->
  orderly E m' /\
  (exists f i i' sz cap l s',
    disk_content p h s l /\ make (config_format p) l = Ok (sz, cap) /\
    replaced (files (e_ver E) m) (files (e_ver E) m') f /\
    get_attr f (FILE_HREF (e_ver E)) = Some (config_disk p) /\ get_attr f (FILE_SIZE (e_ver E)) = Some (zdec sz) /\
    dget str_eqb (config_disk p) (m_sources m') = Some wd /\ same_sources (e_ver E) m m' (config_disk p) /\
    In (k, i) (m_hw m) /\ In (k, i') (m_hw m') /\ present E i' None /\ is_a (config_drive p) i' /\
    only_value (i_props i') HOST_RESOURCE (VStr s') /\ file_of (e_ver E) m' s' f /\
    (forall n q w, n <> RESOURCE_TYPE -> n <> HOST_RESOURCE -> n <> ITEM_DESCRIPTION ->
       (own (i_props i') n q w <-> own (i_props i) n q w)) /\
    ((config_drive p = L "harddisk" /\ exists d, replaced (disks (e_ver E) m) (disks (e_ver E) m') d /\ disk_of (e_ver E) m' s' d) \/
     (config_drive p = L "cdrom" /\ removed (disks (e_ver E) m) (disks (e_ver E) m'))) /\
    (((forall g, In g (files (e_ver E) m) -> get_attr g (FILE_HREF (e_ver E)) <> Some (config_disk p)) /\ first_empty E p m k i) \/
     (exists g, In g (files (e_ver E) m) /\ get_attr g (FILE_HREF (e_ver E)) = Some (config_disk p) /\ holds (e_ver E) m i g /\
        overwrite (get_attr g (FILE_ID (e_ver E))) = true))) /\
  map fst (m_hw m') = map fst (m_hw m) /\
  (forall k' j, k' <> k -> (In (k', j) (m_hw m') <-> In (k', j) (m_hw m))).
Proof.
  intros agree overwrite make E fuel p wd h s m m' k O [PP1 PP2] Hev HD Ho H.
  pose proof O as [O1 O2 O3 O4 O5 O6 O7 O8].
  unfold inject_run in H. cbv zeta in H. rewrite wanted_is in H. cbn [rbind] in H.
  destruct (negb (inject_ready s)) eqn:Er; [discriminate|].
  destruct (search_from_filename E m (Some (config_disk p))) as [[[[file disk] ctrl] drive0]|] eqn:Es; [|discriminate]. cbn [rbind] in H.
  match type of H with rbind ?r _ = _ => destruct r as [[fid od]|] eqn:Ef; [|discriminate] end. cbn [rbind fst snd] in H.
  destruct od as [k0|]; [|discriminate].
  assert (CH : exists i, In (k0, i) (m_hw m) /\ present E i None /\
    (((forall g, In g (files (e_ver E) m) -> get_attr g (FILE_HREF (e_ver E)) <> Some (config_disk p)) /\ first_empty E p m k0 i /\ fid = None) \/
     (exists g, In g (files (e_ver E) m) /\ get_attr g (FILE_HREF (e_ver E)) = Some (config_disk p) /\ holds (e_ver E) m i g /\
        overwrite (get_attr g (FILE_ID (e_ver E))) = true /\ fid = get_attr g (FILE_ID (e_ver E))))).
  { destruct file as [fj|].
    - assert (FP : exists x, file_at (e_ver E) m fj x /\ get_attr x (FILE_HREF (e_ver E)) = Some (config_disk p)).
      { unfold search_from_filename in Es. destruct (find_place (m_refs m) (FILE (e_ver E)) (FILE_HREF (e_ver E)) (Some (config_disk p))) as [[j0|]|] eqn:Efp; [| |discriminate];
          cbn [rbind] in Es; [|injection Es; discriminate].
        apply find_file in Efp as [(x0 & Hx0 & Ex0) _]. exists x0.
        destruct (attr_at (m_refs m) j0 (FILE_ID (e_ver E))); [|discriminate]. cbn [rbind] in Es.
        destruct (find_disk_from_file_id _ _ _); [|discriminate]. cbn [rbind] in Es. unfold from_file_and_disk in Es.
        repeat match type of Es with rbind ?r _ = _ => destruct r; [|discriminate]; cbn [rbind] in Es end.
        assert (j0 = fj) as -> by (match type of Es with match ?a with _ => _ end = _ => destruct a end; try match type of Es with match ?a with _ => _ end = _ => destruct a end; congruence).
        now split. }
      destruct FP as (x & Fx & Hx). rewrite (attr_file _ _ _ _ _ Fx) in Ef. cbn [rbind] in Ef.
      destruct (overwrite (get_attr x (FILE_ID (e_ver E)))) eqn:Eo; [|discriminate]. injection Ef as <- ->.
      destruct (hold_file E m _ _ x k0 O1 O3 Es eq_refl (ex_intro _ fj (conj eq_refl Fx))) as (i & H1 & H2 & H3). exists i. split; [exact H1|]. split; [exact H2|].
      right. exists x. split; [now apply file_at_In in Fx|]. now repeat (split; [assumption|]).
    - destruct (find_empty_drive E m (bootstrap_disk_type p)) as [o|] eqn:Ed; [|discriminate]. cbn [rbind] in Ef. injection Ef as <- ->.
      apply empty_drive_spec in Ed as (i & H1 & H2 & H3); try assumption. exists i. split; [exact H1|]. split; [exact H2|]. left.
      split; [|now split]. unfold search_from_filename in Es.
      destruct (find_place (m_refs m) (FILE (e_ver E)) (FILE_HREF (e_ver E)) (Some (config_disk p))) as [[j0|]|] eqn:Efp; [| |discriminate]; cbn [rbind] in Es.
      + exfalso. destruct (attr_at (m_refs m) j0 (FILE_ID (e_ver E))); [|discriminate]. cbn [rbind] in Es.
        destruct (find_disk_from_file_id _ _ _); [|discriminate]. cbn [rbind] in Es. unfold from_file_and_disk in Es.
        repeat match type of Es with rbind ?r _ = _ => destruct r; [|discriminate]; cbn [rbind] in Es end.
        match type of Es with match ?a with _ => _ end = _ => destruct a end; try match type of Es with match ?a with _ => _ end = _ => destruct a end; congruence.
      + intros g Hg Hgn. now apply (find_no_file _ _ _ _ Efp g). }
  destruct CH as (i & Hin & Pi & CH).
  destruct (find_device_location E m k0) as [[t a]|] eqn:El; [|discriminate]. cbn [rbind fst snd] in H.
  apply (location_spec E m k0 i t a O1 O2 Hin) in El as (ck & ci & x & y & L1 & L2 & L3 & L4 & L5 & L6 & ->).
  match type of H with rbind ?r _ = _ => destruct r as [[fs1 h1]|] eqn:C1; [|discriminate] end. cbn [rbind fst snd] in H.
  match type of H with rbind ?r _ = _ => destruct r as [[fs2 h2]|] eqn:C2; [|discriminate] end. cbn [rbind fst snd] in H.
  match type of H with rbind ?r _ = _ => destruct r as [[]|] eqn:C3; [|discriminate] end. cbn [rbind fst snd] in H.
  match type of H with rbind ?r _ = _ => destruct r as [l|] eqn:C4; [|discriminate] end. cbn [rbind fst snd] in H.
  match type of H with rbind ?r _ = _ => destruct r as [[sz cap]|] eqn:C5; [|discriminate] end. cbn [rbind fst snd] in H.
  rewrite added_is in H. rewrite format_is in C5. rewrite drive_is in H.
  assert (Nx : ~ In ":"%char x). { destruct L5 as [[q Lq] _]. destruct (PP1 ck ci q _ L1 Lq) as (z & Ez & Nz). now injection Ez as ->. }
  assert (Ny : ~ In ":"%char y). { destruct L6 as [[q Lq] _]. destruct (PP2 k0 i q _ Hin Lq) as (z & Ez & Nz). now injection Ez as ->. }
  pose proof H as HW.
  apply (worker_same_drive agree E fuel _ m _ _ fid k0 i ck ci t x y) in HW as (-> & Kt & i1 & Hhw & Hown); try assumption.
  rewrite (worker_guess agree E fuel (fun _ : str => []) (fun _ => t)) in H.
  apply add_disk_orderly in H as (O' & f & i' & s' & tv & ck' & ci' & ct & R1 & R2 & R3 & R4 & R5 & R6 & R7 & R8 & R9 & R10 & R11 & R12 & R13 & _); try assumption.
  - split; [exact O'|]. 
    assert (ii : i' = i1).
    { destruct O' as [O1' _ _ _ _ _ _ _]. apply (same_item (m_hw m') k0); [apply O1'|exact R6|]. rewrite Hhw. apply hset_In; [apply O1|]. left. split; [reflexivity|reflexivity]. }
    subst i1. split; [|split].
    + exists f, i, i', sz, cap, l, s'. split; [now apply (content_spec p wd h s fs1 h1 fs2 h2)|]. split; [exact C5|].
      cbn [im_name im_size im_dir] in *. do 8 (split; [assumption|]). split; [now exists tv|]. do 3 (split; [assumption|]). split.
      * destruct p; cbn [config_drive] in *; first [right; split; [reflexivity|]; apply R13; discriminate|left; split; [reflexivity|]; now apply R12].
      * destruct CH as [(A & B & _)|(g & A & B & C & D & _)]; [left; now split|right; exists g; now repeat (split; [assumption|])].
    + rewrite Hhw. apply hset_keys. apply in_map_iff. now exists (k0, i).
    + intros k' j Nk. rewrite Hhw. rewrite hset_In by apply O1. intuition congruence.
  - split; cbn [im_name]; [destruct p; vm_compute; intuition discriminate|]. intros z Hz.
    destruct CH as [(_ & _ & ->)|(g & A & B & C & D & ->)]; [discriminate|]. now apply (proj1 O5 g).
  - intros Hdt x' Hx'. apply (HD Hdt). destruct Hx' as [Hx'|[Hx'|Hx']]; [now left| |now right; right].
    right. right. destruct CH as [(_ & _ & ->)|(g & A & B & C & D & ->)]; [discriminate|]. now exists g.
  - intros c Ec. now injection Ec as <-.
Qed.

Theorem inject_again : forall agree overwrite make E fuel p wd h s m m' k agree2 overwrite2 make2 fuel2 wd2 h2 s2 m'' k2,
  orderly E m -> plain_places (m_hw m) -> drives_everywhere E (m_hw m) ->
  (config_drive p = L "harddisk" -> disk_ids_apart (e_ver E) m (mkImage wd (config_disk p) 0 0) None) -> outside p wd s ->
  inject_run agree overwrite make E fuel p wd h s m = Ok (m', k) ->
  plain_places (m_hw m') -> drives_everywhere E (m_hw m') ->
  (config_drive p = L "harddisk" -> disk_ids_apart (e_ver E) m' (mkImage wd2 (config_disk p) 0 0) None) -> outside p wd2 s2 ->
  inject_run agree2 overwrite2 make2 E fuel2 p wd2 h2 s2 m' = Ok (m'', k2) ->
  k2 = k /\ length (files (e_ver E) m'') = length (files (e_ver E) m') /\
  exists f, In f (files (e_ver E) m') /\ get_attr f (FILE_HREF (e_ver E)) = Some (config_disk p) /\ overwrite2 (get_attr f (FILE_ID (e_ver E))) = true.
Proof.
  intros agree overwrite make E fuel p wd h s m m' k agree2 overwrite2 make2 fuel2 wd2 h2 s2 m'' k2 O PP Ev HD Ho H PP2 Ev2 HD2 Ho2 H2.
  apply inject_spec in H as (O' & (f & i & i' & sz & cap & l & s' & _ & _ & R & Hn & _ & _ & _ & _ & Hi' & _ & _ & Hh & Hf & _) & _ & _); try assumption.
  apply inject_spec in H2 as (O'' & (f2 & j & j' & _ & _ & _ & _ & _ & _ & R2 & Hn2 & _ & _ & _ & Hj & _ & _ & _ & _ & _ & _ & _ & CH) & _ & _); try assumption.
  assert (Hff : In f (files (e_ver E) m')) by apply Hf.
  destruct CH as [[N _]|(g & G1 & G2 & (q & z & Hz & Fz) & G4)]; [now apply N in Hn|].
  assert (g = f) as ->.
  { apply (unique_same _ _ g f _ (l_file_names _ _ (o_linked _ _ O')) G1 Hff G2 Hn). }
  split; [|split].
  - destruct Hh as [[q' Hq'] _]. apply (o_drive _ _ O' k2 j q z k i' q' s'); try assumption. right. now exists f.
  - destruct R2 as (A & o & B & E1 & E2 & E3). rewrite E1, E3, !app_length. cbn [length]. 
    destruct o as [|o1 [|o2 o]]; [|cbn; lia|cbn in E2; lia]. exfalso. cbn [app] in E1.
    pose proof (proj2 (l_file_names _ _ (o_linked _ _ O''))) as ND. rewrite E3, map_app in ND. cbn [map] in ND.
    apply NoDup_remove_2 in ND. apply ND. rewrite <- map_app, Hn2, <- Hn. apply in_map with (f := fun e => get_attr e (FILE_HREF (e_ver E))). now rewrite <- E1.
  - exists f. now split.
Qed.

Theorem inject_declined : forall agree overwrite make E fuel p wd h s m f,
  In f (files (e_ver E) m) -> get_attr f (FILE_HREF (e_ver E)) = Some (config_disk p) -> (forall id, overwrite id = false) ->
  exists e, inject_run agree overwrite make E fuel p wd h s m = Err e.
Proof.
  intros agree overwrite make E fuel p wd h s m f Hf Hn No. unfold inject_run. cbv zeta. rewrite wanted_is. cbn [rbind].
  destruct (negb (inject_ready s)); [now eexists|].
  destruct (search_from_filename E m (Some (config_disk p))) as [[[[file disk] ctrl] drive0]|] eqn:Es; [|now eexists]. cbn [rbind].
  destruct file as [fj|].
  - destruct (attr_at (m_refs m) fj (FILE_ID (e_ver E))) as [id|]; [|now eexists]. cbn [rbind]. rewrite No. now eexists.
  - exfalso. unfold search_from_filename in Es.
    destruct (find_place (m_refs m) (FILE (e_ver E)) (FILE_HREF (e_ver E)) (Some (config_disk p))) as [[j0|]|] eqn:Efp; [| |discriminate]; cbn [rbind] in Es.
    + destruct (attr_at (m_refs m) j0 (FILE_ID (e_ver E))); [|discriminate]. cbn [rbind] in Es.
      destruct (find_disk_from_file_id _ _ _); [|discriminate]. cbn [rbind] in Es. unfold from_file_and_disk in Es.
      repeat match type of Es with rbind ?r _ = _ => destruct r; [|discriminate]; cbn [rbind] in Es end.
      match type of Es with match ?a with _ => _ end = _ => destruct a end; try match type of Es with match ?a with _ => _ end = _ => destruct a end; congruence.
    + now apply (find_no_file _ _ _ _ Efp f Hf).
Qed.

Lemma ready_iff : forall s, inject_ready s = true <-> given (s_config s) <> None \/ given (s_secondary s) <> None \/ s_extra s <> [].
Proof.
  intros s. unfold inject_ready. destruct (given (s_config s)); [split; [intros _; left; discriminate|reflexivity]|].
  destruct (given (s_secondary s)); [split; [intros _; right; left; discriminate|reflexivity]|].
  destruct (s_extra s); [split; [discriminate|intros [F|[F|F]]; contradiction]|split; [intros _; right; right; discriminate|reflexivity]].
Qed.
Theorem inject_nothing : forall agree overwrite make E fuel p wd h s m,
  given (s_config s) = None -> given (s_secondary s) = None -> s_extra s = [] ->
  inject_run agree overwrite make E fuel p wd h s m = Err EInvalidInput.
Proof. intros agree overwrite make E fuel p wd h s m A B C. unfold inject_run, inject_ready. now rewrite A, B, C. Qed.

Lemma set_text_iff : forall ex name v r, set_text ex name v = Ok r <-> r = v /\ forall s, v = Some s -> ex s = true /\ name <> None.
Proof.
  intros ex name [s|] r; cbn.
  - destruct (ex s) eqn:Ex; cbn; [destruct name|]; split.
    + intros H. injection H as <-. split; [reflexivity|]. intros s' Hs. injection Hs as <-. split; [exact Ex|discriminate].
    + intros [-> _]. reflexivity.
    + discriminate.
    + intros [_ H]. now destruct (H s eq_refl).
    + discriminate.
    + intros [_ H]. destruct (H s eq_refl). congruence.
  - split; [intros H; injection H as <-; split; [reflexivity|discriminate]|intros [-> _]; reflexivity].
Qed.
Theorem inject_args_spec : forall ex p config secondary extra s,
  inject_args ex p config secondary extra = Ok s <->
  s = mkSettings config secondary extra /\
  (forall x, config = Some x -> ex x = true /\ config_text_file p <> None) /\
  (forall x, secondary = Some x -> ex x = true /\ secondary_config_text_file p <> None) /\
  (forall x, In x extra -> ex x = true).
Proof.
  intros ex p config secondary extra s. unfold inject_args.
  destruct (set_text ex (config_text_file p) config) as [c|e1] eqn:E1; cbn [rbind].
  - apply set_text_iff in E1 as [-> H1]. destruct (set_text ex (secondary_config_text_file p) secondary) as [c2|e2] eqn:E2; cbn [rbind].
    + apply set_text_iff in E2 as [-> H2]. destruct (forallb ex extra) eqn:E3.
      * rewrite forallb_forall in E3. split; [intros H; injection H as <-; now repeat (split; [first [reflexivity|assumption]|])|intros (-> & _); reflexivity].
      * split; [discriminate|]. intros (_ & _ & _ & H3). apply forallb_forall in H3. congruence.
    + split; [discriminate|]. intros (_ & _ & H2 & _). rewrite (proj2 (set_text_iff _ _ _ secondary) (conj eq_refl H2)) in E2. discriminate.
  - split; [discriminate|]. intros (_ & H1 & _). rewrite (proj2 (set_text_iff _ _ _ config) (conj eq_refl H1)) in E1. discriminate.
Qed.

(** When no empty drive is found. *)
Theorem no_empty_drive : forall E m p, orderly E m -> drives_everywhere E (m_hw m) ->
  find_empty_drive E m (bootstrap_disk_type p) = Ok None ->
  (config_drive p = L "cdrom" -> forall k i, In (k, i) (m_hw m) -> ~ empty_cd i) /\
  (config_drive p = L "harddisk" -> forall A d B, disks (e_ver E) m = A ++ d :: B -> (forall a, In a A -> ~ placeholder (e_ver E) m a) ->
     placeholder (e_ver E) m d -> forall k i, In (k, i) (m_hw m) -> ~ drive_of (e_ver E) m i d).
Proof.
  intros E m p O Hev H. rewrite drive_is in H. pose proof O as [Hi _ Hl Hp _ _ _ _]. split; intros Hc; rewrite Hc in H; unfold find_empty_drive in H.
  - rewrite str_eqb_refl in H. match type of H with rbind ?r _ = _ => destruct r as [ks|] eqn:Ek; [|discriminate] end. cbn [rbind] in H.
    destruct ks as [|k0 ks]; [|discriminate]. apply find_all_wanted in Ek as (_ & _ & Wk); [|exact Hi|apply HR_plain_cond].
    intros k i Hin [Ia No]. apply (Wk k). exists i. split; [exact Hin|].
    split; [intros t E0; injection E0 as <-; exact Ia|]. split; [intros q []|]. intros c [<-|[]] v [[q Hq] _]. now apply No in Hq.
  - change (str_eqb (L "harddisk") (L "cdrom")) with false in H. cbn iota in H. rewrite str_eqb_refl in H.
    intros A d B Ed HA Pd k i Hin (q & z & Hz & _ & did & Hdid & Hr). destruct (m_disks m) as [sec|] eqn:Es; [|unfold disks in Ed; rewrite Es in Ed; now destruct A].
    destruct (places (no_file_ref (e_ver E)) 0 (echildren sec)) as [|d0 ds] eqn:Epl.
    + destruct Pd as [Pd1 Pd2]. unfold disks in Pd1. rewrite Es in Pd1. apply tagged_In in Pd1 as [X1 X2]. apply In_nth_error in X1 as [j Hj].
      assert (F : In j (places (no_file_ref (e_ver E)) 0 (echildren sec))).
      { apply places_In. rewrite Nat.sub_0_r. split; [lia|]. exists d. split; [exact Hj|]. unfold no_file_ref. now rewrite X2, str_eqb_refl, Pd2. }
      rewrite Epl in F. exact F.
    + apply (places_head _ (fun e => str_eqb (etag e) (DISK (e_ver E)))) in Epl as (x & A' & B' & P1 & _ & P2 & P3 & P4);
        [|intros x Fe; unfold no_file_ref in Fe; now apply andb_prop in Fe].
      replace (d0 - 0) with d0 in P1 by lia. unfold no_file_ref in P2. apply andb_prop in P2 as [P2 P2'].
      assert (Ede : disks (e_ver E) m = A' ++ x :: B') by (unfold disks; now rewrite Es).
      assert (x = d) as ->.
      { assert (NA : forall a, In a A' -> get_attr a (DISK_FILE_REF (e_ver E)) <> None).
        { intros a Ha F. specialize (P4 a Ha). unfold no_file_ref in P4. rewrite F, andb_true_r in P4.
          assert (In a (disks (e_ver E) m)) by (rewrite Ede; apply in_or_app; now left). unfold disks in H0. rewrite Es in H0. apply filter_In in H0 as [_ T]. congruence. }
        assert (NB : forall a, In a A -> get_attr a (DISK_FILE_REF (e_ver E)) <> None).
        { intros a Ha F. apply (HA a Ha). split; [rewrite Ed; apply in_or_app; now left|exact F]. }
        assert (Dx : get_attr x (DISK_FILE_REF (e_ver E)) = None) by (destruct (get_attr x (DISK_FILE_REF (e_ver E))); [discriminate|reflexivity]).
        rewrite Ed in Ede. clear - Ede NA NB Dx Pd. destruct Pd as [_ Dd]. revert A' Ede NA. induction A as [|a A IH]; intros [|a' A'] Ede NA; cbn in Ede; injection Ede as E1 E2.
        - now symmetry.
        - exfalso. apply (NA a' (or_introl eq_refl)). congruence.
        - exfalso. apply (NB a (or_introl eq_refl)). congruence.
        - apply (IH ltac:(intros b Hb; apply NB; now right) A'); [exact E2|]. intros b Hb. apply NA. now right. }
      cbn [find_item_from_disk] in H. unfold the_disks in H. rewrite Es in H. cbn [rbind] in H. unfold attr_at, child_at in H. rewrite P1 in H. cbn [rbind] in H.
      rewrite Hdid in H. apply by_host in H as [_ X]; [|exact Hi].
      destruct (X eq_refl Hp k z) as [X1 X2]; [exists i, q; now split|]. destruct Hr as [Hr|Hr]; [now apply X1|now apply X2].
Qed.
