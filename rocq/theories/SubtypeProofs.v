(** Proofs about the subtype of the controllers that add-disk adds or uses. *)
From Coq Require Import List Ascii Bool ZArith.
Import ListNotations.
From Verif Require Import PyBase PyBaseProofs PyDict PyDictProofs ValidationModel ValidationSpec XmlModel NamesModel ItemModel ItemSpec PsetProofs ItemProofs ItemReachProofs HardwareModel HardwareSpec HardwareProofs HardwareIdProofs CountSpec CountProofs FindSpec FindProofs
  NetworkModel DriveModel DriveSpec SlotProofs DeviceProofs LinkProofs SearchProofs AddProofs WorkerProofs AddDiskProofs AddressProofs SubtypeSpec.
Local Open Scope nat_scope.

Lemma SUB_not_text : forall E, ~ text_property (e_ver E) RESOURCE_SUB_TYPE.
Proof. intros E. unfold text_property. destruct (e_ver E); intros [F|F]; discriminate F. Qed.
Lemma opt_value_same : forall a b, opt_value_eqb a b = true <-> a = b.
Proof.
  intros [a|] [b|]; cbn; split; intros H; try discriminate; try reflexivity.
  - f_equal. now apply value_eqb_eq.
  - injection H as ->. now apply value_eqb_eq.
Qed.

(** ** The common subtype *)
Lemma common_spec : forall E m ks sub, ids_ok (e_ver E) (m_hw m) -> (forall k, In k ks -> exists i, In (k, i) (m_hw m)) ->
  exists o, common_subtype E m sub ks = Ok o /\
    match sub with
    | None => (forall x, o = Some x <-> share (m_hw m) ks x)
    | Some s => (forall x, o = Some x <-> x = s /\ forall k i, In k ks -> In (k, i) (m_hw m) -> only_value (i_props i) RESOURCE_SUB_TYPE s)
    end.
Proof.
  intros E m ks. induction ks as [|k ks IH]; intros sub Hi Hk.
  - exists sub. split; [reflexivity|]. destruct sub as [s|].
    + intros x. split; [intros H; injection H as ->; split; [reflexivity|intros k i []]|intros [-> _]; reflexivity].
    + intros x. split; [discriminate|]. intros (ks1 & ks2 & H & N & _). symmetry in H. apply app_eq_nil in H as [_ ->]. now contradiction N.
  - destruct (Hk k (or_introl eq_refl)) as (i & Hin). assert (Hk' : forall k', In k' ks -> exists j, In (k', j) (m_hw m)) by (intros k' H; apply Hk; now right).
    assert (U : forall j, In (k, j) (m_hw m) -> j = i) by (intros j Hj; apply (hitem_In _ _ _ (proj1 Hi)) in Hj; apply (hitem_In _ _ _ (proj1 Hi)) in Hin; congruence).
    destruct (value_of_only E m k i RESOURCE_SUB_TYPE Hi Hin (SUB_not_text E)) as (s1 & Es & Hs). cbn [common_subtype]. rewrite Es. cbn [rbind].
    destruct sub as [s|].
    + destruct (opt_value_eqb (Some s) s1) eqn:Eq.
      * apply opt_value_same in Eq. subst s1. destruct (IH (Some s) Hi Hk') as (o & Eo & Ho). exists o. split; [exact Eo|]. intros x. rewrite Ho. split; intros [-> H]; (split; [reflexivity|]).
        -- intros k' i' [<-|H1] H2; [rewrite (U i' H2); now apply Hs|exact (H k' i' H1 H2)].
        -- intros k' i' H1 H2. exact (H k' i' (or_intror H1) H2).
      * exists None. split; [reflexivity|]. intros x. split; [discriminate|]. intros [-> H]. exfalso. assert (X : s1 = Some s) by (apply Hs; exact (H k i (or_introl eq_refl) Hin)).
        subst s1. assert (Y : opt_value_eqb (Some s) (Some s) = true) by now apply opt_value_same. rewrite Y in Eq. discriminate Eq.
    + destruct (IH s1 Hi Hk') as (o & Eo & Ho). exists o. split; [exact Eo|]. intros x. destruct s1 as [s|].
      * rewrite Ho. split.
        -- intros [-> H]. exists [], (k :: ks). split; [reflexivity|]. split; [discriminate|]. split; [intros k' i' w []|]. intros k' i' [<-|H1] H2; [rewrite (U i' H2); now apply Hs|exact (H k' i' H1 H2)].
        -- intros (ks1 & ks2 & Hks & N & H1 & H2). destruct ks1 as [|k1 ks1].
           ++ cbn [app] in Hks. subst ks2. assert (X : Some s = Some x) by (apply Hs; exact (H2 k i (or_introl eq_refl) Hin)). injection X as ->.
              split; [reflexivity|]. intros k' i' Q1 Q2. exact (H2 k' i' (or_intror Q1) Q2).
           ++ injection Hks as <- _. exfalso. apply (H1 k i s (or_introl eq_refl) Hin). now apply Hs.
      * rewrite Ho. split.
        -- intros (ks1 & ks2 & -> & N & H1 & H2). exists (k :: ks1), ks2. split; [reflexivity|]. split; [exact N|]. split; [|exact H2]. intros k' i' w [<-|Q1] Q2 F; [|exact (H1 k' i' w Q1 Q2 F)].
           rewrite (U i' Q2) in F. apply Hs in F. discriminate F.
        -- intros (ks1 & ks2 & Hks & N & H1 & H2). destruct ks1 as [|k1 ks1].
           ++ cbn [app] in Hks. subst ks2. assert (X : None = Some x) by (apply Hs; exact (H2 k i (or_introl eq_refl) Hin)). discriminate X.
           ++ injection Hks as <- ->. exists ks1, ks2. split; [reflexivity|]. split; [exact N|]. split; [|exact H2]. intros k' i' w Q1. apply H1. now right.
Qed.

(** ** One controller *)
Lemma new_subtype : forall E m ct sub address m' k, ids_ok (e_ver E) (m_hw m) ->
  add_controller_device E m ct sub address None = Ok (m', k) ->
  ~ taken (m_hw m) k /\ exists i, m_hw m' = m_hw m ++ [(k, i)] /\
    match sub with
    | None => forall q w, ~ own (i_props i) RESOURCE_SUB_TYPE q w
    | Some s => truthy (to_value E RESOURCE_SUB_TYPE s) = true -> only_value (i_props i) RESOURCE_SUB_TYPE (to_value E RESOURCE_SUB_TYPE s)
    end.
Proof.
  intros E m ct sub address m' k Hi H. unfold add_controller_device in H.
  destruct (new_item E (m_hw m) ct []) as [[k0 h']|] eqn:En; [|discriminate]. cbn [rbind fst snd] in H.
  apply new_all in En as (i & t & Hf & Htk & -> & Hid & Et & Hfr & Hown & Hrt & Hb).
  assert (B0 : brand_new E (m_hw m) k0 i) by (repeat split; try apply Hid; assumption).
  destruct (match address with Some a => Ok a | None => _ end) as [a|] eqn:Ea; [|discriminate]. cbn [rbind] in H.
  destruct (too_high ct (L "scsi") (L "ide") 3 1 a) as [[|]|] eqn:Eh; try discriminate. cbn [rbind] in H.
  destruct (set_props _ _ k0 _) as [m2|] eqn:E2; [|discriminate]. cbn [rbind fst snd] in H.
  apply (set_props_new E (m_hw m) _ k0 i) in E2 as (i2 & -> & B2 & S2 & _); [|exact Hi|exact B0|reflexivity| |].
  2:{ unfold ELEMENT_NAME, ITEM_DESCRIPTION. cbn. destruct (e_ver E); intros [F|[F|[F|[]]]]; discriminate F. }
  2:{ cbn. repeat constructor; cbn; destruct (e_ver E); intuition discriminate. }
  destruct sub as [s|].
  - destruct (set_props _ _ k0 _) as [m3|] eqn:E3; [|discriminate]. cbn [rbind] in H. injection H as <- <-.
    apply (set_props_new E (m_hw m) _ k0 i2) in E3 as (i3 & -> & B3 & S3 & V3); [|exact Hi|exact B2|reflexivity| |].
    2:{ cbn. destruct (e_ver E); intros [F|[]]; discriminate F. }
    2:{ cbn. repeat constructor; intros []. }
    split; [exact Htk|]. exists i3. split; [reflexivity|]. intros T. apply (V3 RESOURCE_SUB_TYPE s); [now left|apply SUB_not_text|exact T].
  - injection H as <- <-. split; [exact Htk|]. exists i2. split; [reflexivity|]. intros q w F. apply S2 in F.
    + revert F. apply Hb; [destruct (e_ver E); discriminate|discriminate|apply SUB_not_text].
    + unfold ELEMENT_NAME, ITEM_DESCRIPTION. cbn. destruct (e_ver E); intros [X|[X|[X|[]]]]; discriminate X.
Qed.
Lemma old_subtype : forall E m ct sub address c m' k, ids_ok (e_ver E) (m_hw m) ->
  add_controller_device E m ct sub address (Some c) = Ok (m', k) ->
  k = c /\ match sub with
    | None => m' = m
    | Some s => exists i i', In (k, i) (m_hw m) /\ m_hw m' = hset k i' (m_hw m) /\
        (truthy (to_value E RESOURCE_SUB_TYPE s) = true -> only_value (i_props i') RESOURCE_SUB_TYPE (to_value E RESOURCE_SUB_TYPE s))
    end.
Proof.
  intros E m ct sub address c m' k Hi H. unfold add_controller_device in H. cbn [rbind fst snd] in H.
  destruct sub as [s|]; [|injection H as <- <-; now split].
  destruct (set_props E m c _) as [m3|] eqn:E3; [|discriminate]. cbn [rbind] in H. injection H as <- <-. split; [reflexivity|].
  apply set_props_spec in E3 as (i & i' & Hin & -> & I' & F & S & V); [|exact Hi|cbn; destruct (e_ver E); intros [F|[]]; discriminate F].
  exists i, i'. split; [exact Hin|]. split; [reflexivity|]. intros T. apply (V RESOURCE_SUB_TYPE s); [now left|repeat constructor; intros []|apply SUB_not_text|exact T].
Qed.

(** ** add-disk *)
Lemma worker_sub : forall agree E fuel guess m im dt file_id controller subtype address diskname desc m' k,
  add_disk_worker agree E fuel guess m im dt file_id controller subtype address diskname desc = Ok (m', k) ->
  exists file disk ctrl0 drive ct ctrl fid m1 fj m2 oj parts sub m3 ck,
    search_for_elements E m (im_name im) file_id controller address = Ok (file, disk, ctrl0, drive) /\
    (ctrl = None -> ct = match controller with Some c => c | None => guess dt end) /\
    (ctrl = ctrl0 \/ exists k a, find_open_controller E m ct = Ok (Some (k, a)) /\ ctrl = Some k) /\
    validate_elements E m file disk drive ctrl file_id ct = Ok tt /\
    add_file (e_ver E) m im fid file disk = Ok (m1, fj) /\ add_disk fuel (e_ver E) m1 im fid dt disk = Ok (m2, oj) /\
    match ctrl, subtype with
    | None, None => exists s, get_common_subtype E m2 ct = Ok s /\ sub = option_map (fun x => as_input (Some x)) s
    | _, _ => sub = option_map IStr subtype
    end /\
    add_controller_device E m2 ct sub (fst parts) ctrl = Ok (m3, ck) /\
    add_disk_device E m3 dt (snd parts) diskname desc oj fj ck drive = Ok (m', k).
Proof.
  intros agree E fuel guess m im dt file_id controller subtype address diskname desc m' k H. unfold add_disk_worker in H.
  destruct (search_for_elements E m (im_name im) file_id controller address) as [[[[file disk] ctrl0] drive]|] eqn:E1; [|discriminate]. cbn [rbind] in H.
  match type of H with rbind ?r _ = _ => destruct r as [ct|] eqn:E2; [|discriminate] end. cbn [rbind] in H.
  match type of H with rbind ?r _ = _ => destruct r as [[ctrl addr]|] eqn:E3; [|discriminate] end. cbn [rbind] in H.
  match type of H with rbind ?r _ = _ => destruct r as [[]|] eqn:E4; [|discriminate] end. cbn [rbind] in H.
  match type of H with rbind ?r _ = _ => destruct r as [[]|] eqn:E5; [|discriminate] end. cbn [rbind] in H.
  match type of H with rbind ?r _ = _ => destruct r as [id1|] eqn:E6; [|discriminate] end. cbn [rbind] in H.
  match type of H with rbind ?r _ = _ => destruct r as [id2|] eqn:E7; [|discriminate] end. cbn [rbind] in H.
  match type of H with rbind ?r _ = _ => destruct r as [[m1 fj]|] eqn:E8; [|discriminate] end. cbn [rbind fst snd] in H.
  match type of H with rbind ?r _ = _ => destruct r as [[m2 oj]|] eqn:E9; [|discriminate] end. cbn [rbind fst snd] in H.
  match type of H with rbind ?r _ = _ => destruct r as [parts|] eqn:E10; [|discriminate] end. cbn [rbind] in H.
  match type of H with rbind ?r _ = _ => destruct r as [sub|] eqn:E11; [|discriminate] end. cbn [rbind] in H.
  match type of H with rbind ?r _ = _ => destruct r as [[m3 ck]|] eqn:E12; [|discriminate] end. cbn [rbind fst snd] in H.
  exists file, disk, ctrl0, drive, ct, ctrl, (match id2 with Some s => s | None => im_name im end), m1, fj, m2, oj, parts, sub, m3, ck.
  split; [reflexivity|]. split.
  { intros ->. assert (ctrl0 = None) as ->.
    { destruct ctrl0 as [c|]; [|reflexivity]. destruct address; discriminate E3. }
    destruct controller as [c|]; [now injection E2|]. cbn [guess_controller_type] in E2. now injection E2. }
  split.
  { destruct ctrl0 as [c0|]; [destruct address; injection E3 as <- <-; now left|]. destruct address as [a0|]; [injection E3 as <- <-; now left|].
    destruct (find_open_controller E m ct) as [[[k0 a0]|]|]; [right|left|discriminate]; cbn [rbind] in E3; injection E3 as <- <-; [exists k0, a0; now split|reflexivity]. }
  split; [exact E4|]. split; [exact E8|]. split; [exact E9|]. split; [|split; [exact E12|exact H]].
  destruct ctrl as [c|]; [now injection E11|]. destruct subtype as [s|]; [now injection E11|].
  destruct (get_common_subtype E m2 ct) as [s|]; [|discriminate E11]. exists s. split; [reflexivity|]. now injection E11.
Qed.

Section Worker.
Variables (agree : prompt -> bool) (E : env) (fuel : nat) (guess : str -> str) (m : vmd) (im : image) (dt : str) (file_id controller subtype address diskname desc : option str) (m' : vmd) (k : str).
Hypothesis Or : orderly E m.
Hypothesis RUN : add_disk_worker agree E fuel guess m im dt file_id controller subtype address diskname desc = Ok (m', k).
Let ct : str := match controller with Some c => c | None => guess dt end.

Theorem worker_both : ids_ok (e_ver E) (m_hw m') /\ exists ck ci, In (ck, ci) (m_hw m') /\
  (~ taken (m_hw m) k -> ck <> k /\ forall i, In (k, i) (m_hw m') -> only_value (i_props i) PARENT (VStr ck)) /\
  (forall k' j, k' <> k -> k' <> ck -> (In (k', j) (m_hw m') <-> In (k', j) (m_hw m))) /\
  (ck <> k ->
   match subtype with
   | Some s => s <> [] -> only_value (i_props ci) RESOURCE_SUB_TYPE (VTuple (split_on " "%char s))
   | None => In (ck, ci) (m_hw m) \/ (~ taken (m_hw m) ck /\
      exists ks, are_wanted E (m_hw m) (Some ct) [] [] ks /\
        (forall l, l <> [] -> share (m_hw m) ks (VTuple l) -> only_value (i_props ci) RESOURCE_SUB_TYPE (VTuple l)) /\
        ((forall x, ~ share (m_hw m) ks x) -> forall q w, ~ own (i_props ci) RESOURCE_SUB_TYPE q w))
   end).
Proof.
  destruct Or as [O1 O2 O3 O4 O5 O6 O7 O8]. change (ids_ok (e_ver E) (m_hw m)) in O1.
  destruct (worker_sub _ _ _ _ _ _ _ _ _ _ _ _ _ _ _ RUN) as (file & disk & ctrl0 & drive & ct0 & ctrl & fid & m1 & fj & m2 & oj & parts & sub & m3 & ck & W1 & W2 & WF & WV & W3 & W4 & W5 & W6 & W7).
  destruct (elements_at E m (im_name im) file_id controller address file disk ctrl0 drive) as [Pf Pd]; try assumption.
  apply validate_spec in WV as (_ & V2 & _ & _ & _); [|exact Pf|exact Pd].
  destruct (elements_say E m (im_name im) file_id controller address file disk ctrl0 drive O1 O2 O3 O4 O5 W1 V2) as (S & _ & _).
  pose proof (elements_hw fuel (e_ver E) m im fid dt file disk m1 fj m2 oj O3 Pf Pd W3 W4) as HW2.
  assert (Hi2 : ids_ok (e_ver E) (m_hw m2)) by (rewrite HW2; exact O1). assert (Hd2 : identified E (m_hw m2)) by (rewrite HW2; exact O2).
  assert (HCk : forall c, ctrl = Some c -> exists i, In (c, i) (m_hw m2)).
  { intros c ->. rewrite HW2. destruct WF as [WF|(k0 & a0 & Fo & F)].
    - exact (s_ctrl _ _ _ S c (eq_sym WF)).
    - injection F as ->. unfold find_open_controller in Fo. destruct (find_all_items E (m_hw m) (Some ct0) [] []) as [ks|] eqn:Ek; [|discriminate]. cbn [rbind] in Fo.
      apply find_all_wanted in Ek as (_ & _ & Wk); [|exact O1|intros z []].
      pose proof (first_open_spec E m ct0 ks O1 O2) as FO. rewrite Fo in FO. destruct FO as (ks1 & ks2 & ca & a1 & -> & _).
      { intros k' Hk'. apply Wk in Hk' as (j & Hj & _). now exists j. }
      destruct (proj1 (Wk k0)) as (j & Hj & _); [apply in_or_app; right; now left|]. now exists j. }
  destruct (controller_stage E m2 ct0 sub (fst parts) ctrl m3 ck Hi2 Hd2 HCk W6) as (_ & _ & _ & T3 & _).
  pose proof T3 as (Hi3 & Hd3 & T3o & ci3 & Hci3 & T3c).
  destruct (drive_stage E m3 dt (snd parts) diskname desc oj fj ck ci3 drive m' k Hi3 Hd3 Hci3 W7) as (_ & _ & _ & T4 & i & t & host & Hin & _ & _ & _ & _ & _ & PD).
  pose proof T4 as (Hi4 & Hd4 & T4o & _).
  assert (CI : exists ci, In (ck, ci) (m_hw m') /\ (ck <> k -> ci = ci3)).
  { destruct (str_eq_dec ck k) as [->|N]; [exists i; split; [exact Hin|now intros X]|exists ci3; split; [now apply T4o|reflexivity]]. }
  destruct CI as (ci & Hci & CE). split; [exact Hi4|]. exists ck, ci. split; [exact Hci|]. split; [|split].
  - intros N. destruct drive as [k0|].
    + exfalso. apply N. destruct PD as (-> & _). destruct (s_drive _ _ _ S k0 eq_refl) as [(i0 & I0 & _) _]. now exists i0.
    + destruct PD as (N3 & Hpar & _). split; [intros ->; apply N3; now exists ci3|]. intros j Hj. assert (j = i) as ->; [|exact Hpar].
      apply (hitem_In _ _ _ (proj1 Hi4)) in Hj. apply (hitem_In _ _ _ (proj1 Hi4)) in Hin. congruence.
  - intros k' j N1 N2. rewrite (T4o k' j N1), (T3o k' j N2), HW2. reflexivity.
  - intros N. rewrite (CE N). clear ci CE Hci.
    assert (U3 : forall j, In (ck, j) (m_hw m3) -> j = ci3) by (intros j Hj; apply (hitem_In _ _ _ (proj1 Hi3)) in Hj; apply (hitem_In _ _ _ (proj1 Hi3)) in Hci3; congruence).
    assert (TV : forall s, s <> [] -> to_value E RESOURCE_SUB_TYPE (IStr s) = VTuple (split_on " "%char s) /\ truthy (VTuple (split_on " "%char s)) = true).
    { intros s Hs. destruct s as [|c s]; [now contradiction Hs|]. split; [reflexivity|]. cbn [truthy]. destruct (split_on " "%char (c :: s)) eqn:Q; [|reflexivity].
      exfalso. revert Q. unfold split_on. exact (proj2 (proj2 (split_on_aux_spec " "%char (c :: s) [] eq_refl))). }
    destruct subtype as [s|].
    + assert (SB : sub = Some (IStr s)) by (destruct ctrl; exact W5). subst sub. intros Hs. destruct (TV s Hs) as [TV1 TV2]. destruct ctrl as [c|].
      * destruct (old_subtype _ _ _ _ _ _ _ _ Hi2 W6) as (-> & j & j' & Hj & HW3 & Q). rewrite TV1 in Q. rewrite <- (U3 j'); [exact (Q TV2)|]. rewrite HW3. apply (hset_In _ _ _ _ _ (proj1 Hi2)). now left.
      * destruct (new_subtype _ _ _ _ _ _ _ Hi2 W6) as (_ & j & HW3 & Q). rewrite TV1 in Q. rewrite <- (U3 j); [exact (Q TV2)|]. rewrite HW3. apply in_or_app. right. now left.
    + destruct ctrl as [c|].
      * rewrite W5 in W6. destruct (old_subtype _ _ _ _ _ _ _ _ Hi2 W6) as (-> & ->). left. now rewrite <- HW2.
      * right. destruct W5 as (s & W5 & ->). destruct (new_subtype _ _ _ _ _ _ _ Hi2 W6) as (NT & j & HW3 & Q). assert (J : j = ci3) by (apply U3; rewrite HW3; apply in_or_app; right; now left). subst j.
        rewrite HW2 in NT. split; [exact NT|]. unfold get_common_subtype in W5. rewrite HW2, (W2 eq_refl) in W5. fold ct in W5.
        destruct (find_all_items E (m_hw m) (Some ct) [] []) as [ks|] eqn:Ek; [|discriminate W5]. cbn [rbind] in W5. apply find_all_wanted in Ek as AW; [|exact O1|intros z []]. exists ks. split; [exact AW|].
        destruct (common_spec E m2 ks None Hi2) as (o & Eo & Ho); [intros k' Hk'; rewrite HW2; apply (proj2 (proj2 AW)) in Hk' as (j & Hj & _); now exists j|].
        rewrite Eo in W5. injection W5 as <-. rewrite HW2 in Ho. split.
        -- intros l Hl Sh. apply Ho in Sh. subst o. cbn [option_map as_input] in Q. apply Q. destruct l; [now contradiction Hl|reflexivity].
        -- intros Sh q w. destruct o as [x|]; [exfalso; exact (Sh x (proj1 (Ho x) eq_refl))|]. exact (Q q w).
Qed.
Definition worker_ids := proj1 worker_both.
Definition worker_subtype := proj2 worker_both.
End Worker.

Section Default.
Variables (agree : prompt -> bool) (E : env) (fuel : nat) (guess : str -> str) (m : vmd) (im : image) (dt : str) (file_id controller address diskname desc : option str) (m' : vmd) (k : str).
Hypothesis Or : orderly E m.
Hypothesis RUN : add_disk_worker agree E fuel guess m im dt file_id controller None address diskname desc = Ok (m', k).
Let ct : str := match controller with Some c => c | None => guess dt end.

Lemma new_one : forall ck ci, In (ck, ci) (m_hw m') -> ck <> k -> ~ taken (m_hw m) ck -> exists ks, are_wanted E (m_hw m) (Some ct) [] [] ks /\
  (forall l, l <> [] -> share (m_hw m) ks (VTuple l) -> only_value (i_props ci) RESOURCE_SUB_TYPE (VTuple l)) /\
  ((forall x, ~ share (m_hw m) ks x) -> forall q w, ~ own (i_props ci) RESOURCE_SUB_TYPE q w).
Proof.
  intros ck ci Hci N NT. pose proof (worker_ids agree E fuel guess m im dt file_id controller None address diskname desc m' k Or RUN) as Hi4.
  destruct (worker_subtype agree E fuel guess m im dt file_id controller None address diskname desc m' k Or RUN) as (ck0 & ci0 & H1 & _ & H3 & H4).
  destruct (str_eq_dec ck ck0) as [->|Q]; [|exfalso; apply NT; exists ci; now apply (H3 ck ci N Q)].
  assert (ci0 = ci) as -> by (apply (hitem_In _ _ _ (proj1 Hi4)) in H1; apply (hitem_In _ _ _ (proj1 Hi4)) in Hci; congruence).
  destruct (H4 N) as [X|[_ X]]; [exfalso; apply NT; now exists ci|exact X].
Qed.
Lemma wanted_a : forall i, wanted E (Some ct) [] [] i <-> is_a ct i.
Proof.
  intros i. split.
  - intros (H & _). destruct (H ct eq_refl) as (v & H1 & H2). now exists v.
  - intros (v & H1 & H2). split; [|split; [intros p []|intros c []]]. intros t Et. injection Et as <-. now exists v.
Qed.
Lemma all_same : forall l, l <> [] -> (exists k0 i0, In (k0, i0) (m_hw m) /\ is_a ct i0) ->
  (forall k0 i0, In (k0, i0) (m_hw m) -> is_a ct i0 -> only_value (i_props i0) RESOURCE_SUB_TYPE (VTuple l)) ->
  forall ck ci, In (ck, ci) (m_hw m') -> ck <> k -> ~ taken (m_hw m) ck -> only_value (i_props ci) RESOURCE_SUB_TYPE (VTuple l).
Proof.
  intros l Hl (k0 & i0 & H0 & A0) HA ck ci Hci N NT. destruct (new_one ck ci Hci N NT) as (ks & (_ & _ & W) & H & _). apply (H l Hl).
  exists [], ks. split; [reflexivity|]. split; [|split; [intros k1 i1 w []|]].
  - intros ->. apply (proj2 (W k0)). exists i0. split; [exact H0|now apply wanted_a].
  - intros k1 i1 I1 H1. apply (HA k1 i1 H1). apply W in I1 as (j & Hj & Wj). apply wanted_a in Wj. assert (j = i1) as <-; [|exact Wj].
    pose proof (o_ids _ _ Or) as Hi. apply (hitem_In _ _ _ (proj1 Hi)) in Hj. apply (hitem_In _ _ _ (proj1 Hi)) in H1. congruence.
Qed.
Lemma differ : forall k1 i1 k2 i2 x y, In (k1, i1) (m_hw m) -> In (k2, i2) (m_hw m) -> is_a ct i1 -> is_a ct i2 ->
  only_value (i_props i1) RESOURCE_SUB_TYPE x -> only_value (i_props i2) RESOURCE_SUB_TYPE y -> x <> y ->
  forall ck ci, In (ck, ci) (m_hw m') -> ck <> k -> ~ taken (m_hw m) ck -> forall q w, ~ own (i_props ci) RESOURCE_SUB_TYPE q w.
Proof.
  intros k1 i1 k2 i2 x y H1 H2 A1 A2 X1 X2 NE ck ci Hci N NT. destruct (new_one ck ci Hci N NT) as (ks & (_ & _ & W) & _ & H). apply H.
  intros z (ks1 & ks2 & -> & _ & S1 & S2).
  assert (Z : forall k0 i0 w, In (k0, i0) (m_hw m) -> is_a ct i0 -> only_value (i_props i0) RESOURCE_SUB_TYPE w -> w = z).
  { intros k0 i0 w H0 A0 X0. assert (I0 : In k0 (ks1 ++ ks2)) by (apply W; exists i0; split; [exact H0|now apply wanted_a]). apply in_app_or in I0 as [I0|I0].
    - exfalso. exact (S1 k0 i0 w I0 H0 X0).
    - destruct (S2 k0 i0 I0 H0) as [_ Q]. destruct X0 as [[p X0] _]. exact (Q p w X0). }
  apply NE. rewrite (Z k1 i1 x H1 A1 X1). symmetry. exact (Z k2 i2 y H2 A2 X2).
Qed.
End Default.

Lemma drive_name : forall E m dt address name ctrl m' k nm, create_disk_device E m dt address name ctrl = Ok (m', k, nm) ->
  match name with
  | Some n => nm = n
  | None => (dt = L "cdrom" /\ nm = L "CD-ROM Drive") \/ (dt = L "harddisk" /\ nm = L "Hard Disk Drive")
  end.
Proof.
  intros E m dt address name ctrl m' k nm H. unfold create_disk_device in H.
  destruct (value_of E m ctrl (INSTANCE_ID (e_ver E))) as [inst|e]; [|discriminate H]. cbn [rbind] in H.
  match type of H with rbind ?x _ = _ => destruct x as [a|e]; [|discriminate H] end. cbn [rbind] in H.
  destruct (hardware_type E m ctrl) as [ct|e]; [|discriminate H]. cbn [rbind] in H.
  destruct (too_high ct (L "scsi") (L "ide") 15 1 a) as [[|]|e]; try discriminate H. cbn [rbind] in H.
  assert (K : forall n, rbind (new_item E (m_hw m) dt []) (fun kh => rbind (set_props E (with_hw (snd kh) m) (fst kh) [(ADDRESS_ON_PARENT, IStr a); (PARENT, as_input inst)])
    (fun m2 => Ok (m2, fst kh, n))) = Ok (m', k, nm) -> nm = n).
  { intros n X. destruct (new_item E (m_hw m) dt []) as [kh|e]; [|discriminate X]. cbn [rbind] in X.
    match type of X with rbind ?x _ = _ => destruct x as [m2|e]; [|discriminate X] end. cbn [rbind] in X. now injection X as _ _ <-. }
  destruct name as [n|].
  - exact (K n H).
  - destruct (str_eqb dt (L "cdrom")) eqn:A.
    + left. apply str_eqb_eq in A. split; [exact A|exact (K _ H)].
    + destruct (str_eqb dt (L "harddisk")) eqn:B; [|discriminate H]. right. apply str_eqb_eq in B. split; [exact B|exact (K _ H)].
Qed.

(** ** The name of a new controller *)
From Verif Require Import ItemSetProofs ItemProfileProofs ItemEffectProofs HardwareIdProofs CountItemProofs.
Lemma set_name_only : forall E i n x i', reachable (e_ver E) i -> (forall P, add_wildcards E (i_props i) n (to_value E n x) P = Ok (to_value E n x)) ->
  truthy (to_value E n x) = true -> set_property E i n x [] true = Ok i' -> only_value (i_props i') n (to_value E n x).
Proof.
  intros E i n x i' R Ht Hx H. pose proof (reachable_good _ _ R) as G.
  pose proof (reachable_good _ _ (R_set _ E i n x [] true i' eq_refl R H)) as G'.
  apply set_property_effect in H as (v & Hv & H1 & H2 & _ & _); [|exact R].
  rewrite Ht in Hv. injection Hv as <-.
  assert (D : forall q, (exists w, own (i_props i) n q w) \/ forall w, ~ own (i_props i) n q w).
  { intros q. apply own_dec. apply G. }
  assert (X : exists q, requested (i_props i) n [] q).
  { destruct (prget n (i_props i)) as [d|] eqn:Ed.
    - destruct (requested_profs E i n [] None G) as [A _].
      destruct (profs_of (i_props i) n []) as [|q Q] eqn:EQ.
      + exfalso. apply (profs_nonempty (i_props i) n []) in EQ; [exact EQ|apply G|]. intros d0. now apply (good_dict (e_ver E)).
      + exists q. apply (requested_profs E i n [] q G). rewrite EQ. now left.
    - exists None. right. split; [|reflexivity]. intros q v (d & s & Hd & _). apply prget_In in Hd; [|apply G]. congruence. }
  split.
  - destruct X as [q Hq]. assert (F : holds (i_props i') n q (to_value E n x)) by (apply H1; [exact Hx|now left|reflexivity]).
    destruct F as [F|[_ F]]; eauto.
  - intros q w Hw. assert (HW : holds (i_props i') n q w) by now left.
    destruct (D q) as [[u Hu]|Hn].
    + apply (H1 q w Hx); [|exact HW]. left. left. now exists u.
    + destruct (D None) as [[u Hu]|HN].
      * apply (H1 q w Hx); [|exact HW]. right. split; [left; now exists u|exact Hn].
      * destruct X as [p [[u Hu]|[Hp _]]].
        -- exfalso. apply (H2 q w Hx) in HW.
           ++ destruct HW as [HW|[_ HW]]; [now apply (Hn w)|now apply (HN w)].
           ++ intros [[[u' Hu']|[F _]]|[[[u' Hu']|[F _]] _]]; [now apply (Hn u')|now apply (F p u)|now apply (HN u')|now apply (F p u)].
        -- apply (H1 q w Hx); [|exact HW]. right. split; [|exact Hn]. right. now split.
Qed.

Lemma no_own_raw : forall ver i n P, reachable ver i -> (forall q w, ~ own (i_props i) n q w) -> get_raw (i_props i) n (Some P) = None.
Proof.
  intros ver i n P R N. pose proof (reachable_good _ _ R) as (_ & G & _). unfold get_raw. destruct (prget n (i_props i)) as [d|] eqn:E; [|reflexivity].
  destruct d as [|[v s] d]; [reflexivity|]. exfalso. apply prget_In in E; [|apply (reachable_good _ _ R)].
  destruct s as [|q s].
  - pose proof (G _ _ E) as X. destruct X as (X1 & X2 & X3). pose proof (X2 v [] (or_introl eq_refl)). tauto.
  - apply (N q v). exists ((v, q :: s) :: d), (q :: s). split; [exact E|]. split; now left.
Qed.

Lemma no_own_value : forall E i n P, reachable (e_ver E) i -> (forall q w, ~ own (i_props i) n q w) -> get_value E (i_props i) n (Some P) = Ok None.
Proof. intros E i n P R N. unfold get_value. rewrite (no_own_raw (e_ver E) i n P R N). reflexivity. Qed.

Lemma name_as_is : forall E i v P, reachable (e_ver E) i ->
  (forall n q w, In n [VIRTUAL_QUANTITY; RESOURCE_SUB_TYPE; CONNECTION] -> ~ own (i_props i) n q w) ->
  add_wildcards E (i_props i) (ELEMENT_NAME (e_ver E)) v P = Ok v.
Proof.
  intros E i v P R N. unfold add_wildcards.
  assert (D : is_desc (ELEMENT_NAME (e_ver E)) = false) by (destruct (e_ver E); reflexivity).
  assert (T : is_text E (ELEMENT_NAME (e_ver E)) = true) by (unfold is_text; rewrite str_eqb_refl; reflexivity).
  rewrite D, T. cbn [rbind]. unfold sub_value.
  rewrite (no_own_value E i VIRTUAL_QUANTITY P R) by (intros q w; apply N; now left). cbn [rbind].
  rewrite (no_own_value E i RESOURCE_SUB_TYPE P R) by (intros q w; apply N; right; now left). cbn [rbind].
  rewrite (no_own_value E i CONNECTION P R) by (intros q w; apply N; right; right; now left). reflexivity.
Qed.

Lemma set_props_item : forall E h m0 k i l m', ids_ok (e_ver E) h -> ~ taken h k -> id_is (e_ver E) k i -> m_hw m0 = h ++ [(k, i)] ->
  set_props E m0 k l = Ok m' ->
  exists i', fold_result (fun i nx => set_property E i (fst nx) (snd nx) [] true) l i = Ok i' /\ m' = with_hw (h ++ [(k, i')]) m0.
Proof.
  intros E h m0 k i l m' Hi B2 B3 Em H. unfold set_props in H. destruct (hitem k (m_hw m0)) as [j|] eqn:Ej; [|discriminate]. cbn [rbind] in H.
  destruct (fold_result _ l j) as [i'|] eqn:Ef; [|discriminate]. cbn [rbind] in H. injection H as <-.
  assert (I : ids_ok (e_ver E) (m_hw m0)) by (rewrite Em; now apply ids_app).
  apply (hitem_In _ _ _ (proj1 I)) in Ej.
  assert (j = i) as -> by (rewrite Em in Ej; apply in_app_or in Ej as [Ej|[Ej|[]]]; [exfalso; apply B2; now exists j|congruence]).
  exists i'. split; [exact Ef|]. now rewrite Em, (hset_last h k i i' B2).
Qed.

Lemma upper_capitals : forall s, in_capitals s (upper_type s).
Proof.
  intros s. unfold in_capitals, upper_type. induction s as [|c s IH]; constructor; [|exact IH]. clear IH s.
  assert (B : forall c, (existsb (fun ab => Ascii.eqb (fst ab) c && Ascii.eqb (snd ab) (let n := nat_of_ascii c in if (97 <=? n) && (n <=? 122) then ascii_of_nat (n - 32) else c)) (combine small_letters capital_letters)
    || (Ascii.eqb c (let n := nat_of_ascii c in if (97 <=? n) && (n <=? 122) then ascii_of_nat (n - 32) else c) && negb (existsb (Ascii.eqb c) small_letters))) = true).
  { intros [b0 b1 b2 b3 b4 b5 b6 b7]. destruct b0, b1, b2, b3, b4, b5, b6, b7; vm_compute; reflexivity. }
  specialize (B c). apply orb_prop in B as [B|B].
  - left. apply existsb_exists in B as ([a b] & H1 & H2). cbn [fst snd] in H2. apply andb_prop in H2 as [H2 H3].
    apply Ascii.eqb_eq in H2. apply Ascii.eqb_eq in H3. subst a. rewrite H3 in H1. exact H1.
  - right. apply andb_prop in B as [B1 B2]. apply Ascii.eqb_eq in B1. split; [exact B1|]. intros F.
    apply negb_true_iff in B2. assert (X : existsb (Ascii.eqb c) small_letters = true) by (apply existsb_exists; exists c; split; [exact F|apply Ascii.eqb_refl]). congruence.
Qed.

Lemma only_same : forall ps ps' n v, (forall q w, own ps' n q w <-> own ps n q w) -> only_value ps n v -> only_value ps' n v.
Proof. intros ps ps' n v S [[p Hp] Ho]. split; [exists p; now apply S|]. intros q w Hw. apply S in Hw. now apply (Ho q). Qed.

Lemma controller_name : forall E m ct sub address m' k, ids_ok (e_ver E) (m_hw m) ->
  add_controller_device E m ct sub address None = Ok (m', k) ->
  exists i up, m_hw m' = m_hw m ++ [(k, i)] /\ in_capitals ct up /\ only_value (i_props i) (ELEMENT_NAME (e_ver E)) (VStr (up ++ L " Controller")).
Proof.
  intros E m ct sub address m' k Hi H. unfold add_controller_device in H.
  destruct (new_item E (m_hw m) ct []) as [[k0 h']|] eqn:En; [|discriminate]. cbn [rbind fst snd] in H.
  apply new_all in En as (i & t & Hf & Htk & -> & Hid & Et & Hfr & Hown & Hrt & Hb).
  assert (B0 : brand_new E (m_hw m) k0 i) by (repeat split; try apply Hid; assumption).
  destruct (match address with Some a => Ok a | None => _ end) as [a|] eqn:Ea; [|discriminate]. cbn [rbind] in H.
  destruct (too_high ct (L "scsi") (L "ide") 3 1 a) as [[|]|] eqn:Eh; try discriminate. cbn [rbind] in H.
  destruct (set_props _ _ k0 _) as [m2|] eqn:E2; [|discriminate]. cbn [rbind fst snd] in H.
  pose proof E2 as E2'.
  apply (set_props_new E (m_hw m) _ k0 i) in E2' as (i2' & Em2 & B2 & _ & _); [|exact Hi|exact B0|reflexivity| |].
  2:{ unfold ELEMENT_NAME, ITEM_DESCRIPTION. cbn. destruct (e_ver E); intros [F|[F|[F|[]]]]; discriminate F. }
  2:{ cbn. repeat constructor; cbn; destruct (e_ver E); intuition discriminate. }
  apply (set_props_item E (m_hw m) _ k0 i) in E2 as (i2 & Ef & Em2'); [|exact Hi|exact Htk|exact Hid|reflexivity].
  assert (i2' = i2) as ->.
  { rewrite Em2 in Em2'. injection Em2' as Em2'. apply app_inv_head in Em2'. congruence. }
  subst m2.
  assert (V2 : only_value (i_props i2) (ELEMENT_NAME (e_ver E)) (VStr (upper_type ct ++ L " Controller"))).
  { cbn [fold_result fst snd] in Ef. destruct Hid as [R0 _].
    destruct (set_property E i ADDRESS _ [] true) as [ia|] eqn:EA; [|discriminate]. cbn [rbind] in Ef.
    destruct (set_property E ia _ _ [] true) as [ib|] eqn:EB; [|discriminate]. cbn [rbind] in Ef.
    destruct (set_property E ib _ _ [] true) as [ic|] eqn:EC; [|discriminate]. cbn [rbind] in Ef. injection Ef as <-.
    assert (Ra : reachable (e_ver E) ia) by exact (R_set _ E i _ _ [] true ia eq_refl R0 EA).
    assert (Rb : reachable (e_ver E) ib) by exact (R_set _ E ia _ _ [] true ib eq_refl Ra EB).
    apply (only_same (i_props ib)).
    - intros q w. eapply (set_other_rec E ib ITEM_DESCRIPTION); [exact Rb| |exact EC]. destruct (e_ver E); discriminate.
    - assert (TV : forall x, to_value E (ELEMENT_NAME (e_ver E)) (IStr x) = VStr x) by (intros x; unfold to_value, ELEMENT_NAME; destruct (e_ver E); reflexivity).
      rewrite <- TV. apply (set_name_only E ia _ _ ib Ra); [|rewrite TV; destruct (upper_type ct); reflexivity|exact EB].
      intros P. apply name_as_is; [exact Ra|]. intros n q w Hn F.
      assert (NA : n <> ADDRESS) by (intros ->; repeat destruct Hn as [Hn|Hn]; try discriminate Hn; contradiction).
      apply (set_other_rec E i ADDRESS _ [] true ia n q w R0 NA EA) in F. revert F.
      apply Hb; [intros ->; destruct (e_ver E); repeat destruct Hn as [Hn|Hn]; try discriminate Hn; contradiction|intros ->; repeat destruct Hn as [Hn|Hn]; try discriminate Hn; contradiction|].
      unfold text_property. intros [-> | ->]; destruct (e_ver E); repeat destruct Hn as [Hn|Hn]; try discriminate Hn; contradiction. }
  destruct sub as [s|].
  - destruct (set_props _ _ k0 _) as [m3|] eqn:E3; [|discriminate]. cbn [rbind] in H. injection H as <- <-.
    apply (set_props_new E (m_hw m) _ k0 i2) in E3 as (i3 & -> & B3 & S3 & V3); [|exact Hi|exact B2|reflexivity| |].
    2:{ cbn. destruct (e_ver E); intros [F|[]]; discriminate F. }
    2:{ cbn. repeat constructor; intros []. }
    exists i3, (upper_type ct). split; [reflexivity|]. split; [apply upper_capitals|]. apply (only_same (i_props i2)); [|exact V2].
    intros q w. apply S3. cbn. destruct (e_ver E); intros [F|[]]; discriminate F.
  - injection H as <- <-. exists i2, (upper_type ct). split; [reflexivity|]. split; [apply upper_capitals|exact V2].
Qed.
