(** What a run of edit-hardware does to the tree: the hardware goes through steps of the hardware,
    of the envelope only the sections of networks and profiles change, and of the hardware
    section only the System. *)
From Coq Require Import List Ascii Bool ZArith.
Import ListNotations.
From Verif Require Import PyBase PyBaseProofs PyDict XmlModel XmlSpec XmlProofs NamesModel ItemModel ItemSpec HardwareModel HardwareSpec HardwareIdProofs
  ProfileModel ProfileSpec NetworkModel NetworkSpec WildListModel EditHwModel EditHwSpec EditHwAllProofs InfoProfileProofs.

Inductive hw_steps (v : version) (h : hw) : hw -> Prop :=
| HS_refl : hw_steps v h h
| HS_step : forall g g', hw_steps v h g -> hw_step v g g' -> hw_steps v h g'.
Lemma hw_steps_trans : forall v a b c, hw_steps v a b -> hw_steps v b c -> hw_steps v a c.
Proof. intros v a b c H1 H2. induction H2; [exact H1|]. now apply HS_step with g. Qed.

Definition rest_of (v : version) (e : elem) : list elem := filter (fun c => negb (is_netsec v c || is_deploy v c)) (echildren e).
Definition rest_of_section (v : version) (e : elem) : list elem := filter (fun c => negb (str_eqb (etag c) (SYSTEM v))) (echildren e).

Record moved (v : version) (m m' : vm) : Prop := {
  mv_steps : hw_steps v (devices_of m) (devices_of m');
  mv_envelope : same_but_children (p_env (v_doc m)) (p_env (v_doc m'));
  mv_rest : rest_of v (p_env (v_doc m')) = rest_of v (p_env (v_doc m));
  mv_section : same_but_children (v_sec m) (v_sec m');
  mv_items : rest_of_section v (v_sec m') = rest_of_section v (v_sec m) }.

Lemma sbc_refl : forall e, same_but_children e e. Proof. now intros e. Qed.
Lemma sbc_trans : forall a b c, same_but_children a b -> same_but_children b c -> same_but_children a c.
Proof. intros a b c (H1 & H2 & H3 & H4) (K1 & K2 & K3 & K4). repeat split; congruence. Qed.
Lemma moved_refl : forall v m, moved v m m.
Proof. intros v m. constructor; try reflexivity; try apply sbc_refl. apply HS_refl. Qed.
Lemma moved_trans : forall v a b c, moved v a b -> moved v b c -> moved v a c.
Proof.
  intros v a b c [A1 A2 A3 A4 A5] [B1 B2 B3 B4 B5]. constructor.
  - now apply hw_steps_trans with (devices_of b).
  - now apply sbc_trans with (p_env (v_doc b)).
  - congruence.
  - now apply sbc_trans with (v_sec b).
  - congruence.
Qed.
Lemma moved_fold : forall v (A : Type) (f : vm -> A -> result vm) l m m', (forall a x b, f a x = Ok b -> moved v a b) ->
  fold_result f l m = Ok m' -> moved v m m'.
Proof.
  intros v A f l. induction l as [|x l IH]; intros m m' H F; cbn in F.
  - injection F as <-. apply moved_refl.
  - destruct (f m x) as [b|] eqn:Eb; [|discriminate]. apply moved_trans with b; [now apply (H m x)|]. apply (IH b m' H). exact F.
Qed.
Lemma moved_log : forall v m e, moved v m (with_log e m).
Proof. intros v m e. constructor; try reflexivity; try apply sbc_refl. apply HS_refl. Qed.
Lemma moved_confirm : forall v U m q m', confirm_or_die U m q = Ok m' -> moved v m m'.
Proof. intros v U m q m' H. unfold confirm_or_die, confirm in H. destruct (u_confirm U (v_log m) q); [|discriminate]. injection H as <-. apply moved_log. Qed.
Lemma moved_hw : forall E m f m', (forall h', f (henv E m) (devices_of m) = Ok h' -> hw_step (e_ver E) (devices_of m) h') -> on_hw E m f = Ok m' -> moved (e_ver E) m m'.
Proof.
  intros E m f m' H F. unfold on_hw in F. apply rbind_ok in F as (h & Hf & F). injection F as <-.
  constructor; try reflexivity; try apply sbc_refl. apply HS_step with (devices_of m); [apply HS_refl|]. now apply H.
Qed.

(** Changes of the tree *)
Lemma filter_update : forall (f g : elem -> bool) new l, (forall x, g x = true -> f x = false) -> f new = false ->
  filter f (update_first g (fun _ => new) l) = filter f l.
Proof.
  intros f g new l H N. induction l as [|x l IH]; [reflexivity|]. cbn [update_first]. destruct (g x) eqn:G; cbn [filter].
  - now rewrite N, (H x G).
  - now rewrite IH.
Qed.
Lemma filter_insert : forall (f : elem -> bool) t new l, f new = false -> filter f (insert_before t new l) = filter f l.
Proof.
  intros f t new l N. induction l as [|x l IH]; cbn [insert_before]; [cbn [filter]; now rewrite N|]. destruct (str_eqb (etag x) t); cbn [filter]; [now rewrite N|now rewrite IH].
Qed.
Lemma filter_remove : forall (f g : elem -> bool) l, (forall x, g x = true -> f x = false) -> filter f (remove_first g l) = filter f l.
Proof.
  intros f g l H. induction l as [|x l IH]; [reflexivity|]. cbn [remove_first]. destruct (g x) eqn:G; cbn [filter]; [now rewrite (H x G)|]. now rewrite IH.
Qed.
Lemma sbc_set : forall cs e, same_but_children e (set_children cs e). Proof. now intros cs [t a x tl c]. Qed.
Lemma set_set_children : forall cs ds e, set_children cs (set_children ds e) = set_children cs e. Proof. now intros cs ds [t a x tl c]. Qed.
Lemma children_set : forall cs e, echildren (set_children cs e) = cs. Proof. now intros cs [t a x tl c]. Qed.
Lemma made_same : forall p tag tx ord r, set_or_make_child p tag tx [] ord = Ok r -> same_but_children p (fst r).
Proof.
  intros p tag tx ord r H. pose proof (set_or_make_child_spec p tag tx [] ord (NoDup_nil _)) as S. rewrite H in S. destruct r as [p' c]. apply S.
Qed.
(** The section found, or made, and the parent with it *)
Lemma ensured : forall v p tag info at_ q s (f : elem -> bool), NoDup (map fst at_) -> ensure_section v p tag info at_ = Ok (q, s) ->
  (forall x, answers tag at_ x -> f x = false) ->
  same_but_children p q /\ filter f (echildren q) = filter f (echildren p) /\ answers tag at_ s.
Proof.
  intros v p tag info at_ q s f N H F. destruct (SectionProofs.ensure_section_spec v p tag info at_ q s N H) as (A & B & EQ & AN & _ & SB & [-> | (EP & _)]).
  - split; [apply sbc_refl|]. now split.
  - split; [exact SB|]. split; [|exact AN]. rewrite EQ, EP, !filter_app. cbn [filter]. now rewrite (F s AN).
Qed.
Lemma answers_same : forall t a e e', same_but_children e e' -> answers t a e -> answers t a e'.
Proof. intros t a e e' (H1 & H2 & _) [K1 K2]. split; [congruence|]. unfold get_attr in *. rewrite <- H2. exact K2. Qed.
Lemma deploy_answers : forall v x, is_deploy v x = true <-> answers (DEPLOY_OPT_SECTION v) [] x.
Proof.
  intros v x. rewrite <- child_match_spec. unfold child_match, is_deploy. cbn. now rewrite andb_true_r.
Qed.
Lemma rest_deploy : forall v x, answers (DEPLOY_OPT_SECTION v) [] x -> negb (is_netsec v x || is_deploy v x) = false.
Proof. intros v x H. apply deploy_answers in H. rewrite H. now rewrite orb_true_r. Qed.
Lemma rest_network : forall v x, answers (NETWORK_SECTION v) (NETWORK_SECTION_ATTRIB v) x -> negb (is_netsec v x || is_deploy v x) = false.
Proof. intros v x H. unfold is_netsec. apply child_match_spec in H. now rewrite H. Qed.
Lemma sections_updated : forall v tag at_ q new (m : elem -> bool), (forall x, m x = true -> answers tag at_ x) ->
  (forall x, answers tag at_ x -> negb (is_netsec v x || is_deploy v x) = false) -> answers tag at_ new ->
  same_but_children q (set_children (update_first m (fun _ => new) (echildren q)) q) /\
  rest_of v (set_children (update_first m (fun _ => new) (echildren q)) q) = rest_of v q.
Proof.
  intros v tag at_ q new m M F N. split; [apply sbc_set|]. unfold rest_of. rewrite children_set. apply filter_update; [|now apply F]. intros x Hx. now apply F, M.
Qed.

Lemma created_moved : forall v m p label desc d, create_profile v (v_doc m) p label desc = Ok d -> moved v m (with_doc d m).
Proof.
  intros v m p label desc d H. unfold create_profile in H. apply rbind_ok in H as ((q & s) & En & H).
  destruct (ensured v _ _ _ [] q s (fun c => negb (is_netsec v c || is_deploy v c)) (NoDup_nil str) En (rest_deploy v)) as (S1 & S2 & S3).
  apply rbind_ok in H as (o & _ & H). apply rbind_ok in H as (r1 & _ & H). apply rbind_ok in H as (r2 & _ & H). injection H as <-.
  match goal with |- moved _ _ (with_doc (mkPdoc (set_children (update_first _ (fun _ => ?new) _) _) _ _ _) _) =>
    destruct (sections_updated v (DEPLOY_OPT_SECTION v) [] q new (is_deploy v)) as [T1 T2] end.
  - intros x. apply deploy_answers.
  - apply rest_deploy.
  - destruct o; apply answers_same with s; try exact S3; apply sbc_set.
  - constructor; cbn [with_doc v_doc p_env v_sec p_hw devices_of]; try apply sbc_refl; try reflexivity.
    + apply HS_refl.
    + now apply sbc_trans with q.
    + rewrite T2. exact S2.
Qed.
Lemma network_moved : forall E m name desc m', define_network E m name desc = Ok m' -> moved (e_ver E) m m'.
Proof.
  intros E m name desc m' H. unfold define_network in H. apply rbind_ok in H as (d & H & K). injection K as <-. set (v := e_ver E) in *. unfold create_network in H. apply rbind_ok in H as ((q & s) & En & H).
  destruct (ensured v _ _ _ _ q s (fun c => negb (is_netsec v c || is_deploy v c)) (NetworkProofs.attrib_NoDup v) En (rest_network v)) as (S1 & S2 & S3).
  apply rbind_ok in H as (o & _ & H). apply rbind_ok in H as (r1 & _ & H). injection H as <-.
  match goal with |- moved _ _ (with_net _ (mkNet (set_children (update_first _ (fun _ => ?new) _) _) _)) =>
    destruct (sections_updated v (NETWORK_SECTION v) (NETWORK_SECTION_ATTRIB v) q new (is_netsec v)) as [T1 T2] end.
  - intros x. apply child_match_spec.
  - apply rest_network.
  - destruct o; apply answers_same with s; try exact S3; apply sbc_set.
  - constructor; cbn [with_net v_doc p_env v_sec p_hw devices_of n_env]; try apply sbc_refl; try reflexivity.
    + apply HS_refl.
    + now apply sbc_trans with q.
    + rewrite T2. exact S2.
Qed.
Lemma deleted_moved : forall E m p m', delete_one E m p = Ok m' -> moved (e_ver E) m m'.
Proof.
  intros E m p m' H. unfold delete_one in H. apply rbind_ok in H as (d & H & K). injection K as <-. unfold delete_profile in H.
  destruct (deploy_section (e_ver E) (v_doc m)) as [s|] eqn:Es; [|discriminate]. apply rbind_ok in H as (o & _ & H). destruct o as [c|]; [|discriminate]. apply rbind_ok in H as (h & Hh & H).
  assert (ST : hw_steps (e_ver E) (devices_of m) h).
  { apply HS_step with (devices_of m); [apply HS_refl|]. apply (H_drop (e_ver E) (devices_of m) (hw_env E (v_doc m)) p); [reflexivity|exact Hh]. }
  unfold deploy_section in Es. destruct (p_deploy (v_doc m)) as [| |x] eqn:Ed; [discriminate| |].
  - assert (D : answers (DEPLOY_OPT_SECTION (e_ver E)) [] s) by (apply find_some in Es as [_ Es]; now apply deploy_answers).
    match type of H with (match ?fa with _ => _ end) = _ => destruct fa end; injection H as <-.
    + constructor; cbn [with_doc v_doc p_env v_sec p_hw devices_of]; try apply sbc_refl; try reflexivity; [exact ST|apply sbc_set|]. unfold rest_of. rewrite children_set. apply filter_remove.
      intros x Hx. apply rest_deploy. now apply deploy_answers.
    + match goal with |- moved _ _ (with_doc (mkPdoc (set_children (update_first _ (fun _ => ?new) _) _) _ _ _) _) =>
        destruct (sections_updated (e_ver E) (DEPLOY_OPT_SECTION (e_ver E)) [] (p_env (v_doc m)) new (is_deploy (e_ver E))) as [T1 T2] end.
      * intros x. apply deploy_answers.
      * apply rest_deploy.
      * apply answers_same with s; [apply sbc_set|exact D].
      * constructor; cbn [with_doc v_doc p_env v_sec p_hw devices_of]; try apply sbc_refl; try reflexivity; [exact ST|exact T1|exact T2].
  - match type of H with (match ?fa with _ => _ end) = _ => destruct fa end; [discriminate|]. injection H as <-.
    constructor; cbn [with_doc v_doc p_env v_sec p_hw devices_of]; try apply sbc_refl; try reflexivity. exact ST.
Qed.

(** ** The phases of the command *)
Section Run.
Variables (E : env) (U : user) (P : hw_platform) (s : settings).
Notation v := (e_ver E).
Lemma profiles_moved : forall m m', update_profiles E U m s = Ok m' -> moved v m m'.
Proof.
  intros m m' H. unfold update_profiles in H. apply rbind_ok in H as (m1 & H1 & H).
  assert (M1 : moved v m m1).
  { destruct (s_profiles s) as [l|]; [|injection H1 as <-; apply moved_refl]. apply rbind_ok in H1 as (a & Ha & H1). apply rbind_ok in H1 as (b & Hb & H1).
    apply moved_trans with a; [destruct (given (s_system_types s)); [now apply moved_confirm with U AskSystemTypes|injection Ha as <-; apply moved_refl]|].
    apply moved_trans with b; [destruct (given (s_net_descs s)); [now apply moved_confirm with U AskDescriptions|injection Hb as <-; apply moved_refl]|].
    unfold create_new_profiles in H1. apply (moved_fold v _ _ _ _ _) in H1; [exact H1|]. clear. intros a' p b' H. unfold create_one in H. destruct (mem_str p _); [injection H as <-; apply moved_refl|].
    apply rbind_ok in H as (m1 & H1 & H). unfold get_input in H. apply rbind_ok in H as (d & Hd & H). injection H as <-.
    apply moved_trans with m1; [now apply moved_confirm with U (AskCreate p)|].
    match type of Hd with create_profile _ (v_doc ?x) _ _ _ = _ => apply moved_trans with x end; [|apply created_moved in Hd; exact Hd].
    eapply moved_trans; apply moved_log. }
  apply moved_trans with m1; [exact M1|]. destruct (s_delete_others s); [|injection H as <-; apply moved_refl]. unfold delete_other_profiles in H. destruct (s_profiles s) as [l|].
  - apply (moved_fold v _ _ _ _ _) in H; [exact H|]. clear. intros a p b H. unfold delete_asked, confirm in H. destruct (u_confirm U (v_log a) (AskDelete p)).
    + apply deleted_moved in H. eapply moved_trans; [|exact H]. apply moved_log.
    + injection H as <-. apply moved_log.
  - apply rbind_ok in H as (a & Ha & H). apply moved_trans with a; [now apply moved_confirm with U AskDeleteAll|]. apply (moved_fold v _ _ _ _ _) in H; [exact H|]. intros x p b Hx. now apply deleted_moved in Hx.
Qed.
Lemma system_types_moved : forall m l m', (do sec <- set_system_types E (v_sec m) l; Ok (with_sec sec m)) = Ok m' -> moved v m m'.
Proof.
  intros m l m' H. apply rbind_ok in H as (sec & H & K). injection K as <-.
  assert (Q : same_but_children (v_sec m) sec /\ rest_of_section v sec = rest_of_section v (v_sec m)).
  { unfold set_system_types in H. destruct (findall (SYSTEM v) (v_sec m)) as [|sys r] eqn:Es.
    - apply rbind_ok in H as (r1 & H1 & H). apply rbind_ok in H as (r2 & H2 & H). apply rbind_ok in H as (r3 & H3 & H). injection H as <-.
      apply made_same in H1, H2, H3. assert (T : etag (fst r3) = SYSTEM v). { destruct H1 as [Q1 _], H2 as [Q2 _], H3 as [Q3 _]. now rewrite <- Q3, <- Q2, <- Q1. }
      destruct (add_child_spec (v_sec m) (fst r3) [INFO v; SYSTEM v; ITEM v]) as (SB & pre & post & E1 & E2 & _). split; [exact SB|]. unfold rest_of_section. rewrite E2, E1, !filter_app. cbn [filter].
      rewrite T, str_eqb_refl. reflexivity.
    - apply rbind_ok in H as (r1 & H1 & H). injection H as <-. apply made_same in H1. split; [apply sbc_set|]. unfold rest_of_section. rewrite children_set.
      assert (T : etag sys = SYSTEM v). { assert (I : In sys (findall (SYSTEM v) (v_sec m))) by (rewrite Es; now left). unfold findall in I. apply filter_In in I as [_ I]. now apply str_eqb_eq in I. }
      apply filter_update; [intros x Hx; now rewrite Hx|]. destruct H1 as [Q1 _]. rewrite <- Q1, T, str_eqb_refl. reflexivity. }
  constructor; cbn [with_sec v_doc v_sec]; try reflexivity; try apply sbc_refl; try apply Q. apply HS_refl.
Qed.
Lemma all_moved : forall m rt n x create m', n <> INSTANCE_ID v -> on_hw E m (fun E' h => set_value_for_all_items E' h rt n x (plist s) create) = Ok m' -> moved v m m'.
Proof. intros m rt n x create m' N H. apply moved_hw in H; [exact H|]. intros h' Hh. now apply (H_set_all v (devices_of m) (henv E m) rt n x (plist s) create). Qed.
Lemma each_moved : forall m rt n l default m', n <> INSTANCE_ID v -> set_each E rt n l default s m = Ok m' -> moved v m m'.
Proof. intros m rt n l default m' N H. unfold set_each in H. apply moved_hw in H; [exact H|]. intros h' Hh. now apply (H_set_values v (devices_of m) (henv E m) rt n (map IStr l) (plist_opt s) default). Qed.
Lemma count_moved : forall m rt nic n m', on_hw E m (fun E' h => set_item_count E' nic h rt n (plist s)) = Ok m' -> moved v m m'.
Proof. intros m rt nic n m' H. apply moved_hw in H; [exact H|]. intros h' Hh. now apply (H_count v (devices_of m) (henv E m) nic rt n (plist s)). Qed.
Lemma drop_moved : forall mk n c m m', fold_result (ask_drop U mk n) c m = Ok m' -> moved v m m'.
Proof.
  intros mk n c m m' H. apply (moved_fold v _ _ _ _ _) in H; [exact H|]. clear. intros a pc b H. unfold ask_drop in H. destruct (n <? snd pc)%Z; [apply (moved_confirm v) in H; exact H|injection H as <-; apply moved_refl].
Qed.
Lemma if_moved : forall (A : Type) (o : option A) f m m', (forall x, o = Some x -> f x m = Ok m' -> moved v m m') -> if_given o f m = Ok m' -> moved v m m'.
Proof. intros A o f m m' H K. unfold if_given in K. destruct o as [x|]; [now apply (H x)|injection K as <-; apply moved_refl]. Qed.
Lemma nics_moved : forall m m', update_nics E U P m s = Ok m' -> moved v m m'.
Proof.
  intros m m' H. unfold update_nics in H. apply rbind_ok in H as (c & _ & H). apply rbind_ok in H as (m1 & H1 & H). apply rbind_ok in H as (m2 & H2 & H).
  apply moved_trans with m1.
  { destruct (s_nics s) as [n|]; [|injection H1 as <-; apply moved_refl]. apply rbind_ok in H1 as (a & Ha & H1). apply moved_trans with a; [now apply drop_moved in Ha|].
    unfold set_nic_count in H1. apply rbind_ok in H1 as (u & _ & H1). now apply count_moved in H1. }
  apply moved_trans with m2.
  { destruct (s_nic_types s) as [l|]; [|injection H2 as <-; apply moved_refl]. unfold set_nic_types in H2. apply rbind_ok in H2 as (x & _ & H2). apply rbind_ok in H2 as (y & _ & H2). apply rbind_ok in H2 as (z & _ & H2).
    apply all_moved in H2; [exact H2|apply EditHwRunProofs.RST_names]. }
  destruct (s_macs s) as [l|]; [|injection H as <-; apply moved_refl]. unfold set_nic_mac_addresses in H. apply rbind_ok in H as (d & _ & H). apply each_moved in H; [exact H|apply EditHwRunProofs.AD_names].
Qed.
Lemma networks_moved : forall nets descs m m', update_networks E U m s nets descs = Ok m' -> moved v m m'.
Proof.
  intros nets descs m m' H. unfold update_networks in H. apply rbind_ok in H as (c & _ & H). cbn zeta in H.
  match type of H with (match ?x with _ => _ end) = _ => destruct x as [l|] end.
  - apply rbind_ok in H as (m1 & H1 & H). apply moved_trans with m1.
    + clear H. revert H1. generalize (wildcards descs (max_count c)) as ds. generalize (expand_list_wildcard l (Z.to_nat (max_count c))) as ns. generalize (networks v (net_of m)) as ex. clear.
      intros ex ns. revert m. induction ns as [|n ns IH]; intros m ds H; cbn [request_networks] in H; [injection H as <-; apply moved_refl|].
      apply rbind_ok in H as ((d & a) & Ha & H). apply rbind_ok in H as (b & Hb & H). apply moved_trans with a; [|apply moved_trans with b; [now apply network_moved in Hb|now apply IH with (tl ds)]].
      destruct (mem_opt (Some n) ex); [injection Ha as <- <-; apply moved_refl|]. apply rbind_ok in Ha as (x & Hx & Ha). apply moved_trans with x; [apply (moved_confirm v) in Hx; exact Hx|].
      destruct ds as [|[|ch t] ds]; unfold get_input in Ha; injection Ha as <- <-; first [apply moved_log|apply moved_refl].
    + unfold set_nic_networks in H. apply rbind_ok in H as (d & _ & H). apply each_moved in H; [exact H|apply EditHwRunProofs.CN_names].
  - destruct descs as [dl|]; [|injection H as <-; apply moved_refl]. apply rbind_ok in H as (names & _ & H). revert H. generalize (wildcards (Some dl) (max_count c)) as ds. clear. revert m.
    induction names as [|n ns IH]; intros m ds H; cbn [rename_networks] in H; [injection H as <-; apply moved_refl|]. destruct ds as [|d ds]; [injection H as <-; apply moved_refl|].
    apply rbind_ok in H as (a & Ha & H). apply moved_trans with a; [now apply network_moved in Ha|now apply IH with ds].
Qed.
Lemma serial_moved : forall m m', update_serial E U P m s = Ok m' -> moved v m m'.
Proof.
  intros m m' H. unfold update_serial in H. apply rbind_ok in H as (m1 & H1 & H). apply moved_trans with m1.
  { destruct (s_serials s) as [n|]; [|injection H1 as <-; apply moved_refl]. apply rbind_ok in H1 as (c & _ & H1). apply rbind_ok in H1 as (a & Ha & H1). apply moved_trans with a; [now apply drop_moved in Ha|].
    now apply count_moved in H1. }
  destruct (s_connectivity s) as [l|]; [|injection H as <-; apply moved_refl]. apply rbind_ok in H as (c & _ & H). apply rbind_ok in H as (a & Ha & H). apply moved_trans with a; [now apply (drop_moved AskUnreachable) in Ha|].
  apply each_moved in H; [exact H|apply EditHwRunProofs.AD_names].
Qed.
Theorem run_moved : forall m m', edit_hardware E U P m s = Ok m' -> moved v m m'.
Proof.
  intros m m' H. apply edit_run in H as (m1 & m2 & m3 & m4 & m5 & m6 & m7 & m8 & m9 & nd & [_ R1 R2 R3 R4 _ R5 R6 R7 R8 R9 R10]).
  apply moved_trans with m1; [now apply profiles_moved|].
  apply moved_trans with m2. { apply if_moved in R2; [exact R2|]. intros l _ K. now apply system_types_moved with l. }
  apply moved_trans with m3. { apply if_moved in R3; [exact R3|]. intros n _ K. unfold set_cpu_count in K. apply rbind_ok in K as (u & _ & K). apply all_moved in K; [exact K|apply EditHwRunProofs.VQ_names]. }
  apply moved_trans with m4. { apply if_moved in R4; [exact R4|]. intros n _ K. unfold set_memory in K. apply rbind_ok in K as (u & _ & K). apply rbind_ok in K as (a & Ka & K).
    apply moved_trans with a; [apply all_moved in Ka; [exact Ka|apply EditHwRunProofs.VQ_names]|apply all_moved in K; [exact K|apply EditHwRunProofs.AU_names]]. }
  apply moved_trans with m5; [now apply nics_moved|].
  apply moved_trans with m6; [now apply networks_moved in R6|].
  apply moved_trans with m7. { unfold update_nic_names in R7. destruct (s_nic_names s) as [l|]; [|injection R7 as <-; apply moved_refl]. apply rbind_ok in R7 as (c & _ & R7). apply each_moved in R7; [exact R7|apply EditHwRunProofs.EN_names]. }
  apply moved_trans with m8; [now apply serial_moved|].
  apply moved_trans with m9. { apply if_moved in R9; [exact R9|]. intros n _ K. apply all_moved in K; [exact K|apply EditHwRunProofs.RST_names]. }
  apply if_moved in R10; [exact R10|]. intros n _ K. apply all_moved in K; [exact K|apply EditHwRunProofs.RST_names].
Qed.
End Run.
