(** A run of edit-hardware leaves devices that know the profiles of the document. *)
From Coq Require Import List Ascii Bool ZArith.
Import ListNotations.
From Verif Require Import PyBase PyBaseProofs PyDict XmlModel XmlSpec NamesModel ItemModel ItemSpec ItemProofs ItemSetProofs ItemReachProofs HardwareModel HardwareSpec HardwareProofs HardwareIdProofs
  UpdateHistoryProofs CountItemProofs ProfileModel ProfileSpec ProfileDocProofs NetworkModel NetworkProofs WildListModel EditHwModel EditHwSpec HwStepProofs EditHwProofs EditHwProfProofs EditHwRunProofs EditHwAllProofs EditHwTreeProofs InfoProfileProofs.

(** ** Items *)
Lemma set_keeps_frozen : forall E i n x P ow i', reachable (e_ver E) i -> set_property E i n x P ow = Ok i' -> i_frozen i' = i_frozen i.
Proof. intros E i n x P ow i' R H. apply set_property_inv in H as (v & _ & _ & _ & _ & _ & H); [exact H|exact (reachable_good _ _ R)]. Qed.
Lemma add_keeps_frozen : forall E i p i', reachable (e_ver E) i -> add_profile E i p None = Ok i' -> i_frozen i' = i_frozen i.
Proof.
  intros E i p i' R H. unfold add_profile in H. destruct (has_profile E i p); [now injection H as <-|].
  destruct (prget _ _) as [d0|]; [|discriminate]. apply rbind_ok in H as (i1 & E1 & H). apply validate_frozen in H. rewrite H. cbn [with_modified i_frozen].
  assert (I1 : reachable (e_ver E) i1 /\ i_frozen i1 = i_frozen i); [|exact (proj2 I1)]. revert E1.
  apply (fold_result_inv _ _ _ (fun j => reachable (e_ver E) j /\ i_frozen j = i_frozen i)); [|now split].
  intros t n t' _ [Rt Ft]. unfold add_profile_step. cbn [option_map]. destruct (prget n (i_props t)) as [[|e d]|]; [intros F; now injection F as <-| |discriminate].
  destruct (inherited (e :: d) (e :: d)) as [v|]; [|discriminate]. intros F. split; [exact (R_set _ E _ _ _ _ _ _ eq_refl Rt F)|]. rewrite (set_keeps_frozen _ _ _ _ _ _ _ Rt F). exact Ft.
Qed.
Lemma edits_frozen : forall ver i i', reachable ver i -> item_edits ver i i' -> i_frozen i' = i_frozen i.
Proof.
  intros ver i i' R H. induction H as [|E j n x P ow j' <- Hn H IH Hs|E j p j' <- H IH Hs|E j p sp j' <- H IH Hs]; [reflexivity| | |];
    destruct (edit_keeps (e_ver E) i j R H) as [Rj _]; rewrite <- IH.
  - exact (set_keeps_frozen _ _ _ _ _ _ _ Rj Hs).
  - exact (add_keeps_frozen _ _ _ _ Rj Hs).
  - exact (remove_frozen E j p sp j' Rj Hs).
Qed.

(** ** Hardware *)
Definition fz (E : env) (h : hw) : Prop := ids_ok (e_ver E) h /\ forall k i, In (k, i) h -> i_frozen i = None \/ i_frozen i = Some (e_profiles E).
Lemma fz_config : forall E h k i, fz E h -> In (k, i) h -> config_of E i = e_profiles E.
Proof. intros E h k i [_ F] H. unfold config_of. destruct (F k i H) as [-> | ->]; reflexivity. Qed.
Lemma fz_item : forall E h k i i', fz E h -> hitem k h = Ok i -> item_edits (e_ver E) i i' -> fz E (hset k i' h).
Proof.
  intros E h k i i' [I F] Hk Hi. pose proof (ids_item _ _ _ _ I Hk) as Ii. split.
  - apply ids_hset; [exact I|]. exact (item_edits_id _ k i i' Hi Ii).
  - intros k' j Hj. apply hset_In in Hj as [[-> ->]|[_ Hj]]; [|now apply (F k')|exact (proj1 I)].
    rewrite (edits_frozen _ _ _ (proj1 Ii) Hi). apply (F k). apply hitem_In; [apply I|exact Hk].
Qed.
Lemma fz_new : forall E h rt P k h', fz E h -> new_item E h rt P = Ok (k, h') -> fz E h'.
Proof.
  intros E h rt P k h' [I F] H. pose proof (proj1 (new_item_edits _ _ _ _ _ _ H)) as ED. split; [exact (edits_ids _ _ _ ED I)|].
  unfold new_item in H. apply rbind_ok in H as (id & _ & H). apply rbind_ok in H as (i1 & H1 & H). apply rbind_ok in H as (t & _ & H). apply rbind_ok in H as (i2 & H2 & H). apply rbind_ok in H as (i3 & H3 & H).
  injection H as <- <-. pose proof (R_new (e_ver E) E eq_refl) as R0. pose proof (R_set _ E _ _ _ _ _ _ eq_refl R0 H1) as R1. pose proof (R_set _ E _ _ _ _ _ _ eq_refl R1 H2) as R2.
  intros k' j Hj. apply hset_In in Hj as [[-> ->]|[_ Hj]]; [|now apply (F k')|exact (proj1 I)]. left. cbn [with_modified i_frozen].
  rewrite (set_keeps_frozen _ _ _ _ _ _ _ R2 H3), (set_keeps_frozen _ _ _ _ _ _ _ R1 H2), (set_keeps_frozen _ _ _ _ _ _ _ R0 H1). reflexivity.
Qed.
Lemma fz_clone : forall E h k0 P k h', fz E h -> clone_item E h k0 P = Ok (k, h') -> fz E h'.
Proof.
  intros E h k0 P k h' FZ H. pose proof FZ as [I F]. pose proof (proj1 (clone_item_edits _ _ _ _ _ _ I H)) as ED. split; [exact (edits_ids _ _ _ ED I)|].
  unfold clone_item in H. apply rbind_ok in H as (i0 & H0 & H). apply rbind_ok in H as (o & _ & H). destruct o as [[s|]|]; try discriminate. destruct (py_int s) as [st|]; [|discriminate].
  apply rbind_ok in H as (id & _ & H). cbv zeta in H. apply rbind_ok in H as (i1 & H1 & H). apply rbind_ok in H as (i2 & H2 & H). injection H as <- <-.
  pose proof (ids_item _ _ _ _ I H0) as [R0 _]. assert (C : config_of E i0 = e_profiles E) by (apply (fz_config E h k0 i0 FZ); apply hitem_In; [apply I|exact H0]). rewrite C in H1.
  assert (Q : reachable (e_ver E) i1 /\ i_frozen i1 = Some (e_profiles E)).
  { revert H1. apply (fold_result_inv _ _ _ (fun j => reachable (e_ver E) j /\ i_frozen j = Some (e_profiles E))).
    - intros j p j' _ [Rj Fj]. destruct (_ && _); [|intros X; now injection X as <-]. intros X. split; [exact (R_remove_profile _ E _ _ _ _ eq_refl Rj X)|]. rewrite (remove_frozen E j _ _ j' Rj X). exact Fj.
    - split; [|reflexivity]. exact (R_clone (e_ver E) i0 _ R0). }
  destruct Q as [R1 F1]. intros k' j Hj. apply hset_In in Hj as [[-> ->]|[_ Hj]]; [|now apply (F k')|exact (proj1 I)]. right. cbn [with_modified i_frozen].
  rewrite (set_keeps_frozen _ _ _ _ _ _ _ R1 H2). exact F1.
Qed.
Lemma fz_count : forall E nic h rt count P h', fz E h -> set_item_count E nic h rt count P = Ok h' -> fz E h'.
Proof.
  intros E nic h rt count P h' F H. unfold set_item_count in H. cbv zeta in H. apply rbind_ok in H as ([[[h1 cd] n] o] & H1 & H).
  assert (F1 : fz E h1).
  { unfold update_existing in H1. apply rbind_ok in H1 as (c0 & _ & H1). apply rbind_ok in H1 as (ks & _ & H1). apply rbind_ok in H1 as ([[g c1] c2] & Ef & H1). cbn zeta in H1. injection H1 as <- _ _ _.
    apply (fold_result_inv _ _ _ (fun s => fz E (fst (fst s)))) in Ef; [exact Ef| |exact F].
    intros [[g0 a] b] k [[g' a'] b'] _ Hg. cbn [fst] in *. unfold update_item. destruct (hitem k g0) as [i|] eqn:Ei; [|discriminate]. cbn [rbind].
    destruct (fold_result (update_step E count) _ (i, a, b)) as [[[i' d1] d2]|] eqn:Eu; [|discriminate]. cbn [rbind]. intros X. injection X as <- _ _. apply update_steps_edits in Eu. now apply (fz_item E g0 k i). }
  clear H1 F. revert h1 cd o h' F1 H. generalize (Z.to_nat n) as z. clear n. induction z as [|z IH]; intros g cd o h' F H; cbn [add_items] in H; [now injection H as <-|].
  destruct (wanting count (all_or E P) cd) as [Q cd']. apply rbind_ok in H as ([k g1] & H1 & H).
  assert (F1 : fz E g1) by (destruct o as [k0|]; [now apply fz_clone in H1|now apply fz_new in H1]).
  apply rbind_ok in H as (i & Ei & H). destruct Q as [|q Q]; [discriminate|]. apply rbind_ok in H as (i' & Eu & H). apply IH in H; [exact H|]. apply (fz_item E g1 k i); [exact F1|exact Ei|]. now apply update_cloned_edits in Eu.
Qed.
Lemma fz_key : forall E n x P h k h', n <> INSTANCE_ID (e_ver E) -> fz E h -> set_on_keys E n x P h k = Ok h' -> fz E h'.
Proof.
  intros E n x P h k h' N F H. unfold set_on_keys in H. apply rbind_ok in H as (i & Ei & H). apply rbind_ok in H as (i' & Es & H). injection H as <-. apply (fz_item E h k i); [exact F|exact Ei|].
  exact (IE_set _ _ E i _ _ _ _ _ eq_refl N (IE_refl _ _) Es).
Qed.
Lemma fz_all : forall E h rt n x P create h', n <> INSTANCE_ID (e_ver E) -> fz E h -> set_value_for_all_items E h rt n x P create = Ok h' -> fz E h'.
Proof.
  intros E h rt n x P create h' N F H. unfold set_value_for_all_items in H. apply rbind_ok in H as (ks & _ & H). destruct ks as [|k ks].
  - destruct create; [|now injection H as <-]. apply rbind_ok in H as ([k g] & H1 & H). cbn [fst snd] in H. apply fz_key in H; [exact H|exact N|now apply fz_new in H1].
  - revert H. apply (fold_result_inv _ _ _ (fz E)); [|exact F]. intros g a g' _ Hg. now apply fz_key.
Qed.
Lemma fz_each : forall E h rt n xs P default h', n <> INSTANCE_ID (e_ver E) -> fz E h -> set_item_values_per_profile E h rt n xs P default = Ok h' -> fz E h'.
Proof.
  intros E h rt n xs P default h' N F H. unfold set_item_values_per_profile in H. cbv zeta in H. apply rbind_ok in H as (ks & _ & H). revert H. generalize (match P with Some l => l | None => map Some (e_profiles E) ++ [None] end) as Q. intros Q.
  revert xs h F. induction ks as [|k ks IH]; intros xs h F H; cbn [set_values] in H; [now injection H as <-|]. apply rbind_ok in H as (i & Ei & H). apply rbind_ok in H as (i' & Es & H). apply IH in H; [exact H|].
  apply (fz_item E h k i); [exact F|exact Ei|]. revert Es. unfold set_profiles. apply (fold_result_inv _ _ _ (item_edits (e_ver E) i)); [|apply IE_refl].
  intros j p j' _ Hj. destruct (has_profile E j p); [|intros X; now injection X as <-]. intros X. exact (IE_set _ _ E j _ _ _ _ _ eq_refl N Hj X).
Qed.

(** ** The phases after that of the profiles *)
Section Run.
Variables (E : env) (U : user) (P : hw_platform) (s : settings).
Notation v := (e_ver E).
Definition fz_vm (m : vm) : Prop := vm_ok E m /\ fz (henv E m) (devices_of m).
Record steady (m m' : vm) : Prop := { st_vm : fz_vm m'; st_env : henv E m' = henv E m }.
Definition keeps (m m' : vm) : Prop := fz_vm m -> steady m m'.
Lemma keeps_refl : forall m, keeps m m. Proof. intros m F. now constructor. Qed.
Lemma keeps_trans : forall a b c, keeps a b -> keeps b c -> keeps a c.
Proof. intros a b c H1 H2 F. destruct (H1 F) as [F1 E1]. destruct (H2 F1) as [F2 E2]. constructor; [exact F2|congruence]. Qed.
Lemma keeps_doc : forall m m', v_doc m' = v_doc m -> v_net m' = v_net m -> keeps m m'.
Proof.
  intros m m' H1 H2 [[O1 O2] F]. assert (HE : henv E m' = henv E m) by (unfold henv; now rewrite H1). constructor; [|exact HE]. split; [split|].
  - now rewrite H1.
  - unfold net_of in *. now rewrite H1, H2.
  - rewrite HE. unfold devices_of. now rewrite H1.
Qed.
Lemma keeps_log : forall m e, keeps m (with_log e m). Proof. intros m e. now apply keeps_doc. Qed.
Lemma keeps_confirm : forall m q m', confirm_or_die U m q = Ok m' -> keeps m m'.
Proof. intros m q m' H. unfold confirm_or_die, confirm in H. destruct (u_confirm U (v_log m) q); [|discriminate]. injection H as <-. apply keeps_log. Qed.
Lemma keeps_hw : forall m f m', (forall h', f (henv E m) (devices_of m) = Ok h' -> hw_step v (devices_of m) h' /\ (fz (henv E m) (devices_of m) -> fz (henv E m) h')) -> on_hw E m f = Ok m' -> keeps m m'.
Proof.
  intros m f m' Hf H [O F]. unfold on_hw in H. apply rbind_ok in H as (h' & Hh & H). injection H as <-. destruct (Hf h' Hh) as [ST FZ].
  assert (O' : vm_ok E (with_hw m h')).
  { destruct O as [[O1 O2 O3] ON]. split; [|exact ON]. constructor; cbn [with_hw with_doc v_doc p_deploy p_env p_cache p_hw]; [exact O1|exact O2|exact (H_step _ _ _ O3 ST)]. }
  destruct (profiles_eq E m _ O O' eq_refl) as [_ HE]. constructor; [|exact HE]. split; [exact O'|]. rewrite HE. now apply FZ.
Qed.
Lemma keeps_net : forall m m', nphase E m m' -> keeps m m'.
Proof.
  intros m m' N [O F]. destruct (profiles_eq E m m' O (np_ok _ _ _ N) (np_deploy _ _ _ N)) as [_ HE]. constructor; [|exact HE]. split; [exact (np_ok _ _ _ N)|]. rewrite HE, (np_hw _ _ _ N). exact F.
Qed.
Lemma keeps_all : forall m rt n x create m', n <> INSTANCE_ID v -> on_hw E m (fun E' h => set_value_for_all_items E' h rt n x (plist s) create) = Ok m' -> keeps m m'.
Proof.
  intros m rt n x create m' N H. apply keeps_hw in H; [exact H|]. intros h' Hh. split; [now apply (H_set_all v (devices_of m) (henv E m) rt n x (plist s) create)|].
  intros F. now apply (fz_all (henv E m) (devices_of m) rt n x (plist s) create).
Qed.
Lemma keeps_each : forall m rt n l default m', n <> INSTANCE_ID v -> set_each E rt n l default s m = Ok m' -> keeps m m'.
Proof.
  intros m rt n l default m' N H. unfold set_each in H. apply keeps_hw in H; [exact H|]. intros h' Hh. split; [now apply (H_set_values v (devices_of m) (henv E m) rt n (map IStr l) (plist_opt s) default)|].
  intros F. now apply (fz_each (henv E m) (devices_of m) rt n (map IStr l) (plist_opt s) default).
Qed.
Lemma keeps_count : forall m rt nic n m', on_hw E m (fun E' h => set_item_count E' nic h rt n (plist s)) = Ok m' -> keeps m m'.
Proof.
  intros m rt nic n m' H. apply keeps_hw in H; [exact H|]. intros h' Hh. split; [now apply (H_count v (devices_of m) (henv E m) nic rt n (plist s))|].
  intros F. now apply (fz_count (henv E m) nic (devices_of m) rt n (plist s)).
Qed.
Lemma keeps_fold : forall (A : Type) (f : vm -> A -> result vm) l m m', (forall a x b, f a x = Ok b -> keeps a b) -> fold_result f l m = Ok m' -> keeps m m'.
Proof. intros A f l m m' Hf. apply (fold_result_inv _ _ _ (keeps m)); [|apply keeps_refl]. intros a x b _ Ha Hb. apply keeps_trans with a; [exact Ha|now apply (Hf a x)]. Qed.
Lemma keeps_drop : forall mk n c m m', fold_result (ask_drop U mk n) c m = Ok m' -> keeps m m'.
Proof.
  intros mk n c m m' H. apply keeps_fold in H; [exact H|]. clear. intros a pc b H. unfold ask_drop in H. destruct (n <? snd pc)%Z; [now apply keeps_confirm in H|injection H as <-; apply keeps_refl].
Qed.
Lemma keeps_if : forall (A : Type) (o : option A) f m m', (forall x, o = Some x -> f x m = Ok m' -> keeps m m') -> if_given o f m = Ok m' -> keeps m m'.
Proof. intros A o f m m' H K. unfold if_given in K. destruct o as [x|]; [now apply (H x)|injection K as <-; apply keeps_refl]. Qed.
Lemma keeps_nics : forall m m', update_nics E U P m s = Ok m' -> keeps m m'.
Proof.
  intros m m' H. unfold update_nics in H. apply rbind_ok in H as (c & _ & H). apply rbind_ok in H as (m1 & H1 & H). apply rbind_ok in H as (m2 & H2 & H).
  apply keeps_trans with m1.
  { destruct (s_nics s) as [n|]; [|injection H1 as <-; apply keeps_refl]. apply rbind_ok in H1 as (a & Ha & H1). apply keeps_trans with a; [now apply keeps_drop in Ha|].
    unfold set_nic_count in H1. apply rbind_ok in H1 as (u & _ & H1). now apply keeps_count in H1. }
  apply keeps_trans with m2.
  { destruct (s_nic_types s) as [l|]; [|injection H2 as <-; apply keeps_refl]. unfold set_nic_types in H2. apply rbind_ok in H2 as (x & _ & H2). apply rbind_ok in H2 as (y & _ & H2). apply rbind_ok in H2 as (z & _ & H2).
    apply keeps_all in H2; [exact H2|apply EditHwRunProofs.RST_names]. }
  destruct (s_macs s) as [l|]; [|injection H as <-; apply keeps_refl]. unfold set_nic_mac_addresses in H. apply rbind_ok in H as (d & _ & H). apply keeps_each in H; [exact H|apply EditHwRunProofs.AD_names].
Qed.
Lemma keeps_networks : forall nets descs m m', update_networks E U m s nets descs = Ok m' -> keeps m m'.
Proof.
  intros nets descs m m' H [O F]. revert H. unfold update_networks. intros H. apply rbind_ok in H as (c & _ & H). cbn zeta in H.
  match type of H with (match ?x with _ => _ end) = _ => destruct x as [l|] end.
  - apply rbind_ok in H as (m1 & H1 & H). destruct (request_phase E U _ _ _ m m1 O (fun n X => X) H1) as [N _]. unfold set_nic_networks in H. apply rbind_ok in H as (d & _ & H).
    apply keeps_each in H; [|apply EditHwRunProofs.CN_names]. apply (keeps_trans m m1 m'); [now apply keeps_net|exact H|now split].
  - destruct descs as [dl|]; [|injection H as <-; apply keeps_refl; now split]. apply rbind_ok in H as (names & En & H). apply rename_phase in H; [|exact O|].
    + apply keeps_net; [apply H|now split].
    + intros n Hn. apply all_names_inv in En. rewrite En. now apply in_map.
Qed.
Lemma keeps_serial : forall m m', update_serial E U P m s = Ok m' -> keeps m m'.
Proof.
  intros m m' H. unfold update_serial in H. apply rbind_ok in H as (m1 & H1 & H). apply keeps_trans with m1.
  { destruct (s_serials s) as [n|]; [|injection H1 as <-; apply keeps_refl]. apply rbind_ok in H1 as (c & _ & H1). apply rbind_ok in H1 as (a & Ha & H1). apply keeps_trans with a; [now apply keeps_drop in Ha|].
    now apply keeps_count in H1. }
  destruct (s_connectivity s) as [l|]; [|injection H as <-; apply keeps_refl]. apply rbind_ok in H as (c & _ & H). apply rbind_ok in H as (a & Ha & H). apply keeps_trans with a; [now apply (keeps_drop AskUnreachable) in Ha|].
  apply keeps_each in H; [exact H|apply EditHwRunProofs.AD_names].
Qed.
(** Every device of the edited VM resolves a missing value over the profiles the VM now
    declares: those read from the file do so on the fly, those added by the run were given
    the list after the profiles had been settled. *)
Theorem run_fz : forall m m', vm_ok E m -> unfrozen (devices_of m) -> edit_hardware E U P m s = Ok m' -> fz_vm m'.
Proof.
  intros m m' O UF H. apply edit_run in H as (m1 & m2 & m3 & m4 & m5 & m6 & m7 & m8 & m9 & nd & [_ R1 R2 R3 R4 _ R5 R6 R7 R8 R9 R10]).
  destruct (update_profiles_spec E U s m m1 O R1) as (D & lg & PP & _).
  assert (F1 : fz_vm m1).
  { split; [exact (pp_ok _ _ _ _ PP)|]. split.
    - exact (reachable_ids _ _ (o_hw _ _ (proj1 (pp_ok _ _ _ _ PP)))).
    - intros k i Hi. left. assert (Ik : In k (map fst (devices_of m))) by (rewrite <- (pp_keys _ _ _ _ PP); now apply (in_map fst) in Hi).
      apply in_map_iff in Ik as ([k0 i0] & Ek & Ik). cbn in Ek. subst k0. destruct (pp_same _ _ _ _ PP k i0 i Ik Hi) as [-> _]. exact (UF _ _ Ik). }
  assert (K : keeps m1 m').
  { apply keeps_trans with m2. { apply keeps_if in R2; [exact R2|]. intros l _ K. apply rbind_ok in K as (sec & _ & K). injection K as <-. now apply keeps_doc. }
    apply keeps_trans with m3. { apply keeps_if in R3; [exact R3|]. intros n _ K. unfold set_cpu_count in K. apply rbind_ok in K as (u & _ & K). apply keeps_all in K; [exact K|apply EditHwRunProofs.VQ_names]. }
    apply keeps_trans with m4. { apply keeps_if in R4; [exact R4|]. intros n _ K. unfold set_memory in K. apply rbind_ok in K as (u & _ & K). apply rbind_ok in K as (a & Ka & K).
      apply keeps_trans with a; [apply keeps_all in Ka; [exact Ka|apply EditHwRunProofs.VQ_names]|apply keeps_all in K; [exact K|apply EditHwRunProofs.AU_names]]. }
    apply keeps_trans with m5; [now apply keeps_nics|].
    apply keeps_trans with m6; [now apply keeps_networks in R6|].
    apply keeps_trans with m7. { unfold update_nic_names in R7. destruct (s_nic_names s) as [l|]; [|injection R7 as <-; apply keeps_refl]. apply rbind_ok in R7 as (c & _ & R7). apply keeps_each in R7; [exact R7|apply EditHwRunProofs.EN_names]. }
    apply keeps_trans with m8; [now apply keeps_serial|].
    apply keeps_trans with m9. { apply keeps_if in R9; [exact R9|]. intros n _ K. apply keeps_all in K; [exact K|apply EditHwRunProofs.RST_names]. }
    apply keeps_if in R10; [exact R10|]. intros n _ K. apply keeps_all in K; [exact K|apply EditHwRunProofs.RST_names]. }
  exact (st_vm _ _ (K F1)).
Qed.
Theorem run_config : forall m m', vm_ok E m -> unfrozen (devices_of m) -> edit_hardware E U P m s = Ok m' ->
  forall k i, In (k, i) (devices_of m') -> config_of (henv E m') i = profiles_of E m'.
Proof. intros m m' O F H k i Hi. exact (fz_config _ _ k i (proj2 (run_fz m m' O F H)) Hi). Qed.
Theorem run_ok : forall m m', vm_ok E m -> unfrozen (devices_of m) -> edit_hardware E U P m s = Ok m' -> vm_ok E m'.
Proof. intros m m' O F H. exact (proj1 (run_fz m m' O F H)). Qed.
End Run.
