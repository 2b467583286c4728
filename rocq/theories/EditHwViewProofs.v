(** What later steps of edit-hardware leave of earlier ones; the numbers of devices. *)
From Coq Require Import Lia Sorted.
From Verif Require Import PyBase PyBaseProofs PyDict PyDictProofs ValidationModel ValidationSpec PlatformModel XmlModel XmlSpec
  XmlProofs NamesModel ItemModel ItemSpec ItemProofs PsetProofs ItemSetProofs ItemReachProofs ItemEffectProofs HardwareModel HardwareSpec
  HardwareProofs HardwareIdProofs EmitProofs CountSpec CountItemProofs CountProofs FindSpec FindProofs ProfileModel ProfileSpec
  ProfileProofs ProfileDocProofs NetworkModel NetworkSpec NetworkProofs WildListModel WildListProofs EditHwModel EditHwSpec HwStepProofs
  EditHwProofs EditHwRunProofs EditHwProfProofs EditHwAllProofs EditHwValueProofs.

(** The devices of the type are the same but for some properties. *)
Record view (w : str) (ns : list str) (h h' : hw) : Prop := {
  vw_there : forall k, (exists i, In (k, i) h /\ is_of w i) <-> (exists i', In (k, i') h' /\ is_of w i');
  vw_same : forall k i i', In (k, i) h -> is_of w i -> In (k, i') h' -> is_of w i' -> i_frozen i' = i_frozen i /\
              forall m p u, ~ In m ns -> (own (i_props i') m p u <-> own (i_props i) m p u) }.
Lemma view_refl : forall w h, NoDup (map fst h) -> view w [] h h.
Proof.
  intros w h N. constructor; [tauto|]. intros k i i' Hi _ Hi' _. rewrite (NoDup_same h k i' i N Hi' Hi). split; [reflexivity|tauto].
Qed.
Lemma view_trans : forall w n1 n2 a b c, view w n1 a b -> view w n2 b c -> view w (n1 ++ n2) a c.
Proof.
  intros w n1 n2 a b c [T1 S1] [T2 S2]. constructor.
  - intros k. rewrite (T1 k). apply T2.
  - intros k i j Hi Oi Hj Oj. destruct (proj1 (T1 k) (ex_intro _ i (conj Hi Oi))) as (x & Hx & Ox).
    destruct (S1 k i x Hi Oi Hx Ox) as [F1 O1]. destruct (S2 k x j Hx Ox Hj Oj) as [F2 O2].
    split; [congruence|]. intros m p u Hm. rewrite O2, O1; [reflexivity|intros F; apply Hm, in_app_iff; now left|intros F; apply Hm, in_app_iff; now right].
Qed.
Lemma view_sym : forall w ns a b, view w ns a b -> view w ns b a.
Proof.
  intros w ns a b [T S]. constructor; [intros k; now rewrite (T k)|]. intros k i j Hi Oi Hj Oj.
  destruct (S k j i Hj Oj Hi Oi) as [F So]. split; [now rewrite F|]. intros n p u Hn. now rewrite (So n p u Hn).
Qed.
Lemma view_more : forall w n1 n2 a b, incl n1 n2 -> view w n1 a b -> view w n2 a b.
Proof.
  intros w n1 n2 a b I [T S]. constructor; [exact T|]. intros k i j Hi Oi Hj Oj.
  destruct (S k i j Hi Oi Hj Oj) as [F So]. split; [exact F|]. intros n p u Hn. apply So. intros K. apply Hn, I, K.
Qed.
Lemma view_same : forall w h h', NoDup (map fst h') -> same_of_type w h h' -> view w [] h h'.
Proof.
  intros w h h' N S. constructor.
  - intros k. split; intros (i & Hi & Oi); exists i; (split; [now apply (S k i Oi)|exact Oi]).
  - intros k i i' Hi Oi Hi' Oi'. rewrite (NoDup_same h' k i' i N Hi' (proj1 (S k i Oi) Hi)). split; [reflexivity|tauto].
Qed.
Lemma view_kept : forall ver n w h h', n <> RESOURCE_TYPE -> kept ver n h h' -> view w [n] h h'.
Proof.
  intros ver n w h h' Hn K. constructor.
  - intros k. split.
    + intros (i & Hi & Oi). destruct (keys_get h h' k i (k_keys _ _ _ _ K) Hi) as [j Hj].
      exists j. split; [exact Hj|]. now apply (kept_of ver n h h' w k i j K Hn Hi Hj).
    + intros (j & Hj & Oj). destruct (keys_get h' h k j (eq_sym (k_keys _ _ _ _ K)) Hj) as [i Hi].
      exists i. split; [exact Hi|]. now apply (kept_of ver n h h' w k i j K Hn Hi Hj).
  - intros k i i' Hi _ Hi' _. destruct (k_same _ _ _ _ K k i i' Hi Hi') as [F S]. split; [exact F|].
    intros m p u Hm. apply S. intros ->. apply Hm. now left.
Qed.

Lemma view_set : forall E ns m h h' w v Q, ids_ok (e_ver E) h -> ids_ok (e_ver E) h' -> view w ns h h' -> ~ In m ns ->
  ~ text_property (e_ver E) m ->
  (forall k i, In (k, i) h -> is_of w i -> has_set E i m v Q) ->
  forall k i', In (k, i') h' -> is_of w i' -> has_set E i' m v Q.
Proof.
  intros E ns m h h' w v Q I I' [T S] Hm Ht H k i' Hi' Oi'.
  destruct (proj2 (T k) (ex_intro _ i' (conj Hi' Oi'))) as (i & Hi & Oi).
  destruct (S k i i' Hi Oi Hi' Oi') as [_ So]. destruct (H k i Hi Oi) as [H1 H2].
  destruct (ids_good E h k i I Hi) as [R _]. destruct (ids_good E h' k i' I' Hi') as [R' _]. split.
  - intros p Hp. rewrite <- (H1 p Hp). apply reports_same_holds; [exact R|exact R'|exact Ht|].
    apply own_holds. intros q u. now apply So.
  - intros Hp. apply (only_same (i_props i)); [intros q u; now apply So|now apply H2].
Qed.
Lemma view_wanted : forall E rt w ns h h' ks, dget str_eqb rt RES_MAP = Some w -> view w ns h h' ->
  are_wanted E h (Some rt) [] [] ks -> are_wanted E h' (Some rt) [] [] ks.
Proof.
  intros E rt w ns h h' ks Hw [T _] (N & S & M). split; [exact N|]. split; [exact S|]. intros k. rewrite (M k).
  split; intros (i & Hi & Wi); apply (wanted_is E rt w i Hw) in Wi.
  - destruct (proj1 (T k) (ex_intro _ i (conj Hi Wi))) as (j & Hj & Oj). exists j. split; [exact Hj|]. now apply (wanted_is E rt w j Hw).
  - destruct (proj2 (T k) (ex_intro _ i (conj Hi Wi))) as (j & Hj & Oj). exists j. split; [exact Hj|]. now apply (wanted_is E rt w j Hw).
Qed.
Lemma of_type_is : forall E rt w i, good_props (e_ver E) (i_props i) -> dget str_eqb rt RES_MAP = Some w ->
  (of_type E rt i <-> is_of w i).
Proof.
  intros E rt w i G Hw. unfold of_type, is_of. destruct (value_only E i RESOURCE_TYPE G (FindProofs.RT_plain _)) as (o & Ho & Hv). split.
  - intros (v & Hv' & H). rewrite Hw in Hv'. injection Hv' as <-. apply Hv. congruence.
  - intros H. exists w. split; [exact Hw|]. rewrite Ho. f_equal. now apply Hv.
Qed.
Lemma view_devices : forall E rt w ns h h' p ks, ids_ok (e_ver E) h -> ids_ok (e_ver E) h' -> dget str_eqb rt RES_MAP = Some w ->
  ~ In (INSTANCE_ID (e_ver E)) ns -> view w ns h h' -> are_devices E h rt p ks -> are_devices E h' rt p ks.
Proof.
  intros E rt w ns h h' p ks I I' Hw Hn [T So] (N & S & M). split; [exact N|]. split; [exact S|]. intros k. rewrite (M k).
  split; intros (i & Hi & Oi & Pi).
  - destruct (ids_good E h k i I Hi) as [_ G]. apply (of_type_is E rt w i G Hw) in Oi.
    destruct (proj1 (T k) (ex_intro _ i (conj Hi Oi))) as (j & Hj & Oj). exists j. split; [exact Hj|].
    destruct (ids_good E h' k j I' Hj) as [_ Gj]. split; [now apply (of_type_is E rt w j Gj Hw)|].
    destruct (So k i j Hi Oi Hj Oj) as [F O]. apply (present_same E i j p F); [|exact Pi]. intros q u. now apply O.
  - destruct (ids_good E h' k i I' Hi) as [_ G]. apply (of_type_is E rt w i G Hw) in Oi.
    destruct (proj2 (T k) (ex_intro _ i (conj Hi Oi))) as (j & Hj & Oj). exists j. split; [exact Hj|].
    destruct (ids_good E h k j I Hj) as [_ Gj]. split; [now apply (of_type_is E rt w j Gj Hw)|].
    destruct (So k j i Hj Oj Hi Oi) as [F O]. apply (present_same E j i p F); [|exact Pi]. intros q u. now apply O.
Qed.

(** ** Counting *)
Lemma devices_list : forall E h rt w p ks, ids_ok (e_ver E) h -> res_map rt = Ok w ->
  devices E h rt p = Ok ks -> are_devices E h rt p ks.
Proof.
  intros E h rt w p ks I Hw H. apply res_map_get in Hw.
  apply find_all_wanted in H as (N & S & M); [|exact I|intros c []].
  split; [exact N|]. split; [exact S|]. intros k. rewrite (M k). split; intros (i & Hi & H); exists i; (split; [exact Hi|]).
  - destruct H as (H1 & H2 & _). destruct (H1 rt eq_refl) as (u & Hu & Ou). split; [|apply H2; now left].
    apply (of_type_is E rt u i (proj2 (ids_good E h k i I Hi)) Hu). exact Ou.
  - destruct H as (H1 & H2). apply (of_type_is E rt w i (proj2 (ids_good E h k i I Hi)) Hw) in H1.
    split; [|split; [|intros c []]].
    + intros t Ht. injection Ht as <-. exists w. now split.
    + intros q [<- |[]]. exact H2.
Qed.
Lemma sorted_unique : forall E h rt p a b, are_devices E h rt p a -> are_devices E h rt p b -> length a = length b.
Proof.
  intros E h rt p a b (N1 & _ & M1) (N2 & _ & M2).
  apply Nat.le_antisymm; apply NoDup_incl_length; try assumption; intros k Hk; [apply M2, M1, Hk|apply M1, M2, Hk].
Qed.

Lemma cset_keys : forall c p n, In p (map fst c) -> map fst (cset c p n) = map fst c.
Proof.
  intros c p n H. unfold cset. rewrite dset_keys.
  assert (D : dmem profile_eqb p c = true).
  { unfold dmem. destruct (dget profile_eqb p c) as [x|] eqn:Ed; [reflexivity|]. exfalso.
    exact (proj1 (dget_None profile_eqb profile_eqb_eq c p) Ed H). }
  now rewrite D.
Qed.
Lemma count_item_keys : forall E i P c, incl P (map fst c) -> map fst (count_item E P c i) = map fst c.
Proof.
  intros E i P. unfold count_item. induction P as [|p P IH]; intros c H; cbn [fold_left]; [reflexivity|].
  destruct (has_profile E i p).
  - assert (K : map fst (cincr c p) = map fst c) by (apply cset_keys, H; now left).
    rewrite IH, K; [reflexivity|]. rewrite K. intros x Hx. apply H. now right.
  - apply IH. intros x Hx. apply H. now right.
Qed.
Lemma zeros_keys : forall l c, (NoDup (map fst c) -> NoDup (map fst (fold_left (fun c p => cset c p 0%Z) l c))) /\
  forall x, In x (map fst (fold_left (fun c p => cset c p 0%Z) l c)) <-> In x l \/ In x (map fst c).
Proof.
  induction l as [|p l IH]; intros c; cbn [fold_left]; [split; [tauto|intros x; cbn; tauto]|].
  destruct (IH (cset c p 0%Z)) as [N I]. split.
  - intros H. apply N. unfold cset. apply (dset_NoDup profile_eqb profile_eqb_eq), H.
  - intros x. rewrite (I x). unfold cset. rewrite (dset_keys_in profile_eqb profile_eqb_eq). cbn [In]. split; intros H; intuition congruence.
Qed.
Lemma counts_of : forall E h rt w P c, ids_ok (e_ver E) h -> res_map rt = Ok w -> NoDup (all_or E P) ->
  item_counts E h (Some rt) P = Ok c ->
  NoDup (map fst c) /\ (forall p, In p (map fst c) <-> In p (all_or E P)) /\
  forall p z, In (p, z) c -> exists ks, are_devices E h rt p ks /\ z = Z.of_nat (length ks).
Proof.
  intros E h rt w P c I Hw ND H. unfold item_counts in H.
  destruct (find_all_items E h (Some rt) [] []) as [ks|] eqn:Ef; [|discriminate]. cbn [rbind] in H.
  destruct (find_all_inv _ _ _ _ _ Ef) as (keys & Hk & _).
  destruct (zeros_keys (all_or E P) []) as [Z1 Z2]. fold (zeros (all_or E P)) in Z1, Z2.
  assert (K : map fst c = map fst (zeros (all_or E P))).
  { revert H. apply (fold_result_inv _ _ _ (fun c => map fst c = map fst (zeros (all_or E P)))); [|reflexivity].
    intros c1 x c2 _ Hc1 Hx. destruct (hitem x h) as [i|]; [|discriminate]. cbn [rbind] in Hx. injection Hx as <-.
    rewrite count_item_keys; [exact Hc1|]. rewrite Hc1. intros q Hq. apply Z2. now left. }
  assert (N : NoDup (map fst c)) by (rewrite K; apply Z1; constructor).
  assert (In1 : forall p, In p (map fst c) <-> In p (all_or E P)) by (intros p; rewrite K, (Z2 p); cbn; tauto).
  split; [exact N|]. split; [exact In1|]. intros p z Hz.
  assert (Hp : In p (all_or E P)) by (apply In1, in_map_iff; now exists (p, z)).
  assert (G : cget c p = z) by (unfold cget; now rewrite (dget_Some_In profile_eqb profile_eqb_eq c p z N Hz)).
  exists (filter (matches E w [p] h) keys).
  split; [exact (devices_list E h rt w p _ I Hw (find_all_filter E h rt w [p] keys Hw Hk))|].
  rewrite <- G, (count_items_spec _ _ _ _ _ _ ND H p Hp), cget_zeros.
  rewrite (find_all_filter E h rt w [] keys Hw Hk) in Ef. injection Ef as <-. rewrite matches_hasp, trues_filter. reflexivity.
Qed.

(** The largest number *)
Lemma max_fold : forall c a, (forall p z, In (p, z) c -> (z <= fold_left (fun a (pc : profile * Z) => Z.max a (snd pc)) c a)%Z) /\
  (a <= fold_left (fun a (pc : profile * Z) => Z.max a (snd pc)) c a)%Z /\
  (fold_left (fun a (pc : profile * Z) => Z.max a (snd pc)) c a = a \/ exists p, In (p, fold_left (fun a (pc : profile * Z) => Z.max a (snd pc)) c a) c).
Proof.
  induction c as [|[q y] c IH]; intros a; cbn [fold_left snd]; [split; [intros p z []|split; [lia|now left]]|].
  destruct (IH (Z.max a y)) as (H1 & H2 & H3). split; [|split].
  - intros p z [F|F]; [injection F as -> ->; lia|exact (H1 p z F)].
  - lia.
  - destruct H3 as [H3|[p Hp]]; [|right; exists p; now right]. rewrite H3.
    destruct (Z.max_spec a y) as [[? ->]|[? ->]]; [right; exists q; now left|now left].
Qed.
Lemma max_spec : forall c, c <> [] -> (forall p z, In (p, z) c -> (0 <= z)%Z) ->
  (forall p z, In (p, z) c -> (z <= max_count c)%Z) /\ exists p, In (p, max_count c) c.
Proof.
  intros c Hc Hn. destruct (max_fold c 0%Z) as (H1 & H2 & H3). fold (max_count c) in *. split; [exact H1|].
  destruct H3 as [H3|H3]; [|exact H3]. destruct c as [|[p z] c]; [contradiction|]. exists p. left. f_equal.
  specialize (H1 p z (or_introl eq_refl)). specialize (Hn p z (or_introl eq_refl)). lia.
Qed.

(** ** Questions before devices are dropped *)
Lemma asked : forall E U mk n c m m', vm_ok E m -> fold_result (ask_drop U mk n) c m = Ok m' ->
  v_doc m' = v_doc m /\ (exists l, v_log m' = v_log m ++ l) /\
  forall p z, In (p, z) c -> (n < z)%Z -> In (Confirmed (mk p z) true) (v_log m').
Proof.
  intros E U mk n. induction c as [|[q y] c IH]; intros m m' O H; cbn [fold_result] in H.
  - injection H as <-. split; [reflexivity|]. split; [exists []; now rewrite app_nil_r|]. intros p z [].
  - unfold ask_drop in H at 1. cbn [fst snd] in H. destruct (n <? y)%Z eqn:Ey.
    + unfold confirm_or_die in H at 1. destruct (confirm U m (mk q y)) as [b a] eqn:Ec. unfold confirm in Ec. injection Ec as Eb <-.
      destruct b; [|discriminate]. rewrite Eb in H.
      destruct (IH (with_log (Confirmed (mk q y) true) m) m' O H) as (D & (l & L1) & A).
      split; [exact D|]. split; [exists (Confirmed (mk q y) true :: l); rewrite L1; cbn; now rewrite <- app_assoc|].
      intros p z [F|F] Hz; [|exact (A p z F Hz)]. injection F as -> ->. rewrite L1. apply in_app_iff. left. cbn. apply in_app_iff. right. now left.
    + cbn [rbind] in H. destruct (IH m m' O H) as (D & L1 & A). split; [exact D|]. split; [exact L1|].
      intros p z [F|F] Hz; [|exact (A p z F Hz)]. injection F as -> ->. apply Z.ltb_ge in Ey. lia.
Qed.
