(** The steps of edit-hardware: what each of them keeps. *)
From Coq Require Import Lia.
From Verif Require Import PyBase PyBaseProofs PyDict PyDictProofs ValidationModel ValidationSpec PlatformModel XmlModel XmlSpec
  XmlProofs NamesModel ItemModel ItemSpec ItemProofs ItemSetProofs ItemReachProofs ItemEffectProofs HardwareModel HardwareSpec
  HardwareProofs HardwareIdProofs EmitProofs CountSpec CountItemProofs CountProofs FindSpec FindProofs ProfileModel ProfileSpec
  ProfileProofs ProfileDocProofs NetworkModel NetworkSpec NetworkProofs WildListModel EditHwModel EditHwSpec HwStepProofs.

(** ** Devices as read know all profiles *)
Lemma validate_frozen : forall E i i', validate E i = Ok i' -> i_frozen i' = i_frozen i.
Proof.
  intros E i i'. unfold validate. intros H.
  repeat match type of H with
         | (if ?b then _ else _) = _ => destruct b; [|]
         | (do _ <- ?x; _) = _ => destruct x; [cbn [rbind] in H|discriminate]
         | (match ?x with _ => _ end) = _ => destruct x; try discriminate
         end; try discriminate; injection H as <-; reflexivity.
Qed.
Lemma add_child_frozen : forall E P i c i', reachable (e_ver E) i -> add_child_property E P i c = Ok i' ->
  reachable (e_ver E) i' /\ i_frozen i' = i_frozen i.
Proof.
  intros E P i c i' R. unfold add_child_property. destruct (mem_str _ _).
  - match goal with |- (do i1 <- ?X; _) = _ -> _ => destruct X as [i1|] eqn:E1; [|discriminate] end. cbn [rbind].
    assert (R1 : reachable (e_ver E) i1) by exact (R_set _ E i _ _ _ _ i1 eq_refl R E1).
    pose proof (set_frozen _ _ _ _ _ _ _ (reachable_good _ _ R) E1) as F1.
    apply (fold_result_inv _ _ _ (fun j => reachable (e_ver E) j /\ i_frozen j = i_frozen i)); [|auto].
    intros j kv j' _ [Rj Fj] Hs. split; [exact (R_set _ E j _ _ _ _ j' eq_refl Rj Hs)|].
    rewrite (set_frozen _ _ _ _ _ _ _ (reachable_good _ _ Rj) Hs). exact Fj.
  - intros Hs. split; [exact (R_set _ E i _ _ _ _ i' eq_refl R Hs)|].
    exact (set_frozen _ _ _ _ _ _ _ (reachable_good _ _ R) Hs).
Qed.
Lemma add_item_frozen : forall E i x i', reachable (e_ver E) i ->
  add_item E i x = Ok i' -> i_frozen i' = i_frozen i.
Proof.
  intros E i x i' R. unfold add_item. destruct (namespace_for_item_tag _ _) as [ns|] eqn:En; [|discriminate].
  match goal with |- (do i1 <- fold_result ?F ?l ?j; _) = _ -> _ => destruct (fold_result F l j) as [i1|] eqn:E1; [|discriminate] end. cbn [rbind].
  match goal with |- (do i2 <- fold_result ?F ?l ?j; _) = _ -> _ => destruct (fold_result F l j) as [i2|] eqn:E2; [|discriminate] end. cbn [rbind].
  intros H. apply validate_frozen in H. rewrite H. cbn [i_frozen with_modified].
  assert (I1 : reachable (e_ver E) i1 /\ i_frozen i1 = i_frozen i).
  { revert E1. apply (fold_result_inv _ _ _ (fun j => reachable (e_ver E) j /\ i_frozen j = i_frozen i)); [|split; [exact (reachable_with_ns E i _ ns R En)|reflexivity]].
    intros j kv j' _ [Rj Fj]. destruct (str_eqb _ _); [intros F; injection F as <-; auto|].
    intros Hs. split; [exact (R_set _ E j _ _ _ _ j' eq_refl Rj Hs)|].
    rewrite (set_frozen _ _ _ _ _ _ _ (reachable_good _ _ Rj) Hs). exact Fj. }
  assert (I2 : reachable (e_ver E) i2 /\ i_frozen i2 = i_frozen i); [|exact (proj2 I2)].
  revert E2. apply (fold_result_inv _ _ _ (fun j => reachable (e_ver E) j /\ i_frozen j = i_frozen i)); [|exact I1].
  intros j c j' _ [Rj Fj] Hs. apply add_child_frozen in Hs as [Rj' Fj']; [|exact Rj]. split; [exact Rj'|congruence].
Qed.

Definition unfrozen (h : hw) : Prop := forall k i, In (k, i) h -> i_frozen i = None.
Lemma read_unfrozen : forall E sec h, read_hardware E sec = Ok h -> unfrozen h.
Proof.
  intros E sec h. unfold read_hardware.
  destruct (fold_result (read_item E) (echildren sec) []) as [h0|] eqn:E0; [|discriminate].
  cbn [rbind]. intros H. injection H as <-.
  assert (H0 : ids_ok (e_ver E) h0 /\ unfrozen h0).
  { revert E0. apply (fold_result_inv _ _ _ (fun h => ids_ok (e_ver E) h /\ unfrozen h)); [|split; [apply ids_nil|intros k i []]].
    intros g x g' _ [Ig Fg] Hr. split; [exact (ids_read_item E g x g' Ig Hr)|]. revert Hr. unfold read_item.
    destruct (namespace_for_item_tag (e_ver E) (etag x)) as [ns|] eqn:En; [|intros H; now injection H as <-].
    destruct (filter _ (echildren x)) as [|c cs] eqn:Ef; [discriminate|].
    destruct (etext c) as [[|a t]|] eqn:Et; [discriminate| |discriminate].
    destruct (negb _); [discriminate|].
    destruct (hget (a :: t) g) as [i|] eqn:Eg.
    - destruct (add_item E i x) as [i'|[]] eqn:Ea; try discriminate. intros H. injection H as <-.
      apply hget_In in Eg; [|exact (proj1 Ig)].
      intros k j Hj. apply hset_In in Hj; [|exact (proj1 Ig)]. destruct Hj as [[_ ->]|[_ Hj]]; [|exact (Fg k j Hj)].
      rewrite (add_item_frozen E i x i' (proj1 (proj2 Ig _ i Eg)) Ea). exact (Fg _ i Eg).
    - destruct (add_item E (new_ovfitem E) x) as [i'|] eqn:Ea; [|discriminate]. cbn [rbind]. intros H. injection H as <-.
      intros k j Hj. apply hset_In in Hj; [|exact (proj1 Ig)]. destruct Hj as [[_ ->]|[_ Hj]]; [|exact (Fg k j Hj)].
      now rewrite (add_item_frozen E (new_ovfitem E) x i' (R_new _ E eq_refl) Ea). }
  intros k i Hin. apply in_map_iff in Hin as ([k' i'] & Heq & Hin). injection Heq as <- <-.
  exact (proj2 H0 k' i' Hin).
Qed.

(** ** The envelope: profiles and networks do not get into each other's way *)
Lemma deploy_not_network : forall v, str_eqb (DEPLOY_OPT_SECTION v) (NETWORK_SECTION v) = false.
Proof. intros []; vm_compute; reflexivity. Qed.
Lemma netsec_tag : forall v c, is_netsec v c = true -> str_eqb (etag c) (DEPLOY_OPT_SECTION v) = false.
Proof.
  intros v c H. apply is_netsec_spec in H. destruct H as [Ht _]. rewrite Ht.
  destruct (str_eqb (NETWORK_SECTION v) (DEPLOY_OPT_SECTION v)) eqn:F; [|reflexivity].
  apply str_eqb_eq in F. pose proof (deploy_not_network v) as D. rewrite F, str_eqb_refl in D. discriminate.
Qed.
Lemma filter_filter : forall (A : Type) (f g : A -> bool) l, (forall x, f x = true -> g x = true) ->
  filter f (filter g l) = filter f l.
Proof.
  intros A f g l H. induction l as [|x l IH]; [reflexivity|]. cbn [filter].
  destruct (g x) eqn:Eg; cbn [filter]; rewrite IH; [reflexivity|].
  destruct (f x) eqn:Ef; [|reflexivity]. rewrite (H x Ef) in Eg. discriminate.
Qed.
Lemma netsecs_other : forall v env, filter (is_netsec v) (other_sections v env) = filter (is_netsec v) (echildren env).
Proof. intros v env. unfold other_sections. apply filter_filter. intros x H. now rewrite (netsec_tag v x H). Qed.

Lemma net_ok_filter : forall v d, net_ok v d <->
  (if n_attached d then exists sec, filter (is_netsec v) (echildren (n_env d)) = [sec]
   else filter (is_netsec v) (echildren (n_env d)) = []).
Proof.
  intros v d. split.
  - intros [Ha Hn|A sec B Ha Hs Hi Hn]; rewrite Ha.
    + apply filter_out. intros x Hx. apply not_netsec, Hn, Hx.
    + exists sec. rewrite Hs, filter_app. cbn [filter]. rewrite (proj2 (is_netsec_spec v sec) Hi).
      rewrite (filter_out (is_netsec v) A), (filter_out (is_netsec v) B); [reflexivity| |];
        intros x Hx; apply not_netsec, Hn, in_app_iff; auto.
  - destruct (n_attached d) eqn:Ea.
    + intros [sec H]. apply filter_one in H as (pre & post & H1 & H2 & H3 & H4).
      apply (NO_one v d pre sec post Ea H1 (proj1 (is_netsec_spec v sec) H2)).
      intros x Hx F. apply is_netsec_spec in F. apply in_app_iff in Hx as [Hx|Hx]; [rewrite (H3 x Hx) in F|rewrite (H4 x Hx) in F]; discriminate.
    + intros H. apply (NO_none v d Ea). intros x Hx F. apply is_netsec_spec in F.
      assert (K : In x (filter (is_netsec v) (echildren (n_env d)))) by (apply filter_In; auto). rewrite H in K. destruct K.
Qed.
Lemma net_ok_same : forall v a b, n_attached a = n_attached b ->
  filter (is_netsec v) (echildren (n_env a)) = filter (is_netsec v) (echildren (n_env b)) -> net_ok v a -> net_ok v b.
Proof. intros v a b H1 H2. rewrite !net_ok_filter, H1, H2. auto. Qed.
Lemma networks_same : forall v a b, n_attached a = n_attached b ->
  filter (is_netsec v) (echildren (n_env a)) = filter (is_netsec v) (echildren (n_env b)) ->
  networks v a = networks v b /\ network_descriptions v a = network_descriptions v b.
Proof.
  intros v a b H1 H2. unfold networks, network_descriptions, network_section. rewrite !find_filter, H1, H2. auto.
Qed.

Lemma created_others : forall v d pid label desc d', doc_ok v d -> create_profile v d pid label desc = Ok d' ->
  other_sections v (p_env d') = other_sections v (p_env d).
Proof.
  intros v d pid label desc d' O H.
  destruct (create_profile_doc v d pid label desc d' O H) as (_ & _ & (sec' & A & B & E1 & E2 & H3) & _).
  assert (T : forall s env, deploy_sections v env = [s] -> str_eqb (etag s) (DEPLOY_OPT_SECTION v) = true).
  { intros s env Hs. assert (K : In s (deploy_sections v env)) by (rewrite Hs; now left). now apply filter_In in K. }
  unfold other_sections. rewrite E1, filter_app. cbn [filter]. rewrite (T sec' (p_env d') E2). cbn [negb].
  destruct H3 as [(sec & E3 & E4 & _)|(E3 & _)]; rewrite E3, filter_app; [|reflexivity].
  cbn [filter]. rewrite (T sec (p_env d) E4). reflexivity.
Qed.
Lemma defined_deploy : forall v d label desc d', net_ok v d -> create_network v d label desc = Ok d' ->
  deploy_sections v (n_env d') = deploy_sections v (n_env d).
Proof.
  intros v d label desc d' O H.
  destruct (create_cases v d label desc d' O H) as (A & sec & sec' & B & pre & n & n' & post & _ & _ & E1 & E2 & _ & Sm & C & _).
  assert (T : forall s, is_network_section v s -> str_eqb (etag s) (DEPLOY_OPT_SECTION v) = false).
  { intros s Hs. apply netsec_tag, is_netsec_spec, Hs. }
  unfold deploy_sections. rewrite E1, filter_app. cbn [filter]. rewrite (T sec' E2).
  destruct C as [C|(_ & C & _)]; rewrite C, filter_app; [|reflexivity]. cbn [filter].
  assert (Ts : etag sec = etag sec') by now destruct Sm.
  rewrite Ts, (T sec' E2). reflexivity.
Qed.

(** ** The state stays well-formed *)
Definition vm_ok (E : env) (m : vm) : Prop := doc_ok (e_ver E) (v_doc m) /\ net_ok (e_ver E) (net_of m).

Lemma open_vm_ok : forall E envelope sec m, open_vm E envelope sec = Ok m ->
  vm_ok E m /\ unfrozen (devices_of m) /\ v_log m = [] /\ v_sec m = sec.
Proof.
  intros E envelope sec m. unfold open_vm.
  destruct (open_networks _ _) as [n|] eqn:En; [|discriminate]. cbn [rbind].
  destruct (open_profiles E envelope sec) as [d|] eqn:Ed; [|discriminate]. cbn [rbind]. intros H. injection H as <-.
  destruct (open_ok _ _ _ En) as [On Ee].
  assert (Hd : p_env d = envelope /\ exists h, p_hw d = h /\ exists E', read_hardware E' sec = Ok h).
  { revert Ed. unfold open_profiles. cbv zeta. destruct (find_child envelope _ _ _) as [o|]; [|discriminate]. cbn [rbind].
    unfold config_profiles. cbn [p_cache]. destruct (read_hardware _ sec) as [h|] eqn:Eh; [|discriminate]. cbn [rbind].
    intros H. injection H as <-. cbn [p_env p_hw]. split; [reflexivity|]. exists h. eauto. }
  destruct Hd as [Hd (h & <- & E' & Hr)]. split; [|split; [exact (read_unfrozen E' sec _ Hr)|split; reflexivity]].
  split; [exact (doc_ok_open E envelope sec d Ed)|]. unfold net_of. cbn [v_doc v_net]. rewrite Hd.
  destruct n as [ne na]. cbn [n_env] in Ee. subst ne. exact On.
Qed.

Lemma profiles_eq : forall E m m', vm_ok E m -> vm_ok E m' ->
  deploy_sections (e_ver E) (p_env (v_doc m')) = deploy_sections (e_ver E) (p_env (v_doc m)) ->
  profiles_of E m' = profiles_of E m /\ henv E m' = henv E m.
Proof.
  intros E m m' [O _] [O' _] H. unfold profiles_of, henv, hw_env.
  rewrite (profiles_listed _ _ O), (profiles_listed _ _ O'). unfold declared. rewrite H. auto.
Qed.

(** ** Consent *)
Definition agreed (l : list entry) : Prop := forall q b, In (Confirmed q b) l -> b = true.
Lemma agreed_nil : agreed [].
Proof. intros q b []. Qed.
Lemma agreed_app : forall a b, agreed a -> agreed b -> agreed (a ++ b).
Proof. intros a b Ha Hb q x H. apply in_app_iff in H as [H|H]; eauto. Qed.

(** The profiles an invocation may touch *)
Definition touched (s : settings) (p : profile) : Prop := match plist s with [] => True | l => In p l end.
Lemma touched_nil : forall s, plist s = [] -> forall p, touched s p.
Proof. intros s H p. unfold touched. now rewrite H. Qed.
Lemma touched_in : forall s p, In p (plist s) -> touched s p.
Proof. intros s p H. unfold touched. destruct (plist s); [exact I|exact H]. Qed.
Lemma touched_all : forall E s p, In p (all_or E (plist s)) -> touched s p.
Proof. intros E s p. unfold touched, all_or. destruct (plist s); [auto|auto]. Qed.
Lemma touched_opt : forall (l : list profile) s p,
  In p (match plist_opt s with None => l | Some l => l end) -> touched s p.
Proof.
  intros l s p. unfold plist_opt, touched, plist. destruct (s_profiles s) as [[|x l0]|]; [intros []|auto|auto].
Qed.

(** ** Steps that only work on the devices *)
Record hphase (E : env) (A : profile -> Prop) (ts : list str) (m m' : vm) : Prop := {
  hp_doc : v_doc m' = mkPdoc (p_env (v_doc m)) (p_deploy (v_doc m)) (devices_of m') (p_cache (v_doc m));
  hp_net : v_net m' = v_net m;
  hp_sec : v_sec m' = v_sec m;
  hp_hw : hw_reachable (e_ver E) (devices_of m');
  hp_type : forall w, ~ In w ts -> same_of_type w (devices_of m) (devices_of m');
  hp_frame : forall q, ~ A (Some q) -> ~ A None -> In q (profiles_of E m) -> all_know (henv E m) q (devices_of m) ->
               framed (henv E m) q (devices_of m) (devices_of m');
  hp_log : exists l, v_log m' = v_log m ++ l /\ agreed l }.

Lemma hp_vm : forall E A ts m m', vm_ok E m -> hphase E A ts m m' ->
  vm_ok E m' /\ profiles_of E m' = profiles_of E m /\ henv E m' = henv E m /\ net_of m' = net_of m.
Proof.
  intros E A ts m m' O H.
  assert (N : net_of m' = net_of m). { unfold net_of. now rewrite (hp_doc _ _ _ _ _ H), (hp_net _ _ _ _ _ H). }
  assert (O' : vm_ok E m').
  { split; [|rewrite N; exact (proj2 O)]. rewrite (hp_doc _ _ _ _ _ H). destruct O as [[O1 O2 O3] _].
    constructor; cbn [p_deploy p_env p_cache p_hw]; [exact O1|exact O2|exact (hp_hw _ _ _ _ _ H)]. }
  split; [exact O'|]. destruct (profiles_eq E m m' O O') as [H1 H2]; [|auto].
  rewrite (hp_doc _ _ _ _ _ H). reflexivity.
Qed.

Lemma same_type_refl : forall w h, same_of_type w h h.
Proof. intros w h k i _. tauto. Qed.
Lemma same_type_trans : forall w a b c, same_of_type w a b -> same_of_type w b c -> same_of_type w a c.
Proof. intros w a b c H1 H2 k i Hi. rewrite (H1 k i Hi). exact (H2 k i Hi). Qed.

Lemma hphase_refl : forall E A ts m, vm_ok E m -> hphase E A ts m m.
Proof.
  intros E A ts m O. constructor; try reflexivity.
  - unfold devices_of. now destruct (v_doc m).
  - exact (o_hw _ _ (proj1 O)).
  - intros w _. apply same_type_refl.
  - intros q _ _ _ K. now apply framed_refl.
  - exists []. split; [now rewrite app_nil_r|exact agreed_nil].
Qed.
Lemma hphase_trans : forall E A ts a b c, vm_ok E a -> hphase E A ts a b -> hphase E A ts b c -> hphase E A ts a c.
Proof.
  intros E A ts a b c O H1 H2. destruct (hp_vm E A ts a b O H1) as (Ob & Pb & Eb & Nb).
  constructor.
  - rewrite (hp_doc _ _ _ _ _ H2) at 1. now rewrite (hp_doc _ _ _ _ _ H1).
  - now rewrite (hp_net _ _ _ _ _ H2), (hp_net _ _ _ _ _ H1).
  - now rewrite (hp_sec _ _ _ _ _ H2), (hp_sec _ _ _ _ _ H1).
  - exact (hp_hw _ _ _ _ _ H2).
  - intros w Hw. apply (same_type_trans w _ (devices_of b)); [exact (hp_type _ _ _ _ _ H1 w Hw)|exact (hp_type _ _ _ _ _ H2 w Hw)].
  - intros q Q1 Q2 Q3 Q4. pose proof (hp_frame _ _ _ _ _ H1 q Q1 Q2 Q3 Q4) as F1.
    assert (F2 : framed (henv E a) q (devices_of b) (devices_of c)).
    { rewrite <- Eb. apply (hp_frame _ _ _ _ _ H2 q Q1 Q2); [now rewrite Pb|]. rewrite Eb. exact (fr_know _ _ _ _ F1). }
    exact (framed_trans _ q _ _ _ (proj1 (reachable_ids _ _ (hp_hw _ _ _ _ _ H1)))
             (proj1 (reachable_ids _ _ (hp_hw _ _ _ _ _ H2))) F1 F2).
  - destruct (hp_log _ _ _ _ _ H1) as (l1 & L1 & A1). destruct (hp_log _ _ _ _ _ H2) as (l2 & L2 & A2).
    exists (l1 ++ l2). split; [now rewrite L2, L1, app_assoc|now apply agreed_app].
Qed.
Lemma hphase_weaken : forall E A ts ts' m m', incl ts ts' -> hphase E A ts m m' -> hphase E A ts' m m'.
Proof.
  intros E A ts ts' m m' I [H1 H2 H3 H4 H5 H6 H7]. constructor; auto.
Qed.

(** One operation on the devices *)
Lemma hphase_on : forall E A w m f m', vm_ok E m ->
  (forall h', f (henv E m) (devices_of m) = Ok h' ->
     hw_step (e_ver E) (devices_of m) h' /\ touches (henv E m) A w (devices_of m) h') ->
  on_hw E m f = Ok m' -> hphase E A [w] m m'.
Proof.
  intros E A w m f m' O Hf. unfold on_hw. fold (devices_of m).
  destruct (f (henv E m) (devices_of m)) as [h'|] eqn:Eh; [|discriminate]. cbn [rbind]. intros H. injection H as <-.
  destruct (Hf h' eq_refl) as [St T].
  assert (R : hw_reachable (e_ver E) (devices_of m)) by exact (o_hw _ _ (proj1 O)).
  assert (R' : hw_reachable (e_ver E) h') by exact (H_step _ _ _ R St).
  pose proof (reachable_ids _ _ R) as I. pose proof (reachable_ids _ _ R') as I'.
  assert (Ri : forall k i, In (k, i) (devices_of m) -> reachable (e_ver (henv E m)) i).
  { intros k i Hi. exact (proj1 (proj2 I k i Hi)). }
  constructor; try reflexivity.
  - exact R'.
  - intros x Hx. apply (touches_type (henv E m) A w); [exact (proj1 I)|exact (proj1 I')|exact Ri| |exact T].
    intros ->. apply Hx. now left.
  - intros q Q1 Q2 Q3 Q4. exact (touches_frame (henv E m) A w _ _ q (proj1 I) (proj1 I') Ri Q1 Q2 Q3 Q4 T).
  - exists []. cbn. split; [now rewrite app_nil_r|exact agreed_nil].
Qed.

(** Something was said *)
Lemma hphase_log : forall E A m e, vm_ok E m -> (forall q b, e = Confirmed q b -> b = true) -> hphase E A [] m (with_log e m).
Proof.
  intros E A m e O He. constructor; try reflexivity.
  - unfold devices_of. cbn. now destruct (v_doc m).
  - exact (o_hw _ _ (proj1 O)).
  - intros w _. apply same_type_refl.
  - intros q _ _ _ K. now apply framed_refl.
  - exists [e]. split; [reflexivity|]. intros q b [H|[]]. eauto.
Qed.
Lemma confirm_inv : forall U m q m', confirm_or_die U m q = Ok m' ->
  u_confirm U (v_log m) q = true /\ m' = with_log (Confirmed q true) m.
Proof.
  intros U m q m'. unfold confirm_or_die, confirm. destruct (u_confirm U (v_log m) q); [|discriminate].
  intros H. injection H as <-. auto.
Qed.
Lemma hphase_confirm : forall E A U m q m', vm_ok E m -> confirm_or_die U m q = Ok m' -> hphase E A [] m m'.
Proof.
  intros E A U m q m' O H. apply confirm_inv in H as [_ ->]. apply hphase_log; [exact O|]. intros q' b Hb. now injection Hb.
Qed.

Lemma fold_hphase : forall E A ts (B : Type) (f : vm -> B -> result vm) l m m', vm_ok E m ->
  (forall a x b, In x l -> vm_ok E a -> f a x = Ok b -> hphase E A ts a b) ->
  fold_result f l m = Ok m' -> hphase E A ts m m'.
Proof.
  intros E A ts B f l. induction l as [|x l IH]; intros m m' O Hf H; cbn [fold_result] in H.
  - injection H as <-. now apply hphase_refl.
  - destruct (f m x) as [b|] eqn:Ef; [|discriminate]. cbn [rbind] in H.
    assert (P1 : hphase E A ts m b) by (apply (Hf m x b); [now left|exact O|exact Ef]).
    apply (hphase_trans E A ts m b m' O P1). apply IH; [exact (proj1 (hp_vm _ _ _ _ _ O P1))| |exact H].
    intros a y c Hy. apply Hf. now right.
Qed.
