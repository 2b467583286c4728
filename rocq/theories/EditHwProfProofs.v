(** The first step of edit-hardware: profiles come and go. *)
From Coq Require Import Lia.
From Verif Require Import PyBase PyBaseProofs PyDict PyDictProofs ValidationModel ValidationSpec PlatformModel XmlModel XmlSpec
  XmlProofs NamesModel ItemModel ItemSpec ItemProofs ItemSetProofs ItemReachProofs ItemEffectProofs HardwareModel HardwareSpec
  HardwareProofs HardwareIdProofs EmitProofs CountSpec CountItemProofs CountProofs FindSpec FindProofs ProfileModel ProfileSpec
  ProfileProofs ProfileDocProofs NetworkModel NetworkSpec NetworkProofs WildListModel EditHwModel EditHwSpec HwStepProofs
  EditHwProofs EditHwRunProofs.

Lemma in_named : forall (l : list (option str)) q, In q (named l) <-> In (Some q) l.
Proof.
  intros l q. unfold named. rewrite in_flat_map. split.
  - intros ([x|] & Hx & Hq); [|destruct Hq]. destruct Hq as [<-|[]]. exact Hx.
  - intros H. exists (Some q). split; [exact H|now left].
Qed.
Lemma in_listed : forall v cs q, In q (listed v cs) <-> exists c, In c cs /\ get_attr c (CONFIG_ID v) = q.
Proof.
  intros v cs q. unfold listed. rewrite in_app_iff, !in_map_iff. split.
  - intros [(c & <- & Hc)|(c & <- & Hc)]; [apply in_rev in Hc|]; apply filter_In in Hc as [Hc _]; eauto.
  - intros (c & Hc & <-). destruct (is_default v c) eqn:Ed.
    + left. exists c. split; [reflexivity|]. apply -> in_rev. apply filter_In. auto.
    + right. exists c. split; [reflexivity|]. apply filter_In. now rewrite Ed.
Qed.
Lemma in_profiles : forall E m q, vm_ok E m -> (In q (profiles_of E m) <->
  exists c, In c (declared (e_ver E) (p_env (v_doc m))) /\ get_attr c (CONFIG_ID (e_ver E)) = Some q).
Proof.
  intros E m q [O _]. unfold profiles_of. rewrite in_named, (profiles_listed _ _ O). apply in_listed.
Qed.

(** Profiles change, [D] of them are gone: what is left of the devices *)
Record pphase (E : env) (D : list str) (m m' : vm) : Prop := {
  pp_ok : vm_ok E m';
  pp_keys : map fst (devices_of m') = map fst (devices_of m);
  pp_same : forall k i i', In (k, i) (devices_of m) -> In (k, i') (devices_of m') ->
     i_frozen i' = i_frozen i /\
     forall r, (forall p, In p D -> r <> Some p) ->
       (forall n u, own (i_props i') n r u <-> own (i_props i) n r u) /\ forall n, reports E i' n r = reports E i n r;
  pp_none : D = [] -> devices_of m' = devices_of m;
  pp_sec : v_sec m' = v_sec m;
  pp_net : v_net m' = v_net m;
  pp_nets : filter (is_netsec (e_ver E)) (echildren (p_env (v_doc m'))) = filter (is_netsec (e_ver E)) (echildren (p_env (v_doc m)));
  pp_log : exists l, v_log m' = v_log m ++ l /\ forall q, In (Confirmed q false) l -> is_ask_delete q }.

Lemma pp_refl : forall E m, vm_ok E m -> pphase E [] m m.
Proof.
  intros E m O. constructor; auto.
  - intros k i i' H H'.
    rewrite (NoDup_same (devices_of m) k i' i (proj1 (reachable_ids _ _ (o_hw _ _ (proj1 O)))) H' H). split; [reflexivity|].
    intros r _. split; reflexivity.
  - exists []. split; [now rewrite app_nil_r|intros q []].
Qed.
Lemma keys_get : forall (a b : hw) k i, map fst b = map fst a -> In (k, i) a -> exists i', In (k, i') b.
Proof.
  intros a b k i H Hi. assert (K : In k (map fst b)) by (rewrite H; apply in_map_iff; exists (k, i); auto).
  apply in_map_iff in K as ([k' i'] & Hk & Hb). cbn in Hk. subst. eauto.
Qed.
Lemma pp_trans : forall E D1 D2 a b c, pphase E D1 a b -> pphase E D2 b c -> pphase E (D1 ++ D2) a c.
Proof.
  intros E D1 D2 a b c H1 H2. constructor.
  - exact (pp_ok _ _ _ _ H2).
  - now rewrite (pp_keys _ _ _ _ H2), (pp_keys _ _ _ _ H1).
  - intros k i i2 Hi Hi2. destruct (keys_get _ _ _ _ (pp_keys _ _ _ _ H1) Hi) as [i1 Hi1].
    destruct (pp_same _ _ _ _ H1 k i i1 Hi Hi1) as [F1 S1]. destruct (pp_same _ _ _ _ H2 k i1 i2 Hi1 Hi2) as [F2 S2].
    split; [congruence|]. intros r Hr. destruct (S1 r) as [A1 B1]; [intros p Hp; apply Hr, in_app_iff; auto|].
    destruct (S2 r) as [A2 B2]; [intros p Hp; apply Hr, in_app_iff; auto|]. split.
    + intros n u. now rewrite A2, A1.
    + intros n. now rewrite B2, B1.
  - intros Hd. apply app_eq_nil in Hd as [-> ->]. now rewrite (pp_none _ _ _ _ H2 eq_refl), (pp_none _ _ _ _ H1 eq_refl).
  - now rewrite (pp_sec _ _ _ _ H2), (pp_sec _ _ _ _ H1).
  - now rewrite (pp_net _ _ _ _ H2), (pp_net _ _ _ _ H1).
  - now rewrite (pp_nets _ _ _ _ H2), (pp_nets _ _ _ _ H1).
  - destruct (pp_log _ _ _ _ H1) as (l1 & L1 & A1). destruct (pp_log _ _ _ _ H2) as (l2 & L2 & A2).
    exists (l1 ++ l2). split; [now rewrite L2, L1, app_assoc|]. intros q Hq. apply in_app_iff in Hq as [Hq|Hq]; auto.
Qed.
Lemma pp_with_log : forall E m e, vm_ok E m -> (forall q, e = Confirmed q false -> is_ask_delete q) -> pphase E [] m (with_log e m).
Proof.
  intros E m e O He. destruct (pp_refl E m O) as [H1 H2 H3 H4 H5 H6 H7 _]. constructor; auto.
  exists [e]. split; [reflexivity|]. intros q [Hq|[]]. auto.
Qed.

Lemma pp_doc : forall E D m d, doc_ok (e_ver E) d -> vm_ok E m ->
  map fst (p_hw d) = map fst (devices_of m) ->
  (forall k i i', In (k, i) (devices_of m) -> In (k, i') (p_hw d) ->
     i_frozen i' = i_frozen i /\
     forall r, (forall p, In p D -> r <> Some p) ->
       (forall n u, own (i_props i') n r u <-> own (i_props i) n r u) /\ forall n, reports E i' n r = reports E i n r) ->
  (D = [] -> p_hw d = devices_of m) ->
  other_sections (e_ver E) (p_env d) = other_sections (e_ver E) (p_env (v_doc m)) ->
  pphase E D m (with_doc d m).
Proof.
  intros E D m d Od O Hk Hs Hn Ho.
  assert (Hf : filter (is_netsec (e_ver E)) (echildren (p_env d)) = filter (is_netsec (e_ver E)) (echildren (p_env (v_doc m)))).
  { rewrite <- !(netsecs_other (e_ver E)). now rewrite Ho. }
  constructor; auto.
  - split; [exact Od|]. apply (net_ok_same (e_ver E) (net_of m)); [reflexivity| |exact (proj2 O)]. cbn. now rewrite Hf.
  - exists []. cbn. split; [now rewrite app_nil_r|intros q []].
Qed.

(** A profile is created *)
Lemma create_profile_phase : forall E m pid label desc d, vm_ok E m -> create_profile (e_ver E) (v_doc m) pid label desc = Ok d ->
  pphase E [] m (with_doc d m) /\
  forall q, In q (profiles_of E (with_doc d m)) <-> In q (profiles_of E m) \/ q = pid.
Proof.
  intros E m pid label desc d O H.
  destruct (create_profile_doc _ _ _ _ _ _ (proj1 O) H) as (_ & Hh & _ & Hc & Od).
  pose proof (created_others _ _ _ _ _ _ (proj1 O) H) as Ho.
  assert (P : pphase E [] m (with_doc d m)).
  { apply pp_doc; [exact Od|exact O| | | |exact Ho].
    - now rewrite Hh.
    - rewrite Hh. exact (pp_same _ _ _ _ (pp_refl E m O)).
    - intros _. exact Hh. }
  split; [exact P|]. intros q. rewrite (in_profiles E _ q (pp_ok _ _ _ _ P)), (in_profiles E m q O). cbn [with_doc v_doc].
  assert (Id : forall c c', config_made (e_ver E) label desc c c' -> get_attr c' (CONFIG_ID (e_ver E)) = get_attr c (CONFIG_ID (e_ver E))).
  { intros c c' M. destruct M as [(_ & Ha & _)]. unfold get_attr. now rewrite Ha. }
  destruct Hc as [(pre & c & c' & post & E1 & E2 & E3 & _ & M)|(c' & _ & E3 & M)]; rewrite E3.
  - rewrite E1. split.
    + intros (x & Hx & Hq). apply in_app_iff in Hx as [Hx|[<-|Hx]].
      * left. exists x. split; [apply in_app_iff; auto|exact Hq].
      * right. rewrite (Id _ _ M), E2 in Hq. now injection Hq.
      * left. exists x. split; [apply in_app_iff; right; now right|exact Hq].
    + intros [(x & Hx & Hq)|Hq]; [apply in_app_iff in Hx as [Hx|[<-|Hx]]|subst q].
      * exists x. split; [apply in_app_iff; auto|exact Hq].
      * exists c'. split; [apply in_app_iff; right; now left|]. now rewrite (Id _ _ M).
      * exists x. split; [apply in_app_iff; right; now right|exact Hq].
      * exists c'. split; [apply in_app_iff; right; now left|]. now rewrite (Id _ _ M).
  - split.
    + intros (x & Hx & Hq). apply in_app_iff in Hx as [Hx|[<-|[]]]; [left; eauto|]. right.
      rewrite (Id _ _ M) in Hq. unfold get_attr in Hq. cbn in Hq. rewrite str_eqb_refl in Hq. now injection Hq.
    + intros [(x & Hx & Hq)|Hq]; [|subst q]; [exists x; split; [apply in_app_iff; auto|exact Hq]|].
      exists c'. split; [apply in_app_iff; right; now left|]. rewrite (Id _ _ M). unfold get_attr. cbn. now rewrite str_eqb_refl.
Qed.

Lemma create_fold : forall E U known l m m', vm_ok E m -> fold_result (create_one E U known) l m = Ok m' ->
  pphase E [] m m' /\
  (exists lg, v_log m' = v_log m ++ lg /\ agreed lg /\ forall p, In p l -> ~ In p known -> In (Confirmed (AskCreate p) true) lg) /\
  (forall q, In q (profiles_of E m') <-> In q (profiles_of E m) \/ (In q l /\ ~ In q known)).
Proof.
  intros E U known l. induction l as [|p l IH]; intros m m' O H; cbn [fold_result] in H.
  - injection H as <-. split; [now apply pp_refl|]. split; [|intros q; cbn; tauto].
    exists []. split; [now rewrite app_nil_r|]. split; [exact agreed_nil|intros p []].
  - destruct (create_one E U known m p) as [m1|] eqn:E1; [|discriminate]. cbn [rbind] in H.
    assert (S : pphase E [] m m1 /\
      (exists lg, v_log m1 = v_log m ++ lg /\ agreed lg /\ (~ In p known -> In (Confirmed (AskCreate p) true) lg)) /\
      (forall q, In q (profiles_of E m1) <-> In q (profiles_of E m) \/ (q = p /\ ~ In q known))).
    { unfold create_one in E1. destruct (mem_str p known) eqn:Ek.
      - injection E1 as <-. apply mem_str_In in Ek. split; [now apply pp_refl|]. split.
        + exists []. split; [now rewrite app_nil_r|]. split; [exact agreed_nil|]. intros F. now destruct F.
        + intros q. split; [auto|]. intros [Hq|[-> Hq]]; [exact Hq|now destruct Hq].
      - destruct (confirm_or_die U m (AskCreate p)) as [a|] eqn:Ea; [|discriminate]. cbn [rbind] in E1.
        apply confirm_inv in Ea as [_ ->]. unfold get_input in E1.
        set (a := with_log (Confirmed (AskCreate p) true) m) in E1.
        set (label := u_input U (v_log a) (AskLabel p) p) in E1. set (b := with_log (Entered (AskLabel p) label) a) in E1.
        set (desc := u_input U (v_log b) (AskDescription p) label) in E1.
        set (c := with_log (Entered (AskDescription p) desc) b) in E1.
        destruct (create_profile _ _ _ _ _) as [d|] eqn:Ed; [|discriminate]. cbn [rbind] in E1. injection E1 as <-.
        assert (Pa : pphase E [] m a) by (apply pp_with_log; [exact O|discriminate]).
        assert (Pb : pphase E [] a b) by (apply pp_with_log; [exact (pp_ok _ _ _ _ Pa)|discriminate]).
        assert (Pc : pphase E [] b c) by (apply pp_with_log; [exact (pp_ok _ _ _ _ Pb)|discriminate]).
        destruct (create_profile_phase E c p _ _ d (pp_ok _ _ _ _ Pc) Ed) as [Pd Hq].
        split; [exact (pp_trans _ _ _ _ _ _ (pp_trans _ _ _ _ _ _ (pp_trans _ _ _ _ _ _ Pa Pb) Pc) Pd)|]. split.
        + exists [Confirmed (AskCreate p) true; Entered (AskLabel p) label; Entered (AskDescription p) desc].
          split; [unfold c, b, a; cbn; now rewrite <- !app_assoc|]. split; [|intros _; now left].
          intros q x [Hx|[Hx|[Hx|[]]]]; [now injection Hx|discriminate|discriminate].
        + intros q. rewrite (Hq q). change (profiles_of E c) with (profiles_of E m). split; (intros [K|K]; [now left|right]).
          * subst. split; [reflexivity|]. intros F. apply mem_str_In in F. rewrite F in Ek. discriminate.
          * exact (proj1 K). }
    destruct S as (P1 & (l1 & L1 & A1 & C1) & Q1). destruct (IH m1 m' (pp_ok _ _ _ _ P1) H) as (P2 & (l2 & L2 & A2 & C2) & Q2).
    split; [exact (pp_trans _ _ _ _ _ _ P1 P2)|]. split.
    + exists (l1 ++ l2). split; [now rewrite L2, L1, app_assoc|]. split; [now apply agreed_app|].
      intros x [<-|Hx] Hk; apply in_app_iff; [left|right]; auto.
    + intros q. rewrite Q2, Q1. cbn [In]. split.
      * intros [[K|[-> K]]|[K1 K2]]; auto.
      * intros [K|[[<-|K1] K2]]; auto.
Qed.

(** A profile is deleted *)
Lemma delete_one_phase : forall E m p m', vm_ok E m -> delete_one E m p = Ok m' ->
  pphase E [p] m m' /\ v_log m' = v_log m /\
  forall q, In q (profiles_of E m') <-> In q (profiles_of E m) /\ q <> p.
Proof.
  intros E m p m' O H. unfold delete_one in H.
  destruct (delete_profile E (v_doc m) p) as [d|] eqn:Ed; [|discriminate]. cbn [rbind] in H. injection H as <-.
  destruct (delete_profile_doc E (v_doc m) p d (proj1 O) Ed) as (sec & c & pre & post & _ & E1 & E2 & E3 & E4 & _ & E5 & _ & E6 & Od).
  pose proof (reachable_ids _ _ (o_hw _ _ (proj1 O))) as I.
  destruct (drop_profile_spec (hw_env E (v_doc m)) _ p _ I E6) as [K1 K2].
  assert (P : pphase E [p] m (with_doc d m)).
  { apply pp_doc; [exact Od|exact O|exact K1| |discriminate|exact E5].
    intros k i i' Hi Hi'.
    assert (Fr : i_frozen i' = i_frozen i).
    { pose proof E6 as E6'. unfold drop_profile in E6'.
      destruct (find_all_items _ _ _ _ _) as [ks|] eqn:Ek; [|discriminate]. cbn [rbind] in E6'.
      destruct (find_all_spec _ _ _ _ _ _ (proj1 I) Ek) as [ND _].
      apply (each_key (fun i => remove_profile (hw_env E (v_doc m)) i (Some p) false)) in E6'; [|exact ND|exact (proj1 I)].
      destruct E6' as (M1 & M2 & M3).
      assert (G : hitem k (p_hw (v_doc m)) = Ok i) by (apply hitem_In; [exact (proj1 I)|exact Hi]).
      assert (G' : hitem k (p_hw d) = Ok i') by (apply hitem_In; [rewrite M1; exact (proj1 I)|exact Hi']).
      destruct (in_dec (list_eq_dec ascii_dec) k ks) as [Hk|Hk].
      - destruct (M2 k Hk) as (j & j' & J1 & J2 & J3). rewrite J1 in G. rewrite J3 in G'. injection G as ->. injection G' as ->.
        exact (remove_frozen (hw_env E (v_doc m)) i (Some p) false i' (proj1 (proj2 I k i Hi)) J2).
      - rewrite (M3 k Hk), G in G'. now injection G' as ->. }
    split; [exact Fr|]. intros r Hr. assert (Hrp : r <> Some p) by (apply Hr; now left).
    specialize (K2 k i i' Hi Hi'). unfold loses_profile in K2.
    destruct (has_profile _ i (Some p)).
    - destruct K2 as (_ & K3 & K4 & _). split; [intros n u; exact (K3 n r u Hrp)|intros n; exact (K4 n r Hrp)].
    - subst i'. split; reflexivity. }
  split; [exact P|]. split; [reflexivity|]. intros q.
  rewrite (in_profiles E _ q (pp_ok _ _ _ _ P)), (in_profiles E m q O). cbn [with_doc v_doc]. rewrite E4, E1. split.
  - intros (x & Hx & Hq). split.
    + exists x. split; [|exact Hq]. apply in_app_iff in Hx as [Hx|Hx]; apply in_app_iff; [now left|right; now right].
    + intros ->. exact (E3 x Hx Hq).
  - intros [(x & Hx & Hq) Hne]. exists x. split; [|exact Hq]. apply in_app_iff in Hx as [Hx|[<-|Hx]]; apply in_app_iff; auto.
    rewrite E2 in Hq. injection Hq as ->. now destruct Hne.
Qed.
Lemma delete_fold : forall E l m m', vm_ok E m -> fold_result (delete_one E) l m = Ok m' ->
  pphase E l m m' /\ v_log m' = v_log m /\
  forall q, In q (profiles_of E m') <-> In q (profiles_of E m) /\ ~ In q l.
Proof.
  intros E l. induction l as [|p l IH]; intros m m' O H; cbn [fold_result] in H.
  - injection H as <-. split; [now apply pp_refl|]. split; [reflexivity|]. intros q. cbn. tauto.
  - destruct (delete_one E m p) as [m1|] eqn:E1; [|discriminate]. cbn [rbind] in H.
    destruct (delete_one_phase E m p m1 O E1) as (P1 & L1 & Q1).
    destruct (IH m1 m' (pp_ok _ _ _ _ P1) H) as (P2 & L2 & Q2).
    split; [exact (pp_trans E [p] l _ _ _ P1 P2)|]. split; [congruence|]. intros q. rewrite Q2, Q1. cbn [In].
    split; [intros [[K1 K2] K3]; split; [exact K1|intros [K|K]; [now apply K2|now apply K3]]|].
    intros [K1 K2]. split; [split; [exact K1|intros ->; apply K2; now left]|intros K; apply K2; now right].
Qed.
Lemma asked_fold : forall E U l m m', vm_ok E m -> fold_result (delete_asked E U) l m = Ok m' ->
  exists D lg, pphase E D m m' /\ v_log m' = v_log m ++ lg /\ incl D l /\
  (forall q, In q D <-> In (Confirmed (AskDelete q) true) lg) /\
  (forall q, In q l -> exists b, In (Confirmed (AskDelete q) b) lg) /\
  (forall q b, In (Confirmed q b) lg -> is_ask_delete q) /\
  forall q, In q (profiles_of E m') <-> In q (profiles_of E m) /\ ~ In q D.
Proof.
  intros E U l. induction l as [|p l IH]; intros m m' O H; cbn [fold_result] in H.
  - injection H as <-. exists [], []. split; [now apply pp_refl|]. split; [now rewrite app_nil_r|]. split; [intros x []|].
    split; [cbn; tauto|]. split; [intros q []|]. split; [intros q b []|]. intros q. cbn. tauto.
  - destruct (delete_asked E U m p) as [m1|] eqn:E1; [|discriminate]. cbn [rbind] in H. unfold delete_asked, confirm in E1.
    set (b := u_confirm U (v_log m) (AskDelete p)) in E1. set (a := with_log (Confirmed (AskDelete p) b) m) in E1.
    assert (Pa : pphase E [] m a).
    { apply pp_with_log; [exact O|]. intros q Hq. injection Hq as <- _. now exists p. }
    assert (S : exists D1, pphase E D1 m m1 /\ v_log m1 = v_log m ++ [Confirmed (AskDelete p) b] /\
       (forall q, In q D1 <-> q = p /\ b = true) /\
       forall q, In q (profiles_of E m1) <-> In q (profiles_of E m) /\ ~ In q D1).
    { destruct b.
      - destruct (delete_one_phase E a p m1 (pp_ok _ _ _ _ Pa) E1) as (P1 & L1 & Q1). exists [p].
        split; [exact (pp_trans E [] [p] _ _ _ Pa P1)|]. split; [exact L1|].
        split; [intros q; cbn; split; [intros [<-|[]]; auto|intros [-> _]; auto]|].
        intros q. rewrite Q1. change (profiles_of E a) with (profiles_of E m). cbn [In]. split; intros [K1 K2]; (split; [exact K1|]).
        + intros [->|[]]. now apply K2.
        + intros ->. apply K2. now left.
      - injection E1 as <-. exists []. split; [exact Pa|]. split; [reflexivity|].
        split; [intros q; split; [intros []|intros [_ F]; discriminate]|].
        intros q. change (profiles_of E a) with (profiles_of E m). cbn. tauto. }
    destruct S as (D1 & P1 & L1 & I1 & Q1).
    destruct (IH m1 m' (pp_ok _ _ _ _ P1) H) as (D2 & lg & P2 & L2 & S2 & I2 & A2 & K2 & Q2).
    exists (D1 ++ D2), (Confirmed (AskDelete p) b :: lg).
    split; [exact (pp_trans _ _ _ _ _ _ P1 P2)|]. split; [rewrite L2, L1, <- app_assoc; reflexivity|].
    split. { intros x Hx. apply in_app_iff in Hx as [Hx|Hx]; [apply I1 in Hx as [-> _]; now left|right; now apply S2]. }
    split. { intros q. rewrite in_app_iff, I1, I2. cbn [In]. split.
             - intros [[-> ->]|Hq]; auto.
             - intros [Hq|Hq]; [left; injection Hq as -> ->; auto|now right]. }
    split. { intros q [<-|Hq]; [exists b; now left|]. destruct (A2 q Hq) as [b' Hb]. exists b'. now right. }
    split. { intros q x [Hq|Hq]; [injection Hq as <- _; now exists p|exact (K2 q x Hq)]. }
    intros q. rewrite Q2, Q1, in_app_iff. tauto.
Qed.

Lemma create_no_delete : forall E U known l m m' lg, fold_result (create_one E U known) l m = Ok m' -> v_log m' = v_log m ++ lg ->
  forall q, ~ In (Confirmed (AskDelete q) true) lg.
Proof.
  intros E U known l. induction l as [|p l IH]; intros m m' lg H L q; cbn [fold_result] in H.
  - injection H as <-. rewrite <- (app_nil_r (v_log m)) in L at 1. apply app_inv_head in L. subst. intros [].
  - destruct (create_one E U known m p) as [m1|] eqn:E1; [|discriminate]. cbn [rbind] in H.
    assert (K : exists l1, v_log m1 = v_log m ++ l1 /\ ~ In (Confirmed (AskDelete q) true) l1).
    { unfold create_one in E1. destruct (mem_str p known); [injection E1 as <-; exists []; split; [now rewrite app_nil_r|intros []]|].
      step E1 a Ea. apply confirm_inv in Ea as [_ ->]. unfold get_input in E1. step E1 d Ed. injection E1 as <-.
      cbn [with_doc with_log v_log]. rewrite <- !app_assoc. eexists. split; [reflexivity|].
      intros [F|[F|[F|[]]]]; discriminate. }
    destruct K as (l1 & L1 & K1).
    assert (K2 : exists l2, v_log m' = v_log m1 ++ l2).
    { clear -H. revert m1 H. induction l as [|x l IH]; intros m1 H; cbn [fold_result] in H.
      - injection H as <-. exists []. now rewrite app_nil_r.
      - destruct (create_one E U known m1 x) as [m2|] eqn:E2; [|discriminate]. cbn [rbind] in H.
        destruct (IH m2 H) as [l2 L2]. unfold create_one in E2. destruct (mem_str x known); [injection E2 as <-; eauto|].
        step E2 a Ea. apply confirm_inv in Ea as [_ ->]. unfold get_input in E2. step E2 d Ed. injection E2 as <-.
        rewrite L2. cbn [with_doc with_log v_log]. rewrite <- !app_assoc. eauto. }
    destruct K2 as [l2 L2]. rewrite L2, L1, <- app_assoc in L. apply app_inv_head in L. subst lg.
    intros F. apply in_app_iff in F as [F|F]; [exact (K1 F)|exact (IH m1 m' l2 H L2 q F)].
Qed.

Definition named_profiles (s : settings) : list str := match s_profiles s with Some l => l | None => [] end.
Lemma dedup_In : forall l x, In x (dedup l) <-> In x l.
Proof.
  induction l as [|y l IH]; intros x; [tauto|]. cbn [dedup]. destruct (mem_str y l) eqn:Ey.
  - rewrite IH. split; [now right|]. intros [<-|H]; [now apply mem_str_In|exact H].
  - cbn [In]. now rewrite IH.
Qed.
Lemma set_minus_In : forall a b x, In x (set_minus a b) <-> In x a /\ ~ In x b.
Proof.
  intros a b x. unfold set_minus. rewrite filter_In, dedup_In. split; intros [H1 H2]; (split; [exact H1|]).
  - intros F. apply mem_str_In in F. now rewrite F in H2.
  - destruct (mem_str x b) eqn:Ex; [|reflexivity]. apply mem_str_In in Ex. now destruct H2.
Qed.

Theorem update_profiles_spec : forall E U s m m', vm_ok E m -> update_profiles E U m s = Ok m' ->
  exists D lg, pphase E D m m' /\ v_log m' = v_log m ++ lg /\
    (forall q, In (Confirmed q false) lg -> is_ask_delete q) /\
    (s_delete_others s = false -> D = []) /\
    (forall q, In q (profiles_of E m') <-> (In q (profiles_of E m) \/ In q (named_profiles s)) /\ ~ In q D) /\
    (forall p, In p (named_profiles s) -> ~ In p (profiles_of E m) -> In (Confirmed (AskCreate p) true) lg) /\
    (given (s_profiles s) = true -> given (s_system_types s) = true -> In (Confirmed AskSystemTypes true) lg) /\
    (given (s_profiles s) = true -> given (s_net_descs s) = true -> In (Confirmed AskDescriptions true) lg) /\
    (s_delete_others s = true -> s_profiles s = None ->
       In (Confirmed AskDeleteAll true) lg /\ forall q, In q D <-> In q (profiles_of E m)) /\
    (s_delete_others s = true -> forall l, s_profiles s = Some l ->
       (forall q, In q D <-> In (Confirmed (AskDelete q) true) lg) /\
       ((forall l x, In x (u_order U l) <-> In x l) ->
          (forall q, In q D -> In q (profiles_of E m) /\ ~ In q l) /\
          forall q, In q (profiles_of E m) -> ~ In q l -> exists b, In (Confirmed (AskDelete q) b) lg)).
Proof.
  intros E U s m m' O H. unfold update_profiles in H. step H m1 E1.
  assert (S1 : pphase E [] m m1 /\ (exists lg, v_log m1 = v_log m ++ lg /\ agreed lg /\
     (forall p, In p (named_profiles s) -> ~ In p (profiles_of E m) -> In (Confirmed (AskCreate p) true) lg) /\
     (given (s_profiles s) = true -> given (s_system_types s) = true -> In (Confirmed AskSystemTypes true) lg) /\
     (given (s_profiles s) = true -> given (s_net_descs s) = true -> In (Confirmed AskDescriptions true) lg) /\
     forall q, ~ In (Confirmed (AskDelete q) true) lg) /\
     (forall q, In q (profiles_of E m1) <-> In q (profiles_of E m) \/ In q (named_profiles s))).
  { unfold named_profiles. destruct (s_profiles s) as [l|].
    - step E1 a Ea. step E1 b Eb.
      assert (Pa : pphase E [] m a /\ exists la, v_log a = v_log m ++ la /\ agreed la /\
        (given (s_system_types s) = true -> In (Confirmed AskSystemTypes true) la) /\ profiles_of E a = profiles_of E m /\
        forall q, ~ In (Confirmed (AskDelete q) true) la).
      { destruct (given (s_system_types s)).
        - apply confirm_inv in Ea as [_ ->]. split; [apply pp_with_log; [exact O|discriminate]|]. eexists. split; [reflexivity|].
          split; [intros q x [F|[]]; now injection F|]. split; [intros _; now left|]. split; [reflexivity|].
          intros q [F|[]]. discriminate.
        - injection Ea as <-. split; [now apply pp_refl|]. exists []. split; [now rewrite app_nil_r|]. split; [exact agreed_nil|].
          split; [discriminate|]. split; [reflexivity|intros q []]. }
      destruct Pa as (Pa & la & La & Aa & Ca & Qa & Da).
      assert (Pb : pphase E [] a b /\ exists lb, v_log b = v_log a ++ lb /\ agreed lb /\
        (given (s_net_descs s) = true -> In (Confirmed AskDescriptions true) lb) /\ profiles_of E b = profiles_of E a /\
        forall q, ~ In (Confirmed (AskDelete q) true) lb).
      { destruct (given (s_net_descs s)).
        - apply confirm_inv in Eb as [_ ->]. split; [apply pp_with_log; [exact (pp_ok _ _ _ _ Pa)|discriminate]|]. eexists. split; [reflexivity|].
          split; [intros q x [F|[]]; now injection F|]. split; [intros _; now left|]. split; [reflexivity|].
          intros q [F|[]]. discriminate.
        - injection Eb as <-. split; [exact (pp_refl E a (pp_ok _ _ _ _ Pa))|]. exists []. split; [now rewrite app_nil_r|]. split; [exact agreed_nil|].
          split; [discriminate|]. split; [reflexivity|intros q []]. }
      destruct Pb as (Pb & lb & Lb & Ab & Cb & Qb & Db).
      unfold create_new_profiles in E1.
      destruct (create_fold E U (profiles_of E b) l b m1 (pp_ok _ _ _ _ Pb) E1) as (Pc & (lc & Lc & Ac & Cc) & Qc).
      split; [exact (pp_trans _ _ _ _ _ _ (pp_trans _ _ _ _ _ _ Pa Pb) Pc)|].
      rewrite Qb, Qa in *. split.
      + exists (la ++ lb ++ lc). split; [now rewrite Lc, Lb, La, <- !app_assoc|].
        split; [apply agreed_app; [exact Aa|now apply agreed_app]|].
        split; [intros p Hp Hn; apply in_app_iff; right; apply in_app_iff; right; now apply Cc|].
        split; [intros _ Hg; apply in_app_iff; left; now apply Ca|].
        split; [intros _ Hg; apply in_app_iff; right; apply in_app_iff; left; now apply Cb|].
        intros q F. apply in_app_iff in F as [F|F]; [exact (Da q F)|]. apply in_app_iff in F as [F|F]; [exact (Db q F)|].
        exact (create_no_delete E U _ l b m1 lc E1 Lc q F).
      + intros q. rewrite Qc. destruct (in_dec (list_eq_dec ascii_dec) q (profiles_of E m)); tauto.
    - injection E1 as <-. split; [now apply pp_refl|]. split; [|intros q; cbn; tauto].
      exists []. split; [now rewrite app_nil_r|]. split; [exact agreed_nil|]. split; [intros p []|].
      split; [discriminate|]. split; [discriminate|]. intros q []. }
  destruct S1 as (P1 & (l1 & L1 & A1 & C1 & T1 & N1 & D1) & Q1).
  destruct (s_delete_others s).
  - unfold delete_other_profiles in H. destruct (s_profiles s) as [l|] eqn:Es.
    + destruct (asked_fold E U _ m1 m' (pp_ok _ _ _ _ P1) H) as (D & lg & P2 & L2 & S2 & I2 & B2 & K2 & Q2).
      exists D, (l1 ++ lg). split; [exact (pp_trans E [] D _ _ _ P1 P2)|]. split; [now rewrite L2, L1, app_assoc|].
      split. { intros q F. apply in_app_iff in F as [F|F]; [apply A1 in F; discriminate|exact (K2 q false F)]. }
      split; [discriminate|].
      split; [intros q; rewrite Q2, Q1; tauto|].
      split; [intros p Hp Hn; apply in_app_iff; left; now apply C1|].
      split; [intros G1 G2; apply in_app_iff; left; now apply T1|].
      split; [intros G1 G2; apply in_app_iff; left; now apply N1|].
      split; [discriminate|]. intros _ l0 Hl. injection Hl as <-.
      split. { intros q. rewrite I2, in_app_iff. split; [now right|]. intros [F|F]; [now destruct (D1 q)|exact F]. }
      intros Ho. unfold named_profiles in Q1. rewrite Es in Q1. split.
      * intros q Hq. apply S2, Ho, set_minus_In in Hq as [Hq Hn]. apply Q1 in Hq as [Hq|Hq]; [auto|now destruct Hn].
      * intros q Hq Hn. destruct (B2 q) as [b Hb]; [apply Ho, set_minus_In; split; [apply Q1; now left|exact Hn]|].
        exists b. apply in_app_iff. now right.
    + step H m2 E2. apply confirm_inv in E2 as [_ ->].
      assert (P2 : pphase E [] m1 (with_log (Confirmed AskDeleteAll true) m1)) by (apply pp_with_log; [exact (pp_ok _ _ _ _ P1)|discriminate]).
      destruct (delete_fold E _ _ m' (pp_ok _ _ _ _ P2) H) as (P3 & L3 & Q3).
      exists (profiles_of E m1), (l1 ++ [Confirmed AskDeleteAll true]).
      split; [exact (pp_trans E [] (profiles_of E m1) _ _ _ P1 (pp_trans E [] (profiles_of E m1) _ _ _ P2 P3))|].
      split; [rewrite L3; cbn; now rewrite L1, app_assoc|].
      split. { intros q F. apply in_app_iff in F as [F|[F|[]]]; [apply A1 in F; discriminate|discriminate]. }
      split; [discriminate|].
      split. { intros q. rewrite Q3. change (profiles_of E (with_log (Confirmed AskDeleteAll true) m1)) with (profiles_of E m1). rewrite Q1. tauto. }
      split; [intros p Hp Hn; apply in_app_iff; left; now apply C1|].
      split; [discriminate|]. split; [discriminate|].
      split; [|discriminate]. intros _ _. split; [apply in_app_iff; right; now left|].
      intros q. rewrite Q1. unfold named_profiles. rewrite Es. cbn. tauto.
  - injection H as <-. exists [], l1. split; [exact P1|]. split; [exact L1|].
    split. { intros q F. apply A1 in F. discriminate. }
    split; [reflexivity|]. split; [intros q; rewrite Q1; cbn; tauto|].
    split; [exact C1|]. split; [exact T1|]. split; [exact N1|]. split; discriminate.
Qed.
