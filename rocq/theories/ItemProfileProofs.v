(** Proofs about COT/vm_description/ovf/item.py: lookups, add_profile and
    remove_profile. *)
From Coq Require Import Lia.
From Verif Require Import PyBase PyBaseProofs PyDict PyDictProofs XmlModel NamesModel
  ItemModel ItemSpec PsetProofs ItemProofs ItemSetProofs.

(** ** Lookup *)

Lemma raw_loop_one : forall d q def,
  (forall v s w t p, In (v, s) d -> In (w, t) d -> In p s -> In p t -> v = w) ->
  forall r, raw_loop d [q] def = r ->
  match r with
  | Some v => own_d d q v \/ ((forall w, ~ own_d d q w) /\
                (own_d d None v \/ ((forall w, ~ own_d d None w) /\ def = Some v)))
  | None => (forall w, ~ own_d d q w) /\ (forall w, ~ own_d d None w) /\ def = None
  end.
Proof.
  induction d as [|[v s] d IH]; intros q def Hdis r Hr; cbn [raw_loop] in Hr.
  - subst r. assert (Hno : forall p w, ~ own_d [] p w) by (intros p w (s & [] & _)).
    destruct def as [v|]; [right|]; auto.
  - assert (Hdis' : forall v s w t p, In (v, s) d -> In (w, t) d -> In p s -> In p t -> v = w).
    { intros v1 s1 w1 t1 p1 H1 H2. apply Hdis; now right. }
    destruct (psubset [q] s) eqn:Eq.
    + subst r. left. exists s. split; [now left|]. rewrite psubset_spec in Eq. apply Eq. now left.
    + assert (Hq : ~ In q s).
      { intros H. assert (psubset [q] s = true); [|congruence]. apply psubset_spec.
        intros p [<-|[]]. exact H. }
      assert (Hown : forall w, own_d ((v, s) :: d) q w <-> own_d d q w).
      { intros w. split.
        - intros (t & [Ht|Ht] & Hp); [injection Ht as -> ->; contradiction|]. now exists t.
        - intros (t & Ht & Hp). exists t. split; [now right|exact Hp]. }
      destruct (pmem None s) eqn:EN.
      * apply pmem_In in EN. specialize (IH q (Some v) Hdis' r Hr).
        assert (Hv : own_d ((v, s) :: d) None v) by (exists s; split; [now left|exact EN]).
        destruct r as [u|].
        -- destruct IH as [H|(H1 & [H|(_ & H)])].
           ++ left. now apply Hown.
           ++ right. split; [intros w Hw; apply Hown in Hw; now apply (H1 w)|]. left.
              destruct H as (t & Ht & Hp). exists t. split; [now right|exact Hp].
           ++ injection H as <-. right. split; [intros w Hw; apply Hown in Hw; now apply (H1 w)|].
              now left.
        -- destruct IH as (_ & _ & F). discriminate.
      * apply pmem_false in EN.
        assert (Hownd : forall w, own_d ((v, s) :: d) None w <-> own_d d None w).
        { intros w. split.
          - intros (t & [Ht|Ht] & Hp); [injection Ht as -> ->; contradiction|]. now exists t.
          - intros (t & Ht & Hp). exists t. split; [now right|exact Hp]. }
        assert (En : is_nil (pinter s [q]) = true).
        { apply is_nil_pinter. intros p Hp [<-|[]]. contradiction. }
        rewrite En in Hr. specialize (IH q def Hdis' r Hr). destruct r as [u|].
        -- destruct IH as [H|(H1 & [H|(H2 & H)])].
           ++ left. now apply Hown.
           ++ right. split; [intros w Hw; apply Hown in Hw; now apply (H1 w)|]. left. now apply Hownd.
           ++ right. split; [intros w Hw; apply Hown in Hw; now apply (H1 w)|]. right.
              split; [intros w Hw; apply Hownd in Hw; now apply (H2 w)|exact H].
        -- destruct IH as (H1 & H2 & H3). split; [intros w Hw; apply Hown in Hw; now apply (H1 w)|].
           split; [intros w Hw; apply Hownd in Hw; now apply (H2 w)|exact H3].
Qed.

Lemma holds_unique : forall ver ps n p v w, good_props ver ps ->
  holds ps n p v -> holds ps n p w -> v = w.
Proof.
  intros ver ps n p v w Hg [Hv|(Hv & Hv')] [Hw|(Hw & Hw')].
  - now apply (own_unique ver ps n p).
  - now apply Hw in Hv.
  - now apply Hv in Hw.
  - now apply (own_unique ver ps n None).
Qed.

Lemma get_raw_holds : forall ver ps n q v, good_props ver ps ->
  (get_raw ps n (Some [q]) = Some v <-> holds ps n q v).
Proof.
  intros ver ps n q v Hg. assert (Hnd : NoDup (map fst ps)) by apply Hg.
  assert (Hfwd : forall v, get_raw ps n (Some [q]) = Some v -> holds ps n q v).
  { clear v. intros v H. unfold get_raw in H. destruct (prget n ps) as [d|] eqn:E.
    - pose proof (raw_loop_one d q None (good_disjoint d (good_dict ver ps n d Hg E)) _ H) as Hr.
      cbn in Hr. unfold holds. destruct Hr as [Hr|(H1 & [Hr|(_ & F)])]; [| |discriminate].
      + left. now apply (own_Some ps n d).
      + right. split; [|now apply (own_Some ps n d)].
        intros w Hw. apply (H1 w). now apply (own_Some ps n d) in Hw.
    - discriminate. }
  split; [apply Hfwd|]. intros H. destruct (get_raw ps n (Some [q])) as [w|] eqn:Er.
  - f_equal. apply (holds_unique ver ps n q); auto.
  - exfalso. unfold get_raw in Er. destruct (prget n ps) as [d|] eqn:E.
    + pose proof (raw_loop_one d q None (good_disjoint d (good_dict ver ps n d Hg E)) _ Er) as Hr.
      cbn in Hr. destruct Hr as (H1 & H2 & _). destruct H as [H|(_ & H)].
      * apply (own_Some ps n d) in H; auto. now apply (H1 v).
      * apply (own_Some ps n d) in H; auto. now apply (H2 v).
    + destruct H as [H|(_ & H)]; now apply own_None in H.
Qed.

(** Two items that agree on what holds under [q] and [r] report the same. *)
Lemma get_raw_agree : forall ver ps ps' n q r, good_props ver ps -> good_props ver ps' ->
  (forall v, holds ps n q v <-> holds ps' n r v) ->
  get_raw ps n (Some [q]) = get_raw ps' n (Some [r]).
Proof.
  intros ver ps ps' n q r Hg Hg' H.
  destruct (get_raw ps n (Some [q])) as [v|] eqn:E.
  - symmetry. apply (get_raw_holds ver); auto. apply H. now apply (get_raw_holds ver).
  - destruct (get_raw ps' n (Some [r])) as [w|] eqn:E'; [|reflexivity].
    apply (get_raw_holds ver) in E'; auto. apply H in E'.
    apply (get_raw_holds ver) in E'; auto. congruence.
Qed.

Lemma get_value_agree : forall E ps ps' n P P',
  (forall m, get_raw ps m P = get_raw ps' m P') -> get_value E ps n P = get_value E ps' n P'.
Proof.
  intros E ps ps' n P P' H. unfold get_value, replace_wildcards. rewrite (H n).
  destruct (get_raw ps' n P'); [|reflexivity]. destruct (negb (truthy v)); [reflexivity|].
  now rewrite !H.
Qed.

Lemma get_value_same_holds : forall E ps ps' n q r,
  good_props (e_ver E) ps -> good_props (e_ver E) ps' ->
  (forall m v, holds ps m q v <-> holds ps' m r v) ->
  get_value E ps n (Some [q]) = get_value E ps' n (Some [r]).
Proof.
  intros E ps ps' n q r Hg Hg' H. apply get_value_agree. intros m.
  apply (get_raw_agree (e_ver E)); auto.
Qed.

Lemma get_value_plain : forall E ps n P, is_text E n = false ->
  get_value E ps n P = Ok (get_raw ps n P).
Proof.
  intros E ps n P H. unfold get_value, replace_wildcards. rewrite H.
  assert (Hd : is_desc n = false) by (unfold is_text in H; now apply orb_false_iff in H).
  rewrite Hd. destruct (get_raw ps n P) as [x|]; [|reflexivity].
  destruct (negb (truthy x)); reflexivity.
Qed.

Lemma text_property_is_text : forall E n, is_text E n = true <-> text_property (e_ver E) n.
Proof.
  intros E n. unfold is_text, is_desc, text_property. rewrite orb_true_iff, !str_eqb_eq.
  reflexivity.
Qed.
Lemma not_text : forall E n, ~ text_property (e_ver E) n -> is_text E n = false.
Proof.
  intros E n H. destruct (is_text E n) eqn:Ex; [|reflexivity].
  apply text_property_is_text in Ex. contradiction.
Qed.

Lemma add_wildcards_plain : forall E ps n v P, is_text E n = false ->
  add_wildcards E ps n v P = Ok v.
Proof.
  intros E ps n v P H. unfold add_wildcards. rewrite H.
  assert (Hd : is_desc n = false) by (unfold is_text in H; now apply orb_false_iff in H).
  now rewrite Hd.
Qed.

(** ** remove_profile *)

Lemma filter_all : forall (A : Type) (f : A -> bool) l, (forall x, In x l -> f x = true) ->
  filter f l = l.
Proof.
  intros A f l H. induction l as [|x l IH]; [reflexivity|]. cbn.
  rewrite H by now left. f_equal. apply IH. intros y Hy. apply H. now right.
Qed.
Lemma filter_filter : forall (A : Type) (f g : A -> bool) l,
  filter f (filter g l) = filter (fun x => g x && f x) l.
Proof.
  intros A f g l. induction l as [|x l IH]; [reflexivity|]. cbn.
  destruct (g x); cbn; [|exact IH]. destruct (f x); now rewrite IH.
Qed.

Section Removal.
  Variables (cfg : list str) (split : bool) (p : profile).

  Definition others (v : value) (d : vdict) (all : pset) : pset :=
    fold_left (fun a vs => if value_eqb (fst vs) v then a else pdiff a (snd vs)) d all.
  Definition rem_set (d : vdict) (v : value) (s : pset) : pset :=
    if pmem None (pdiff s [p]) && split
    then others v d (pdiff (punion (pdiff s [p]) (map Some cfg)) [None; p])
    else pdiff s [p].
  Definition rem_entry (d : vdict) (vs : value * pset) : vdict :=
    if is_nil (rem_set d (fst vs) (snd vs)) then [] else [(fst vs, rem_set d (fst vs) (snd vs))].

  Definition elsewhere (v : value) (d : vdict) (q : profile) : bool :=
    existsb (fun vs => negb (value_eqb (fst vs) v) && pmem q (snd vs)) d.

  Lemma others_filter : forall v d all,
    others v d all = filter (fun q => negb (elsewhere v d q)) all.
  Proof.
    intros v. induction d as [|[w s] d IH]; intros all; cbn [others fold_left fst snd].
    - symmetry. apply filter_all. intros q _. reflexivity.
    - fold (others v d). unfold others in IH. unfold others. rewrite IH. cbn [elsewhere existsb fst snd].
      destruct (value_eqb w v); cbn [negb andb orb].
      + apply filter_ext. intros q. reflexivity.
      + unfold pdiff. rewrite filter_filter. apply filter_ext. intros q.
        cbn. rewrite negb_orb. reflexivity.
  Qed.

  Lemma rem_keys : forall D d v, In v (map fst (flat_map (rem_entry D) d)) -> In v (map fst d).
  Proof.
    intros D d v. induction d as [|[w s] d IH]; cbn [flat_map map]; [auto|].
    rewrite map_app, in_app_iff. intros [H|H]; [|right; now apply IH].
    left. unfold rem_entry in H. cbn [fst snd] in H. destruct (is_nil _); [contradiction|].
    destruct H as [<-|[]]. reflexivity.
  Qed.

  Lemma remove_loop_eq : forall d, good_values d ->
    remove_loop cfg split p d d = flat_map (rem_entry d) d.
  Proof.
    intros D Hg.
    assert (G : forall snap done0, D = done0 ++ snap ->
      remove_loop cfg split p snap (flat_map (rem_entry D) done0 ++ snap) =
      flat_map (rem_entry D) D).
    { induction snap as [|[v s] snap IH]; intros done0 HD.
      - cbn. rewrite app_nil_r in *. now subst.
      - cbn [remove_loop]. cbn zeta.
        assert (Hnd : NoDup (map fst D)) by apply Hg.
        assert (Hv : ~ In v (map fst done0)).
        { rewrite HD, map_app in Hnd. cbn in Hnd. apply NoDup_remove_2 in Hnd.
          rewrite in_app_iff in Hnd. tauto. }
        assert (Hin : In (v, s) D) by (rewrite HD; apply in_or_app; right; now left).
        set (cur := flat_map (rem_entry D) done0 ++ (v, s) :: snap).
        assert (Es : (if pmem None (pdiff s [p]) && split
             then fold_left (fun a vs => if value_eqb (fst vs) v then a else pdiff a (snd vs))
               cur (pdiff (punion (pdiff s [p]) (map Some cfg)) [None; p])
             else pdiff s [p]) = rem_set D v s).
        { unfold rem_set. destruct (pmem None (pdiff s [p]) && split) eqn:Ec; [|reflexivity].
          apply andb_true_iff in Ec as [EN Esp]. apply pmem_In, pdiff_In in EN as [EN _].
          change (others v cur (pdiff (punion (pdiff s [p]) (map Some cfg)) [None; p]) =
                  others v D (pdiff (punion (pdiff s [p]) (map Some cfg)) [None; p])).
          rewrite !others_filter. apply filter_ext_in. intros q Hq. f_equal.
          apply pdiff_In in Hq as [_ Hq].
          unfold cur. rewrite HD at 2. unfold elsewhere. rewrite !existsb_app. f_equal.
          assert (Hdone : forall w t, In (w, t) done0 -> ~ In None t).
          { intros w t Hw HN. assert (v = w).
            { destruct Hg as (_ & _ & Hd). apply (Hd v s w t None); auto.
              rewrite HD. apply in_or_app. now left. }
            subst w. apply Hv. apply in_map_iff. now exists (v, t). }
          clear - Hdone Hq. induction done0 as [|[w t] done0 IH]; [reflexivity|].
          cbn [flat_map]. rewrite existsb_app. cbn [existsb fst snd]. f_equal.
          - unfold rem_entry. cbn [fst snd].
            assert (Er : rem_set D w t = pdiff t [p]).
            { unfold rem_set. assert (En : pmem None (pdiff t [p]) = false).
              { apply pmem_false. rewrite pdiff_In. intros [HN _].
                apply (Hdone w t); [now left|exact HN]. }
              now rewrite En. }
            rewrite Er. assert (Em : pmem q (pdiff t [p]) = pmem q t).
            { apply eq_true_iff_eq. rewrite !pmem_In, pdiff_In. split; [tauto|].
              intros H. split; [exact H|]. intros [->|[]]. apply Hq. right. now left. }
            destruct (is_nil (pdiff t [p])) eqn:En.
            + apply is_nil_true in En. rewrite En in Em. rewrite <- Em. cbn.
              now rewrite andb_false_r.
            + cbn [existsb fst snd]. now rewrite Em, orb_false_r.
          - apply IH. intros w' t' Hw'. apply (Hdone w'). now right. }
        rewrite Es. unfold cur.
        assert (Hk : ~ In v (map fst (flat_map (rem_entry D) done0))).
        { intros H. apply Hv. now apply rem_keys in H. }
        specialize (IH (done0 ++ [(v, s)])). rewrite <- app_assoc in IH. specialize (IH HD).
        rewrite flat_map_app in IH. cbn [flat_map] in IH. rewrite app_nil_r in IH.
        unfold rem_entry at 2 in IH. cbn [fst snd] in IH.
        destruct (is_nil (rem_set D v s)).
        + rewrite vdel_mid by exact Hk. now rewrite app_nil_r in IH.
        + rewrite vset_mid by exact Hk. rewrite <- IH, <- app_assoc. reflexivity. }
    exact (G D [] eq_refl).
  Qed.

  Lemma rem_own : forall D d q w, own_d (flat_map (rem_entry D) d) q w <->
    exists s, In (w, s) d /\ In q (rem_set D w s).
  Proof.
    intros D d q w. split.
    - intros (t & Ht & Hq). apply in_flat_map in Ht as ((v & s) & Hin & Ht).
      unfold rem_entry in Ht. cbn [fst snd] in Ht.
      destruct (is_nil (rem_set D v s)); [contradiction|]. destruct Ht as [Ht|[]].
      injection Ht as -> <-. now exists s.
    - intros (s & Hs & Hq). exists (rem_set D w s). split; [|exact Hq].
      apply in_flat_map. exists (w, s). split; [exact Hs|]. unfold rem_entry. cbn [fst snd].
      destruct (is_nil (rem_set D w s)) eqn:En; [|now left].
      apply is_nil_true in En. rewrite En in Hq. contradiction.
  Qed.

  Lemma elsewhere_spec : forall v d q, elsewhere v d q = true <-> exists w, w <> v /\ own_d d q w.
  Proof.
    intros v d q. unfold elsewhere. rewrite existsb_exists. split.
    - intros ((w & s) & Hin & H). apply andb_true_iff in H as [H1 H2]. cbn in *.
      apply negb_true_iff, value_eqb_neq in H1. apply pmem_In in H2. exists w.
      split; [exact H1|]. now exists s.
    - intros (w & Hw & s & Hs & Hq). exists (w, s). split; [exact Hs|]. cbn.
      apply value_eqb_neq in Hw. rewrite Hw. cbn. now apply pmem_In.
  Qed.

  Lemma rem_set_In : forall d v s q, good_values d -> In (v, s) d ->
    (In q (rem_set d v s) <->
     q <> p /\ if split && pmem None (pdiff s [p])
               then (exists c, q = Some c /\ In c cfg) /\ forall w, ~ own_d d q w
               else In q s).
  Proof.
    intros d v s q Hg Hin. unfold rem_set. rewrite (andb_comm split).
    destruct (pmem None (pdiff s [p]) && split) eqn:E.
    - apply andb_true_iff in E as [EN _]. apply pmem_In, pdiff_In in EN as [EN Ep].
      destruct Hg as (Hnd & Hg & Hdis). assert (Hs : s = [None]) by (now apply (Hg v s)).
      rewrite others_filter, filter_In, negb_true_iff, pdiff_In, punion_In, pdiff_In.
      assert (Hel : elsewhere v d q = false <-> forall w, w <> v -> ~ own_d d q w).
      { split.
        - intros H w Hw Ho. assert (elsewhere v d q = true); [|congruence].
          apply elsewhere_spec. now exists w.
        - intros H. destruct (elsewhere v d q) eqn:Ee; [|reflexivity].
          apply elsewhere_spec in Ee as (w & Hw & Ho). now apply H in Ho. }
      rewrite Hel, in_map_iff. subst s. split.
      + intros [[[[[Hq|[]] _]|(c & <- & Hc)] Hn] Hno].
        * exfalso. apply Hn. left. congruence.
        * split; [intros H; apply Hn; right; left; congruence|].
          split; [now exists c|]. intros w Ho. destruct (value_eqb w v) eqn:Ew.
          -- apply value_eqb_eq in Ew. subst w. destruct Ho as (t & Ht & Hq).
             assert (t = [None]) by (apply (key_unique d v); auto). subst t.
             destruct Hq as [Hq|[]]. discriminate.
          -- apply value_eqb_neq in Ew. now apply (Hno w).
      + intros (Hqp & (c & -> & Hc) & Hno). split.
        * split; [right; now exists c|]. intros [F|[F|[]]]; congruence.
        * intros w _. apply Hno.
    - rewrite pdiff_In. cbn. intuition.
  Qed.

  Lemma rem_values : forall d, good_values d -> good_values (flat_map (rem_entry d) d).
  Proof.
    intros d Hg.
    assert (Hin : forall v t, In (v, t) (flat_map (rem_entry d) d) ->
              exists s, In (v, s) d /\ t = rem_set d v s /\ t <> []).
    { intros v t Ht. apply in_flat_map in Ht as ((w & s) & Hs & Ht). unfold rem_entry in Ht.
      cbn [fst snd] in Ht. destruct (is_nil (rem_set d w s)) eqn:En; [contradiction|].
      destruct Ht as [Ht|[]]. injection Ht as -> <-. exists s. split; [exact Hs|].
      split; [reflexivity|]. now apply is_nil_false. }
    split; [|split].
    - assert (Hnd : NoDup (map fst d)) by apply Hg. clear Hg Hin. generalize d at 1 as D.
      intros D. induction d as [|[v s] d IH]; cbn [flat_map map]; [constructor|].
      inversion Hnd; subst. rewrite map_app. unfold rem_entry at 1. cbn [fst snd].
      destruct (is_nil _); cbn [map app fst]; [now apply IH|]. constructor; [|now apply IH].
      intros H. now apply rem_keys in H.
    - intros v t Ht. destruct (Hin v t Ht) as (s & Hs & -> & Hne).
      destruct Hg as (Hnd & Hg & Hdis). destruct (Hg v s Hs) as (H1 & H2 & H3 & H4).
      split; [exact H1|]. split; [exact Hne|]. split.
      + unfold rem_set. destruct (pmem None (pdiff s [p]) && split).
        * rewrite others_filter. apply NoDup_filter, pdiff_NoDup, punion_NoDup, pdiff_NoDup.
          exact H3.
        * now apply pdiff_NoDup.
      + intros HN. apply rem_set_In in HN as (Hp & HN); [|now split|exact Hs].
        destruct (split && pmem None (pdiff s [p])) eqn:E.
        * destruct HN as ((c & F & _) & _). discriminate.
        * unfold rem_set. rewrite (andb_comm _ split), E, (H4 HN). unfold pdiff. cbn.
          destruct p; [reflexivity|contradiction].
    - intros v t w t' q Ht Ht' Hq Hq'.
      destruct (Hin v t Ht) as (s & Hs & -> & _). destruct (Hin w t' Ht') as (s' & Hs' & -> & _).
      apply rem_set_In in Hq as (_ & Hq); [|exact Hg|exact Hs].
      apply rem_set_In in Hq' as (_ & Hq'); [|exact Hg|exact Hs'].
      destruct (split && pmem None (pdiff s [p])) eqn:E;
        destruct (split && pmem None (pdiff s' [p])) eqn:E'.
      + apply andb_true_iff in E as [_ E]. apply andb_true_iff in E' as [_ E'].
        apply pmem_In, pdiff_In in E as [E _]. apply pmem_In, pdiff_In in E' as [E' _].
        destruct Hg as (_ & _ & Hdis). now apply (Hdis v s w s' None).
      + destruct Hq as (_ & Hq). exfalso. apply (Hq w). now exists s'.
      + destruct Hq' as (_ & Hq'). exfalso. apply (Hq' v). now exists s.
      + destruct Hg as (_ & _ & Hdis). now apply (Hdis v s w s' q).
  Qed.

  Lemma rem_own_d : forall d q w, good_values d ->
    (own_d (flat_map (rem_entry d) d) q w <->
     q <> p /\
     ((own_d d q w /\ (split = false \/ q <> None)) \/
      (split = true /\ p <> None /\ own_d d None w /\ (forall u, ~ own_d d q u) /\
       exists c, q = Some c /\ In c cfg))).
  Proof.
    intros d q w Hg. rewrite rem_own. split.
    - intros (s & Hs & Hq). apply rem_set_In in Hq as (Hp & Hq); [|exact Hg|exact Hs].
      split; [exact Hp|]. destruct (split && pmem None (pdiff s [p])) eqn:E.
      + apply andb_true_iff in E as [Esp E]. apply pmem_In, pdiff_In in E as [E Ep].
        right. destruct Hq as (Hc & Hno). split; [exact Esp|].
        split; [intros ->; apply Ep; now left|]. split; [now exists s|]. auto.
      + left. split; [now exists s|]. destruct split; [|now left]. right. intros ->.
        cbn in E. apply pmem_false in E. apply E. apply pdiff_In. split; [exact Hq|].
        intros [F|[]]. congruence.
    - intros (Hp & [((s & Hs & Hq) & Hd)|(Esp & HpN & (s & Hs & HN) & Hno & Hc)]).
      + exists s. split; [exact Hs|]. apply rem_set_In; [exact Hg|exact Hs|].
        split; [exact Hp|]. destruct (split && pmem None (pdiff s [p])) eqn:E; [|exact Hq].
        exfalso. apply andb_true_iff in E as [Esp E]. apply pmem_In, pdiff_In in E as [E _].
        destruct Hg as (_ & Hg & _). destruct (Hg w s Hs) as (_ & _ & _ & H4).
        rewrite (H4 E) in Hq. destruct Hq as [<-|[]]. destruct Hd as [F|F]; congruence.
      + exists s. split; [exact Hs|]. apply rem_set_In; [exact Hg|exact Hs|].
        split; [exact Hp|]. assert (E : split && pmem None (pdiff s [p]) = true).
        { apply andb_true_iff. split; [exact Esp|]. apply pmem_In, pdiff_In.
          split; [exact HN|]. intros [F|[]]. now apply HpN. }
        rewrite E. auto.
  Qed.
End Removal.
