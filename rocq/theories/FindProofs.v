(** Proofs about looking up devices and setting a property of all of them. *)
From Coq Require Import Lia Permutation Sorted.
From Verif Require Import PyBase PyBaseProofs PyDict PyDictProofs ValidationModel ValidationSpec ValidationProofs XmlModel NamesModel
  ItemModel ItemSpec PsetProofs ItemProofs ItemSetProofs ItemProfileProofs ItemReachProofs ItemAddProofs
  ItemEffectProofs HardwareModel HardwareSpec HardwareProofs HardwareIdProofs ProfileProofs CountSpec CountItemProofs CountProofs FindSpec.
From Verif Require WildcardItemProofs.

Lemma raw_only : forall ver ps n v, good_props ver ps ->
  (get_raw ps n None = Some v <-> only_value ps n v).
Proof.
  intros ver ps n v G. assert (ND : NoDup (map fst ps)) by apply G. unfold get_raw.
  destruct (prget n ps) as [d|] eqn:Ed.
  - assert (Hd : In (n, d) ps) by now apply (prget_In ps n d ND).
    destruct G as (_ & G & _). destruct (G n d Hd) as (G1 & G2 & G3).
    assert (Own : forall p w, own ps n p w <-> exists s, In (w, s) d /\ In p s).
    { intros p w. split.
      - intros (d' & s & H1 & H2 & H3). apply (prget_In ps n d' ND) in H1. assert (d' = d) as -> by congruence. now exists s.
      - intros (s & H1 & H2). now exists d, s. }
    split.
    + intros H. destruct d as [|[u s] [|]]; try discriminate. injection H as ->.
      destruct (G2 v s (or_introl eq_refl)) as (_ & Hs & _). destruct s as [|p s]; [now destruct Hs|]. split.
      * exists p. apply Own. exists (p :: s). split; now left.
      * intros q w Hq. apply Own in Hq as (t & [F|[]] & _). now injection F.
    + intros [(p & Hp) Hall]. apply Own in Hp as (s & Hs & Hp).
      assert (Hv : forall w t, In (w, t) d -> w = v).
      { intros w t Ht. destruct (G2 w t Ht) as (_ & Hne & _). destruct t as [|q t]; [now destruct Hne|].
        apply (Hall q). apply Own. exists (q :: t). split; [exact Ht|now left]. }
      destruct d as [|[u s0] [|[u' s'] d]].
      * destruct Hs.
      * f_equal. apply (Hv u s0). now left.
      * exfalso. pose proof (Hv u s0 (or_introl eq_refl)) as A. pose proof (Hv u' s' (or_intror (or_introl eq_refl))) as B.
        subst. cbn [map fst] in G1. inversion G1 as [|? ? Hn _]; subst. apply Hn. now left.
  - split; [discriminate|]. intros [(p & Hp) _]. now apply (own_None ps n p v ND Ed) in Hp.
Qed.

Lemma value_only : forall E i n, good_props (e_ver E) (i_props i) -> ~ text_property (e_ver E) n ->
  exists o, get_value E (i_props i) n None = Ok o /\ forall v, o = Some v <-> only_value (i_props i) n v.
Proof.
  intros E i n G Hn. rewrite get_value_plain by now apply not_text.
  exists (get_raw (i_props i) n None). split; [reflexivity|]. intros v. now apply (raw_only (e_ver E)).
Qed.

Lemma RT_plain : forall v, ~ text_property v RESOURCE_TYPE.
Proof. intros [] [H|H]; discriminate H. Qed.

Lemma meets_iff : forall E i n c o, good_props (e_ver E) (i_props i) -> ~ text_property (e_ver E) n ->
  get_value E (i_props i) n None = Ok o -> (opt_value_eqb o c = true <-> meets i (n, c)).
Proof.
  intros E i n c o G Hn Ho. destruct (value_only E i n G Hn) as (o' & E1 & H). rewrite E1 in Ho. injection Ho as <-.
  unfold meets. cbn [fst snd]. destruct c as [v|].
  - rewrite <- H. destruct o' as [w|]; cbn [opt_value_eqb].
    + rewrite value_eqb_eq. split; [intros ->; reflexivity|intros F; now injection F].
    + split; discriminate.
  - destruct o' as [w|]; cbn [opt_value_eqb].
    + split; [discriminate|]. intros F. exfalso. apply (F w). now apply H.
    + split; [|reflexivity]. intros _ v F. apply H in F. discriminate.
Qed.

Lemma props_match_iff : forall E i l, good_props (e_ver E) (i_props i) -> plain_conditions (e_ver E) l ->
  exists b, props_match E i l = Ok b /\ (b = true <-> forall c, In c l -> meets i c).
Proof.
  intros E i l G. induction l as [|[n c] l IH]; intros Hl; cbn [props_match].
  - exists true. split; [reflexivity|]. split; [intros _ x []|reflexivity].
  - assert (Hn : ~ text_property (e_ver E) n) by exact (Hl (n, c) (or_introl eq_refl)).
    destruct (value_only E i n G Hn) as (o & E1 & _). rewrite E1. cbn [rbind].
    pose proof (meets_iff E i n c o G Hn E1) as Hm. destruct (opt_value_eqb o c).
    + destruct IH as (b & E2 & H); [intros x Hx; apply Hl; now right|]. exists b. split; [exact E2|].
      rewrite H. split; [intros A x [<-|Hx]; [now apply Hm|now apply A]|intros A x Hx; apply A; now right].
    + exists false. split; [reflexivity|]. split; [discriminate|]. intros A.
      exfalso. assert (F : false = true) by (apply Hm, A; now left). discriminate F.
Qed.

Lemma has_profile_present : forall E i p, good_props (e_ver E) (i_props i) ->
  (has_profile E i p = true <-> present E i p).
Proof. intros E i p G. rewrite (has_own E i p G). unfold present, rec. reflexivity. Qed.

Lemma item_match_iff : forall E i rt l P, good_props (e_ver E) (i_props i) -> plain_conditions (e_ver E) l ->
  (forall t, rt = Some t -> exists v, dget str_eqb t RES_MAP = Some v) ->
  exists b, item_match E i rt l P = Ok b /\ (b = true <-> wanted E rt l P i).
Proof.
  intros E i rt l P G Hl Hrt. unfold item_match.
  assert (T : exists b, type_match E i rt = Ok b /\ (b = true <-> forall t, rt = Some t ->
    exists v, dget str_eqb t RES_MAP = Some v /\ only_value (i_props i) RESOURCE_TYPE (VStr v))).
  { unfold type_match. destruct rt as [t|].
    - destruct (Hrt t eq_refl) as [v Hv]. unfold res_map. rewrite Hv. cbn [rbind].
      destruct (value_only E i RESOURCE_TYPE G (RT_plain _)) as (o & -> & H). cbn [rbind]. eexists. split; [reflexivity|].
      split.
      + intros A t' Et. injection Et as <-. exists v. split; [exact Hv|]. apply H. destruct o as [w|]; [|discriminate].
        cbn [opt_value_eqb] in A. apply value_eqb_eq in A as <-. reflexivity.
      + intros A. destruct (A t eq_refl) as (v' & E1 & E2). assert (v' = v) as -> by congruence.
        apply H in E2 as ->. cbn [opt_value_eqb]. now apply value_eqb_eq.
    - exists true. split; [reflexivity|]. split; [discriminate|reflexivity]. }
  destruct T as (b & -> & Hb). cbn [rbind]. destruct b; cbn [negb].
  - destruct (forallb (has_profile E i) P) eqn:Ep.
    + destruct (props_match_iff E i l G Hl) as (b & E1 & H). exists b. split; [exact E1|]. rewrite H.
      rewrite forallb_forall in Ep. split.
      * intros A. split; [now apply Hb|]. split; [|exact A]. intros p Hp. apply has_profile_present; auto.
      * intros (_ & _ & A). exact A.
    + exists false. split; [reflexivity|]. split; [discriminate|]. intros (_ & A & _).
      exfalso. assert (forallb (has_profile E i) P = true); [|congruence]. apply forallb_forall.
      intros p Hp. apply has_profile_present; auto.
  - exists false. split; [reflexivity|]. split; [discriminate|]. intros (A & _ & _). now apply Hb.
Qed.

Lemma rfilter_sorted : forall (A : Type) (R : A -> A -> Prop) (f : A -> result bool) l r,
  rfilter f l = Ok r -> StronglySorted R l -> StronglySorted R r.
Proof.
  intros A R f. induction l as [|a l IH]; intros r H S; cbn [rfilter] in H.
  - injection H as <-. constructor.
  - destruct (f a) as [b|]; [|discriminate]. cbn [rbind] in H.
    destruct (rfilter f l) as [r'|] eqn:Er; [|discriminate]. cbn [rbind] in H. injection H as <-.
    inversion S as [|? ? S1 S2]; subst. specialize (IH r' eq_refl S1). destruct b; [|exact IH].
    constructor; [exact IH|]. rewrite Forall_forall in S2. apply Forall_forall. intros x Hx. apply S2.
    now apply (rfilter_spec _ _ _ _ Er).
Qed.

Lemma ids_good : forall E h k i, ids_ok (e_ver E) h -> In (k, i) h ->
  reachable (e_ver E) i /\ good_props (e_ver E) (i_props i).
Proof.
  intros E h k i [_ H] Hin. destruct (H k i Hin) as [R _]. split; [exact R|]. now apply (reachable_good (e_ver E)).
Qed.

Theorem find_all_wanted : forall E h rt l P ks, ids_ok (e_ver E) h -> plain_conditions (e_ver E) l ->
  find_all_items E h rt l P = Ok ks -> are_wanted E h rt l P ks.
Proof.
  intros E h rt l P ks Hi Hl H. destruct (find_all_spec E h rt l P ks (proj1 Hi) H) as [ND Hk].
  split; [exact ND|]. split.
  - unfold find_all_items in H. destruct (natural_sort (map fst h)) as [keys|] eqn:Ek; [|discriminate].
    cbn [rbind] in H. apply natural_sort_sound in Ek as (_ & S & _). exact (rfilter_sorted _ _ _ _ _ H S).
  - intros k. rewrite Hk. clear ND.
    assert (T : forall i, In (k, i) h -> forall t, rt = Some t -> exists v, dget str_eqb t RES_MAP = Some v).
    { intros i Hin t ->. unfold find_all_items in H. destruct (natural_sort (map fst h)) as [keys|] eqn:Ek; [|discriminate].
      cbn [rbind] in H. apply natural_sort_sound in Ek as [Pm _].
      destruct keys as [|k0 keys]; [apply Permutation_sym, Permutation_nil in Pm; destruct h; [destruct Hin|discriminate]|].
      cbn [rfilter] in H. destruct (hitem k0 h) as [i0|]; [|discriminate]. cbn [rbind] in H.
      unfold item_match, type_match, res_map in H. destruct (dget str_eqb t RES_MAP) as [v|]; [now exists v|discriminate]. }
    split; intros (i & Hin & Hm); exists i; (split; [exact Hin|]);
      destruct (ids_good E h k i Hi Hin) as [_ G];
      destruct (item_match_iff E i rt l P G Hl (T i Hin)) as (b & E1 & Hb).
    + apply Hb. congruence.
    + rewrite E1. f_equal. now apply Hb.
Qed.

(** It fails only if the InstanceIDs cannot be ordered or the type is unknown. *)
Theorem find_all_ok : forall E h rt l P keys, ids_ok (e_ver E) h -> plain_conditions (e_ver E) l ->
  natural_sort (map fst h) = Ok keys -> (forall t, rt = Some t -> exists v, dget str_eqb t RES_MAP = Some v) ->
  exists ks, find_all_items E h rt l P = Ok ks.
Proof.
  intros E h rt l P keys Hi Hl Hk Hrt. unfold find_all_items. rewrite Hk. cbn [rbind]. apply rfilter_all_ok.
  intros k Hin. apply natural_sort_sound in Hk as [Pm _].
  assert (Ht : In k (map fst h)) by exact (Permutation_in _ (Permutation_sym Pm) Hin).
  apply in_map_iff in Ht as ([k' i] & Ek & Hki). cbn [fst] in Ek. subst k'.
  assert (E1 : hitem k h = Ok i) by (apply hitem_In; [apply Hi|exact Hki]). rewrite E1. cbn [rbind].
  destruct (ids_good E h k i Hi Hki) as [_ G].
  destruct (item_match_iff E i rt l P G Hl Hrt) as (b & E2 & _). eauto.
Qed.

Lemma rmap_error : forall (A B : Type) (f : A -> result B) e0 l e, (forall x e, f x = Err e -> e = e0) ->
  rmap f l = Err e -> e = e0.
Proof.
  intros A B f e0. induction l as [|a l IH]; intros e Hf H; cbn [rmap] in H; [discriminate|].
  destruct (f a) as [b|e1] eqn:Ea; cbn [rbind] in H.
  - destruct (rmap f l) as [bs|e2]; cbn [rbind] in H; [discriminate|]. injection H as <-. now apply IH.
  - injection H as <-. now apply (Hf a).
Qed.
Lemma natural_sort_errors : forall l e, natural_sort l = Err e -> e = EValueError.
Proof.
  intros l e H. unfold natural_sort in H.
  destruct (rmap _ l) as [ks|e1] eqn:E1; cbn [rbind] in H; [discriminate|]. injection H as <-.
  refine (rmap_error _ _ _ _ _ _ _ E1). intros s e2 H. destruct (alphanum_split s) as [k|e3] eqn:E3; cbn [rbind] in H; [discriminate|].
  injection H as <-. refine (rmap_error _ _ _ _ _ _ _ E3). intros t e4 H. unfold text_to_int in H.
  destruct (py_isdigit t); [|discriminate]. destruct (py_int t); [discriminate|congruence].
Qed.

Theorem find_item_wanted : forall E h rt l p, ids_ok (e_ver E) h -> plain_conditions (e_ver E) l ->
  match find_item E h rt l p with
  | Ok (Some k) => exists i, In (k, i) h /\ wanted E rt l [p] i /\
                     forall k' i', In (k', i') h -> wanted E rt l [p] i' -> k' = k
  | Ok None => forall k i, In (k, i) h -> ~ wanted E rt l [p] i
  | Err ELookupError => exists k i k' i', In (k, i) h /\ In (k', i') h /\ k <> k' /\
                          wanted E rt l [p] i /\ wanted E rt l [p] i'
  | Err _ => (exists s, natural_sort (map fst h) = Err s) \/
             exists t, rt = Some t /\ dget str_eqb t RES_MAP = None
  end.
Proof.
  intros E h rt l p Hi Hl. unfold find_item.
  destruct (find_all_items E h rt l [p]) as [ks|e] eqn:Ef; cbn [rbind].
  - destruct (find_all_wanted E h rt l [p] ks Hi Hl Ef) as (ND & _ & H). destruct ks as [|k [|k' ks]].
    + intros k i Hin W. destruct (proj2 (H k)). now exists i.
    + destruct (proj1 (H k) (or_introl eq_refl)) as (i & Hin & W). exists i. split; [exact Hin|]. split; [exact W|].
      intros k' i' Hin' W'. destruct (proj2 (H k')) as [F|[]]; [now exists i'|congruence].
    + destruct (proj1 (H k) (or_introl eq_refl)) as (i & Hin & W).
      destruct (proj1 (H k') (or_intror (or_introl eq_refl))) as (i' & Hin' & W').
      exists k, i, k', i'. repeat (split; [assumption|]). split; [|now split].
      intros ->. inversion ND as [|? ? Hn _]; subst. apply Hn. now left.
  - assert (X : (exists s, natural_sort (map fst h) = Err s) \/ exists t, rt = Some t /\ dget str_eqb t RES_MAP = None).
    { destruct (natural_sort (map fst h)) as [keys|s] eqn:Ek; [right|left; now exists s].
      destruct rt as [t|].
      - destruct (dget str_eqb t RES_MAP) as [v|] eqn:Ev; [|now exists t].
        destruct (find_all_ok E h (Some t) l [p] keys Hi Hl Ek) as [ks Hks]; [|congruence].
        intros t' F. injection F as <-. now exists v.
      - destruct (find_all_ok E h None l [p] keys Hi Hl Ek) as [ks Hks]; [discriminate|congruence]. }
    destruct e; try exact X.
    exfalso. destruct X as [(s & X)|(t & -> & X)].
    + unfold find_all_items in Ef. rewrite X in Ef. cbn [rbind] in Ef.
      apply natural_sort_errors in X as ->. discriminate.
    + unfold find_all_items in Ef. destruct (natural_sort (map fst h)) as [keys|s] eqn:Ek; cbn [rbind] in Ef.
      2: { apply natural_sort_errors in Ek as ->. discriminate. }
      destruct keys as [|k keys]; [discriminate|]. cbn [rfilter] in Ef.
      apply natural_sort_sound in Ek as [Pm _].
      assert (Ht : In k (map fst h)) by (apply (Permutation_in _ (Permutation_sym Pm)); now left).
      apply in_map_iff in Ht as ([k' i] & Ek & Hki). cbn [fst] in Ek. subst k'.
      assert (E1 : hitem k h = Ok i) by (apply hitem_In; [apply Hi|exact Hki]). rewrite E1 in Ef.
      cbn [rbind] in Ef. unfold item_match, type_match, res_map in Ef. rewrite X in Ef. discriminate.
Qed.

(** ** Setting a property of all devices of a type *)

Lemma present_same : forall E i i' p, i_frozen i' = i_frozen i ->
  (forall q w, own (i_props i') (INSTANCE_ID (e_ver E)) q w <-> own (i_props i) (INSTANCE_ID (e_ver E)) q w) ->
  (present E i' p <-> present E i p).
Proof.
  intros E i i' p Hf H. unfold present, config_of. rewrite Hf.
  assert (X : forall q, (exists v, own (i_props i') (INSTANCE_ID (e_ver E)) q v) <->
                        (exists v, own (i_props i) (INSTANCE_ID (e_ver E)) q v))
    by (intros q; split; intros [v Hv]; exists v; now apply H).
  rewrite !X. reflexivity.
Qed.

Lemma seen_dec : forall E i n P q, good_props (e_ver E) (i_props i) ->
  seen_under E i n P q \/ ~ seen_under E i n P q.
Proof.
  intros E i n P q G. unfold seen_under.
  assert (D : forall p, present E i p \/ ~ present E i p).
  { intros p. destruct (has_profile E i p) eqn:Ep; [left|right].
    - now apply has_profile_present.
    - intros F. apply has_profile_present in F; [congruence|exact G]. }
  assert (M : forall p, In p P \/ ~ In p P).
  { intros p. destruct (pmem p P) eqn:Ep; [left; now apply pmem_In|right].
    intros F. apply pmem_In in F. congruence. }
  destruct (M q), (D q), (M None), (D None), (own_dec (i_props i) n q (proj1 G)) as [(w & Hw)|Hno]; try tauto;
    try (right; intros [[? ?]|(? & ? & F)]; try contradiction; now apply (F w)).
Qed.

Definition same_but (n : str) (i i' : item) : Prop :=
  i_frozen i' = i_frozen i /\ forall m p w, m <> n -> (own (i_props i') m p w <-> own (i_props i) m p w).

Lemma set_frozen : forall E i n x P ow i', good_props (e_ver E) (i_props i) ->
  set_property E i n x P ow = Ok i' -> i_frozen i' = i_frozen i.
Proof.
  intros E i n x P ow i' G H. apply set_property_inv in H as (v & _ & _ & _ & _ & H); [|exact G]. tauto.
Qed.

Lemma set_one_gen : forall E i n x p i', reachable (e_ver E) i ->
  (forall v, add_wildcards E (i_props i) n (to_value E n x) (profs_of (i_props i) n [p]) = Ok v -> v = to_value E n x) ->
  truthy (to_value E n x) = true -> set_property E i n x [p] true = Ok i' ->
  same_but n i i' /\
  (forall w, holds (i_props i') n p w <-> w = to_value E n x) /\
  (forall q, p = None -> (forall u, ~ own (i_props i) n q u) -> forall w, holds (i_props i') n q w <-> w = to_value E n x) /\
  (forall q, q <> p -> (p = None -> exists u, own (i_props i) n q u) ->
     (forall w, holds (i_props i') n q w <-> holds (i_props i) n q w)) /\
  (forall q u, q <> p -> own (i_props i) n q u -> (own (i_props i') n q u \/ (p = None /\ u = to_value E n x))) /\
  (forall q u, q <> p -> own (i_props i') n q u -> own (i_props i) n q u).
Proof.
  intros E i n x p i' R Hn Hx H. pose proof (reachable_good _ _ R) as G.
  pose proof (set_frozen E i n x [p] true i' G H) as Hf.
  assert (R' : reachable (e_ver E) i') by exact (R_set _ E i n x [p] true i' eq_refl R H).
  pose proof (reachable_good _ _ R') as G'.
  pose proof (set_property_effect E i n x [p] true i' R H) as (v & Hv & H1 & H2 & _ & H4).
  apply Hn in Hv. subst v.
  set (v := to_value E n x) in *.
  assert (Rc : forall q, reaches (i_props i) n [p] q <-> q = p \/ (p = None /\ forall u, ~ own (i_props i) n q u)).
  { intros q. unfold reaches, requested. cbn [In]. split.
    - intros [[A|[]]|[[A|[]] B]]; [now left|right; now split].
    - intros [->|[-> A]]; [left; now left|right; split; [now left|exact A]]. }
  assert (A : forall q, q <> p -> (p = None -> exists u, own (i_props i) n q u) -> ~ reaches (i_props i) n [p] q).
  { intros q Hq Hu F. apply Rc in F as [F|[F B]]; [contradiction|]. destruct (Hu F) as [u Hu']. now apply (B u). }
  split; [now split|]. split; [intros w; apply (H1 p w Hx); apply Rc; now left|].
  split; [intros q Hp Hq w; apply (H1 q w Hx); apply Rc; now right|].
  assert (K : forall q, q <> p -> (p = None -> exists u, own (i_props i) n q u) ->
     (forall w, holds (i_props i') n q w <-> holds (i_props i) n q w)).
  { intros q Hq Hu w. apply (H2 q w Hx). now apply A. }
  split; [exact K|].
  assert (NN : forall j : item, good_props (e_ver E) (i_props j) -> forall q u, q <> None -> own (i_props j) n q u ->
    own (i_props j) n None u -> False).
  { intros j Gj q u Hq (d & s & D1 & D2 & D3) (d' & s' & D1' & D2' & D3').
    assert (d' = d) as ->.
    { destruct Gj as [NDj _]. apply (prget_In _ _ _ NDj) in D1. apply (prget_In _ _ _ NDj) in D1'. congruence. }
    destruct Gj as (_ & Gj & _). destruct (Gj n d D1) as (K1 & K2 & _).
    assert (s' = s) as -> by exact (key_unique d u s' s K1 D2' D2).
    destruct (K2 u s D2) as (_ & _ & _ & Hs). rewrite (Hs D3') in D3. destruct D3 as [D3|[]]. now apply Hq. }
  split.
  - intros q u Hq Ho.
    assert (Hh : holds (i_props i') n q u) by (apply K; [exact Hq|intros _; now exists u|now left]).
    destruct Hh as [Hh|[Hno Hd]]; [now left|]. right.
    destruct p as [x0|].
    + exfalso. assert (Hd' : holds (i_props i) n None u) by (apply K; [discriminate|discriminate|now left]).
      assert (Hd2 : own (i_props i) n None u) by (destruct Hd' as [?|[_ ?]]; assumption).
      destruct q as [y|]; [now apply (NN i G (Some y) u)|]. now apply (Hno u).
    + split; [reflexivity|]. apply (H1 None u Hx); [apply Rc; now left|now left].
  - intros q u Hq Ho. destruct (own_dec (i_props i) n q (proj1 G)) as [(w & Hw)|Hno].
    + assert (Hh : holds (i_props i) n q u) by (apply K; [exact Hq|intros _; now exists w|now left]).
      destruct Hh as [Hh|[F _]]; [exact Hh|]. exfalso. now apply (F w).
    + exfalso. destruct p as [x0|].
      * assert (Hh : holds (i_props i) n q u) by (apply K; [exact Hq|discriminate|now left]).
        destruct Hh as [Hh|[_ Hd]]; [now apply (Hno u)|].
        destruct q as [y|]; [|now apply (Hno u)].
        assert (Hd' : holds (i_props i') n None u) by (apply K; [discriminate|discriminate|now left]).
        apply (NN i' G' (Some y) u); [discriminate|exact Ho|]. destruct Hd' as [?|[_ ?]]; assumption.
      * assert (Hv : holds (i_props i') n None (to_value E n x))
          by (apply (H1 None _ Hx); [apply Rc; now left|reflexivity]).
        assert (u = v) as -> by (apply (H1 q u Hx); [apply Rc; now right|now left]).
        apply (NN i' G' q v Hq Ho). destruct Hv as [?|[_ ?]]; assumption.
Qed.
Lemma plain_wildcards : forall E n x ps P v, ~ text_property (e_ver E) n -> add_wildcards E ps n (to_value E n x) P = Ok v -> v = to_value E n x.
Proof. intros E n x ps P v Hn Hv. rewrite add_wildcards_plain in Hv by now apply not_text. now injection Hv as <-. Qed.

Lemma same_but_trans : forall n i j k, same_but n i j -> same_but n j k -> same_but n i k.
Proof.
  intros n i j k [F1 H1] [F2 H2]. split; [congruence|]. intros m p w Hm. rewrite (H2 m p w Hm). now apply H1.
Qed.
Lemma same_present : forall E n i j p, n <> INSTANCE_ID (e_ver E) -> same_but n i j -> (present E j p <-> present E i p).
Proof. intros E n i j p Hn [F H]. apply present_same; [exact F|]. intros q w. now apply H, not_eq_sym. Qed.

Theorem set_profiles_gen : forall E n x (Good : item -> Prop),
  (forall j p v, reachable (e_ver E) j -> Good j ->
     add_wildcards E (i_props j) n (to_value E n x) (profs_of (i_props j) n [p]) = Ok v -> v = to_value E n x) ->
  (forall j j', reachable (e_ver E) j -> reachable (e_ver E) j' -> Good j -> same_but n j j' -> Good j') -> n <> INSTANCE_ID (e_ver E) ->
  truthy (to_value E n x) = true -> forall P i i', reachable (e_ver E) i -> Good i -> set_profiles E n x P i = Ok i' ->
  reachable (e_ver E) i' /\ same_but n i i' /\
  (forall q w, seen_under E i n P q -> (holds (i_props i') n q w <-> w = to_value E n x)) /\
  (forall q w, ~ seen_under E i n P q -> (holds (i_props i') n q w <-> holds (i_props i) n q w)).
Proof.
  intros E n x Good Hn Hg Hid Hx. unfold set_profiles. induction P as [|p P IH]; intros i i' R Gi H; cbn [fold_result] in H.
  - injection H as <-. split; [exact R|]. split; [split; reflexivity|]. split; [|reflexivity].
    intros q w [[[] _]|[[] _]].
  - pose proof (reachable_good _ _ R) as G.
    assert (Plus : forall q, seen_under E i n P q -> seen_under E i n (p :: P) q)
      by (intros q [[A B]|(A & B & C)]; [left|right]; repeat split; auto; now right).
    destruct (has_profile E i p) eqn:Ep.
    + assert (Pr : present E i p) by now apply has_profile_present.
      destruct (set_property E i n x [p] true) as [i1|] eqn:E1; [|discriminate]. cbn [rbind] in H.
      assert (R1 : reachable (e_ver E) i1) by exact (R_set _ E i n x [p] true i1 eq_refl R E1).
      pose proof (reachable_good _ _ R1) as G1.
      destruct (set_one_gen E i n x p i1 R (fun v => Hn i p v R Gi) Hx E1) as (S1 & HP & HD & HK & HO & HO').
      destruct (IH i1 i' R1 (Hg i i1 R R1 Gi S1) H) as (R' & S' & H1 & H2). split; [exact R'|].
      split; [exact (same_but_trans n i i1 i' S1 S')|].
      (* what was reached by this step reports the value from now on *)
      assert (Hold : forall q, (forall w, holds (i_props i1) n q w <-> w = to_value E n x) ->
                     forall w, holds (i_props i') n q w <-> w = to_value E n x).
      { intros q Hq w. destruct (seen_dec E i1 n P q G1) as [D|D]; [now apply H1|]. rewrite (H2 q w D). apply Hq. }
      assert (Pres : forall q, present E i1 q <-> present E i q) by (intros q; exact (same_present E n i i1 q Hid S1)).
      split; intros q w Hs.
      * destruct (profile_eq_dec q p) as [->|Hqp]; [now apply Hold|].
        destruct Hs as [[[A|A] B]|(A & B & C)].
        -- now destruct Hqp.
        -- apply H1. left. split; [exact A|now apply Pres].
        -- destruct A as [A|A].
           ++ subst p. apply Hold. intros u. now apply HD.
           ++ apply H1. right. split; [exact A|]. split; [now apply Pres|].
              intros u F. apply (C u). apply HO'; assumption.
      * assert (Hqp : q <> p) by (intros ->; apply Hs; left; split; [now left|exact Pr]).
        assert (Hu : p = None -> exists u, own (i_props i) n q u).
        { intros ->. destruct (own_dec (i_props i) n q (proj1 G)) as [Y|N]; [exact Y|].
          exfalso. apply Hs. right. split; [now left|]. split; [exact Pr|exact N]. }
        rewrite <- (HK q Hqp Hu w). destruct (seen_dec E i1 n P q G1) as [D|D]; [|now apply H2].
        rewrite (H1 q w D). destruct D as [[A B]|(A & B & C)].
        -- exfalso. apply Hs. left. split; [now right|now apply Pres].
        -- apply Pres in B.
           destruct (own_dec (i_props i) n q (proj1 G)) as [(u & Hu')|N].
           ++ destruct (HO q u Hqp Hu') as [F|[Hpn Hv]]; [exfalso; now apply (C u)|].
              rewrite (HK q Hqp Hu w). subst u. split.
              ** intros ->. now left.
              ** intros Hh. exact (holds_unique _ _ _ _ _ _ G Hh (or_introl Hu')).
           ++ exfalso. apply Hs. right. split; [now right|]. now split.
    + cbn [rbind] in H. assert (Pr : ~ present E i p) by (intros F; apply has_profile_present in F; [congruence|exact G]).
      destruct (IH i i' R Gi H) as (R' & S' & H1 & H2). split; [exact R'|]. split; [exact S'|].
      assert (Back : forall q, seen_under E i n (p :: P) q -> seen_under E i n P q).
      { intros q [[[A|A] B]|([A|A] & B & C)]; subst; try contradiction; [left|right]; auto. }
      split; intros q w Hs.
      * apply H1. now apply Back.
      * apply H2. intros F. apply Hs. now apply Plus.
Qed.
Theorem set_profiles_effect : forall E n x, ~ text_property (e_ver E) n -> n <> INSTANCE_ID (e_ver E) ->
  truthy (to_value E n x) = true -> forall P i i', reachable (e_ver E) i -> set_profiles E n x P i = Ok i' ->
  reachable (e_ver E) i' /\ same_but n i i' /\
  (forall q w, seen_under E i n P q -> (holds (i_props i') n q w <-> w = to_value E n x)) /\
  (forall q w, ~ seen_under E i n P q -> (holds (i_props i') n q w <-> holds (i_props i) n q w)).
Proof.
  intros E n x Hn Hid Hx P i i' R H. apply (set_profiles_gen E n x (fun _ => True)); auto.
  intros j p v _ _. now apply plain_wildcards.
Qed.

Lemma hset_keys : forall h k i, In k (map fst h) -> map fst (hset k i h) = map fst h.
Proof.
  intros h k i Hk. unfold hset. rewrite dset_keys. destruct (dmem str_eqb k h) eqn:Ed; [reflexivity|].
  exfalso. apply taken_iff, dmem_taken in Hk. congruence.
Qed.

(** The devices [ks] are changed one after the other; all others stay. *)
Lemma set_values_spec : forall E n P default ks xs h h', NoDup ks -> NoDup (map fst h) ->
  set_values E n xs default P h ks = Ok h' ->
  map fst h' = map fst h /\
  (forall k i, ~ In k ks -> (In (k, i) h' <-> In (k, i) h)) /\
  (forall m k, nth_error ks m = Some k -> exists i i', In (k, i) h /\ In (k, i') h' /\
     set_profiles E n (nth m xs default) P i = Ok i').
Proof.
  intros E n P default. induction ks as [|k ks IH]; intros xs h h' ND NDh H; cbn [set_values] in H.
  - injection H as <-. split; [reflexivity|]. split; [reflexivity|]. intros [|m] k F; discriminate F.
  - destruct (hitem k h) as [i|] eqn:Ei; [|discriminate]. cbn [rbind] in H.
    set (x0 := match xs with x :: _ => x | [] => default end) in H.
    destruct (set_profiles E n x0 P i) as [i1|] eqn:E1; [|discriminate]. cbn [rbind] in H.
    inversion ND as [|? ? Hk NDk]; subst.
    assert (Hin : In (k, i) h) by now apply hitem_In.
    assert (Kk : map fst (hset k i1 h) = map fst h).
    { apply hset_keys. apply in_map_iff. now exists (k, i). }
    destruct (IH (tl xs) (hset k i1 h) h' NDk) as (K & O & V); [now rewrite Kk|exact H|].
    split; [congruence|]. split.
    + intros k' j Hn. rewrite O by (intros F; apply Hn; now right). rewrite hset_In by exact NDh.
      split; [intros [[-> _]|[_ ?]]; [exfalso; apply Hn; now left|assumption]|].
      intros Hj. right. split; [intros ->; apply Hn; now left|exact Hj].
    + intros [|m] k' Hm; cbn [nth_error] in Hm.
      * injection Hm as <-. exists i, i1. split; [exact Hin|]. split; [|destruct xs; exact E1].
        apply O; [exact Hk|]. apply hset_In; [exact NDh|]. now left.
      * destruct (V m k' Hm) as (j & j' & A & B & C). exists j, j'.
        assert (Hkk : k' <> k) by (intros ->; apply Hk; now apply nth_error_In in Hm).
        split; [|split; [exact B|destruct xs as [|x xs]; [|exact C]; cbn [tl] in C; destruct m; exact C]].
        apply hset_In in A as [[F _]|[_ A]]; [contradiction|exact A|exact NDh].
Qed.

Lemma set_on_all : forall E n x P ks h h', NoDup ks -> NoDup (map fst h) ->
  fold_result (set_on_keys E n x P) ks h = Ok h' ->
  map fst h' = map fst h /\
  (forall k i, ~ In k ks -> (In (k, i) h' <-> In (k, i) h)) /\
  (forall k, In k ks -> exists i i', In (k, i) h /\ In (k, i') h' /\ set_property E i n x P true = Ok i').
Proof.
  intros E n x P. induction ks as [|k ks IH]; intros h h' ND NDh H; cbn [fold_result] in H.
  - injection H as <-. split; [reflexivity|]. split; [reflexivity|]. intros k [].
  - unfold set_on_keys in H at 1. destruct (hitem k h) as [i|] eqn:Ei; [|discriminate]. cbn [rbind] in H.
    destruct (set_property E i n x P true) as [i1|] eqn:E1; [|discriminate]. cbn [rbind] in H.
    inversion ND as [|? ? Hk NDk]; subst.
    assert (Hin : In (k, i) h) by now apply hitem_In.
    assert (Kk : map fst (hset k i1 h) = map fst h) by (apply hset_keys, in_map_iff; now exists (k, i)).
    destruct (IH (hset k i1 h) h' NDk) as (K & O & V); [now rewrite Kk|exact H|].
    split; [congruence|]. split.
    + intros k' j Hn. rewrite O by (intros F; apply Hn; now right). rewrite hset_In by exact NDh.
      split; [intros [[-> _]|[_ ?]]; [exfalso; apply Hn; now left|assumption]|].
      intros Hj. right. split; [intros ->; apply Hn; now left|exact Hj].
    + intros k' [<-|Hk'].
      * exists i, i1. split; [exact Hin|]. split; [|exact E1]. apply O; [exact Hk|]. apply hset_In; [exact NDh|]. now left.
      * destruct (V k' Hk') as (j & j' & A & B & C). exists j, j'. split; [|now split].
        assert (Hkk : k' <> k) by (intros ->; now apply Hk).
        apply hset_In in A as [[F _]|[_ A]]; [contradiction|exact A|exact NDh].
Qed.

(** ** What is reported afterwards *)

Lemma reports_same_holds : forall E i i' n q r, reachable (e_ver E) i -> reachable (e_ver E) i' -> ~ text_property (e_ver E) n ->
  (forall w, holds (i_props i') n q w <-> holds (i_props i) n r w) -> reports E i' n q = reports E i n r.
Proof.
  intros E i i' n q r R R' Hn H. apply reachable_good in R, R'. unfold reports.
  rewrite !get_value_plain by now apply not_text. f_equal.
  destruct (get_raw (i_props i) n (Some [r])) as [v|] eqn:Ev.
  - apply (get_raw_holds (e_ver E)); [exact R'|]. apply H. now apply (get_raw_holds (e_ver E)).
  - destruct (get_raw (i_props i') n (Some [q])) as [v|] eqn:Ev'; [|reflexivity].
    apply (get_raw_holds (e_ver E)), H, (get_raw_holds (e_ver E)) in Ev'; [congruence|exact R|exact R'].
Qed.
Lemma reports_value : forall E i n q v, reachable (e_ver E) i -> ~ text_property (e_ver E) n ->
  (forall w, holds (i_props i) n q w <-> w = v) -> reports E i n q = Ok (Some v).
Proof.
  intros E i n q v R Hn H. apply reachable_good in R. unfold reports.
  rewrite get_value_plain by now apply not_text. f_equal. apply (get_raw_holds (e_ver E)); [exact R|]. now apply H.
Qed.
Lemma reports_others : forall E n i i' m q, reachable (e_ver E) i -> reachable (e_ver E) i' -> same_but n i i' ->
  m <> n -> ~ text_property (e_ver E) m -> reports E i' m q = reports E i m q.
Proof.
  intros E n i i' m q R R' [_ S] Hm Ht. apply reports_same_holds; auto. intros w. unfold holds.
  rewrite (S m q w Hm), (S m None w Hm).
  assert (X : (forall u, ~ own (i_props i') m q u) <-> (forall u, ~ own (i_props i) m q u))
    by (split; intros F u; specialize (F u); rewrite S in *; assumption).
  rewrite X. reflexivity.
Qed.

Theorem values_set : forall E h rt n xs P default h', ids_ok (e_ver E) h ->
  ~ text_property (e_ver E) n -> n <> INSTANCE_ID (e_ver E) ->
  (forall m, truthy (to_value E n (nth m xs default)) = true) ->
  set_item_values_per_profile E h rt n xs P default = Ok h' ->
  exists ks, are_wanted E h (Some rt) [] [] ks /\ map fst h' = map fst h /\
    (forall k i, ~ In k ks -> (In (k, i) h' <-> In (k, i) h)) /\
    forall m k, nth_error ks m = Some k -> exists i i', In (k, i) h /\ In (k, i') h' /\
      (forall q, seen_under E i n (match P with Some l => l | None => map Some (e_profiles E) ++ [None] end) q ->
         reports E i' n q = Ok (Some (to_value E n (nth m xs default)))) /\
      (forall q, ~ seen_under E i n (match P with Some l => l | None => map Some (e_profiles E) ++ [None] end) q ->
         reports E i' n q = reports E i n q) /\
      (forall n' q, n' <> n -> ~ text_property (e_ver E) n' -> reports E i' n' q = reports E i n' q).
Proof.
  intros E h rt n xs P default h' Hi Hn Hid Hx H. unfold set_item_values_per_profile in H.
  set (PP := match P with None => _ | Some l => l end) in H.
  destruct (find_all_items E h (Some rt) [] []) as [ks|] eqn:Ef; [|discriminate]. cbn [rbind] in H.
  exists ks. apply find_all_wanted in Ef as W; [|exact Hi|intros c []]. split; [exact W|].
  destruct (set_values_spec E n PP default ks xs h h' (proj1 W) (proj1 Hi) H) as (K & O & V).
  split; [exact K|]. split; [exact O|]. intros m k Hm. destruct (V m k Hm) as (i & i' & A & B & C).
  exists i, i'. split; [exact A|]. split; [exact B|]. destruct (ids_good E h k i Hi A) as [R _].
  destruct (set_profiles_effect E n _ Hn Hid (Hx m) PP i i' R C) as (R' & S & H1 & H2).
  replace (match P with Some l => l | None => map Some (e_profiles E) ++ [None] end) with PP by (now destruct P).
  split; [|split].
  - intros q Hq. apply reports_value; [exact R'|exact Hn|]. intros w. now apply H1.
  - intros q Hq. apply reports_same_holds; [exact R|exact R'|exact Hn|]. intros w. now apply H2.
  - intros n' q Hn' Ht. exact (reports_others E n i i' n' q R R' S Hn' Ht).
Qed.

(** A new device has nothing but its number, type and name. *)
Lemma new_item_bare : forall E h rt P k h', new_item E h rt P = Ok (k, h') ->
  exists i v, first_free h 1 k /\ h' = h ++ [(k, i)] /\ id_is (e_ver E) k i /\ res_map rt = Ok v /\
    (exists q, own (i_props i) (INSTANCE_ID (e_ver E)) q (VStr k)) /\
    (forall n q w, n <> INSTANCE_ID (e_ver E) -> n <> RESOURCE_TYPE -> ~ text_property (e_ver E) n -> ~ own (i_props i) n q w).
Proof.
  intros E h rt P k h' H0. pose proof (new_item_inv E h rt P k h' H0) as (i & Hf & Eh & Hk & _).
  assert (Ht : ~ taken h k) by (destruct Hf as (? & _ & _ & Hf & _); exact Hf).
  rewrite (hset_fresh _ _ _ Ht) in Eh. unfold new_item in H0.
  destruct (find_unused_instance_id h 1) as [id|] eqn:Ei; [|discriminate]. cbn [rbind] in H0.
  destruct (set_property E _ (INSTANCE_ID _) _ _ _) as [i1|] eqn:E1; [|discriminate]. cbn [rbind] in H0.
  destruct (res_map rt) as [v|]; [|discriminate]. cbn [rbind] in H0.
  destruct (set_property E i1 _ _ _ _) as [i2|] eqn:E2; [|discriminate]. cbn [rbind] in H0.
  destruct (set_property E i2 _ _ _ _) as [i3|] eqn:E3; [|discriminate]. cbn [rbind] in H0.
  injection H0 as Ek Eh'. subst id. rewrite (hset_fresh _ _ _ Ht), Eh in Eh'. apply app_inj_tail in Eh' as [_ Ei3].
  injection Ei3 as Ei3. subst i.
  exists (with_modified true i3), v. split; [exact Hf|]. split; [exact Eh|]. split; [exact Hk|]. split; [reflexivity|].
  assert (R0 : reachable (e_ver E) (new_ovfitem E)) by now constructor.
  assert (R1 : reachable (e_ver E) i1) by (eapply R_set; [reflexivity|exact R0|exact E1]).
  assert (R2 : reachable (e_ver E) i2) by (eapply R_set; [reflexivity|exact R1|exact E2]).
  split.
  - destruct (id_assign_own _ _ _ _ _ R0 (first_free_nonempty _ _ _ Hf) E1) as [q Hq].
    exists q. apply (same_other E _ _ _ _ _ i2 R1 (RT_not_IID _) E2) in Hq.
    apply (same_other E _ _ _ _ _ i3 R2 (EN_not_IID _) E3) in Hq. exact Hq.
  - intros n q w H1 H2 H3 F. cbn [i_props with_modified] in F.
    assert (H4 : n <> ELEMENT_NAME (e_ver E)) by (intros ->; apply H3; now left).
    apply (set_other_rec E i2 _ _ _ _ i3 _ q w R2 H4 E3) in F.
    apply (set_other_rec E i1 _ _ _ _ i2 _ q w R1 H2 E2) in F.
    apply (set_other_rec E _ _ _ _ _ i1 _ q w R0 H1 E1) in F. now destruct F as (d & s & [] & _).
Qed.

Lemma hset_last : forall h k i i', ~ taken h k -> hset k i' (h ++ [(k, i)]) = h ++ [(k, i')].
Proof.
  intros h k i i' Ht. unfold hset. induction h as [|[a b] h IH]; cbn [app dset].
  - now rewrite str_eqb_refl.
  - destruct (str_eqb k a) eqn:Ea.
    + exfalso. apply str_eqb_eq in Ea as ->. apply Ht. exists b. now left.
    + f_equal. apply IH. intros [j Hj]. apply Ht. exists j. now right.
Qed.

Theorem all_set : forall E h rt n x P create h', ids_ok (e_ver E) h ->
  ~ text_property (e_ver E) n -> n <> INSTANCE_ID (e_ver E) -> truthy (to_value E n x) = true ->
  set_value_for_all_items E h rt n x P create = Ok h' ->
  exists ks, are_wanted E h (Some rt) [] [] ks /\
    (ks <> [] -> map fst h' = map fst h /\ (forall k i, ~ In k ks -> (In (k, i) h' <-> In (k, i) h)) /\
       forall k, In k ks -> exists i i', In (k, i) h /\ In (k, i') h' /\
         (forall q, reaches (i_props i) n P q -> reports E i' n q = Ok (Some (to_value E n x))) /\
         (forall q, ~ reaches (i_props i) n P q -> reports E i' n q = reports E i n q) /\
         (forall n' q, n' <> n -> ~ text_property (e_ver E) n' -> reports E i' n' q = reports E i n' q)) /\
    (ks = [] -> create = false -> h' = h) /\
    (ks = [] -> create = true -> exists k i, first_free h 1 k /\ h' = h ++ [(k, i)] /\ has_id E i k /\
       (n <> RESOURCE_TYPE -> forall q, (match P with [] => q = None | _ => In q P end) -> reports E i n q = Ok (Some (to_value E n x)))).
Proof.
  intros E h rt n x P create h' Hi Hn Hid Hx H. unfold set_value_for_all_items in H.
  destruct (find_all_items E h (Some rt) [] []) as [ks|] eqn:Ef; [|discriminate]. cbn [rbind] in H.
  exists ks. apply find_all_wanted in Ef as W; [|exact Hi|intros c []]. split; [exact W|].
  destruct ks as [|k0 ks].
  - split; [congruence|]. destruct create.
    + split; [discriminate|]. intros _ _.
      destruct (new_item E h rt P) as [[k h1]|] eqn:En; [|discriminate]. cbn [rbind fst snd] in H.
      destruct (new_item_bare E h rt P k h1 En) as (i & v & Hf & -> & [R _] & _ & [q0 Hq0] & Hbare).
      assert (Ht : ~ taken h k) by (destruct Hf as (? & _ & _ & Hf & _); exact Hf).
      unfold set_on_keys in H.
      assert (Eit : hitem k (h ++ [(k, i)]) = Ok i).
      { apply hitem_In; [|apply in_or_app; right; now left].
        rewrite <- (hset_fresh h k i Ht). apply hset_NoDup. apply Hi. }
      rewrite Eit in H. cbn [rbind] in H.
      destruct (set_property E i n x P true) as [i'|] eqn:Es; [|discriminate]. cbn [rbind] in H. injection H as <-.
      exists k, i'. split; [exact Hf|]. split; [now apply hset_last|]. split.
      * apply (own_has_id E i' q0 k); [exact (R_set _ E i n x P true i' eq_refl R Es)|].
        apply (same_other E i n x P true i' R Hid Es). exact Hq0.
      * intros Hrt q Hq. apply (proj1 (set_property_reports E i n x P true i' R Hn Hx Es)).
        left. unfold requested. destruct P as [|p P]; [|exact Hq]. right. split; [|exact Hq].
        intros q' w. now apply Hbare.
    + split; [|discriminate]. intros _ _. now injection H.
  - split; [|split; discriminate]. intros _.
    destruct (set_on_all E n x P (k0 :: ks) h h' (proj1 W) (proj1 Hi) H) as (K & O & V).
    split; [exact K|]. split; [exact O|]. intros k Hk. destruct (V k Hk) as (i & i' & A & B & C).
    exists i, i'. split; [exact A|]. split; [exact B|]. destruct (ids_good E h k i Hi A) as [R _].
    exact (set_property_reports E i n x P true i' R Hn Hx C).
Qed.

(** ** Cloned devices *)

Lemma present_holds : forall E i c, reachable (e_ver E) i -> In c (config_of E i) ->
  (has_profile E i (Some c) = true <-> exists v, holds (i_props i) (INSTANCE_ID (e_ver E)) (Some c) v).
Proof.
  intros E i c R Hc. apply reachable_good in R as G. rewrite (has_own E i (Some c) G). split.
  - intros [(v & Hv)|[(v & Hv) _]]; [exists v; now left|].
    destruct (own_dec (i_props i) (INSTANCE_ID (e_ver E)) (Some c) (proj1 G)) as [(u & Hu)|No];
      [exists u; now left|exists v; now right].
  - intros (v & [Hv|[_ Hv]]); [left; now exists v|]. right. split; [now exists v|]. now exists c.
Qed.

(** The loop that takes a copy out of the profiles that are not asked for. *)
Lemma clone_loop : forall E Q (cfg : list str) ps i i', reachable (e_ver E) i -> config_of E i = cfg ->
  i_frozen i = Some cfg ->
  fold_result (fun i p => if has_profile E i (Some p) && negb (pmem (Some p) Q)
                          then remove_profile E i (Some p) true else Ok i) ps i = Ok i' ->
  reachable (e_ver E) i' /\
  (forall c, In c cfg -> (In (Some c) Q \/ ~ In c ps) ->
     forall n w, holds (i_props i') n (Some c) w <-> holds (i_props i) n (Some c) w) /\
  (forall c, In c cfg -> In c ps -> ~ In (Some c) Q -> has_profile E i (Some c) = true ->
     forall n w, ~ holds (i_props i') n (Some c) w) /\
  (forall c, In c cfg -> (forall n w, ~ holds (i_props i) n (Some c) w) -> forall n w, ~ holds (i_props i') n (Some c) w) /\
  ((forall c, In c ps -> has_profile E i (Some c) = true -> In (Some c) Q) -> i_props i' = i_props i).
Proof.
  intros E Q cfg ps. induction ps as [|p ps IH]; intros i i' R Hc Hf H.
  - injection H as <-. split; [exact R|]. split; [reflexivity|]. split; [intros ? ? []|]. split; [auto|reflexivity].
  - cbn [fold_result] in H.
    match type of H with rbind ?r _ = _ => destruct r as [i1|] eqn:E1; [|discriminate] end. cbn [rbind] in H.
    match type of E1 with (if ?b then _ else _) = _ => destruct b eqn:Eb end.
    + apply andb_true_iff in Eb as [Eb1 Eb2]. apply negb_true_iff in Eb2.
      assert (HpQ : ~ In (Some p) Q) by (intros F; apply pmem_In in F; congruence).
      assert (R1 : reachable (e_ver E) i1) by exact (R_remove_profile _ E _ _ _ _ eq_refl R E1).
      apply reachable_good in R as G. rewrite remove_profile_eq in E1 by exact G. rewrite Eb1 in E1.
      injection E1 as Ei1.
      assert (Hf1 : i_frozen i1 = Some cfg) by (subst i1; exact Hf).
      assert (Hc1 : config_of E i1 = cfg) by (unfold config_of; now rewrite Hf1).
      assert (P1 : i_props i1 = removed (config_of E i) true (Some p) (i_props i)) by (subst i1; reflexivity).
      destruct (IH i1 i' R1 Hc1 Hf1 H) as (R' & A & B & D & _).
      assert (S : forall c, In c cfg -> c <> p -> forall n w, holds (i_props i1) n (Some c) w <-> holds (i_props i) n (Some c) w).
      { intros c Hcc Hcp n w. rewrite P1. apply (removed_split_holds (e_ver E)); [exact G|now rewrite Hc|exact Hcp]. }
      split; [exact R'|]. split; [|split; [|split]].
      * intros c Hcc Hor n w. assert (c <> p) by (intros ->; destruct Hor as [F|F]; [contradiction|apply F; now left]).
        rewrite (A c Hcc); [now apply S|]. destruct Hor as [F|F]; [now left|right; intros F'; apply F; now right].
      * intros c Hcc Hin HcQ Hh n w F.
        destruct (list_eq_dec Ascii.ascii_dec c p) as [->|Hcp].
        -- apply (D p Hcc) with n w in F; [exact F|]. intros m u. rewrite P1.
           apply (removed_split_gone (e_ver E)), G.
        -- destruct Hin as [->|Hin]; [congruence|]. apply (B c Hcc Hin HcQ) with n w in F; [exact F|].
           apply (present_holds E i1 c R1); [now rewrite Hc1|].
           apply (present_holds E i c R) in Hh; [|now rewrite Hc]. destruct Hh as (v & Hv). exists v. now apply S.
      * intros c Hcc No. apply (D c Hcc). intros m u.
        destruct (list_eq_dec Ascii.ascii_dec c p) as [->|Hcp]; [rewrite P1; apply (removed_split_gone (e_ver E)), G|].
        rewrite (S c Hcc Hcp). apply No.
      * intros F. exfalso. apply HpQ. now apply F; [left|].
    + injection E1 as <-. destruct (IH i i' R Hc Hf H) as (R' & A & B & D & C). split; [exact R'|]. split; [|split; [|split]].
      * intros c Hcc Hor. apply A; [exact Hcc|]. destruct Hor as [F|F]; [now left|right; intros F'; apply F; now right].
      * intros c Hcc [->|Hin] HcQ Hh; [|now apply B].
        exfalso. rewrite Hh in Eb. cbn [andb] in Eb. apply negb_false_iff, pmem_In in Eb. contradiction.
      * exact D.
      * intros F. apply C. intros c Hin. apply F. now right.
Qed.

Theorem clone_copies : forall E h k parent Q k' h', ids_ok (e_ver E) h -> In (k, parent) h ->
  clone_item E h k Q = Ok (k', h') ->
  exists i start, py_int k = Some start /\ first_free h start k' /\ h' = h ++ [(k', i)] /\
    reachable (e_ver E) i /\ has_id E i k' /\
    forall n, n <> INSTANCE_ID (e_ver E) -> ~ text_property (e_ver E) n ->
      (forall c, In c (config_of E parent) -> In (Some c) Q -> reports E i n (Some c) = reports E parent n (Some c)) /\
      (forall c, In c (config_of E parent) -> In c (e_profiles E) -> ~ In (Some c) Q -> present E parent (Some c) ->
         reports E i n (Some c) = Ok None) /\
      ((forall c, In c (e_profiles E) -> present E parent (Some c) -> In (Some c) Q) ->
         forall q, reports E i n q = reports E parent n q).
Proof.
  intros E h k parent Q k' h' Hi Hin H.
  destruct (clone_item_inv E h k Q k' h' Hi H) as (i & start & Hs & Hf & Eh & [R _] & Hid).
  exists i, start. split; [exact Hs|]. split; [exact Hf|].
  assert (Ht : ~ taken h k') by (destruct Hf as (? & _ & _ & Hf & _); exact Hf).
  rewrite (hset_fresh _ _ _ Ht) in Eh. split; [exact Eh|]. split; [exact R|]. split; [exact Hid|].
  intros n Hn Hx. destruct (proj2 Hi k parent Hin) as [Rp Hk].
  unfold clone_item in H. rewrite (proj2 (hitem_In h k parent (proj1 Hi)) Hin) in H. cbn [rbind] in H.
  destruct (get_value E (i_props parent) (INSTANCE_ID (e_ver E)) None) as [o|] eqn:Eo; [|discriminate]. cbn [rbind] in H.
  destruct o as [[s|]|]; try discriminate. destruct (py_int s) as [start'|]; [|discriminate].
  destruct (find_unused_instance_id h start') as [id|] eqn:Eid; [|discriminate]. cbn [rbind] in H.
  set (copy := mkItem (i_props parent) (i_ns parent) (i_modified parent) (Some (config_of E parent))) in *.
  destruct (fold_result _ (e_profiles E) copy) as [i1|] eqn:E1; [|discriminate]. cbn [rbind] in H.
  destruct (set_property E i1 _ _ Q true) as [i2|] eqn:E2; [|discriminate]. cbn [rbind] in H.
  injection H as Ek Eh'. subst id. rewrite (hset_fresh _ _ _ Ht), Eh in Eh'. apply app_inj_tail in Eh' as [_ Ei].
  injection Ei as Ei.
  assert (Rc : reachable (e_ver E) copy) by now constructor.
  destruct (clone_loop E Q (config_of E parent) (e_profiles E) copy i1 Rc eq_refl eq_refl E1) as (R1 & A & B & _ & C).
  assert (S : forall q w, holds (i_props i) n q w <-> holds (i_props i1) n q w).
  { intros q w. subst i. cbn [i_props with_modified]. unfold holds.
    assert (X : forall r u, own (i_props i2) n r u <-> own (i_props i1) n r u)
      by (intros r u; exact (set_other_rec E i1 _ _ _ _ i2 n r u R1 Hn E2)).
    rewrite (X q w), (X None w).
    assert (Y : (forall u, ~ own (i_props i2) n q u) <-> (forall u, ~ own (i_props i1) n q u))
      by (split; intros F u; specialize (F u); rewrite X in *; assumption).
    rewrite Y. reflexivity. }
  assert (Pr : forall p, present E parent p <-> has_profile E copy p = true).
  { intros p. rewrite (has_profile_present E copy p (reachable_good _ _ Rc)). reflexivity. }
  split; [|split].
  - intros c Hc HcQ. apply reports_same_holds; auto. intros w. rewrite S. now apply A; [|left].
  - intros c Hc Hce HcQ Hp. apply Pr in Hp. unfold reports. rewrite get_value_plain by now apply not_text. f_equal.
    match goal with |- ?r = None => destruct r as [v|] eqn:Ev; [|reflexivity] end.
    apply (get_raw_holds (e_ver E)) in Ev; [|exact (reachable_good _ _ R)]. apply S in Ev.
    exfalso. exact (B c Hc Hce HcQ Hp n v Ev).
  - intros F q. apply reports_same_holds; auto. intros w. rewrite S. rewrite C; [reflexivity|].
    intros c Hc Hp. apply F; [exact Hc|now apply Pr].
Qed.

Lemma raw_set_same : forall ver ps ps' n Q, good_props ver ps -> good_props ver ps' -> Q <> [] ->
  (forall q w, holds ps' n q w <-> holds ps n q w) -> get_raw ps' n (Some Q) = get_raw ps n (Some Q).
Proof.
  intros ver ps ps' n Q G G' HQ H.
  destruct (get_raw ps n (Some Q)) as [v|] eqn:Ev.
  - apply (LookupProofs.get_raw_set ver); [exact G'|exact HQ|]. intros p Hp. apply H.
    now apply (proj1 (LookupProofs.get_raw_set ver ps n Q v G HQ) Ev).
  - destruct (get_raw ps' n (Some Q)) as [v|] eqn:Ev'; [|reflexivity].
    exfalso. pose proof (proj1 (LookupProofs.get_raw_set ver ps' n Q v G' HQ) Ev') as F.
    assert (X : get_raw ps n (Some Q) = Some v)
      by (apply (LookupProofs.get_raw_set ver); [exact G|exact HQ|]; intros p Hp; apply H; now apply F).
    congruence.
Qed.

Lemma own_holds : forall ps ps' n, (forall q w, own ps' n q w <-> own ps n q w) ->
  forall q w, holds ps' n q w <-> holds ps n q w.
Proof.
  intros ps ps' n X q w. unfold holds. rewrite (X q w), (X None w).
  assert (Y : (forall u, ~ own ps' n q u) <-> (forall u, ~ own ps n q u))
    by (split; intros F u; specialize (F u); rewrite X in *; assumption).
  rewrite Y. reflexivity.
Qed.

(** A change of AddressOnParent has no influence on what may be put into an element name. *)
Lemma embeds_kept : forall E i i' Q w x, reachable (e_ver E) i -> reachable (e_ver E) i' -> Q <> [] ->
  (forall m q u, m <> ADDRESS_ON_PARENT -> own (i_props i') m q u <-> own (i_props i) m q u) ->
  embeds E (i_props i') Q (ELEMENT_NAME (e_ver E)) w x -> embeds E (i_props i) Q (ELEMENT_NAME (e_ver E)) w x.
Proof.
  intros E i i' Q w x R R' HQ O H. apply reachable_good in R, R'.
  assert (Eq : forall m, ~ text_property (e_ver E) m -> m <> ADDRESS_ON_PARENT ->
    get_value E (i_props i') m (Some Q) = get_value E (i_props i) m (Some Q)).
  { intros m Ht Hm. rewrite !get_value_plain by now apply not_text. f_equal. apply (raw_set_same (e_ver E)); auto.
    apply own_holds. intros q u. now apply O. }
  remember (ELEMENT_NAME (e_ver E)) as en eqn:Een.
  inversion H; subst.
  - constructor. rewrite <- Eq; [assumption| |discriminate]. unfold text_property. destruct (e_ver E); intros [F|F]; discriminate F.
  - constructor. rewrite <- Eq; [assumption| |discriminate]. unfold text_property. destruct (e_ver E); intros [F|F]; discriminate F.
  - constructor. rewrite <- Eq; [assumption| |discriminate]. unfold text_property. destruct (e_ver E); intros [F|F]; discriminate F.
  - exfalso. destruct (e_ver E); discriminate.
Qed.

Theorem cloned_updated : forall E nic i Q n i', reachable (e_ver E) i -> update_cloned E nic i Q n = Ok i' ->
  (forall q v, ~ own (i_props i) ADDRESS q v) /\
  (((forall q v, ~ own (i_props i) ADDRESS_ON_PARENT q v) /\ forall q v, ~ own (i_props i') ADDRESS_ON_PARENT q v) \/
   exists a z, only_value (i_props i) ADDRESS_ON_PARENT (VStr a) /\ py_int a = Some z /\
     (forall q, reaches (i_props i) ADDRESS_ON_PARENT Q q -> reports E i' ADDRESS_ON_PARENT q = Ok (Some (VStr (zdec (z + 1))))) /\
     (forall q, ~ reaches (i_props i) ADDRESS_ON_PARENT Q q -> reports E i' ADDRESS_ON_PARENT q = reports E i ADDRESS_ON_PARENT q)) /\
  (only_value (i_props i) RESOURCE_TYPE (VStr (L "10")) -> nic n <> [] ->
     safe_values E (i_props i) (ELEMENT_NAME (e_ver E)) Q -> safe_text E (i_props i) (ELEMENT_NAME (e_ver E)) Q (nic n) ->
     forall q, requested (i_props i) (ELEMENT_NAME (e_ver E)) Q q ->
       reports E i' (ELEMENT_NAME (e_ver E)) q = Ok (Some (VStr (nic n)))) /\
  (forall m q w, m <> ADDRESS_ON_PARENT ->
     (m = ELEMENT_NAME (e_ver E) -> ~ only_value (i_props i) RESOURCE_TYPE (VStr (L "10"))) ->
     own (i_props i') m q w <-> own (i_props i) m q w).
Proof.
  intros E nic i Q n i' R H. pose proof (reachable_good _ _ R) as G. unfold update_cloned in H.
  destruct (value_only E i RESOURCE_TYPE G (RT_plain _)) as (rt & Ert & Hrt). rewrite Ert in H. cbn [rbind] in H.
  assert (Nad : forall q v, ~ own (i_props i) ADDRESS q v).
  { intros q v (d & t & Hd & Ht & _). apply prget_In in Hd; [|apply G]. rewrite Hd in H.
    destruct d; [destruct Ht|discriminate]. }
  match type of H with (if ?b then _ else _) = _ => destruct b; [discriminate|] end.
  split; [exact Nad|].
  match type of H with rbind ?r _ = _ => destruct r as [i1|] eqn:E1; [|discriminate] end. cbn [rbind] in H.
  assert (Aplain : ~ text_property (e_ver E) ADDRESS_ON_PARENT)
    by (unfold text_property; destruct (e_ver E); intros [F|F]; discriminate F).
  assert (K1 : reachable (e_ver E) i1 /\
    (forall m q u, m <> ADDRESS_ON_PARENT -> own (i_props i1) m q u <-> own (i_props i) m q u) /\
    (((forall q v, ~ own (i_props i) ADDRESS_ON_PARENT q v) /\ forall q v, ~ own (i_props i1) ADDRESS_ON_PARENT q v) \/
     exists a z, only_value (i_props i) ADDRESS_ON_PARENT (VStr a) /\ py_int a = Some z /\
       (forall q, reaches (i_props i) ADDRESS_ON_PARENT Q q -> reports E i1 ADDRESS_ON_PARENT q = Ok (Some (VStr (zdec (z + 1))))) /\
       (forall q, ~ reaches (i_props i) ADDRESS_ON_PARENT Q q -> reports E i1 ADDRESS_ON_PARENT q = reports E i ADDRESS_ON_PARENT q))).
  { unfold get_all_values in E1. destruct (prget ADDRESS_ON_PARENT (i_props i)) as [d|] eqn:Ed.
    - destruct d as [|[v t] [|[v' t'] d]]; cbn [map fst] in E1.
      + injection E1 as <-. split; [exact R|]. split; [reflexivity|]. left.
        assert (No : forall q v, ~ own (i_props i) ADDRESS_ON_PARENT q v); [|split; exact No].
        intros q v (d & t & Hd & Ht & _). apply prget_In in Hd; [|apply G]. rewrite Hd in Ed. injection Ed as ->. destruct Ht.
      + destruct v as [a|]; [|discriminate]. destruct (py_int a) as [z|] eqn:Ez; [|discriminate].
        split; [exact (R_set _ E _ _ _ _ _ _ eq_refl R E1)|].
        split; [intros m q u Hm; exact (set_other_rec E i _ _ _ _ i1 m q u R Hm E1)|].
        right. exists a, z. split; [|split; [exact Ez|]].
        * apply (raw_only (e_ver E)); [exact G|]. unfold get_raw. now rewrite Ed.
        * assert (Hv : to_value E ADDRESS_ON_PARENT (IStr (zdec (z + 1))) = VStr (zdec (z + 1))) by reflexivity.
          assert (Hz : truthy (VStr (zdec (z + 1))) = true).
          { cbn [truthy]. pose proof (zdec_nonempty (z + 1)) as F. now destruct (zdec (z + 1)). }
          rewrite <- Hv. rewrite <- Hv in Hz.
          destruct (set_property_reports E i _ _ _ _ i1 R Aplain Hz E1) as (A & B & _). now split.
      + destruct v; discriminate.
    - injection E1 as <-. split; [exact R|]. split; [reflexivity|]. left.
      assert (No : forall q v, ~ own (i_props i) ADDRESS_ON_PARENT q v); [|split; exact No].
      intros q v (d & t & Hd & _). apply prget_In in Hd; [|apply G]. congruence. }
  destruct K1 as (R1 & O1 & A1).
  assert (Final : (i' = i1 /\ ~ only_value (i_props i) RESOURCE_TYPE (VStr (L "10"))) \/
    (only_value (i_props i) RESOURCE_TYPE (VStr (L "10")) /\ set_property E i1 (ELEMENT_NAME (e_ver E)) (IStr (nic n)) Q true = Ok i')).
  { destruct rt as [[t|l]|].
    - destruct (str_eqb t (L "10")) eqn:Et.
      + right. apply str_eqb_eq in Et as ->. split; [now apply Hrt|exact H].
      + left. injection H as <-. split; [reflexivity|]. intros F. apply Hrt in F. injection F as ->. discriminate Et.
    - left. injection H as <-. split; [reflexivity|]. intros F. apply Hrt in F. discriminate.
    - left. injection H as <-. split; [reflexivity|]. intros F. apply Hrt in F. discriminate. }
  assert (Hae : ADDRESS_ON_PARENT <> ELEMENT_NAME (e_ver E)) by (destruct (e_ver E); discriminate).
  destruct Final as [[-> No]|[Yes Es]].
  - split; [exact A1|]. split; [intros F; contradiction|]. intros m q w Hm _. now apply O1.
  - assert (R' : reachable (e_ver E) i') by exact (R_set _ E _ _ _ _ _ _ eq_refl R1 Es).
    assert (O2 : forall m q u, m <> ELEMENT_NAME (e_ver E) -> own (i_props i') m q u <-> own (i_props i1) m q u)
      by (intros m q u Hm; exact (set_other_rec E i1 _ _ _ _ i' m q u R1 Hm Es)).
    assert (Rq : forall q, reports E i' ADDRESS_ON_PARENT q = reports E i1 ADDRESS_ON_PARENT q).
    { intros q. apply reports_same_holds; auto. apply own_holds. intros r u. now apply O2. }
    split; [|split].
    + destruct A1 as [[A B]|(a & z & A & B & C & D)].
      * left. split; [exact A|]. intros q v F. apply O2 in F; [|exact Hae]. exact (B q v F).
      * right. exists a, z. split; [exact A|]. split; [exact B|]. split; intros q Hq; rewrite Rq; [now apply C|now apply D].
    + intros _ Hne Hsv Hst q Hq.
      assert (Rqd : forall r, requested (i_props i1) (ELEMENT_NAME (e_ver E)) Q r <-> requested (i_props i) (ELEMENT_NAME (e_ver E)) Q r).
      { intros r. assert (X : forall r u, own (i_props i1) (ELEMENT_NAME (e_ver E)) r u <-> own (i_props i) (ELEMENT_NAME (e_ver E)) r u)
          by (intros; apply O1; congruence).
        unfold requested. destruct Q; [|reflexivity]. split.
        - intros [(v & Hv)|[F Hr]]; [left; exists v; now apply X|right; split; [|exact Hr]; intros r' v F'; apply X in F'; exact (F r' v F')].
        - intros [(v & Hv)|[F Hr]]; [left; exists v; now apply X|right; split; [|exact Hr]; intros r' v F'; apply X in F'; exact (F r' v F')]. }
      apply (WildcardItemProofs.text_roundtrip E i1 (ELEMENT_NAME (e_ver E)) (nic n) Q true i' R1 (or_introl eq_refl) Hne) with (p := q); [| | |exact Es|now apply Rqd].
      * intros S w x HS HQ He. apply (Hsv S w x HS); [intros r Hr; apply Rqd; now apply HQ|].
        now apply (embeds_kept E i i1 S w x R R1 HS O1).
      * destruct Hst as [Hu Hst]. split; [exact Hu|]. intros S a w1 x w w2 y b HS HQ H1 H2 Hw.
        apply (Hst S a w1 x w w2 y b HS); [intros r Hr; apply Rqd; now apply HQ| | |exact Hw];
          now apply (embeds_kept E i i1 S _ _ R R1 HS O1).
      * intros F. exfalso. destruct (e_ver E); discriminate F.
    + intros m q w Hm Hen. rewrite O2; [now apply O1|]. intros F. exact (Hen F Yes).
Qed.
