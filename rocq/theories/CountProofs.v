(** Proofs about the number of devices of a type. *)
From Coq Require Import Lia Permutation.
From Verif Require Import PyBase PyBaseProofs PyDict PyDictProofs ValidationModel ValidationSpec ValidationProofs XmlModel NamesModel
  ItemModel ItemSpec PsetProofs ItemProofs ItemSetProofs ItemProfileProofs ItemReachProofs ItemAddProofs
  ItemEffectProofs HardwareModel HardwareSpec HardwareProofs HardwareIdProofs ProfileProofs CountSpec CountItemProofs.

(** ** Numbers *)

Fixpoint walk (count : Z) (bs : list bool) (c s : Z) : list bool * Z * Z :=
  match bs with
  | [] => ([], c, s)
  | b :: r => let '(b', c1, s1) := stepf count b c s in
              let '(r', c2, s2) := walk count r c1 s1 in (b' :: r', c2, s2)
  end.
Fixpoint trues (bs : list bool) : Z :=
  match bs with [] => 0 | b :: r => (if b then 1 else 0) + trues r end%Z.
Lemma trues_nonneg : forall bs, (0 <= trues bs)%Z.
Proof. induction bs as [|[] bs IH]; cbn [trues]; lia. Qed.
Lemma trues_le : forall bs, (trues bs <= Z.of_nat (length bs))%Z.
Proof. induction bs as [|[] bs IH]; cbn [trues length]; lia. Qed.

(** Those of [ks] that are marked. *)
Fixpoint pick {A} (ks : list A) (bs : list bool) : list A :=
  match ks, bs with
  | k :: ks', b :: bs' => if b then k :: pick ks' bs' else pick ks' bs'
  | _, _ => []
  end.
Lemma pick_filter : forall (A : Type) (f : A -> bool) ks, pick ks (map f ks) = filter f ks.
Proof. intros A f. induction ks as [|k ks IH]; [reflexivity|]. cbn [pick map filter]. rewrite IH. reflexivity. Qed.
Lemma trues_filter : forall (A : Type) (f : A -> bool) ks, trues (map f ks) = Z.of_nat (length (filter f ks)).
Proof. intros A f. induction ks as [|k ks IH]; [reflexivity|]. cbn [trues map filter]. destruct (f k); cbn [length]; lia. Qed.

(** Enough devices: the first [count] stay. *)
Lemma walk_enough : forall (A : Type) count (ks : list A) bs c s bs' c' s', (count <= c)%Z -> (s <= count)%Z ->
  walk count bs c s = (bs', c', s') -> length bs = length ks ->
  pick ks bs' = firstn (Z.to_nat (count - s)) (pick ks bs).
Proof.
  intros A count. induction ks as [|k ks IH]; intros bs c s bs' c' s' Hc Hs H Hl.
  - destruct bs; [|discriminate]. injection H as <- <- <-. cbn. now rewrite firstn_nil.
  - destruct bs as [|b bs]; [discriminate|]. cbn [walk] in H. unfold stepf in H.
    injection Hl as Hl. destruct b.
    + destruct (count <=? s)%Z eqn:Ec.
      * destruct (walk count bs c s) as [[r c2] s2] eqn:Ew. injection H as <- <- <-.
        cbn [pick]. rewrite (IH _ _ _ _ _ _ Hc Hs Ew Hl). apply Z.leb_le in Ec.
        replace (count - s)%Z with 0%Z by lia. reflexivity.
      * destruct (walk count bs c (s + 1)) as [[r c2] s2] eqn:Ew. injection H as <- <- <-.
        apply Z.leb_gt in Ec. cbn [pick]. rewrite (IH bs c (s + 1)%Z r c2 s2) by (auto; lia).
        replace (Z.to_nat (count - s)) with (S (Z.to_nat (count - (s + 1)))) by lia. reflexivity.
    + destruct (c <? count)%Z eqn:Ec; [apply Z.ltb_lt in Ec; lia|].
      destruct (walk count bs c s) as [[r c2] s2] eqn:Ew. injection H as <- <- <-.
      cbn [pick]. exact (IH _ _ _ _ _ _ Hc Hs Ew Hl).
Qed.

(** Too few: all stay and others are added. *)
Lemma walk_few : forall count bs c s bs' c' s', (c <= count)%Z -> c = (s + trues bs)%Z ->
  walk count bs c s = (bs', c', s') ->
  c' = s' /\ s' = Z.min count (s + Z.of_nat (length bs)) /\ trues bs' = (s' - s)%Z /\
  Forall2 (fun b b' => b = true -> b' = true) bs bs'.
Proof.
  intros count. induction bs as [|b bs IH]; intros c s bs' c' s' Hc Ht H; cbn [walk] in H.
  - injection H as <- <- <-. cbn [trues length] in *. repeat split; try lia. constructor.
  - unfold stepf in H. cbn [trues] in Ht. pose proof (trues_nonneg bs) as Hn. destruct b.
    + destruct (count <=? s)%Z eqn:Ec; [apply Z.leb_le in Ec; lia|].
      destruct (walk count bs c (s + 1)) as [[r c2] s2] eqn:Ew. injection H as <- <- <-.
      apply IH in Ew as (H1 & H2 & H3 & H4); [|lia|lia]. cbn [length trues].
      split; [exact H1|]. split; [lia|]. split; [lia|]. constructor; auto.
    + destruct (c <? count)%Z eqn:Ec.
      * destruct (walk count bs (c + 1) (s + 1)) as [[r c2] s2] eqn:Ew. injection H as <- <- <-.
        apply Z.ltb_lt in Ec. apply IH in Ew as (H1 & H2 & H3 & H4); [|lia|lia]. cbn [length trues].
        split; [exact H1|]. split; [lia|]. split; [lia|]. constructor; auto.
      * destruct (walk count bs c s) as [[r c2] s2] eqn:Ew. injection H as <- <- <-.
        apply Z.ltb_ge in Ec. apply IH in Ew as (H1 & H2 & H3 & H4); [|lia|lia]. cbn [length trues].
        pose proof (trues_le bs).
        split; [exact H1|]. split; [lia|]. split; [lia|]. constructor; auto; discriminate.
Qed.

Lemma walk_seen : forall count bs c s bs' c' s', (count <= c)%Z -> (s <= count)%Z ->
  walk count bs c s = (bs', c', s') -> s' = Z.min count (s + trues bs) /\ c' = c.
Proof.
  intros count. induction bs as [|b bs IH]; intros c s bs' c' s' Hc Hs H; cbn [walk] in H.
  - injection H as <- <- <-. cbn [trues]. lia.
  - unfold stepf in H. cbn [trues]. pose proof (trues_nonneg bs) as Hn. destruct b.
    + destruct (count <=? s)%Z eqn:Ec.
      * destruct (walk count bs c s) as [[r c2] s2] eqn:Ew. injection H as <- <- <-. apply Z.leb_le in Ec.
        apply IH in Ew as (H1 & H2); lia.
      * destruct (walk count bs c (s + 1)) as [[r c2] s2] eqn:Ew. injection H as <- <- <-. apply Z.leb_gt in Ec.
        apply IH in Ew as (H1 & H2); lia.
    + destruct (c <? count)%Z eqn:Ec; [apply Z.ltb_lt in Ec; lia|].
      destruct (walk count bs c s) as [[r c2] s2] eqn:Ew. injection H as <- <- <-. apply IH in Ew as (H1 & H2); lia.
Qed.

(** ** The existing devices *)

Definition hasp (E : env) (h : hw) (p : profile) (k : str) : bool :=
  match hget k h with Some i => has_profile E i p | None => false end.

Lemma hget_hset : forall h k i k', hget k' (hset k i h) = if str_eqb k' k then Some i else hget k' h.
Proof.
  intros h k i k'. unfold hget, hset. destruct (str_eqb k' k) eqn:E.
  - apply str_eqb_eq in E as ->. apply (dget_dset_same str_eqb str_eqb_eq).
  - apply (dget_dset_other str_eqb str_eqb_eq). intros ->. rewrite str_eqb_refl in E. discriminate.
Qed.
Lemma hget_hset_other : forall h k i k', k' <> k -> hget k' (hset k i h) = hget k' h.
Proof. intros h k i k' H. rewrite hget_hset. destruct (str_eqb k' k) eqn:E; [|reflexivity]. now apply str_eqb_eq in E. Qed.
Lemma hget_hset_same : forall h k i, hget k (hset k i h) = Some i.
Proof. intros. now rewrite hget_hset, str_eqb_refl. Qed.

Lemma update_items : forall E count P, NoDup P -> forall ks h cd seen h' cd' seen' m,
  NoDup ks -> NoDup (map fst h) ->
  (forall k, In k ks -> exists i, hget k h = Some i /\ reachable (e_ver E) i /\ typed (e_ver E) i /\
     (exists q, rec i (INSTANCE_ID (e_ver E)) q) /\
     forall p, In p P -> exists x, p = Some x /\ In x (config_of E i)) ->
  (forall p, In p P -> (cget seen p <= m)%Z /\ ((count <= cget cd p)%Z \/
     (cget seen p = m /\ cget cd p = (cget seen p + trues (map (hasp E h p) ks))%Z))) ->
  fold_result (update_item E count P) ks (h, cd, seen) = Ok (h', cd', seen') ->
  map fst h' = map fst h /\ (forall k, ~ In k ks -> hget k h' = hget k h) /\
  (forall k, In k ks -> exists i i', hget k h = Some i /\ hget k h' = Some i' /\ keeps E i i' /\
     forall y, ~ In (Some y) P -> has_profile E i' (Some y) = has_profile E i (Some y)) /\
  (forall p, In p P -> walk count (map (hasp E h p) ks) (cget cd p) (cget seen p) =
                       (map (hasp E h' p) ks, cget cd' p, cget seen' p)).
Proof.
  intros E count P NDP. induction ks as [|k ks IH]; intros h cd seen h' cd' seen' m ND NDh Hk Hc H; cbn [fold_result] in H.
  - injection H as <- <- <-. split; [reflexivity|]. split; [reflexivity|]. split; [intros k []|]. reflexivity.
  - destruct (update_item E count P (h, cd, seen) k) as [[[h1 cd1] seen1]|] eqn:E1; [|discriminate]. cbn [rbind] in H.
    inversion ND as [|? ? Hnk NDk]; subst.
    destruct (Hk k (or_introl eq_refl)) as (i & Hi & R & T & Hr & HP).
    unfold update_item in E1. unfold hitem in E1. rewrite Hi in E1. cbn [rbind] in E1.
    destruct (fold_result (update_step E count) P (i, cd, seen)) as [[[i1 cd2] seen2]|] eqn:E2; [|discriminate].
    cbn [rbind] in E1. injection E1 as <- <- <-.
    apply update_steps in E2 as (K & S1 & S2 & _); auto.
    2: { destruct (Z.lt_ge_cases m count) as [Hm|Hm].
         - right. split; [|exact Hr]. intros p Hp. destruct (Hc p Hp) as [H1 _]. lia.
         - left. intros p Hp. destruct (Hc p Hp) as [_ [H2|[H2 H3]]]; [exact H2|].
           pose proof (trues_nonneg (map (hasp E h p) (k :: ks))). lia. }
    assert (Hm : forall p, map (hasp E (hset k i1 h) p) ks = map (hasp E h p) ks).
    { intros p. apply map_ext_in. intros k' Hk'. unfold hasp. rewrite hget_hset_other; [reflexivity|congruence]. }
    assert (Hb : forall p, hasp E h p k = has_profile E i p) by (intros p; unfold hasp; now rewrite Hi).
    apply (IH _ _ _ _ _ _ (m + 1)%Z) in H as (H1 & H2 & H3 & H4).
    + assert (Hk' : hget k h' = Some i1) by (rewrite H2 by exact Hnk; apply hget_hset_same).
      split; [|split; [|split]].
      * rewrite H1. unfold hset. rewrite (dset_keys str_eqb). unfold dmem.
        unfold hget in Hi. rewrite Hi. reflexivity.
      * intros k' Hn. rewrite H2 by (intros F; apply Hn; now right). apply hget_hset_other. intros ->. apply Hn. now left.
      * intros k' [<- |Hin]; [exists i, i1; auto|].
        destruct (H3 k' Hin) as (a & b & Ha & Hb' & K' & S'). exists a, b.
        rewrite hget_hset_other in Ha by congruence. auto.
      * intros p Hp. cbn [map walk]. rewrite Hb, (S1 p Hp). rewrite <- (Hm p), (H4 p Hp).
        unfold hasp at 2. rewrite Hk'. reflexivity.
    + exact NDk.
    + now apply hset_NoDup.
    + intros k' Hin. destruct (Hk k' (or_intror Hin)) as (a & Ha & HA). exists a.
      rewrite hget_hset_other by congruence. auto.
    + intros p Hp. rewrite (Hm p). pose proof (S1 p Hp) as St. unfold stepf in St.
      destruct (Hc p Hp) as [C1 C2]. cbn [map trues] in C2. rewrite Hb in C2.
      pose proof (trues_nonneg (map (hasp E h p) ks)) as Hn.
      destruct (has_profile E i p).
      * destruct (count <=? cget seen p)%Z eqn:Ec; injection St as _ <- <-.
        -- apply Z.leb_le in Ec. split; [lia|]. left. lia.
        -- apply Z.leb_gt in Ec. split; [lia|]. lia.
      * destruct (cget cd p <? count)%Z eqn:Ec; injection St as _ <- <-.
        -- apply Z.ltb_lt in Ec. split; [lia|]. right. lia.
        -- apply Z.ltb_ge in Ec. split; [lia|]. left. lia.
Qed.

(** ** Finding devices *)

Definition kindb (E : env) (v : str) (i : item) : bool :=
  match get_value E (i_props i) RESOURCE_TYPE None with
  | Ok o => opt_value_eqb (Some (VStr v)) o
  | Err _ => false
  end.
Lemma kindb_iff : forall E v i, kindb E v i = true <->
  get_value E (i_props i) RESOURCE_TYPE None = Ok (Some (VStr v)).
Proof.
  intros E v i. unfold kindb. destruct (kind_total E i) as [o ->]. destruct o as [w|]; cbn [opt_value_eqb].
  - split; [intros H; apply value_eqb_eq in H as <-; reflexivity|]. intros H. injection H as ->. now apply value_eqb_eq.
  - split; discriminate.
Qed.

Definition matches (E : env) (v : str) (P : list profile) (h : hw) (k : str) : bool :=
  match hget k h with Some i => kindb E v i && forallb (has_profile E i) P | None => false end.

Lemma rfilter_filter : forall (A : Type) (f : A -> result bool) g l, (forall x, In x l -> f x = Ok (g x)) ->
  rfilter f l = Ok (filter g l).
Proof.
  intros A f g. induction l as [|a l IH]; intros H; cbn [rfilter filter]; [reflexivity|].
  rewrite (H a (or_introl eq_refl)). cbn [rbind]. rewrite IH by (intros x Hx; apply H; now right). reflexivity.
Qed.

Lemma find_all_filter : forall E h rt v P keys, res_map rt = Ok v -> natural_sort (map fst h) = Ok keys ->
  find_all_items E h (Some rt) [] P = Ok (filter (matches E v P h) keys).
Proof.
  intros E h rt v P keys Hv Hk. unfold find_all_items. rewrite Hk. cbn [rbind]. apply rfilter_filter.
  intros k Hin. apply natural_sort_sound in Hk as [Pm _].
  assert (Ht : In k (map fst h)) by exact (Permutation_in _ (Permutation_sym Pm) Hin).
  unfold matches, hitem. destruct (hget k h) as [i|] eqn:Ei.
  - cbn [rbind]. unfold item_match, type_match, kindb. rewrite Hv. cbn [rbind].
    destruct (kind_total E i) as [o ->]. cbn [rbind].
    destruct (opt_value_eqb (Some (VStr v)) o); [|reflexivity]. cbn [negb andb].
    destruct (forallb (has_profile E i) P); reflexivity.
  - exfalso. unfold hget in Ei. now apply (dget_None str_eqb str_eqb_eq) in Ei.
Qed.

Lemma find_all_inv : forall E h rt P ks, find_all_items E h (Some rt) [] P = Ok ks ->
  exists keys, natural_sort (map fst h) = Ok keys /\ (map fst h = [] \/ exists v, res_map rt = Ok v).
Proof.
  intros E h rt P ks H. unfold find_all_items in H.
  destruct (natural_sort (map fst h)) as [keys|] eqn:Ek; [|discriminate]. cbn [rbind] in H.
  exists keys. split; [reflexivity|]. apply natural_sort_sound in Ek as [Pm _].
  destruct (map fst h) as [|a l] eqn:Eh; [now left|right].
  destruct keys as [|k keys]; [apply Permutation_sym, Permutation_nil in Pm; discriminate|].
  cbn [rfilter] in H. destruct (hitem k h) as [i|]; [|discriminate]. cbn [rbind] in H.
  unfold item_match, type_match in H. destruct (res_map rt) as [v|]; [eauto|discriminate].
Qed.

(** The order does not matter for the number. *)
Definition number (E : env) (v : str) (p : profile) (h : hw) : nat :=
  length (filter (fun ki : str * item => kindb E v (snd ki) && has_profile E (snd ki) p) h).

Lemma filter_length_perm : forall (A : Type) (f : A -> bool) l l', Permutation l l' ->
  length (filter f l) = length (filter f l').
Proof.
  intros A f l l' H. induction H; cbn [filter]; auto.
  - destruct (f x); cbn [length]; congruence.
  - destruct (f x), (f y); reflexivity.
  - congruence.
Qed.

Lemma devices_number : forall E h rt v p ks, NoDup (map fst h) -> res_map rt = Ok v ->
  devices E h rt p = Ok ks -> length ks = number E v p h.
Proof.
  intros E h rt v p ks ND Hv H. destruct (find_all_inv _ _ _ _ _ H) as (keys & Hk & _).
  unfold devices in H. rewrite (find_all_filter _ _ _ _ _ _ Hv Hk) in H. injection H as <-.
  apply natural_sort_sound in Hk as [Pm _]. rewrite <- (filter_length_perm _ _ _ _ Pm).
  unfold number. clear Pm keys.
  assert (G : forall l, (forall k i, In (k, i) l -> hget k h = Some i) ->
    length (filter (matches E v [p] h) (map fst l)) =
    length (filter (fun ki : str * item => kindb E v (snd ki) && has_profile E (snd ki) p) l)).
  { induction l as [|[k i] l IH]; intros Hl; [reflexivity|]. cbn [map fst filter snd].
    assert (E1 : matches E v [p] h k = kindb E v i && has_profile E i p).
    { unfold matches. rewrite (Hl k i (or_introl eq_refl)). cbn [forallb]. now rewrite andb_true_r. }
    rewrite E1. specialize (IH (fun k' i' Hi => Hl k' i' (or_intror Hi))).
    destruct (kindb E v i && has_profile E i p); cbn [length]; congruence. }
  apply G. intros k i Hi. now apply hget_In.
Qed.

(** ** Counting *)

Lemma count_item_spec : forall E i P c p, NoDup P ->
  cget (count_item E P c i) p = (cget c p + (if pmem p P && has_profile E i p then 1 else 0))%Z.
Proof.
  intros E i. unfold count_item. induction P as [|q P IH]; intros c p ND; cbn [fold_left]; [cbn; lia|].
  inversion ND as [|? ? Hq NDP]; subst. rewrite IH by exact NDP. cbn [pmem existsb].
  destruct (profile_eqb p q) eqn:Epq.
  - apply profile_eqb_eq in Epq as ->. cbn [orb andb].
    assert (pmem q P = false) as -> by (apply not_true_iff_false; now rewrite pmem_In). cbn [andb].
    destruct (has_profile E i q); [rewrite cget_cincr_same|]; lia.
  - assert (Hn : p <> q) by (intros ->; rewrite (proj2 (profile_eqb_eq q q) eq_refl) in Epq; discriminate).
    cbn [orb]. change (existsb (profile_eqb p) P) with (pmem p P).
    destruct (has_profile E i q); [rewrite cget_cincr_other by exact Hn|]; reflexivity.
Qed.

Lemma count_items_spec : forall E h P ks c c', NoDup P ->
  fold_result (fun c k => do i <- hitem k h; Ok (count_item E P c i)) ks c = Ok c' ->
  forall p, In p P -> cget c' p = (cget c p + trues (map (hasp E h p) ks))%Z.
Proof.
  intros E h P. induction ks as [|k ks IH]; intros c c' ND H p Hp; cbn [fold_result] in H.
  - injection H as <-. cbn. lia.
  - unfold hitem in H at 1. destruct (hget k h) as [i|] eqn:Ei; [|discriminate]. cbn [rbind] in H.
    rewrite (IH _ _ ND H p Hp). rewrite count_item_spec by exact ND. rewrite (proj2 (pmem_In p P) Hp).
    cbn [map trues andb]. unfold hasp at 2. rewrite Ei. lia.
Qed.

Lemma all_or_some : forall E P, P <> [] -> all_or E P = P.
Proof. intros E [|p P]; [congruence|reflexivity]. Qed.

(** The devices of a type, restricted to a profile. *)
Lemma matches_hasp : forall E v h keys q,
  filter (matches E v [q] h) keys = filter (hasp E h q) (filter (matches E v [] h) keys).
Proof.
  intros E v h keys q. rewrite filter_filter. apply filter_ext. intros k. unfold matches, hasp.
  destruct (hget k h); [|reflexivity]. cbn [forallb]. now rewrite !andb_true_r.
Qed.

Theorem count_devices : forall E h rt v p ks, res_map rt = Ok v -> devices E h rt p = Ok ks ->
  get_item_count E h (Some rt) p = Ok (Z.of_nat (length ks)).
Proof.
  intros E h rt v p ks Hv H. destruct (find_all_inv _ _ _ _ _ H) as (keys & Hk & _).
  unfold devices in H. rewrite (find_all_filter _ _ _ _ _ _ Hv Hk) in H. injection H as <-.
  unfold get_item_count, item_counts. cbn [all_or]. rewrite (find_all_filter _ _ _ _ [] _ Hv Hk). cbn [rbind].
  assert (ND : NoDup [p]) by (constructor; [intros []|constructor]).
  destruct (fold_result _ _ (zeros [p])) as [c|e] eqn:Ef.
  - cbn [rbind]. rewrite (count_items_spec _ _ _ _ _ _ ND Ef p (or_introl eq_refl)).
    rewrite cget_zeros, matches_hasp, trues_filter. reflexivity.
  - exfalso. destruct (fold_total _ _ (fun _ => True) (fun c k => do i <- hitem k h; Ok (count_item E [p] c i))
      (filter (matches E v [] h) keys) (zeros [p]) I) as [s Hs]; [|congruence].
    intros s k _ Hin. apply filter_In in Hin as [_ Hm]. unfold matches in Hm. unfold hitem.
    destruct (hget k h); [|discriminate]. cbn [rbind]. eauto.
Qed.

(** ** New devices *)

Lemma to_add : forall count P seen s, P <> [] -> (s <= count)%Z -> (forall p, In p P -> cget seen p = s) ->
  items_to_add count P seen = (count - s)%Z.
Proof.
  intros count P seen s HP Hs H. unfold items_to_add.
  assert (G : forall l m, (forall p, In p l -> cget seen p = s) ->
    fold_left (fun m p => Z.max m (count - cget seen p)) l m = if is_nil l then m else Z.max m (count - s)%Z).
  { induction l as [|p l IH]; intros m Hl; [reflexivity|]. cbn [fold_left is_nil].
    rewrite IH by (intros q Hq; apply Hl; now right). rewrite (Hl p (or_introl eq_refl)).
    destruct (is_nil l); lia. }
  rewrite G by exact H. destruct P; [congruence|]. cbn [is_nil]. lia.
Qed.

Lemma wanting_all : forall count P cd, NoDup P -> (forall p, In p P -> (cget cd p < count)%Z) ->
  exists cd', wanting count P cd = (P, cd') /\ forall p, In p P -> cget cd' p = (cget cd p + 1)%Z.
Proof.
  intros count P cd ND H. unfold wanting.
  assert (G : forall l acc c, NoDup l -> (forall p, In p l -> (cget c p < count)%Z) ->
    exists c', fold_left (fun (s : list profile * counts) p =>
      if (cget (snd s) p <? count)%Z then (fst s ++ [p], cincr (snd s) p) else s) l (acc, c) = (acc ++ l, c') /\
      (forall p, In p l -> cget c' p = (cget c p + 1)%Z) /\ forall p, ~ In p l -> cget c' p = cget c p).
  { induction l as [|p l IH]; intros acc c NDl Hl; cbn [fold_left].
    - exists c. rewrite app_nil_r. split; [reflexivity|]. split; [intros p []|reflexivity].
    - cbn [fst snd]. rewrite (proj2 (Z.ltb_lt _ _) (Hl p (or_introl eq_refl))).
      inversion NDl as [|? ? Hp ND']; subst.
      destruct (IH (acc ++ [p]) (cincr c p) ND') as (c' & -> & H1 & H2).
      { intros q Hq. rewrite cget_cincr_other by congruence. apply Hl. now right. }
      exists c'. rewrite <- app_assoc. split; [reflexivity|]. split.
      + intros q [<- |Hq]; [rewrite H2 by exact Hp; apply cget_cincr_same|].
        rewrite H1 by exact Hq. now rewrite cget_cincr_other by congruence.
      + intros q Hq. rewrite H2 by (intros F; apply Hq; now right). apply cget_cincr_other.
        intros ->. apply Hq. now left. }
  destruct (G P [] cd ND H) as (cd' & H1 & H2 & _). exists cd'. auto.
Qed.

Lemma sort_more : forall l k keys, natural_sort l = Ok keys -> plain_text k ->
  exists keys', natural_sort (l ++ [k]) = Ok keys'.
Proof.
  intros l k keys H Hk. unfold natural_sort in *.
  destruct (rmap (fun s => do k <- alphanum_split s; Ok (k, s)) l) as [kd|] eqn:E1; [|discriminate].
  apply rmap_ok_inv in E1.
  destruct (rmap_all_ok _ _ (fun s => do k <- alphanum_split s; Ok (k, s)) (l ++ [k])) as [kd' ->]; [|cbn [rbind]; eauto].
  intros x Hx. apply in_app_iff in Hx as [Hx|[<- |[]]].
  - clear H. induction E1 as [|a b l' kd' Hab HF IH]; [contradiction|]. destruct Hx as [<- |Hx]; [eauto|now apply IH].
  - destruct (natural_sort_ok [k]) as (out & Ho & _); [intros s [<- |[]]; exact Hk|].
    unfold natural_sort in Ho. cbn [rmap] in Ho. destruct (do k0 <- alphanum_split k; Ok (k0, k)) as [y|]; [eauto|discriminate].
Qed.

Lemma hset_twice : forall (h : hw) k a b, hset k b (hset k a h) = hset k b h.
Proof.
  intros h k a b. unfold hset. induction h as [|[k' i] h IH]; cbn [dset].
  - now rewrite str_eqb_refl.
  - destruct (str_eqb k k') eqn:E; cbn [dset]; rewrite E; [reflexivity|]. now rewrite IH.
Qed.

Lemma zdec_plain : forall z, plain_text (zdec z).
Proof.
  assert (D : forall n, plain_text (dec n)).
  { intros n c Hc. pose proof (dec_digits n) as H. rewrite forallb_forall in H. specialize (H c Hc).
    unfold is_unicode_digit. now rewrite H. }
  intros [|p|p]; cbn [zdec]; try apply D. intros c [<- |Hc]; [reflexivity|exact (D _ c Hc)].
Qed.

Lemma add_items_spec : forall E nic count P rt v, NoDup P -> P <> [] -> ~ In None P -> res_map rt = Ok v ->
  forall n h cd last_item h' keys, ids_ok (e_ver E) h -> natural_sort (map fst h) = Ok keys ->
  (forall p, In p P -> cget cd p = (count - Z.of_nat n)%Z) ->
  (forall k, last_item = Some k -> exists i, In (k, i) h /\ typed (e_ver E) i /\ kindb E v i = true /\
     forall p, In p P -> has_profile E i p = true) ->
  add_items E nic n h rt count P cd last_item = Ok h' ->
  exists new keys', h' = h ++ new /\ length new = n /\ ids_ok (e_ver E) h' /\
    natural_sort (map fst h') = Ok keys' /\
    forall k i, In (k, i) new -> placed E P i /\ kindb E v i = true.
Proof.
  intros E nic count P rt v ND HP HN Hv. induction n as [|n IH]; intros h cd lst h' keys Hh Hks Hcd Hl H; cbn [add_items] in H.
  - injection H as <-. exists [], keys. rewrite app_nil_r. split; [reflexivity|]. split; [reflexivity|]. split; [exact Hh|]. split; [exact Hks|]. intros k i [].
  - destruct (wanting_all count P cd ND) as (cd' & Ew & Hcd').
    { intros p Hp. rewrite Hcd by exact Hp. lia. }
    rewrite Ew in H.
    match type of H with rbind ?r _ = _ => destruct r as [[k h1]|] eqn:E1; [|discriminate] end. cbn [rbind] in H.
    assert (S : exists i z, h1 = hset k i h /\ ~ taken h k /\ placed E P i /\ kindb E v i = true /\
      id_is (e_ver E) k i /\ k = zdec z).
    { destruct lst as [k0|].
      - destruct (Hl k0 eq_refl) as (i0 & Hi0 & Ti0 & Ki0 & Pi0).
        destruct (clone_item_inv E h k0 P k h1 Hh E1) as (j & st & _ & (z & Hz & _) & Hj & Hid & _).
        apply kindb_iff in Ki0.
        destruct (clone_placed E h k0 i0 P k h1 _ Hh Hi0 Ti0 Ki0 HP HN Pi0 E1) as (i & Hi & Hf & Hp & Hw & _).
        exists i, z. assert (j = i) as -> .
        { assert (F : hget k h1 = hget k h1) by reflexivity. rewrite Hj in F at 1. rewrite Hi in F.
          rewrite !hget_hset_same in F. congruence. }
        split; [exact Hi|]. split; [exact Hf|]. split; [exact Hp|]. split; [now apply kindb_iff|]. split; [exact Hid|exact Hz].
      - destruct (new_item_inv E h rt P k h1 E1) as (j & (z & Hz & _) & Hj & Hid & _).
        destruct (new_placed E h rt P k h1 v HP HN Hv E1) as (i & Hi & Hf & Hp & Hw & _).
        exists i, z. assert (j = i) as -> .
        { assert (F : hget k h1 = hget k h1) by reflexivity. rewrite Hj in F at 1. rewrite Hi in F.
          rewrite !hget_hset_same in F. congruence. }
        split; [exact Hi|]. split; [exact Hf|]. split; [exact Hp|]. split; [now apply kindb_iff|]. split; [exact Hid|exact Hz]. }
    destruct S as (i & z & -> & Hf & Hpl & Hki & Hid & Hz).
    unfold hitem in H. rewrite hget_hset_same in H. cbn [rbind] in H.
    destruct P as [|q P']; [congruence|]. set (P := q :: P') in *.
    destruct (update_cloned E nic i P (cget cd' q)) as [i'|] eqn:Eu; [|discriminate]. cbn [rbind] in H.
    apply kindb_iff in Hki.
    destruct (update_cloned_placed E nic i P P _ i' _ Hpl Hki Eu) as (Hpl' & Hki' & _).
    apply (id_update_cloned E nic k) in Eu as Hid'; [|exact Hid].
    rewrite hset_twice in H.
    assert (Hh1 : ids_ok (e_ver E) (hset k i' h)) by now apply ids_hset.
    rewrite (hset_fresh h k i' Hf) in *.
    destruct (sort_more (map fst h) k keys Hks) as [keys1 Hk1]; [rewrite Hz; apply zdec_plain|].
    destruct (IH (h ++ [(k, i')]) cd' (Some k) h' keys1) as (new & keys' & -> & Hn & Hids & Hs & Hall); auto.
    + rewrite map_app. exact Hk1.
    + intros p Hp. rewrite Hcd' by exact Hp. rewrite Hcd by exact Hp. lia.
    + intros k0 Hk0. injection Hk0 as <-. exists i'. split; [apply in_app_iff; right; now left|].
      split; [|split; [now apply kindb_iff|]].
      * intros p. rewrite (pl_iid _ _ _ Hpl' p), (pl_rt _ _ _ Hpl' p). reflexivity.
      * intros p Hp. apply has_named; [exact (reachable_good _ _ (pl_reach _ _ _ Hpl'))|]. now apply (pl_iid _ _ _ Hpl').
    + exists ((k, i') :: new), keys'. rewrite <- app_assoc in *. cbn [app] in *. split; [reflexivity|].
      split; [cbn [length]; lia|]. split; [exact Hids|]. split; [exact Hs|].
      intros k0 i0 [Heq|Hin]; [injection Heq as <- <-; split; [exact Hpl'|now apply kindb_iff]|].
      exact (Hall k0 i0 Hin).
Qed.

Lemma last_In : forall (A : Type) (l : list A) x, last (map Some l) None = Some x -> In x l.
Proof.
  intros A. induction l as [|a l IH]; intros x H; [discriminate|]. cbn [map last] in H.
  destruct l as [|b l']; [cbn in H; injection H as ->; now left|right]. apply IH. exact H.
Qed.

Lemma typed_same : forall ver i, same_profiles ver i <-> typed ver i.
Proof. reflexivity. Qed.

Lemma hasp_app : forall E h new q k, In k (map fst h) -> hasp E (h ++ new) q k = hasp E h q k.
Proof.
  intros E h new q k H. unfold hasp, hget. induction h as [|[k' i] h IH]; [contradiction|].
  cbn [app dget]. destruct (str_eqb k k') eqn:Ek; [reflexivity|]. apply IH. destruct H as [H|H]; [|exact H].
  cbn in H. subst. rewrite str_eqb_refl in Ek. discriminate.
Qed.

Lemma devices_In : forall E h rt v q ks, NoDup (map fst h) -> res_map rt = Ok v -> devices E h rt q = Ok ks ->
  forall k, In k ks <-> exists i, In (k, i) h /\ kindb E v i = true /\ has_profile E i q = true.
Proof.
  intros E h rt v q ks ND Hv H k. destruct (find_all_inv _ _ _ _ _ H) as (keys & Hk & _).
  unfold devices in H. rewrite (find_all_filter _ _ _ _ _ _ Hv Hk) in H. injection H as <-.
  apply natural_sort_sound in Hk as [Pm _]. rewrite filter_In. unfold matches. split.
  - intros [_ H]. destruct (hget k h) as [i|] eqn:Ei; [|discriminate]. exists i.
    apply andb_true_iff in H as [H1 H2]. cbn [forallb] in H2. rewrite andb_true_r in H2.
    split; [now apply hget_In|auto].
  - intros (i & Hi & H1 & H2). split.
    + apply (Permutation_in _ Pm). apply in_map_iff. now exists (k, i).
    + apply hget_In in Hi; [|exact ND]. rewrite Hi. cbn [forallb]. now rewrite H1, H2.
Qed.

Theorem set_count_explicit : forall E nic h rt v count P h',
  ids_ok (e_ver E) h -> res_map rt = Ok v -> P <> [] -> NoDup P -> (0 <= count)%Z -> ~ In None P ->
  (forall k i, In (k, i) h -> kindb E v i = true ->
     typed (e_ver E) i /\ forall x, In (Some x) P -> In x (config_of E i)) ->
  set_item_count E nic h rt count P = Ok h' ->
  (forall p, In p P -> exists ks ks', devices E h rt p = Ok ks /\ devices E h' rt p = Ok ks' /\
     Z.of_nat (length ks') = count /\
     ((count <= Z.of_nat (length ks))%Z -> ks' = firstn (Z.to_nat count) ks) /\
     ((Z.of_nat (length ks) <= count)%Z -> incl ks ks')) /\
  (forall x, ~ In (Some x) P -> exists ks ks', devices E h rt (Some x) = Ok ks /\
     devices E h' rt (Some x) = Ok ks' /\ forall k, In k ks' <-> In k ks) /\
  (forall k i, In (k, i) h -> kindb E v i = false -> In (k, i) h') /\
  incl (map fst h) (map fst h').
Proof.
  intros E nic h rt v count P h' Hh Hv HP ND Hc HN Hd H. unfold set_item_count in H.
  rewrite all_or_some in H by exact HP.
  destruct (update_existing E h rt count P) as [[[[h1 cd] n] lst]|] eqn:E1; [|discriminate]. cbn [rbind] in H.
  assert (Hh1 : ids_ok (e_ver E) h1) by exact (ids_update_existing _ _ _ _ _ _ _ _ _ Hh E1).
  unfold update_existing in E1.
  destruct (item_counts E h (Some rt) P) as [cd0|] eqn:Ec; [|discriminate]. cbn [rbind] in E1.
  destruct (find_all_items E h (Some rt) [] []) as [all|] eqn:Ef; [|discriminate]. cbn [rbind] in E1.
  destruct (find_all_inv _ _ _ _ _ Ef) as (keys & Hk & _).
  rewrite (find_all_filter _ _ _ _ _ _ Hv Hk) in Ef. injection Ef as Hall.
  unfold item_counts in Ec. rewrite all_or_some in Ec by exact HP.
  rewrite (find_all_filter _ _ _ _ _ _ Hv Hk), Hall in Ec. cbn [rbind] in Ec.
  assert (Hcd0 : forall p, In p P -> cget cd0 p = trues (map (hasp E h p) all)).
  { intros p Hp. rewrite (count_items_spec _ _ _ _ _ _ ND Ec p Hp), cget_zeros. lia. }
  destruct (fold_result (update_item E count P) all (h, cd0, zeros P)) as [[[h2 cd1] seen]|] eqn:Eu; [|discriminate].
  cbn [rbind] in E1. injection E1 as -> -> <- <-.
  destruct Hh as [NDh Hids]. pose proof (natural_sort_sound _ _ Hk) as [Pm _].
  assert (NDk : NoDup keys) by exact (Permutation_NoDup Pm NDh).
  assert (NDa : NoDup all) by (rewrite <- Hall; now apply NoDup_filter).
  assert (Hin : forall k, In k all -> exists i, hget k h = Some i /\ kindb E v i = true).
  { intros k Hka. rewrite <- Hall in Hka. apply filter_In in Hka as [_ Hm]. unfold matches in Hm.
    destruct (hget k h) as [i|]; [|discriminate]. exists i. split; [reflexivity|].
    now apply andb_true_iff in Hm as [Hm _]. }
  apply (update_items E count P ND all h cd0 (zeros P) h1 cd seen 0%Z NDa NDh) in Eu as (U1 & U2 & U3 & U4).
  2: { intros k Hka. destruct (Hin k Hka) as (i & Hi & Ki). exists i. apply hget_In in Hi as Hi'; [|exact NDh].
       destruct (Hids k i Hi') as [R _]. destruct (Hd k i Hi' Ki) as [T Cf].
       split; [exact Hi|]. split; [exact R|]. split; [exact T|]. split.
       - apply kindb_iff, kind_own in Ki as [q Hq]; [|exact (reachable_good _ _ R)]. exists q. apply T. now exists (VStr v).
       - intros p Hp. destruct p as [x|]; [|contradiction]. exists x. auto. }
  2: { intros p Hp. rewrite cget_zeros. split; [lia|]. right. split; [reflexivity|]. rewrite Hcd0 by exact Hp. lia. }
  assert (Hk1 : natural_sort (map fst h1) = Ok keys) by now rewrite U1.
  (* the devices of h1 *)
  assert (Typ : forall k i, In k all -> hget k h1 = Some i -> forall q, has_profile E i q = true -> kindb E v i = true).
  { intros k i1 Hka Hi1 q Hq. destruct (U3 k Hka) as (i & i' & Hi & Hi' & K & _).
    destruct (Hin k Hka) as (i0 & Hi0 & Ki). assert (i0 = i) as -> by congruence. assert (i' = i1) as -> by congruence.
    apply kindb_iff. apply hget_In in Hi; [|exact NDh]. destruct (Hids k i Hi) as [R _].
    apply kindb_iff in Ki. exact (keeps_type E i i1 _ q R K Ki Hq). }
  assert (D0 : forall q, devices E h rt q = Ok (filter (hasp E h q) all)).
  { intros q. unfold devices. rewrite (find_all_filter _ _ _ _ _ _ Hv Hk), matches_hasp, Hall. reflexivity. }
  assert (D1 : forall q, devices E h1 rt q = Ok (filter (hasp E h1 q) all)).
  { intros q. unfold devices. rewrite (find_all_filter _ _ _ _ _ _ Hv Hk1). f_equal.
    rewrite <- Hall, filter_filter. apply filter_ext_in. intros k Hkk. unfold matches at 1.
    destruct (matches E v [] h k) eqn:Em.
    - assert (Hka : In k all) by (rewrite <- Hall; now apply filter_In). cbn [andb]. unfold hasp.
      destruct (hget k h1) as [i|] eqn:Ei; [|reflexivity]. cbn [forallb]. rewrite andb_true_r.
      destruct (has_profile E i q) eqn:Eq; [|apply andb_false_r]. now rewrite (Typ k i Hka Ei q Eq).
    - assert (Hka : ~ In k all) by (rewrite <- Hall; intros F; apply filter_In in F as [_ F]; congruence).
      rewrite (U2 k Hka). cbn [andb]. unfold matches in Em. destruct (hget k h); [|reflexivity].
      cbn [forallb] in Em. rewrite andb_true_r in Em. now rewrite Em. }
  assert (Other : forall k i, In (k, i) h -> kindb E v i = false -> In (k, i) h1).
  { intros k i Hi Ki. apply hget_In; [apply Hh1|]. rewrite U2; [now apply hget_In|].
    intros F. destruct (Hin k F) as (j & Hj & Kj). apply hget_In in Hi; [|exact NDh]. congruence. }
  assert (OtherP : forall x, ~ In (Some x) P -> map (hasp E h1 (Some x)) all = map (hasp E h (Some x)) all).
  { intros x Hx. apply map_ext_in. intros k Hka. destruct (U3 k Hka) as (i & i' & Hi & Hi' & _ & Ho).
    unfold hasp. rewrite Hi, Hi'. now apply Ho. }
  assert (OtherF : forall x, ~ In (Some x) P -> filter (hasp E h1 (Some x)) all = filter (hasp E h (Some x)) all).
  { intros x Hx. rewrite <- !pick_filter. now rewrite OtherP. }
  assert (T : forall p, trues (map (hasp E h p) all) = Z.of_nat (length (filter (hasp E h p) all)))
    by (intros p; apply trues_filter).
  assert (Walk : forall p, In p P -> walk count (map (hasp E h p) all) (trues (map (hasp E h p) all)) 0 =
     (map (hasp E h1 p) all, cget cd p, cget seen p)).
  { intros p Hp. rewrite <- (U4 p Hp), (Hcd0 p Hp), cget_zeros. reflexivity. }
  assert (Enough : forall p, In p P -> (count <= trues (map (hasp E h p) all))%Z ->
    filter (hasp E h1 p) all = firstn (Z.to_nat count) (filter (hasp E h p) all)).
  { intros p Hp Ht. pose proof (walk_enough _ _ all _ _ _ _ _ _ Ht Hc (Walk p Hp)) as W.
    rewrite !pick_filter, Z.sub_0_r in W. apply W. now rewrite map_length. }
  assert (Few : forall p, In p P -> (trues (map (hasp E h p) all) <= count)%Z ->
    incl (filter (hasp E h p) all) (filter (hasp E h1 p) all)).
  { intros p Hp Ht k Hka. apply filter_In in Hka as [Hka Hb]. apply filter_In. split; [exact Hka|].
    destruct (walk_few _ _ _ _ _ _ _ Ht (eq_sym (Z.add_0_l _)) (Walk p Hp)) as (_ & _ & _ & F).
    clear -F Hka Hb. induction all as [|a l IH]; [contradiction|]. cbn [map] in F. inversion F; subst.
    destruct Hka as [-> |Hka]; auto. }
  destruct (Z.le_gt_cases count (Z.of_nat (length all))) as [Hge|Hlt].
  - (* no new devices *)
    assert (Hs : forall p, In p P -> cget seen p = count).
    { intros p Hp. destruct (Z.le_gt_cases count (trues (map (hasp E h p) all))) as [Ht|Ht].
      - destruct (walk_seen _ _ _ _ _ _ _ Ht Hc (Walk p Hp)) as [-> _]. lia.
      - destruct (walk_few _ _ _ _ _ _ _ (Z.lt_le_incl _ _ Ht) (eq_sym (Z.add_0_l _)) (Walk p Hp)) as (_ & -> & _ & _).
        rewrite map_length. lia. }
    rewrite (to_add count P seen count HP (Z.le_refl _) Hs), Z.sub_diag in H. cbn [Z.to_nat add_items] in H.
    injection H as <-. split; [|split; [|split]].
    + intros p Hp. exists (filter (hasp E h p) all), (filter (hasp E h1 p) all).
      split; [apply D0|]. split; [apply D1|]. rewrite <- T. split; [|split; [exact (Enough p Hp)|exact (Few p Hp)]].
      destruct (Z.le_gt_cases count (trues (map (hasp E h p) all))) as [Ht|Ht].
      * rewrite (Enough p Hp Ht), firstn_length. rewrite T in Ht. lia.
      * destruct (walk_few _ _ _ _ _ _ _ (Z.lt_le_incl _ _ Ht) (eq_sym (Z.add_0_l _)) (Walk p Hp)) as (_ & E1 & E2 & _).
        rewrite trues_filter in E2. rewrite E2, E1, map_length. lia.
    + intros x Hx. exists (filter (hasp E h (Some x)) all), (filter (hasp E h1 (Some x)) all).
      split; [apply D0|]. split; [apply D1|]. intros k. now rewrite OtherF.
    + exact Other.
    + rewrite U1. apply incl_refl.
  - (* new devices *)
    assert (Ht : forall p, (trues (map (hasp E h p) all) <= count)%Z).
    { intros p. pose proof (trues_le (map (hasp E h p) all)) as L. rewrite map_length in L. lia. }
    assert (W : forall p, In p P -> cget cd p = Z.of_nat (length all) /\ cget seen p = Z.of_nat (length all) /\
      trues (map (hasp E h1 p) all) = Z.of_nat (length all)).
    { intros p Hp. destruct (walk_few _ _ _ _ _ _ _ (Ht p) (eq_sym (Z.add_0_l _)) (Walk p Hp)) as (W1 & W2 & W3 & _).
      rewrite map_length in W2. lia. }
    assert (Allin : forall p k, In p P -> In k all -> hasp E h1 p k = true).
    { intros p k Hp Hka. destruct (W p Hp) as (_ & _ & W3). clear -W3 Hka.
      induction all as [|a l IH]; [contradiction|]. cbn [map trues length] in W3.
      pose proof (trues_le (map (hasp E h1 p) l)) as L. rewrite map_length in L.
      destruct (hasp E h1 p a) eqn:Ea; [|exfalso; lia]. destruct Hka as [<- |Hka]; [exact Ea|]. apply IH; [exact Hka|lia]. }
    rewrite (to_add count P seen (Z.of_nat (length all)) HP) in H; [|lia|intros p Hp; now apply W].
    assert (A1 : forall p, In p P -> cget cd p = (count - Z.of_nat (Z.to_nat (count - Z.of_nat (length all))))%Z).
    { intros p Hp. destruct (W p Hp) as (-> & _ & _). lia. }
    assert (A2 : forall k, last (map Some all) None = Some k -> exists i, In (k, i) h1 /\ typed (e_ver E) i /\
      kindb E v i = true /\ forall p, In p P -> has_profile E i p = true).
    { intros k Hl. apply last_In in Hl. destruct (U3 k Hl) as (i & i' & Hi & Hi' & K & _). exists i'.
      split; [apply hget_In; [apply Hh1|exact Hi']|]. split; [exact (k_typed _ _ _ K)|].
      assert (A : forall p, In p P -> has_profile E i' p = true).
      { intros p Hp. pose proof (Allin p k Hp Hl) as A. unfold hasp in A. now rewrite Hi' in A. }
      split; [|exact A]. destruct P as [|p P']; [congruence|].
      exact (Typ k i' Hl Hi' p (A p (or_introl eq_refl))). }
    destruct (add_items_spec E nic count P rt v ND HP HN Hv _ _ _ _ _ keys Hh1 Hk1 A1 A2 H)
      as (new & keys' & -> & Hn & Hids' & Hk' & Hnew).
    assert (Dn : forall q, exists ks', devices E (h1 ++ new) rt q = Ok ks').
    { intros q. unfold devices. rewrite (find_all_filter _ _ _ _ _ _ Hv Hk'). eauto. }
    assert (Num : forall q, number E v q (h1 ++ new) = number E v q h1 + number E v q new).
    { intros q. unfold number. rewrite filter_app, app_length. reflexivity. }
    split; [|split; [|split]].
    + intros p Hp. destruct (Dn p) as [ks' Hks']. exists (filter (hasp E h p) all), ks'.
      split; [apply D0|]. split; [exact Hks'|]. rewrite <- T. split; [|split].
      * rewrite (devices_number E _ rt v p ks' (proj1 Hids') Hv Hks'), Num.
        rewrite <- (devices_number E h1 rt v p _ (proj1 Hh1) Hv (D1 p)).
        destruct (W p Hp) as (_ & _ & W3). rewrite trues_filter in W3.
        assert (Nn : number E v p new = length new).
        { unfold number. clear -Hnew Hp. induction new as [|[k i] l IH]; [reflexivity|]. cbn [filter snd].
          destruct (Hnew k i (or_introl eq_refl)) as [Pi Ki].
          rewrite Ki, (has_named E i p (reachable_good _ _ (pl_reach _ _ _ Pi)) (proj2 (pl_iid _ _ _ Pi p) Hp)).
          cbn [andb length]. f_equal. apply IH. intros k0 i0 H0. apply (Hnew k0 i0). now right. }
        rewrite Nn, Hn. lia.
      * intros F. pose proof (trues_le (map (hasp E h p) all)) as L. rewrite map_length in L. lia.
      * intros _ k Hka. apply (devices_In E _ rt v p ks' (proj1 Hids') Hv Hks').
        apply filter_In in Hka as [Hka _]. pose proof (Allin p k Hp Hka) as A. unfold hasp in A.
        destruct (hget k h1) as [i|] eqn:Ei; [|discriminate]. exists i.
        split; [apply in_app_iff; left; apply hget_In; [apply Hh1|exact Ei]|]. split; [|exact A].
        exact (Typ k i Hka Ei p A).
    + intros x Hx. destruct (Dn (Some x)) as [ks' Hks']. exists (filter (hasp E h (Some x)) all), ks'.
      split; [apply D0|]. split; [exact Hks'|]. intros k.
      rewrite (devices_In E _ rt v (Some x) ks' (proj1 Hids') Hv Hks' k).
      rewrite <- (OtherF x Hx), (devices_In E h1 rt v (Some x) _ (proj1 Hh1) Hv (D1 (Some x)) k).
      split.
      * intros (i & Hi & H1 & H2). exists i. split; [|auto]. apply in_app_iff in Hi as [Hi|Hi]; [exact Hi|].
        exfalso. destruct (Hnew k i Hi) as [Pi _]. now apply (placed_has E P i x Pi HN) in H2.
      * intros (i & Hi & H1). exists i. split; [apply in_app_iff; now left|exact H1].
    + intros k i Hi Ki. apply in_app_iff. left. now apply Other.
    + intros k Hkk. rewrite map_app, U1. apply in_app_iff. now left.
Qed.
