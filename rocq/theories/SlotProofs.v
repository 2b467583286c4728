(** Proofs about free addresses on controllers. *)
From Coq Require Import Lia Permutation Sorted ZArith.
From Verif Require Import PyBase PyBaseProofs PyDict PyDictProofs ValidationModel ValidationSpec ValidationProofs XmlModel NamesModel
  ItemModel ItemSpec PsetProofs ItemProofs ItemSetProofs ItemProfileProofs ItemReachProofs ItemAddProofs
  ItemEffectProofs HardwareModel HardwareSpec HardwareProofs HardwareIdProofs CountSpec CountItemProofs CountProofs FindSpec FindProofs
  DriveModel DriveSpec.
Local Open Scope nat_scope.

(** ** The lowest free number *)

Lemma in_addresses_In : forall x l, in_addresses x l = true <-> In (Some (VStr x)) l.
Proof.
  intros x l. unfold in_addresses. rewrite existsb_exists. split.
  - intros ([v|] & Hin & H); [|discriminate]. apply value_eqb_eq in H as ->. exact Hin.
  - intros Hin. exists (Some (VStr x)). split; [exact Hin|]. now apply value_eqb_eq.
Qed.

Lemma free_from_spec : forall fuel l a z, free_from fuel l a = Ok z ->
  (a <= z)%Z /\ ~ In (Some (VStr (zdec z))) l /\ forall b, (a <= b < z)%Z -> In (Some (VStr (zdec b))) l.
Proof.
  induction fuel as [|fuel IH]; intros l a z H; [discriminate|]. cbn [free_from] in H.
  destruct (in_addresses (zdec a) l) eqn:Ea.
  - apply IH in H as (H1 & H2 & H3). split; [lia|]. split; [exact H2|]. intros b Hb.
    destruct (Z.eq_dec b a) as [->|]; [now apply in_addresses_In|apply H3; lia].
  - injection H as <-. split; [lia|]. split; [|lia]. intros F. apply in_addresses_In in F. congruence.
Qed.

Lemma free_from_ok : forall l fuel a (used : list Z), NoDup used ->
  (forall b, In b used -> In (Some (VStr (zdec b))) l /\ (b < a)%Z) -> length l < fuel + length used ->
  exists z, free_from fuel l a = Ok z.
Proof.
  intros l fuel. induction fuel as [|fuel IH]; intros a used ND Hu Hl.
  - exfalso. assert (N : NoDup (map (fun b => Some (VStr (zdec b))) used)).
    { apply FinFun.Injective_map_NoDup; [|exact ND]. intros x y Hxy. injection Hxy as Hxy. now apply zdec_inj. }
    apply NoDup_incl_length with (l' := l) in N.
    + rewrite map_length in N. cbn in Hl. lia.
    + intros o Ho. apply in_map_iff in Ho as (b & <- & Hb). now apply Hu.
  - cbn [free_from]. destruct (in_addresses (zdec a) l) eqn:Ea; [|now exists a].
    apply (IH (a + 1)%Z (a :: used)).
    + constructor; [|exact ND]. intros F. apply Hu in F. lia.
    + intros b [->|Hb]; [split; [now apply in_addresses_In|lia]|]. destruct (Hu b Hb). split; [assumption|lia].
    + cbn. lia.
Qed.

Theorem lowest_free_ok : forall l, exists a, lowest_free l = Ok a /\
  lowest_unused (fun b => In (Some (VStr (zdec b))) l) a.
Proof.
  intros l. destruct (free_from_ok l (S (length l)) 0 []) as [z Hz]; [constructor|intros b []|cbn; lia|].
  exists z. split; [exact Hz|]. now apply free_from_spec in Hz.
Qed.

Lemma lowest_unused_iff : forall (P Q : Z -> Prop) a, (forall b, P b <-> Q b) -> lowest_unused P a -> lowest_unused Q a.
Proof.
  intros P Q a H (H1 & H2 & H3). split; [exact H1|]. split; [now rewrite <- H|]. intros b Hb. apply H. now apply H3.
Qed.

(** ** Properties of devices *)

Lemma value_of_only : forall E m k i n, ids_ok (e_ver E) (m_hw m) -> In (k, i) (m_hw m) -> ~ text_property (e_ver E) n ->
  exists o, value_of E m k n = Ok o /\ forall v, o = Some v <-> only_value (i_props i) n v.
Proof.
  intros E m k i n Hi Hin Hn. unfold value_of.
  rewrite (proj2 (hitem_In _ k i (proj1 Hi)) Hin). cbn [rbind].
  destruct (proj2 Hi k i Hin) as [R _]. exact (value_only E i n (reachable_good _ _ R) Hn).
Qed.

Lemma IID_not_text : forall E, ~ text_property (e_ver E) (INSTANCE_ID (e_ver E)).
Proof. intros E. unfold text_property. destruct (e_ver E); intros [F|F]; discriminate F. Qed.
Lemma value_of_id : forall E m k i, ids_ok (e_ver E) (m_hw m) -> identified E (m_hw m) -> In (k, i) (m_hw m) ->
  value_of E m k (INSTANCE_ID (e_ver E)) = Ok (Some (VStr k)).
Proof.
  intros E m k i Hi Hd Hin. destruct (value_of_only E m k i _ Hi Hin (IID_not_text E)) as (o & -> & Ho).
  f_equal. apply Ho. destruct (Hd k i Hin) as [p Hp]. split; [now exists p|].
  intros q w Hw. exact (proj2 (proj2 Hi k i Hin) q w Hw).
Qed.

Lemma values_of_spec : forall E m n ks, ids_ok (e_ver E) (m_hw m) -> ~ text_property (e_ver E) n ->
  (forall k, In k ks -> exists i, In (k, i) (m_hw m)) ->
  exists l, values_of E m n ks = Ok l /\
    forall v, In (Some v) l <-> exists k i, In k ks /\ In (k, i) (m_hw m) /\ only_value (i_props i) n v.
Proof.
  intros E m n ks Hi Hn. induction ks as [|k ks IH]; intros Hk.
  - exists []. split; [reflexivity|]. intros v. split; [intros []|intros (k & i & [] & _)].
  - destruct (IH (fun k' H => Hk k' (or_intror H))) as (l & El & Hl).
    destruct (Hk k (or_introl eq_refl)) as [i Hin].
    destruct (value_of_only E m k i n Hi Hin Hn) as (o & Eo & Ho).
    exists (o :: l). unfold values_of in *. cbn [fold_right]. rewrite Eo. cbn [rbind]. rewrite El. split; [reflexivity|].
    intros v. cbn [In]. rewrite Hl. split.
    + intros [->|(k' & i' & H1 & H2)]; [exists k, i; split; [now left|]; split; [exact Hin|now apply Ho]|].
      exists k', i'. split; [now right|exact H2].
    + intros (k' & i' & [<-|H1] & H2 & H3); [|right; now exists k', i'].
      left. apply Ho. assert (i' = i) as <-; [|exact H3].
      apply (hitem_In _ k i' (proj1 Hi)) in H2. apply (hitem_In _ k i (proj1 Hi)) in Hin. congruence.
Qed.

Lemma PARENT_not_text : forall E, ~ text_property (e_ver E) PARENT.
Proof. intros E. unfold text_property. destruct (e_ver E); intros [F|F]; discriminate F. Qed.
Lemma AOP_not_text : forall E, ~ text_property (e_ver E) ADDRESS_ON_PARENT.
Proof. intros E. unfold text_property. destruct (e_ver E); intros [F|F]; discriminate F. Qed.
Lemma ADDRESS_not_text : forall E, ~ text_property (e_ver E) ADDRESS.
Proof. intros E. unfold text_property. destruct (e_ver E); intros [F|F]; discriminate F. Qed.

(** The lowest free address on a controller. *)
Theorem open_slot_spec : forall E m ck ci a, ids_ok (e_ver E) (m_hw m) -> identified E (m_hw m) -> In (ck, ci) (m_hw m) ->
  open_slot E m ck = Ok a -> lowest_unused (occupied (m_hw m) ck) a.
Proof.
  intros E m ck ci a Hi Hd Hin H. unfold open_slot in H. rewrite (value_of_id E m ck ci Hi Hd Hin) in H. cbn [rbind] in H.
  destruct (find_all_items E (m_hw m) None [(PARENT, Some (VStr ck))] []) as [ks|] eqn:Ek; [|discriminate]. cbn [rbind] in H.
  apply find_all_wanted in Ek as (_ & _ & Hk); [|exact Hi|intros c [<-|[]]; apply PARENT_not_text].
  destruct (values_of_spec E m ADDRESS_ON_PARENT ks Hi (AOP_not_text E)) as (l & El & Hl).
  { intros k Hk'. apply Hk in Hk' as (i & Hi' & _). now exists i. }
  rewrite El in H. cbn [rbind] in H. destruct (lowest_free_ok l) as (z & Ez & Hz). rewrite Ez in H. injection H as <-.
  revert Hz. apply lowest_unused_iff. intros b. rewrite Hl. unfold occupied. split.
  - intros (k & i & H1 & H2 & H3). exists k, i. split; [exact H2|]. split; [|exact H3].
    apply Hk in H1 as (i' & H4 & _ & _ & H5). assert (i' = i) as ->.
    { apply (hitem_In _ k i' (proj1 Hi)) in H4. apply (hitem_In _ k i (proj1 Hi)) in H2. congruence. }
    exact (H5 _ (or_introl eq_refl)).
  - intros (k & i & H1 & H2 & H3). exists k, i. split; [|split; assumption]. apply Hk. exists i. split; [exact H1|].
    split; [discriminate|]. split; [intros p []|]. intros c [<-|[]]. exact H2.
Qed.
Theorem open_slot_ok : forall E m ck ci keys, ids_ok (e_ver E) (m_hw m) -> In (ck, ci) (m_hw m) ->
  natural_sort (map fst (m_hw m)) = Ok keys -> exists a, open_slot E m ck = Ok a.
Proof.
  intros E m ck ci keys Hi Hin Hs. unfold open_slot.
  destruct (value_of_only E m ck ci _ Hi Hin (IID_not_text E)) as (o & -> & _). cbn [rbind].
  destruct (find_all_ok E (m_hw m) None [(PARENT, o)] [] keys Hi) as [ks Ek]; [intros c [<-|[]]; apply PARENT_not_text|exact Hs|discriminate|].
  rewrite Ek. cbn [rbind]. apply find_all_wanted in Ek as (_ & _ & Hk); [|exact Hi|intros c [<-|[]]; apply PARENT_not_text].
  destruct (values_of_spec E m ADDRESS_ON_PARENT ks Hi (AOP_not_text E)) as (l & El & _).
  { intros k Hk'. apply Hk in Hk' as (i & Hi' & _). now exists i. }
  rewrite El. cbn [rbind]. destruct (lowest_free_ok l) as (z & Ez & _). now exists z.
Qed.

Lemma slot_ok_spec : forall ct a, slot_ok ct a = true <-> forall z, last_slot ct z -> (a <= z)%Z.
Proof.
  intros ct a. unfold slot_ok, last_slot. rewrite negb_true_iff, orb_false_iff, !andb_false_iff, !Z.ltb_ge.
  split.
  - intros [[A|A] [B|B]] z [[-> ->]|[-> ->]]; try exact A; try exact B; discriminate.
  - intros H. split.
    + destruct (str_eqb ct (L "scsi")) eqn:E; [|now left]. right. apply H. left. split; [now apply str_eqb_eq|reflexivity].
    + destruct (str_eqb ct (L "ide")) eqn:E; [|now left]. right. apply H. right. split; [now apply str_eqb_eq|reflexivity].
Qed.

Theorem first_open_spec : forall E m ct ks, ids_ok (e_ver E) (m_hw m) -> identified E (m_hw m) ->
  (forall k, In k ks -> exists i, In (k, i) (m_hw m)) ->
  match first_open E m ct ks with
  | Ok (Some (k, addr)) => exists ks1 ks2 ca a, ks = ks1 ++ k :: ks2 /\ (forall k', In k' ks1 -> full (m_hw m) ct k') /\
      value_of E m k ADDRESS = Ok ca /\ addr = shown_value E ca ++ L ":" ++ zdec a /\
      lowest_unused (occupied (m_hw m) k) a /\ (forall z, last_slot ct z -> (a <= z)%Z)
  | Ok None => forall k, In k ks -> full (m_hw m) ct k
  | Err e => forall keys, natural_sort (map fst (m_hw m)) <> Ok keys
  end.
Proof.
  intros E m ct ks Hi Hd. induction ks as [|k ks IH]; intros Hk; [intros k []|].
  destruct (Hk k (or_introl eq_refl)) as [i Hin]. cbn [first_open].
  destruct (value_of_only E m k i ADDRESS Hi Hin (ADDRESS_not_text E)) as (ca & Eca & _). rewrite Eca. cbn [rbind].
  destruct (open_slot E m k) as [a|e] eqn:Ea; cbn [rbind].
  - apply (open_slot_spec E m k i a Hi Hd Hin) in Ea.
    destruct (slot_ok ct a) eqn:Es.
    + exists [], ks, ca, a. split; [reflexivity|]. split; [intros k' []|]. split; [exact Eca|]. split; [reflexivity|].
      split; [exact Ea|]. now apply slot_ok_spec.
    + assert (F : full (m_hw m) ct k).
      { destruct Ea as (A & _ & B). unfold slot_ok in Es. apply negb_false_iff, orb_true_iff in Es.
        destruct Es as [Es|Es]; apply andb_true_iff in Es as [E1 E2]; apply str_eqb_eq in E1 as ->; apply Z.ltb_lt in E2.
        - exists 7%Z. split; [now left|]. intros b Hb. apply B. lia.
        - exists 1%Z. split; [now right|]. intros b Hb. apply B. lia. }
      specialize (IH (fun k' H => Hk k' (or_intror H))).
      destruct (first_open E m ct ks) as [[[k' addr]|]|e].
      * destruct IH as (ks1 & ks2 & ca' & a' & -> & H1 & H2). exists (k :: ks1), ks2, ca', a'. split; [reflexivity|].
        split; [|exact H2]. intros k'' [<-|H3]; [exact F|now apply H1].
      * intros k'' [<-|H3]; [exact F|now apply IH].
      * exact IH.
  - intros keys Hs. destruct (open_slot_ok E m k i keys Hi Hin Hs) as [a Ha]. congruence.
Qed.

Theorem find_open_spec : forall E m ct t, ids_ok (e_ver E) (m_hw m) -> identified E (m_hw m) ->
  dget str_eqb ct RES_MAP = Some t ->
  match find_open_controller E m ct with
  | Ok (Some (k, addr)) => exists ks1 ks2 ca a, are_wanted E (m_hw m) (Some ct) [] [] (ks1 ++ k :: ks2) /\
      (forall k', In k' ks1 -> full (m_hw m) ct k') /\
      value_of E m k ADDRESS = Ok ca /\ addr = shown_value E ca ++ L ":" ++ zdec a /\
      lowest_unused (occupied (m_hw m) k) a /\ (forall z, last_slot ct z -> (a <= z)%Z)
  | Ok None => forall k i, In (k, i) (m_hw m) -> is_a ct i -> full (m_hw m) ct k
  | Err e => forall keys, natural_sort (map fst (m_hw m)) <> Ok keys
  end.
Proof.
  intros E m ct t Hi Hd Ht. unfold find_open_controller.
  destruct (find_all_items E (m_hw m) (Some ct) [] []) as [ks|e] eqn:Ek; cbn [rbind].
  - apply find_all_wanted in Ek as W; [|exact Hi|intros c []].
    pose proof (first_open_spec E m ct ks Hi Hd) as F.
    assert (Hks : forall k, In k ks -> exists i, In (k, i) (m_hw m)).
    { intros k Hk. apply W in Hk as (i & Hk & _). now exists i. }
    specialize (F Hks). destruct (first_open E m ct ks) as [[[k addr]|]|e].
    + destruct F as (ks1 & ks2 & ca & a & -> & F). exists ks1, ks2, ca, a. split; [exact W|exact F].
    + intros k i Hin Ha. apply F. apply W. exists i. split; [exact Hin|]. split; [|split; [intros p []|intros c []]].
      intros t' Et'. injection Et' as <-. exact Ha.
    + exact F.
  - intros keys Hs. destruct (find_all_ok E (m_hw m) (Some ct) [] [] keys Hi) as [ks Ek']; [intros c []|exact Hs| |congruence].
    intros t' Et'. injection Et' as <-. now exists t.
Qed.
