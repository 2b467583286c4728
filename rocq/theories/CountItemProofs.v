(** Proofs about single devices for C17: which profiles a device is in. *)
From Coq Require Import Lia.
From Verif Require Import PyBase PyBaseProofs PyDict PyDictProofs ValidationModel XmlModel NamesModel
  ItemModel ItemSpec PsetProofs ItemProofs ItemSetProofs ItemProfileProofs ItemReachProofs ItemAddProofs
  ItemEffectProofs HardwareModel HardwareSpec HardwareProofs HardwareIdProofs UpdateHistoryProofs.

(** Property [n] is recorded under [p]. *)
Definition rec (i : item) (n : str) (p : profile) : Prop := exists v, own (i_props i) n p v.
(** The resource type is recorded under the same profiles as the InstanceID. *)
Definition typed (ver : version) (i : item) : Prop :=
  forall p, rec i (INSTANCE_ID ver) p <-> rec i RESOURCE_TYPE p.

Lemma has_own : forall E i p, good_props (e_ver E) (i_props i) ->
  (has_profile E i p = true <->
   rec i (INSTANCE_ID (e_ver E)) p \/
   (rec i (INSTANCE_ID (e_ver E)) None /\ exists x, p = Some x /\ In x (config_of E i))).
Proof.
  intros E i p G. unfold has_profile, all_profiles.
  destruct (prget (INSTANCE_ID (e_ver E)) (i_props i)) as [d|] eqn:Ed.
  - assert (O : forall q v, own (i_props i) (INSTANCE_ID (e_ver E)) q v <-> exists s, In (v, s) d /\ In q s)
      by (intros q v; apply (own_Some _ _ _ _ _ (proj1 G) Ed)).
    destruct (all_profiles_of d) as [s|] eqn:Es.
    + pose proof (all_profiles_of_In d s Es) as Hs.
      assert (R : forall q, In q s <-> rec i (INSTANCE_ID (e_ver E)) q).
      { intros q. rewrite Hs. unfold rec. split.
        - intros (v & t & H). exists v. apply O. exists t. exact H.
        - intros (v & H). apply O in H as (t & H). exists v, t. exact H. }
      destruct (pmem p s) eqn:Ep.
      * split; [|reflexivity]. intros _. left. apply R. now apply pmem_In.
      * assert (Hp : ~ rec i (INSTANCE_ID (e_ver E)) p).
        { intros H. apply R in H. apply pmem_In in H. congruence. }
        rewrite andb_true_iff. split.
        -- intros [H1 H2]. right. split; [apply R; now apply pmem_In|].
           destruct p as [x|]; [|discriminate]. exists x. split; [reflexivity|]. now apply mem_str_In.
        -- intros [H|[H (x & -> & Hx)]]; [contradiction|]. split; [apply pmem_In; now apply R|].
           now apply mem_str_In.
    + assert (N : forall q, ~ rec i (INSTANCE_ID (e_ver E)) q).
      { intros q (v & H). apply O in H as (t & H & _). destruct d as [|[]]; [contradiction|discriminate]. }
      split; [discriminate|]. intros [H|[H _]]; exfalso; exact (N _ H).
  - assert (N : forall q, ~ rec i (INSTANCE_ID (e_ver E)) q).
    { intros q (v & H). now apply (own_None _ _ _ _ (proj1 G) Ed) in H. }
    split; [discriminate|]. intros [H|[H _]]; exfalso; exact (N _ H).
Qed.

Lemma RT_plain : forall E, is_text E RESOURCE_TYPE = false.
Proof. intros E. unfold is_text, is_desc. destruct (e_ver E); reflexivity. Qed.

(** The type of a device. *)
Lemma kind_own : forall E i w, good_props (e_ver E) (i_props i) ->
  (get_value E (i_props i) RESOURCE_TYPE None = Ok (Some w) <-> exists q, own (i_props i) RESOURCE_TYPE q w).
Proof.
  intros E i w G. rewrite get_value_plain by apply RT_plain. unfold get_raw.
  destruct (prget RESOURCE_TYPE (i_props i)) as [d|] eqn:Ed.
  - assert (O : forall q v, own (i_props i) RESOURCE_TYPE q v <-> exists s, In (v, s) d /\ In q s)
      by (intros q v; apply (own_Some _ _ _ _ _ (proj1 G) Ed)).
    pose proof (good_dict _ _ _ _ G Ed) as (_ & Gd & _).
    assert (Hl : length d <= 1).
    { apply (proj2 (proj2 G) RESOURCE_TYPE); [|now right]. now apply (dget_In str_eqb str_eqb_eq) in Ed. }
    destruct d as [|[v s] [|]]; [| |cbn in Hl; lia].
    + split; [discriminate|]. intros (q & H). apply O in H as (s & [] & _).
    + split.
      * intros H. injection H as ->. destruct (Gd w s) as (_ & Hs & _); [now left|].
        destruct s as [|q s]; [congruence|]. exists q. apply O. exists (q :: s). split; now left.
      * intros (q & H). apply O in H as (t & [Ht|[]] & _). now injection Ht as -> _.
  - split; [discriminate|]. intros (q & H). now apply (own_None _ _ _ _ (proj1 G) Ed) in H.
Qed.

Lemma kind_total : forall E i, exists o, get_value E (i_props i) RESOURCE_TYPE None = Ok o.
Proof. intros E i. rewrite get_value_plain by apply RT_plain. eauto. Qed.

(** What an edit of a device keeps: it stays reachable and typed, sees the same
    profiles of the document, and gets no other resource type. *)
Record keeps (E : env) (i i' : item) : Prop := {
  k_reach : reachable (e_ver E) i';
  k_typed : typed (e_ver E) i';
  k_config : config_of E i' = config_of E i;
  k_kind : forall q w, own (i_props i') RESOURCE_TYPE q w -> exists q0, own (i_props i) RESOURCE_TYPE q0 w }.

Lemma keeps_refl : forall E i, reachable (e_ver E) i -> typed (e_ver E) i -> keeps E i i.
Proof. intros E i R T. constructor; eauto. Qed.
Lemma keeps_trans : forall E a b c, keeps E a b -> keeps E b c -> keeps E a c.
Proof.
  intros E a b c [R1 T1 C1 K1] [R2 T2 C2 K2]. constructor; auto; [congruence|].
  intros q w H. apply K2 in H as [q1 H]. now apply K1 in H.
Qed.

(** A device of a type keeps it as long as it is in some profile. *)
Lemma keeps_type : forall E i i' w p, reachable (e_ver E) i -> keeps E i i' ->
  get_value E (i_props i) RESOURCE_TYPE None = Ok (Some w) -> has_profile E i' p = true ->
  get_value E (i_props i') RESOURCE_TYPE None = Ok (Some w).
Proof.
  intros E i i' w p R K Hw Hp. destruct K as [R' T' _ K].
  apply reachable_good in R as G. apply reachable_good in R' as G'.
  apply (has_own E i' p G') in Hp.
  assert (Hr : exists q, rec i' (INSTANCE_ID (e_ver E)) q) by (destruct Hp as [H|[H _]]; eauto).
  destruct Hr as [q Hq]. apply T' in Hq as [w' Hq].
  destruct (K q w' Hq) as [q0 Hq0]. apply (kind_own E i w G) in Hw as [q1 Hq1].
  assert (w' = w) as -> by (apply (good_single (e_ver E) (i_props i) RESOURCE_TYPE q0 q1); auto).
  apply (kind_own E i' w G'). eauto.
Qed.

Lemma removed_rec : forall ver cfg x ps n q, good_props ver ps ->
  ((exists w, own (removed cfg true (Some x) ps) n q w) <->
   q <> Some x /\ (((exists w, own ps n q w) /\ q <> None) \/
                   ((exists w, own ps n None w) /\ (forall u, ~ own ps n q u) /\ exists c, q = Some c /\ In c cfg))).
Proof.
  intros ver cfg x ps n q G. split.
  - intros (w & H). apply (removed_own ver) in H as (H1 & H2); [|exact G]. split; [exact H1|].
    destruct H2 as [[H2 [H3|H3]]|(_ & _ & H2 & H3 & H4)]; [discriminate| |].
    + left. split; [eauto|exact H3].
    + right. split; [eauto|]. split; assumption.
  - intros (H1 & [[(w & H2) H3]|((w & H2) & H3 & H4)]); exists w; apply (removed_own ver _ _ _ _ _ _ _ G).
    + split; [exact H1|]. left. auto.
    + split; [exact H1|]. right. repeat split; auto. discriminate.
Qed.

Lemma rec_dec : forall ver i n p, good_props ver (i_props i) -> rec i n p \/ ~ rec i n p.
Proof.
  intros ver i n p G. destruct (prget n (i_props i)) as [d|] eqn:Ed.
  - assert (O : forall q v, own (i_props i) n q v <-> exists s, In (v, s) d /\ In q s)
      by (intros q v; apply (own_Some _ _ _ _ _ (proj1 G) Ed)).
    destruct (existsb (fun vs => pmem p (snd vs)) d) eqn:Ex.
    + apply existsb_exists in Ex as ([v s] & H1 & H2). cbn in H2. apply pmem_In in H2.
      left. exists v. apply O. eauto.
    + right. intros (v & H). apply O in H as (s & H1 & H2).
      assert (F : existsb (fun vs => pmem p (snd vs)) d = true).
      { apply existsb_exists. exists (v, s). split; [exact H1|]. now apply pmem_In. }
      congruence.
  - right. intros (v & H). now apply (own_None _ _ _ _ (proj1 G) Ed) in H.
Qed.

(** Removing a device from a named profile, the other profiles keeping what the default
    gave them. *)
Lemma remove_keeps : forall E i x i', reachable (e_ver E) i -> typed (e_ver E) i ->
  has_profile E i (Some x) = true ->
  remove_profile E i (Some x) true = Ok i' ->
  keeps E i i' /\ has_profile E i' (Some x) = false /\
  (forall y, y <> x -> has_profile E i' (Some y) = has_profile E i (Some y)) /\
  has_profile E i' None = false.
Proof.
  intros E i x i' R T Hx H. apply reachable_good in R as G.
  assert (R' : reachable (e_ver E) i') by (eapply R_remove_profile; [reflexivity|exact R|exact H]).
  apply reachable_good in R' as G'.
  rewrite (remove_profile_eq E i _ _ G), Hx in H. injection H as <-. cbn [i_props with_modified with_props] in *.
  set (ps := i_props i) in *. set (cfg := config_of E i) in *.
  assert (Rr : forall n q, rec (with_modified true (with_props (removed cfg true (Some x) ps) i)) n q <->
    q <> Some x /\ ((rec i n q /\ q <> None) \/
                    (rec i n None /\ ~ rec i n q /\ exists c, q = Some c /\ In c cfg))).
  { intros n q. unfold rec. cbn [i_props with_modified with_props]. rewrite (removed_rec (e_ver E)) by exact G.
    split; intros (H1 & [H2|(H2 & H3 & H4)]); (split; [exact H1|]); auto; right.
    - split; [exact H2|]. split; [|exact H4]. intros (u & Hu). now apply (H3 u).
    - split; [exact H2|]. split; [|exact H4]. intros u Hu. apply H3. now exists u. }
  assert (Hn : ~ rec (with_modified true (with_props (removed cfg true (Some x) ps) i)) (INSTANCE_ID (e_ver E)) None).
  { intros F. apply Rr in F as (_ & [[_ F]|(_ & _ & c & F & _)]); [congruence|discriminate]. }
  split; [|split; [|split]].
  - constructor.
    + exact R'.
    + intros q. rewrite !Rr. split; intros (H1 & [[H2 H3]|(H2 & H3 & H4)]); (split; [exact H1|]).
      * left. split; [now apply T|exact H3].
      * right. split; [now apply T|]. split; [|exact H4]. intros F. now apply H3, T.
      * left. split; [now apply T|exact H3].
      * right. split; [now apply T|]. split; [|exact H4]. intros F. now apply H3, T.
    + reflexivity.
    + intros q w Hq. cbn [i_props with_modified with_props] in Hq.
      apply (removed_own (e_ver E)) in Hq as (_ & [[H _]|(_ & _ & H & _)]); eauto.
  - apply not_true_iff_false. intros F. apply has_own in F; [|exact G'].
    destruct F as [F|[F _]]; [|contradiction]. apply Rr in F as [F _]. congruence.
  - intros y Hy. apply eq_true_iff_eq. rewrite !has_own by assumption. rewrite Rr.
    change (config_of E (with_modified true (with_props (removed cfg true (Some x) ps) i))) with cfg.
    split.
    + intros [(_ & [[H _]|(H & _ & H')])|[H _]]; [now left|right; split; [exact H|exact H']|contradiction].
    + intros [H|[H (c & Hc1 & Hc2)]]; left; (split; [congruence|]).
      * left. split; [exact H|discriminate].
      * destruct (rec_dec (e_ver E) i (INSTANCE_ID (e_ver E)) (Some y) G) as [Hd|Hd];
          [left; split; [exact Hd|discriminate]|].
        right. repeat split; eauto.
  - apply not_true_iff_false. intros F. apply has_own in F; [|exact G'].
    destruct F as [F|[F _]]; contradiction.
Qed.

Lemma has_named : forall E i p, good_props (e_ver E) (i_props i) ->
  rec i (INSTANCE_ID (e_ver E)) p -> has_profile E i p = true.
Proof. intros E i p G H. apply has_own; auto. Qed.

(** Adding a device to a named profile of the document. *)
Lemma add_keeps : forall E i x i', reachable (e_ver E) i -> typed (e_ver E) i ->
  has_profile E i (Some x) = false -> In x (config_of E i) ->
  (exists q, rec i (INSTANCE_ID (e_ver E)) q) ->
  add_profile E i (Some x) None = Ok i' ->
  keeps E i i' /\ has_profile E i' (Some x) = true /\
  forall y, y <> x -> has_profile E i' (Some y) = has_profile E i (Some y).
Proof.
  intros E i x i' R T Hx Hc Hiid H. apply reachable_good in R as G.
  assert (R' : reachable (e_ver E) i') by (eapply R_add_profile; [reflexivity|exact R|exact H]).
  apply reachable_good in R' as G'.
  assert (Hs : (forall f : item, None = Some f -> reachable (e_ver E) f)) by discriminate.
  pose proof (add_profile_spec E i x None i' R Hs Hx H) as S. cbv zeta in S. destruct S as (_ & S1 & S2 & S3).
  assert (Cfg : config_of E i' = config_of E i).
  { unfold config_of. f_equal. assert (F : i_frozen i' = i_frozen i).
    { unfold add_profile in H. rewrite Hx in H. destruct (prget _ _); [|discriminate].
      destruct (fold_result _ _ _) as [i1|] eqn:Ef; [|discriminate]. cbn [rbind] in H.
      assert (K : good_props (e_ver E) (i_props i1) /\ i_frozen i1 = i_frozen i).
      { revert Ef. apply (fold_result_inv _ _ _ (fun j => good_props (e_ver E) (i_props j) /\ i_frozen j = i_frozen i)).
        - intros j n j' _ [Gj Fj] Hj. split; [exact (add_profile_step_good _ _ _ _ _ _ Gj Hj)|].
          unfold add_profile_step in Hj. destruct (prget n _) as [[|vs d]|]; try discriminate.
          + injection Hj as <-. exact Fj.
          + destruct (inherited _ _); [|discriminate].
            apply (set_property_inv E _ _ _ _ _ _ Gj) in Hj as (_ & _ & _ & _ & _ & _ & ->). exact Fj.
        - split; [exact G|reflexivity]. }
      rewrite validate_good in H by exact (proj1 K). injection H as <-. exact (proj2 K). }
    now rewrite F. }
  assert (Hn : ~ rec i (INSTANCE_ID (e_ver E)) None).
  { intros F. assert (has_profile E i (Some x) = true); [|congruence]. apply has_own; [exact G|].
    right. split; [exact F|]. eauto. }
  assert (Hold : forall n q, q <> Some x -> (rec i' n q <-> rec i n q)).
  { intros n q Hq. unfold rec. split; intros (v & Hv); exists v; now apply (S1 n q v Hq). }
  assert (Key : forall n, is_text E n = false -> (exists q, rec i n q) -> ~ rec i n None ->
    exists v, own (i_props i') n (Some x) v /\ (forall w, own (i_props i') n (Some x) w -> w = v) /\
      exists q, own (i_props i) n q v).
  { intros n Ht (q & w & Hw) Hnn. destruct (S3 n) as (v & Hv & Hh); [exists q, w; exact Hw|].
    specialize (Hh Ht). exists v. assert (O : own (i_props i') n (Some x) v).
    { destruct (proj2 (Hh v) eq_refl) as [O|[_ O]]; [exact O|]. exfalso. apply Hnn.
      apply (Hold n None); [discriminate|]. now exists v. }
    split; [exact O|]. split.
    - intros u Hu. apply Hh. now left.
    - destruct Hv as [Hv|[Hv _]]; eauto. }
  assert (Tn : ~ rec i RESOURCE_TYPE None) by (intros F; now apply Hn, T).
  assert (Tq : exists q, rec i RESOURCE_TYPE q) by (destruct Hiid as [q Hq]; exists q; now apply T).
  destruct (Key (INSTANCE_ID (e_ver E)) (IID_plain E) Hiid Hn) as (vi & Oi & _ & _).
  destruct (Key RESOURCE_TYPE (RT_plain E) Tq Tn) as (vr & Or & Ur & qr & Hqr).
  split; [|split].
  - constructor.
    + exact R'.
    + intros q. destruct (profile_eq_dec q (Some x)) as [-> |Hq].
      * split; intros _; eexists; eassumption.
      * rewrite !Hold by exact Hq. apply T.
    + exact Cfg.
    + intros q w Hw. destruct (profile_eq_dec q (Some x)) as [-> |Hq].
      * apply Ur in Hw as ->. eauto.
      * apply S1 in Hw; eauto.
  - apply has_named; [exact G'|]. now exists vi.
  - intros y Hy. apply eq_true_iff_eq. rewrite !has_own by assumption. rewrite Cfg.
    rewrite !Hold by congruence. reflexivity.
Qed.

(** ** Counters *)

Lemma cget_cset : forall c p n q, cget (cset c p n) q = if profile_eqb q p then n else cget c q.
Proof.
  intros c p n q. unfold cget, cset. destruct (profile_eqb q p) eqn:E.
  - apply profile_eqb_eq in E as ->. rewrite (dget_dset_same profile_eqb profile_eqb_eq). reflexivity.
  - rewrite (dget_dset_other profile_eqb profile_eqb_eq); [reflexivity|].
    intros ->. rewrite (proj2 (profile_eqb_eq p p) eq_refl) in E. discriminate.
Qed.
Lemma cget_cincr_same : forall c p, cget (cincr c p) p = (cget c p + 1)%Z.
Proof. intros. unfold cincr. rewrite cget_cset, (proj2 (profile_eqb_eq p p) eq_refl). reflexivity. Qed.
Lemma cget_cincr_other : forall c p q, q <> p -> cget (cincr c p) q = cget c q.
Proof.
  intros c p q H. unfold cincr. rewrite cget_cset. destruct (profile_eqb q p) eqn:E; [|reflexivity].
  now apply profile_eqb_eq in E.
Qed.
Lemma cget_zeros : forall l p, cget (zeros l) p = 0%Z.
Proof.
  intros l p. unfold zeros. assert (H : forall c, cget c p = 0%Z ->
    cget (fold_left (fun c p => cset c p 0%Z) l c) p = 0%Z); [|now apply H].
  induction l as [|a l IH]; intros c H; [exact H|]. cbn [fold_left]. apply IH. rewrite cget_cset.
  now destruct (profile_eqb p a).
Qed.

(** ** One device *)

(** What happens to one device and one profile: is it in the profile, how many are
    (or will be) in the profile, how many have been seen. *)
Definition stepf (count : Z) (b : bool) (c s : Z) : bool * Z * Z :=
  if b then if (count <=? s)%Z then (false, c, s) else (true, c, s + 1)%Z
  else if (c <? count)%Z then (true, c + 1, s + 1)%Z else (false, c, s).

Lemma update_steps : forall E count P i cd seen i' cd' seen',
  reachable (e_ver E) i -> typed (e_ver E) i -> NoDup P ->
  (forall p, In p P -> exists x, p = Some x /\ In x (config_of E i)) ->
  (forall p, In p P -> (count <= cget cd p)%Z) \/
  ((forall p, In p P -> (cget seen p < count)%Z) /\ exists q, rec i (INSTANCE_ID (e_ver E)) q) ->
  fold_result (update_step E count) P (i, cd, seen) = Ok (i', cd', seen') ->
  keeps E i i' /\
  (forall p, In p P -> stepf count (has_profile E i p) (cget cd p) (cget seen p) =
                       (has_profile E i' p, cget cd' p, cget seen' p)) /\
  (forall y, ~ In (Some y) P -> has_profile E i' (Some y) = has_profile E i (Some y)) /\
  (forall q, ~ In q P -> cget cd' q = cget cd q /\ cget seen' q = cget seen q).
Proof.
  intros E count. induction P as [|p P IH]; intros i cd seen i' cd' seen' R T ND HP Hc H; cbn [fold_result] in H.
  - injection H as <- <- <-. split; [now apply keeps_refl|]. split; [intros p []|]. auto.
  - destruct (update_step E count (i, cd, seen) p) as [[[i1 cd1] seen1]|] eqn:E1; [|discriminate].
    cbn [rbind] in H. inversion ND as [|? ? Hp NDP]; subst.
    destruct (HP p (or_introl eq_refl)) as (x & -> & Hx).
    assert (S : keeps E i i1 /\
      stepf count (has_profile E i (Some x)) (cget cd (Some x)) (cget seen (Some x)) =
        (has_profile E i1 (Some x), cget cd1 (Some x), cget seen1 (Some x)) /\
      (forall y, y <> x -> has_profile E i1 (Some y) = has_profile E i (Some y)) /\
      (forall q, q <> Some x -> cget cd1 q = cget cd q /\ cget seen1 q = cget seen q) /\
      ((forall p, In p P -> (count <= cget cd1 p)%Z) \/
       ((forall p, In p P -> (cget seen1 p < count)%Z) /\ exists q, rec i1 (INSTANCE_ID (e_ver E)) q))).
    { unfold update_step in E1. unfold stepf.
      destruct (has_profile E i (Some x)) eqn:Eh.
      - destruct (count <=? cget seen (Some x))%Z eqn:Ec.
        + destruct (remove_profile E i (Some x) true) as [j|] eqn:Er; [|discriminate]. cbn [rbind] in E1.
          injection E1 as <- <- <-. apply Z.leb_le in Ec.
          destruct (remove_keeps E i x j R T Eh Er) as (K1 & K2 & K3 & _).
          split; [exact K1|]. split; [now rewrite K2|]. split; [exact K3|]. split; [auto|].
          left. destruct Hc as [Hc|[Hc _]]; [intros q Hq; apply Hc; now right|].
          specialize (Hc (Some x) (or_introl eq_refl)). lia.
        + injection E1 as <- <- <-. split; [now apply keeps_refl|]. split; [now rewrite Eh, cget_cincr_same|].
          split; [auto|]. split; [intros q Hq; split; [reflexivity|now apply cget_cincr_other]|].
          destruct Hc as [Hc|[Hc Hr]]; [left; intros q Hq; apply Hc; now right|right].
          split; [|exact Hr]. intros q Hq. rewrite cget_cincr_other by congruence. apply Hc. now right.
      - destruct (cget cd (Some x) <? count)%Z eqn:Ec.
        + destruct (add_profile E i (Some x) None) as [j|] eqn:Er; [|discriminate]. cbn [rbind] in E1.
          injection E1 as <- <- <-. apply Z.ltb_lt in Ec.
          destruct Hc as [Hc|[Hc Hr]]; [specialize (Hc (Some x) (or_introl eq_refl)); lia|].
          destruct (add_keeps E i x j R T Eh Hx Hr Er) as (K1 & K2 & K3).
          split; [exact K1|]. split; [now rewrite K2, !cget_cincr_same|]. split; [exact K3|].
          split; [intros q Hq; now rewrite !cget_cincr_other by exact Hq|].
          right. split.
          * intros q Hq. rewrite cget_cincr_other by congruence. apply Hc. now right.
          * apply has_own in K2; [|exact (reachable_good _ _ (k_reach _ _ _ K1))].
            destruct K2 as [K2|[K2 _]]; eauto.
        + injection E1 as <- <- <-. split; [now apply keeps_refl|]. split; [now rewrite Eh|].
          split; [auto|]. split; [auto|]. destruct Hc as [Hc|[Hc Hr]].
          * left. intros q Hq. apply Hc. now right.
          * right. split; [|exact Hr]. intros q Hq. apply Hc. now right. }
    destruct S as (K1 & S1 & S2 & S3 & S4).
    apply IH in H as (K2 & H1 & H2 & H3).
    + split; [exact (keeps_trans _ _ _ _ K1 K2)|]. split; [|split].
      * intros q [<- |Hq].
        -- destruct (H3 (Some x) Hp) as [-> ->]. rewrite (H2 x) by exact Hp. exact S1.
        -- assert (Hn : q <> Some x) by congruence. destruct (S3 q Hn) as [<- <-].
           destruct (HP q (or_intror Hq)) as (y & -> & _). rewrite <- (S2 y) by congruence. now apply H1.
      * intros y Hy. rewrite H2 by (intros F; apply Hy; now right). apply S2. intros ->. apply Hy. now left.
      * intros q Hq. destruct (H3 q) as [-> ->]; [intros F; apply Hq; now right|]. apply S3.
        intros ->. apply Hq. now left.
    + exact (k_reach _ _ _ K1).
    + exact (k_typed _ _ _ K1).
    + exact NDP.
    + intros q Hq. rewrite (k_config _ _ _ K1). apply HP. now right.
    + exact S4.
Qed.

(** ** New devices *)

(** A device that is in exactly the profiles [P], all of them named. *)
Record placed (E : env) (P : list profile) (i : item) : Prop := {
  pl_reach : reachable (e_ver E) i;
  pl_iid : forall q, rec i (INSTANCE_ID (e_ver E)) q <-> In q P;
  pl_rt : forall q, rec i RESOURCE_TYPE q <-> In q P }.

Lemma placed_has : forall E P i y, placed E P i -> ~ In None P ->
  (has_profile E i (Some y) = true <-> In (Some y) P).
Proof.
  intros E P i y [R Hi Hr] Hn. rewrite has_own by exact (reachable_good _ _ R). rewrite !Hi.
  split; [intros [H|[H _]]; [exact H|contradiction]|now left].
Qed.

Lemma set_other_rec : forall E i n x P ow i' m q v, reachable (e_ver E) i -> m <> n ->
  set_property E i n x P ow = Ok i' -> (own (i_props i') m q v <-> own (i_props i) m q v).
Proof.
  intros E i n x P ow i' m q v R Hm H. apply reachable_good in R as G.
  apply (set_property_inv E _ _ _ _ _ _ G) in H as (u & _ & _ & _ & -> & _).
  apply stored_other; [apply G|exact Hm].
Qed.

(** Assigning a new InstanceID or resource type for named profiles. *)
Lemma assign_rec : forall E i n v P i', reachable (e_ver E) i ->
  n = INSTANCE_ID (e_ver E) \/ n = RESOURCE_TYPE -> v <> [] -> P <> [] -> ~ In None P ->
  (forall q, ~ own (i_props i) n q (VStr v)) ->
  set_property E i n (IStr v) P true = Ok i' ->
  (forall q w, own (i_props i') n q w <-> w = VStr v /\ In q P) /\
  (forall q w, own (i_props i) n q w -> In q P).
Proof.
  intros E i n v P i' R Hn Hv HP HN Hf H. apply reachable_good in R as G.
  assert (G' : good_props (e_ver E) (i_props i')) by exact (set_property_good _ _ _ _ _ _ _ G H).
  assert (Ht : is_text E n = false) by (destruct Hn as [-> | ->]; [apply IID_plain|apply RT_plain]).
  assert (Hs : to_value E n (IStr v) = VStr v).
  { unfold to_value. destruct (str_eqb n RESOURCE_SUB_TYPE) eqn:Es; [|reflexivity].
    apply str_eqb_eq in Es. destruct Hn as [-> | ->]; [|discriminate]. destruct (e_ver E); discriminate. }
  apply (set_property_inv E _ _ _ _ _ _ G) in H as (u & Hu & _ & _ & Hp & _).
  rewrite add_wildcards_plain in Hu by exact Ht. injection Hu as <-. rewrite Hs in Hp.
  set (ps := i_props i) in *. set (Q := profs_of ps n P) in *. rewrite Hp in *.
  assert (HQ : forall q, In q Q <-> In q P).
  { intros q. unfold Q, ps. rewrite (requested_profs E) by exact G. unfold requested. now destruct P. }
  assert (NDQ : NoDup Q) by apply profs_NoDup.
  assert (Htr : truthy (VStr v) = true) by (destruct v; [congruence|reflexivity]).
  assert (N : forall w, own (stored ps n (VStr v) Q) n None w <-> w <> VStr v /\ own ps n None w).
  { intros w. rewrite (stored_own_default (e_ver E)) by exact G. rewrite HQ. split.
    - intros [(H1 & H2 & _)|(-> & _ & [H2|H2])]; [auto|now apply Hf in H2|contradiction].
    - intros [H1 H2]. left. auto. }
  assert (S : forall y w, own (stored ps n (VStr v) Q) n (Some y) w <->
    (w <> VStr v /\ own ps n (Some y) w /\ ~ In (Some y) P) \/ (w = VStr v /\ In (Some y) P)).
  { intros y w. rewrite (stored_own_named (e_ver E)) by assumption. rewrite !HQ. split.
    - intros [H1|(H1 & _ & _ & _ & [H2|H2])]; [now left|now apply Hf in H2|now right].
    - intros [H1|[H1 H2]]; [now left|right]. repeat split; auto. }
  assert (W : exists x, In (Some x) P).
  { destruct P as [|[x|] P']; [congruence|exists x; now left|]. exfalso. apply HN. now left. }
  destruct W as [x Hx].
  assert (O : own (stored ps n (VStr v) Q) n (Some x) (VStr v)) by (apply S; right; auto).
  assert (One : forall q w, own (stored ps n (VStr v) Q) n q w -> w = VStr v).
  { intros q w H. exact (good_single (e_ver E) _ n q (Some x) w (VStr v) G' Hn H O). }
  split.
  - intros q w. split.
    + intros H. pose proof (One q w H) as ->. split; [reflexivity|]. destruct q as [y|].
      * apply S in H as [(H & _)|[_ H]]; [congruence|exact H].
      * apply N in H as [H _]. congruence.
    + intros [-> H]. destruct q as [y|]; [|contradiction]. apply S. now right.
  - intros q w H. assert (Hw : w <> VStr v) by (intros ->; now apply Hf in H). destruct q as [y|].
    + destruct (In_dec_profile (Some y) P) as [Hy|Hy]; [exact Hy|]. exfalso. apply Hw, (One (Some y)).
      apply S. left. auto.
    + exfalso. apply Hw, (One None). now apply N.
Qed.

Lemma res_map_nonempty : forall rt v, res_map rt = Ok v -> v <> [].
Proof.
  intros rt v H. unfold res_map in H. destruct (dget str_eqb rt RES_MAP) as [w|] eqn:E; [|discriminate].
  injection H as ->. apply (dget_In str_eqb str_eqb_eq) in E.
  assert (F : forallb (fun kv : str * str => negb (is_nil (snd kv))) RES_MAP = true) by (vm_compute; reflexivity).
  rewrite forallb_forall in F. specialize (F _ E). cbn in F. intros ->. discriminate.
Qed.

Lemma EN_not_RT : forall v, ELEMENT_NAME v <> RESOURCE_TYPE.
Proof. intros [] H; discriminate H. Qed.

(** A new device. *)
Lemma new_placed : forall E h rt P k h' v, P <> [] -> ~ In None P ->
  res_map rt = Ok v -> new_item E h rt P = Ok (k, h') ->
  exists i, h' = hset k i h /\ ~ taken h k /\ placed E P i /\
    get_value E (i_props i) RESOURCE_TYPE None = Ok (Some (VStr v)) /\ config_of E i = e_profiles E.
Proof.
  intros E h rt P k h' v HP HN Hrt H. unfold new_item in H.
  destruct (find_unused_instance_id h 1) as [id|] eqn:Eid; [|discriminate]. cbn [rbind] in H.
  apply unused_from_spec in Eid.
  destruct (set_property E (new_ovfitem E) _ _ P true) as [i1|] eqn:E1; [|discriminate]. cbn [rbind] in H.
  rewrite Hrt in H. cbn [rbind] in H.
  destruct (set_property E i1 RESOURCE_TYPE _ P true) as [i2|] eqn:E2; [|discriminate]. cbn [rbind] in H.
  destruct (set_property E i2 _ _ P true) as [i3|] eqn:E3; [|discriminate]. cbn [rbind] in H.
  injection H as <- <-.
  assert (R0 : reachable (e_ver E) (new_ovfitem E)) by now constructor.
  assert (R1 : reachable (e_ver E) i1) by (eapply R_set; [reflexivity|exact R0|exact E1]).
  assert (R2 : reachable (e_ver E) i2) by (eapply R_set; [reflexivity|exact R1|exact E2]).
  assert (R3 : reachable (e_ver E) i3) by (eapply R_set; [reflexivity|exact R2|exact E3]).
  assert (O0 : forall n q w, ~ own (i_props (new_ovfitem E)) n q w) by (intros n q w (d & s & [] & _)).
  destruct (assign_rec E _ _ id P i1 R0 (or_introl eq_refl) (first_free_nonempty _ _ _ Eid) HP HN) as [A1 _];
    [intros q; apply O0|exact E1|].
  assert (O1 : forall q w, ~ own (i_props i1) RESOURCE_TYPE q w).
  { intros q w F. apply (set_other_rec E _ _ _ _ _ _ RESOURCE_TYPE q w R0) in E1; [|apply RT_not_IID].
    apply E1 in F. now apply O0 in F. }
  destruct (assign_rec E _ _ v P i2 R1 (or_intror eq_refl) (res_map_nonempty _ _ Hrt) HP HN) as [A2 _];
    [intros q; apply O1|exact E2|].
  assert (B : forall q w, own (i_props i3) (INSTANCE_ID (e_ver E)) q w <-> w = VStr id /\ In q P).
  { intros q w.
    rewrite (set_other_rec E i2 _ _ _ _ i3 _ q w R2 (not_eq_sym (EN_not_IID (e_ver E))) E3).
    rewrite (set_other_rec E i1 _ _ _ _ i2 _ q w R1 (not_eq_sym (RT_not_IID (e_ver E))) E2).
    apply A1. }
  assert (C : forall q w, own (i_props i3) RESOURCE_TYPE q w <-> w = VStr v /\ In q P).
  { intros q w. rewrite (set_other_rec E i2 _ _ _ _ i3 _ q w R2 (not_eq_sym (EN_not_RT (e_ver E))) E3). apply A2. }
  assert (F : forall i n x P ow i', reachable (e_ver E) i -> set_property E i n x P ow = Ok i' -> i_frozen i' = i_frozen i).
  { intros i n x Q ow i' Ri Hs. apply (set_property_inv E) in Hs as (_ & _ & _ & _ & _ & _ & Hs);
      [exact Hs|exact (reachable_good _ _ Ri)]. }
  exists (with_modified true i3). split; [reflexivity|]. split; [destruct Eid as (? & _ & _ & Hf & _); exact Hf|].
  split; [|split].
  - constructor; [now constructor| |]; intros q; unfold rec; cbn [i_props with_modified].
    + split; [intros (w & H); now apply B in H as [_ H]|intros H; exists (VStr id); now apply B].
    + split; [intros (w & H); now apply C in H as [_ H]|intros H; exists (VStr v); now apply C].
  - apply kind_own; [exact (reachable_good _ _ (R_saved _ _ true R3))|]. cbn [i_props with_modified].
    destruct P as [|q P']; [congruence|]. exists q. apply C. split; [reflexivity|now left].
  - unfold config_of. cbn [i_frozen with_modified]. rewrite (F _ _ _ _ _ _ R2 E3), (F _ _ _ _ _ _ R1 E2), (F _ _ _ _ _ _ R0 E1).
    reflexivity.
Qed.

(** A clone for named profiles that its parent is in. *)
Lemma clone_placed : forall E h k parent P k' h' w, ids_ok (e_ver E) h -> In (k, parent) h ->
  typed (e_ver E) parent -> get_value E (i_props parent) RESOURCE_TYPE None = Ok (Some w) ->
  P <> [] -> ~ In None P -> (forall p, In p P -> has_profile E parent p = true) ->
  clone_item E h k P = Ok (k', h') ->
  exists i, h' = hset k' i h /\ ~ taken h k' /\ placed E P i /\
    get_value E (i_props i) RESOURCE_TYPE None = Ok (Some w) /\ config_of E i = config_of E parent.
Proof.
  intros E h k parent P k' h' w [ND Hh] Hin T Hw HP HN Hhas H. unfold clone_item in H.
  rewrite (proj2 (hitem_In h k parent ND) Hin) in H. cbn [rbind] in H.
  destruct (get_value E (i_props parent) (INSTANCE_ID (e_ver E)) None) as [o|] eqn:Eo; [|discriminate]. cbn [rbind] in H.
  destruct o as [[s|]|]; try discriminate. destruct (py_int s) as [start|] eqn:Es; [|discriminate].
  destruct (find_unused_instance_id h start) as [id|] eqn:Eid; [|discriminate]. cbn [rbind] in H.
  apply unused_from_spec in Eid.
  set (copy := mkItem (i_props parent) (i_ns parent) (i_modified parent) (Some (config_of E parent))) in *.
  destruct (fold_result _ (e_profiles E) copy) as [i1|] eqn:E1; [|discriminate]. cbn [rbind] in H.
  destruct (set_property E i1 _ _ P true) as [i2|] eqn:E2; [|discriminate]. cbn [rbind] in H.
  injection H as <- <-.
  destruct (Hh k parent Hin) as [R Hk].
  assert (Rc : reachable (e_ver E) copy) by now constructor.
  assert (Tc : typed (e_ver E) copy) by exact T.
  assert (Cc : config_of E copy = config_of E parent) by reflexivity.
  assert (Hc : forall p, In p P -> has_profile E copy p = true) by exact Hhas.
  assert (K : keeps E copy i1 /\ forall p, In p P -> has_profile E i1 p = true).
  { revert E1. apply (fold_result_inv _ _ _ (fun j => keeps E copy j /\ forall p, In p P -> has_profile E j p = true)).
    - intros j x j' _ [Kj Hj] Hs.
      match type of Hs with (if ?b then _ else _) = _ => destruct b eqn:Eb end.
      + apply andb_true_iff in Eb as [Eb1 Eb2]. apply negb_true_iff in Eb2.
        destruct (remove_keeps E j x j' (k_reach _ _ _ Kj) (k_typed _ _ _ Kj) Eb1 Hs) as (K1 & _ & K2 & _).
        split; [exact (keeps_trans _ _ _ _ Kj K1)|]. intros p Hp.
        destruct p as [y|]; [|contradiction]. rewrite K2; [now apply Hj|].
        intros ->. apply pmem_In in Hp. congruence.
      + injection Hs as <-. auto.
    - split; [now apply keeps_refl|exact Hc]. }
  destruct K as [K H1]. destruct K as [R1 T1 C1 K1].
  assert (Hid : forall q, ~ own (i_props i1) (INSTANCE_ID (e_ver E)) q (VStr id)).
  { intros q F.
    assert (Hi : id_is (e_ver E) k i1).
    { revert E1. apply (fold_result_inv _ _ _ (id_is (e_ver E) k)).
      - intros j x j' _ Hj Hs. match type of Hs with (if ?b then _ else _) = _ => destruct b eqn:Eb end.
        + now apply (id_remove E k j _ _ j' Hj) in Hs.
        + now injection Hs as <-.
      - split; [exact Rc|exact Hk]. }
    destruct Hi as [_ Hi]. specialize (Hi _ _ F). injection Hi as ->.
    destruct Eid as (? & _ & _ & Hf & _). apply Hf. now exists parent. }
  destruct (assign_rec E i1 _ id P i2 R1 (or_introl eq_refl) (first_free_nonempty _ _ _ Eid) HP HN Hid E2) as [A B].
  assert (R2 : reachable (e_ver E) i2) by (eapply R_set; [reflexivity|exact R1|exact E2]).
  assert (Ot : forall q u, own (i_props i2) RESOURCE_TYPE q u <-> own (i_props i1) RESOURCE_TYPE q u).
  { intros q u. exact (set_other_rec E i1 _ _ _ _ i2 RESOURCE_TYPE q u R1 (RT_not_IID _) E2). }
  assert (I1 : forall q, rec i1 (INSTANCE_ID (e_ver E)) q <-> In q P).
  { intros q. split; [intros (u & Hu); now apply B in Hu|]. intros Hq. specialize (H1 q Hq).
    apply has_own in H1; [|exact (reachable_good _ _ R1)]. destruct H1 as [H1|[(u & Hu) _]]; [exact H1|].
    apply B in Hu. contradiction. }
  exists (with_modified true i2). split; [reflexivity|]. split; [destruct Eid as (? & _ & _ & Hf & _); exact Hf|].
  assert (T2 : forall q, rec (with_modified true i2) RESOURCE_TYPE q <-> In q P).
  { intros q. rewrite <- I1. rewrite (T1 q). unfold rec. cbn [i_props with_modified].
    split; intros (u & Hu); exists u; now apply Ot. }
  split; [|split].
  - constructor; [now constructor| |exact T2].
    intros q. unfold rec. cbn [i_props with_modified]. split; [intros (u & H); now apply A in H as [_ H]|].
    intros H. exists (VStr id). now apply A.
  - apply kind_own; [exact (reachable_good _ _ (R_saved _ _ true R2))|]. cbn [i_props with_modified].
    destruct P as [|q P']; [congruence|]. destruct (proj2 (T2 q) (or_introl eq_refl)) as [u Hu].
    cbn [i_props with_modified] in Hu. exists q. assert (u = w) as <-; [|exact Hu].
    apply Ot in Hu. apply K1 in Hu as [q0 Hu]. apply (kind_own E parent w (reachable_good _ _ R)) in Hw as [q1 Hw].
    exact (good_single (e_ver E) _ RESOURCE_TYPE q0 q1 u w (reachable_good _ _ R) (or_intror eq_refl) Hu Hw).
  - unfold config_of at 1. cbn [i_frozen with_modified].
    apply (set_property_inv E) in E2 as (_ & _ & _ & _ & _ & _ & ->); [|exact (reachable_good _ _ R1)].
    exact C1.
Qed.

(** Adjusting a new device changes neither its profiles nor its type. *)
Lemma update_cloned_placed : forall E nic i P Q n i' w, placed E P i ->
  get_value E (i_props i) RESOURCE_TYPE None = Ok (Some w) -> update_cloned E nic i Q n = Ok i' ->
  placed E P i' /\ get_value E (i_props i') RESOURCE_TYPE None = Ok (Some w) /\ config_of E i' = config_of E i.
Proof.
  intros E nic i P Q n i' w Hp Hw H. unfold update_cloned in H.
  assert (Set_ : forall a m x b, m <> INSTANCE_ID (e_ver E) -> m <> RESOURCE_TYPE -> placed E P a ->
    get_value E (i_props a) RESOURCE_TYPE None = Ok (Some w) -> set_property E a m x Q true = Ok b ->
    placed E P b /\ get_value E (i_props b) RESOURCE_TYPE None = Ok (Some w) /\ config_of E b = config_of E a).
  { intros a m x b M1 M2 [R Hi Hr] Ha Hs.
    assert (Rb : reachable (e_ver E) b) by (eapply R_set; [reflexivity|exact R|exact Hs]).
    assert (O : forall z q u, z <> m -> own (i_props b) z q u <-> own (i_props a) z q u)
      by (intros z q u Hz; exact (set_other_rec E a m x Q true b z q u R Hz Hs)).
    split; [|split].
    - constructor; [exact Rb| |]; intros q; [rewrite <- Hi|rewrite <- Hr]; unfold rec;
        split; intros (u & Hu); exists u; apply O; auto.
    - apply kind_own; [exact (reachable_good _ _ Rb)|]. apply kind_own in Ha as [q Ha]; [|exact (reachable_good _ _ R)].
      exists q. apply O; auto.
    - unfold config_of. apply (set_property_inv E) in Hs as (_ & _ & _ & _ & _ & _ & ->);
        [reflexivity|exact (reachable_good _ _ R)]. }
  rewrite Hw in H. cbn [rbind] in H.
  match type of H with (if ?b then _ else _) = _ => destruct b; [discriminate|] end.
  match type of H with rbind ?r _ = _ => destruct r as [i1|] eqn:E1; [|discriminate] end. cbn [rbind] in H.
  assert (S1 : placed E P i1 /\ get_value E (i_props i1) RESOURCE_TYPE None = Ok (Some w) /\ config_of E i1 = config_of E i).
  { destruct (get_all_values (i_props i) ADDRESS_ON_PARENT) as [|[a|] [|]]; try discriminate.
    - injection E1 as <-. auto.
    - destruct (py_int a); [|discriminate]. apply (Set_ i) in E1; auto.
      + apply AOP_not_IID. + discriminate. }
  destruct S1 as (P1 & W1 & C1). destruct w as [t|]; [|injection H as <-; auto].
  destruct (str_eqb t (L "10")); [|injection H as <-; auto].
  apply (Set_ i1) in H as (P2 & W2 & C2); auto.
  - split; [exact P2|]. split; [exact W2|congruence].
  - apply EN_not_IID.
  - destruct (e_ver E); discriminate.
Qed.
