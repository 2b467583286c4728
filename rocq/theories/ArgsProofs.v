(** Proofs about the command line. *)
From Coq Require Import List Ascii ZArith Lia Bool.
Import ListNotations.
From Verif Require Import PyBase PyBaseProofs PyDict CliModel InfoProfileProofs ArgsModel ArgsSpec.
From Verif Require PyDictProofs.
Local Open Scope nat_scope.

Lemma eqb_refl : forall s, str_eqb s s = true.
Proof. intros s. now apply str_eqb_eq. Qed.
Lemma eqb_neq : forall a b, a <> b -> str_eqb a b = false.
Proof. intros a b H. destruct (str_eqb a b) eqn:E; [ | reflexivity]. apply str_eqb_eq in E. contradiction. Qed.

(** ** Dictionaries *)
Lemma get_set : forall V k (v : V) d s, dget str_eqb s (dset str_eqb k v d) = if str_eqb s k then Some v else dget str_eqb s d.
Proof.
  intros V k v d s. induction d as [ | [k' v'] d IH]; cbn; [now destruct (str_eqb s k) | ].
  destruct (str_eqb k k') eqn:E; cbn.
  - apply str_eqb_eq in E. subst k'. now destruct (str_eqb s k).
  - rewrite IH. destruct (str_eqb s k') eqn:E2; [ | reflexivity]. apply str_eqb_eq in E2. subst k'.
    destruct (str_eqb s k) eqn:E3; [ | reflexivity]. apply str_eqb_eq in E3. subst. now rewrite eqb_refl in E.
Qed.
Lemma get_in : forall V (d : list (str * V)) k v, dget str_eqb k d = Some v -> In (k, v) d.
Proof.
  intros V d k v. induction d as [ | [k' v'] d IH]; cbn; [discriminate | ]. destruct (str_eqb k k') eqn:E.
  - apply str_eqb_eq in E. intros H. injection H as ->. subst. now left.
  - intros H. right. auto.
Qed.
Lemma in_get : forall V (d : list (str * V)) k v, NoDup (map fst d) -> In (k, v) d -> dget str_eqb k d = Some v.
Proof.
  intros V d k v. induction d as [ | [k' v'] d IH]; cbn; [contradiction | ]. intros N [H | H].
  - injection H as -> ->. now rewrite eqb_refl.
  - inversion N as [ | ? ? N1 N2]; subst. rewrite eqb_neq; [auto | ]. intros ->. apply N1. apply in_map_iff. now exists (k', v).
Qed.
Lemma in_del : forall V (d : list (str * V)) k x, NoDup (map fst d) -> (In x (ddel str_eqb k d) <-> In x d /\ fst x <> k).
Proof.
  intros V d k x. induction d as [ | [k' v'] d IH]; cbn; [tauto | ]. intros N. inversion N as [ | ? ? N1 N2]; subst.
  destruct (str_eqb k k') eqn:E.
  - apply str_eqb_eq in E. subst k'. split.
    + intros H. split; [now right | ]. intros <-. apply N1. now apply in_map.
    + intros [[<- | H] F]; [now elim F | exact H].
  - cbn. rewrite (IH N2). split.
    + intros [<- | [H F]]; [split; [now left | ] | tauto]. cbn. intros ->. now rewrite eqb_refl in E.
    + tauto.
Qed.
Lemma del_in_fst : forall V (d : list (str * V)) k n, In n (map fst (ddel str_eqb k d)) -> In n (map fst d).
Proof.
  intros V d k n. induction d as [ | [k' v'] d IH]; cbn; [tauto | ]. destruct (str_eqb k k'); cbn; [tauto | ]. intros [H | H]; auto.
Qed.
Lemma nodup_del : forall V (d : list (str * V)) k, NoDup (map fst d) -> NoDup (map fst (ddel str_eqb k d)).
Proof.
  intros V d k. induction d as [ | [k' v'] d IH]; cbn; [auto | ]. intros N. inversion N as [ | ? ? N1 N2]; subst.
  destruct (str_eqb k k'); [exact N2 | ]. cbn. constructor; [ | auto]. intros H. apply N1. eapply del_in_fst, H.
Qed.

(** ** Verbosity *)
Lemma level_table : forall d, adjust_verbosity d =
  (if d <=? -3 then 50 else if d =? -2 then 40 else if d =? -1 then 30 else if d =? 0 then 25 else
   if d =? 1 then 20 else if d =? 2 then 15 else if d =? 3 then 10 else 5)%Z.
Proof.
  intros d. unfold adjust_verbosity. change (Z.of_nat (length verbosity_levels)) with 8%Z.
  destruct (Z.leb_spec d (-3)).
  { destruct (Z.ltb_spec (3 + d) 0); [reflexivity | ]. assert (d = -3)%Z by lia. subst. reflexivity. }
  destruct (Z.ltb_spec (3 + d) 0); [lia | ].
  destruct (Z.eqb_spec d (-2)); [subst; reflexivity | ]. destruct (Z.eqb_spec d (-1)); [subst; reflexivity | ].
  destruct (Z.eqb_spec d 0); [subst; reflexivity | ]. destruct (Z.eqb_spec d 1); [subst; reflexivity | ].
  destruct (Z.eqb_spec d 2); [subst; reflexivity | ]. destruct (Z.eqb_spec d 3); [subst; reflexivity | ].
  destruct (Z.leb_spec 8 (3 + d)); [reflexivity | ]. assert (d = 4)%Z by lia. subst. reflexivity.
Qed.
Ltac cases := repeat match goal with
  | |- context[(?a <=? ?b)%Z] => destruct (Z.leb_spec a b)
  | |- context[(?a =? ?b)%Z] => destruct (Z.eqb_spec a b)
  end.
Lemma verbosity_spec : forall d s, logged (adjust_verbosity d) (level s) = true <-> seen d s.
Proof.
  intros d s. rewrite level_table. unfold logged. rewrite Z.leb_le. destruct s; cbn [level takes seen]; unfold seen; cbn [takes]; cases; lia.
Qed.
Lemma fields_spec : forall d f, In f (log_fields (adjust_verbosity d)) <-> match least f with None => True | Some n => (n <= d)%Z end.
Proof.
  intros d f. rewrite level_table.
  assert (H : (d <= -3 \/ d = -2 \/ d = -1 \/ d = 0 \/ d = 1 \/ d = 2 \/ d = 3 \/ 4 <= d)%Z) by lia.
  destruct H as [H | [-> | [-> | [-> | [-> | [-> | [-> | H]]]]]]].
  - assert (E : (d <=? -3)%Z = true) by (apply Z.leb_le; lia). rewrite E. destruct f; cbn; intuition (try discriminate; try lia).
  - destruct f; cbn; intuition (try discriminate; try lia).
  - destruct f; cbn; intuition (try discriminate; try lia).
  - destruct f; cbn; intuition (try discriminate; try lia).
  - destruct f; cbn; intuition (try discriminate; try lia).
  - destruct f; cbn; intuition (try discriminate; try lia).
  - destruct f; cbn; intuition (try discriminate; try lia).
  - replace (d <=? -3)%Z with false by (symmetry; apply Z.leb_gt; lia).
    replace (d =? -2)%Z with false by (symmetry; apply Z.eqb_neq; lia). replace (d =? -1)%Z with false by (symmetry; apply Z.eqb_neq; lia).
    replace (d =? 0)%Z with false by (symmetry; apply Z.eqb_neq; lia). replace (d =? 1)%Z with false by (symmetry; apply Z.eqb_neq; lia).
    replace (d =? 2)%Z with false by (symmetry; apply Z.eqb_neq; lia). replace (d =? 3)%Z with false by (symmetry; apply Z.eqb_neq; lia).
    destruct f; cbn; intuition (try discriminate; try lia).
Qed.

(** ** Values *)
Lemma all_lists : forall l, forallb is_list l = true <-> exists occs, l = map VList occs.
Proof.
  intros l. split.
  - induction l as [ | v l IH]; cbn; [now exists [] | ]. intros H. apply andb_true_iff in H as [H1 H2]. destruct (IH H2) as (occs & ->).
    destruct v; try discriminate. now exists (l :: occs).
  - intros (occs & ->). induction occs; [reflexivity | assumption].
Qed.
Lemma flatten_gathered : forall v, gathered v (flatten v).
Proof.
  intros v. destruct v; try (apply other; discriminate). cbn. destruct (forallb is_list l) eqn:E.
  - apply all_lists in E as (occs & ->). replace (flat_map items (map VList occs)) with (concat occs); [constructor | ].
    induction occs as [ | o occs IH]; cbn; [reflexivity | now rewrite IH].
  - apply other. intros occs H. injection H as ->. assert (X : forallb is_list (map VList occs) = true) by (apply all_lists; eauto). congruence.
Qed.
Lemma map_VList_inj : forall a b, map VList a = map VList b -> a = b.
Proof. induction a; destruct b; cbn; intros H; try discriminate; [reflexivity | ]. injection H as -> H. f_equal. auto. Qed.
Lemma gathered_unique : forall v a b, gathered v a -> gathered v b -> a = b.
Proof.
  intros v a b H K. destruct H as [occs | v H].
  - inversion K as [occs' E | v' H' E]; subst; [ | now elim (H' occs)]. apply map_VList_inj in E. now subst.
  - inversion K as [occs' E | v' H' E]; subst; [now elim (H occs') | reflexivity].
Qed.
Lemma flatten_none : forall v, is_none (flatten v) = is_none v.
Proof. intros v. destruct v; try reflexivity. cbn. now destruct (forallb is_list l). Qed.

(** ** Delivery *)
Lemma mandatory_spec : forall n, mandatory n = true <-> upper_start n.
Proof.
  intros n. split.
  - destruct n as [ | c s]; cbn; [discriminate | ]. intros H. exists c, s. split; [reflexivity | ].
    unfold in_range in H. apply andb_true_iff in H as [A B]. apply N.leb_le in A, B. unfold code in *. lia.
  - intros (c & s & -> & H). cbn. unfold in_range. apply andb_true_iff. split; apply N.leb_le; unfold code; lia.
Qed.
Lemma delete_ok : forall k d d', delete k d = Ok d' -> d' = ddel str_eqb k d.
Proof. intros k d d' H. unfold delete in H. destruct (dmem str_eqb k d); [ | discriminate]. now apply ok_inj in H. Qed.
Lemma dict_spec : forall args d, NoDup (map fst args) -> args_to_dict args = Ok d ->
  NoDup (map fst d) /\ forall n v, In (n, v) d <->
    exists v0, In (n, v0) args /\ v = flatten v0 /\ ~ In n [L "_verbosity"; L "_force"; L "_subcommand"].
Proof.
  intros args d N H. unfold args_to_dict in H. step H d1 H1. step H d2 H2. step H d3 H3. apply ok_inj in H. subst d.
  apply delete_ok in H1, H2, H3. subst d1 d2 d3. split.
  { rewrite map_map. cbn [fst]. repeat apply nodup_del. exact N. }
  intros n v. rewrite in_map_iff. split.
  - intros ([n0 v0] & E & I). cbn [fst snd] in E. injection E as <- <-. rewrite !in_del in I by (repeat apply nodup_del; exact N).
    cbn [fst] in I. exists v0. cbn [In]. intuition congruence.
  - intros (v0 & I & -> & F). exists (n, v0). split; [reflexivity | ]. rewrite !in_del by (repeat apply nodup_del; exact N). cbn [fst].
    cbn [In] in F. intuition congruence.
Qed.
Lemma attributes_get : forall (calls o : namespace) a, dget str_eqb a (fold_left (fun o x => dset str_eqb (fst x) (snd x) o) calls o) =
  match dget str_eqb a (rev calls) with Some v => Some v | None => dget str_eqb a o end.
Proof.
  intros calls. induction calls as [ | [k v] calls IH]; intros o a; [reflexivity | ]. cbn [fold_left fst snd]. rewrite IH, get_set.
  cbn [rev]. 
  assert (G : forall (l m : namespace), dget str_eqb a (l ++ m) = match dget str_eqb a l with Some v => Some v | None => dget str_eqb a m end).
  { clear. induction l as [ | [k v] l IH]; intros m; [reflexivity | ]. cbn. destruct (str_eqb a k); [reflexivity | apply IH]. }
  rewrite G. destruct (dget str_eqb a (rev calls)); [reflexivity | ]. cbn. destruct (str_eqb a k); reflexivity.
Qed.
Lemma get_unique : forall V (d : list (str * V)) k v, (exists v', In (k, v') d) -> (forall v', In (k, v') d -> v' = v) -> dget str_eqb k d = Some v.
Proof.
  intros V d k v (v1 & I) U. destruct (dget str_eqb k d) eqn:E; [f_equal; apply U, get_in, E | ].
  exfalso. clear U. induction d as [ | [k' v'] d IH]; [contradiction | ]. cbn in E. destruct (str_eqb k k') eqn:E2; [discriminate | ].
  destruct I as [I | I]; [injection I as -> ->; now rewrite eqb_refl in E2 | auto].
Qed.
Lemma get_none : forall V (d : list (str * V)) k, (forall v, ~ In (k, v) d) -> dget str_eqb k d = None.
Proof. intros V d k H. destruct (dget str_eqb k d) eqn:E; [ | reflexivity]. apply get_in in E. now elim (H v). Qed.

Lemma nodup_fst : forall V (d : list (str * V)) k v v', NoDup (map fst d) -> In (k, v) d -> In (k, v') d -> v = v'.
Proof. intros V d k v v' N H H'. pose proof (in_get _ _ _ _ N H). pose proof (in_get _ _ _ _ N H'). congruence. Qed.

Lemma get_app : forall V (l m : list (str * V)) a, dget str_eqb a (l ++ m) = match dget str_eqb a l with Some v => Some v | None => dget str_eqb a m end.
Proof. induction l as [ | [k v] l IH]; intros m a; [reflexivity | ]. cbn. destruct (str_eqb a k); [reflexivity | apply IH]. Qed.

Lemma delivered : forall args d a v, NoDup (map fst args) -> args_to_dict args = Ok d ->
  (forall n n' v0 v1, given args n v0 -> given args n' v1 -> upper_start n -> upper_start n' -> lower n = lower n' -> n = n') ->
  (dget str_eqb a (attributes (set_calls d)) = Some v <-> intended args a v).
Proof.
  intros args d a v N H U. destruct (dict_spec args d N H) as (ND & D).
  assert (NI : forall n, upper_start n -> n <> L "instance") by (intros n (c & s & -> & R) E; injection E as -> _; vm_compute in R; destruct R as [_ R]; now elim R).
  assert (OPT : forall n w, In (n, w) (filter (fun x => negb (str_eqb (fst x) (L "instance")) && (negb (mandatory (fst x)) && negb (is_none (snd x)))) d) <->
                 ~ upper_start n /\ exists v0, given args n v0 /\ w = flatten v0).
  { intros n w. rewrite filter_In, D. cbn [fst snd]. rewrite !andb_true_iff, !negb_true_iff. split.
    - intros ((v0 & I & -> & F) & E1 & E2 & E3). split; [rewrite <- mandatory_spec; congruence | ]. exists v0. split; [ | reflexivity].
      rewrite flatten_none in E3. split; [exact I | ]. split; [now intros -> | ]. cbn [In] in *. intros X. 
      assert (n <> L "instance") by (intros ->; now rewrite eqb_refl in E1). intuition congruence.
    - intros (M & v0 & (I & NN & F) & ->). cbn [In] in F. split; [exists v0; cbn [In]; intuition | ].
      split; [apply eqb_neq; intuition | ]. split; [destruct (mandatory n) eqn:E; [now apply mandatory_spec in E | reflexivity] | ].
      rewrite flatten_none. destruct v0; (reflexivity || now elim NN). }
  assert (MAN : forall b w, In (b, w) (map (fun x => (lower (fst x), snd x)) (filter (fun x => mandatory (fst x) && negb (is_none (snd x))) d)) <->
                 exists n v0, given args n v0 /\ upper_start n /\ lower n = b /\ w = flatten v0).
  { intros b w. rewrite in_map_iff. split.
    - intros ([n w0] & E & I). cbn [fst snd] in E. injection E as <- <-. rewrite filter_In, D in I. cbn [fst snd] in I.
      rewrite andb_true_iff, negb_true_iff in I. destruct I as ((v0 & I & -> & F) & E1 & E2). apply mandatory_spec in E1. exists n, v0.
      split; [ | auto]. rewrite flatten_none in E2. split; [exact I | ]. split; [now intros -> | ]. cbn [In] in *. pose proof (NI n E1). intuition congruence.
    - intros (n & v0 & (I & NN & F) & M & <- & ->). exists (n, flatten v0). split; [reflexivity | ]. rewrite filter_In, D. cbn [fst snd].
      rewrite andb_true_iff, negb_true_iff, flatten_none. apply mandatory_spec in M. cbn [In] in F. split; [exists v0; cbn [In]; intuition | ].
      split; [exact M | destruct v0; (reflexivity || now elim NN)]. }
  unfold attributes. rewrite attributes_get. unfold set_calls. rewrite rev_app_distr, get_app. cbn [dget].
  assert (OU : forall v0 v1, given args a v0 -> given args a v1 -> v0 = v1) by (intros v0 v1 (I & _) (J & _); exact (nodup_fst _ _ _ _ _ N I J)).
  assert (MU : forall n n' v0 v1, given args n v0 -> given args n' v1 -> upper_start n -> upper_start n' -> lower n = lower n' -> v0 = v1).
  { intros n n' v0 v1 A B C E F. pose proof (U n n' v0 v1 A B C E F). subst n'. destruct A as (I & _), B as (J & _). exact (nodup_fst _ _ _ _ _ N I J). }
  set (O := filter (fun x => negb (str_eqb (fst x) (L "instance")) && (negb (mandatory (fst x)) && negb (is_none (snd x)))) d) in *.
  set (M := map (fun x : str * value => (lower (fst x), snd x)) (filter (fun x => mandatory (fst x) && negb (is_none (snd x))) d)) in *. clearbody O M.
  split.
  - destruct (dget str_eqb a (rev O)) eqn:E.
    + intros E2. injection E2 as ->. apply get_in, in_rev, OPT in E. destruct E as (NU & v0 & G & ->). left. exists v0.
      split; [exact G | ]. split; [exact NU | apply flatten_gathered].
    + destruct (dget str_eqb a (rev M)) eqn:E2; [ | discriminate]. intros X. injection X as ->.
      apply get_in, in_rev, MAN in E2. destruct E2 as (n & v0 & G & UP & EL & ->). right. split.
      * intros v1 G1. destruct (mandatory a) eqn:EM; [now apply mandatory_spec | ]. exfalso.
        assert (I : In (a, flatten v1) O). { apply OPT. split; [rewrite <- mandatory_spec; congruence | eauto]. }
        apply in_rev in I. clear - I E. remember (rev O) as R. clear HeqR. induction R as [ | [k w] R IH]; [contradiction | ]. cbn in E.
        destruct (str_eqb a k) eqn:E2; [discriminate | ]. destruct I as [I | I]; [injection I as -> ->; now rewrite eqb_refl in E2 | auto].
      * exists n, v0. repeat split; try assumption; try apply G. apply flatten_gathered.
  - intros [(v0 & G & NU & GA) | (NO & n & v0 & G & UP & EL & GA)].
    + rewrite (gathered_unique _ _ _ GA (flatten_gathered v0)).
      rewrite (get_unique _ (rev O) a (flatten v0)); [reflexivity | | ].
      * exists (flatten v0). apply -> in_rev. apply OPT. split; [exact NU | eauto].
      * intros w I. apply in_rev, OPT in I. destruct I as (_ & v1 & G1 & ->). now rewrite (OU v0 v1 G G1).
    + rewrite (gathered_unique _ _ _ GA (flatten_gathered v0)).
      rewrite (get_none _ (rev O) a).
      2:{ intros w I. apply in_rev, OPT in I. destruct I as (NU & v1 & G1 & _). apply NU. exact (NO v1 G1). }
      rewrite (get_unique _ (rev M) a (flatten v0)); [reflexivity | | ].
      * exists (flatten v0). apply -> in_rev. apply MAN. exists n, v0. auto.
      * intros w I. apply in_rev, MAN in I. destruct I as (n1 & v1 & G1 & UP1 & EL1 & ->). rewrite (MU n n1 v0 v1); auto. congruence.
Qed.

(** ** Names *)
Lemma enter_get : forall p prefix ns d s, dget str_eqb s (enter p prefix ns d) =
  if existsb (fun n => str_eqb s (prefix ++ n)) ns then Some p else dget str_eqb s d.
Proof.
  intros p prefix ns. unfold enter. induction ns as [ | n ns IH]; intros d s; [reflexivity | ]. cbn [fold_left existsb]. rewrite IH, get_set.
  destruct (existsb (fun n0 => str_eqb s (prefix ++ n0)) ns); [now rewrite orb_true_r | rewrite orb_false_r]. reflexivity.
Qed.
Lemma entered : forall prefix ns s, existsb (fun n => str_eqb s (prefix ++ n)) ns = true <-> In s (map (fun n => prefix ++ n) ns).
Proof.
  intros prefix ns s. rewrite existsb_exists, in_map_iff. split.
  - intros (n & I & E). apply str_eqb_eq in E. subst. eauto.
  - intros (n & <- & I). exists n. split; [exact I | apply eqb_refl].
Qed.
Definition grow (l : list registration) (g : registry) : registry := fold_left (fun g r => add_subparser r g) l g.
Lemma grow_snoc : forall l r g, grow (l ++ [r]) g = add_subparser r (grow l g).
Proof. intros. unfold grow. now rewrite fold_left_app. Qed.
Lemma nth_snoc : forall A (l : list A) x p y, nth_error (l ++ [x]) p = Some y <-> nth_error l p = Some y \/ (p = length l /\ y = x).
Proof.
  intros A l x p y. split.
  - intros H. destruct (Nat.lt_ge_cases p (length l)) as [C | C].
    + rewrite nth_error_app1 in H by exact C. now left.
    + rewrite nth_error_app2 in H by exact C. right. destruct (p - length l) as [ | k] eqn:E.
      * cbn in H. injection H as ->. split; [lia | reflexivity].
      * destruct k; discriminate H.
  - intros [H | [-> ->]].
    + rewrite nth_error_app1; [exact H | ]. apply nth_error_Some. congruence.
    + rewrite nth_error_app2 by lia. now rewrite Nat.sub_diag.
Qed.
Lemma flat_map_snoc : forall (f : registration -> list str) l r, flat_map f (l ++ [r]) = flat_map f l ++ f r.
Proof. intros. rewrite flat_map_app. cbn. now rewrite app_nil_r. Qed.
Lemma nodup_app : forall A (a b : list A), NoDup (a ++ b) -> NoDup a /\ forall x, In x a -> ~ In x b.
Proof.
  intros A a b. induction a as [ | x a IH]; cbn; intros H; [split; [constructor | contradiction] | ]. inversion H as [ | ? ? H1 H2]; subst.
  destruct (IH H2) as [N D]. split; [constructor; [intros I; apply H1, in_or_app; now left | exact N] | ].
  intros y [<- | I]; [intros I; apply H1, in_or_app; now right | auto].
Qed.
Lemma lookup_grow : forall l, NoDup (flat_map full_names l) ->
  g_next (grow l (mkRegistry 0 [] [])) = length l /\
  forall s p, dget str_eqb s (g_lookup (grow l (mkRegistry 0 [] []))) = Some p <-> parser_named l s p.
Proof.
  intros l. induction l as [ | r l IH] using rev_ind; intros N.
  - split; [reflexivity | ]. intros s p. split; [discriminate | ]. intros (r & E & _). destruct p; discriminate E.
  - rewrite flat_map_snoc in N. destruct (nodup_app _ _ _ N) as [N1 DJ]. destruct (IH N1) as [L G]. rewrite grow_snoc. unfold add_subparser. cbn [g_next g_lookup].
    rewrite L, app_length. cbn [length]. split; [lia | ]. intros s p. rewrite enter_get. fold (names r).
    destruct (existsb (fun n => str_eqb s (r_prefix r ++ n)) (names r)) eqn:E.
    + pose proof E as E0. apply entered in E. split.
      * intros X. injection X as <-. exists r. split; [apply nth_snoc; now right | exact E].
      * intros (r' & X & I). apply nth_snoc in X. destruct X as [X | [-> ->]]; [ | reflexivity]. exfalso.
        apply (DJ s); [apply in_flat_map; exists r'; split; [eapply nth_error_In, X | exact I] | exact E].
    + rewrite G. split.
      * intros (r' & X & I). exists r'. split; [apply nth_snoc; now left | exact I].
      * intros (r' & X & I). apply nth_snoc in X. destruct X as [X | [-> ->]]; [now exists r' | ]. apply entered in I. congruence.
Qed.
Lemma accepted_grow : forall l, NoDup (flat_map names (filter (fun r => negb (r_nested r)) l)) ->
  g_next (grow l (mkRegistry 0 [] [])) = length l /\
  forall s p, dget str_eqb s (g_accepted (grow l (mkRegistry 0 [] []))) = Some p <-> command_named l s p.
Proof.
  intros l. induction l as [ | r l IH] using rev_ind; intros N.
  - split; [reflexivity | ]. intros s p. split; [discriminate | ]. intros (r & E & _). destruct p; discriminate E.
  - rewrite filter_app in N. cbn [filter] in N. rewrite grow_snoc. unfold add_subparser. cbn [g_next g_accepted].
    assert (N1 : NoDup (flat_map names (filter (fun r => negb (r_nested r)) l))). { rewrite flat_map_app in N. now apply nodup_app in N as [N1 _]. }
    destruct (IH N1) as [L G]. rewrite L, app_length. cbn [length]. split; [lia | ]. intros s p. destruct (r_nested r) eqn:EN.
    + rewrite G. split.
      * intros (r' & X & I). exists r'. split; [apply nth_snoc; now left | exact I].
      * intros (r' & X & F & I). apply nth_snoc in X. destruct X as [X | [_ ->]]; [now exists r' | congruence].
    + cbn [negb] in N. rewrite flat_map_snoc in N. destruct (nodup_app _ _ _ N) as [_ DJ]. rewrite enter_get. fold (names r).
      destruct (existsb (fun n => str_eqb s ([] ++ n)) (names r)) eqn:E.
      * pose proof E as E0. apply entered in E. rewrite map_id in E. split.
        -- intros X. injection X as <-. exists r. split; [apply nth_snoc; now right | ]. auto.
        -- intros (r' & X & F & I). apply nth_snoc in X. destruct X as [X | [-> ->]]; [ | reflexivity]. exfalso.
           apply (DJ s); [apply in_flat_map; exists r'; split; [apply filter_In; split; [eapply nth_error_In, X | now rewrite F] | exact I] | exact E].
      * rewrite G. split.
        -- intros (r' & X & I). exists r'. split; [apply nth_snoc; now left | exact I].
        -- intros (r' & X & F & I). apply nth_snoc in X. destruct X as [X | [-> ->]]; [now exists r' | ].
           assert (existsb (fun n => str_eqb s ([] ++ n)) (names r) = true) by (apply entered; now rewrite map_id). congruence.
Qed.

(** ** The beginning of main *)
Lemma mem_get : forall (d : namespace) k v, dget str_eqb k d = Some v -> dmem str_eqb k d = true.
Proof. intros d k v H. unfold dmem. now rewrite H. Qed.
Lemma get_del : forall (d : namespace) k k', k <> k' -> dget str_eqb k (ddel str_eqb k' d) = dget str_eqb k d.
Proof.
  intros d k k' N. induction d as [ | [k2 v2] d IH]; [reflexivity | ]. cbn. destruct (str_eqb k' k2) eqn:E; cbn.
  - apply str_eqb_eq in E. subst k2. now rewrite (eqb_neq k k' N).
  - now rewrite IH.
Qed.
Lemma begin_spec : forall g args force v q command p, parsed args force v q command -> dget str_eqb command (g_lookup g) = Some p ->
  exists d, args_to_dict args = Ok d /\ begin_main g args = Ok (mkStarted force (adjust_verbosity (v - q)) p (set_calls d)).
Proof.
  intros g args force v q command p (N & F & V & Q & C & NE) P.
  apply (in_get _ _ _ _ N) in F, V, Q, C. unfold begin_main, number. rewrite F, V, Q, C. cbn [rbind].
  destruct command as [ | c s]; [contradiction | ]. rewrite P.
  assert (E : exists d, args_to_dict args = Ok d).
  { unfold args_to_dict, delete. rewrite (mem_get _ _ _ V). cbn [rbind].
    rewrite (mem_get _ (L "_force") (VTruth force)) by (rewrite get_del; [exact F | discriminate]). cbn [rbind].
    rewrite (mem_get _ (L "_subcommand") (VText (c :: s))) by (rewrite !get_del; [exact C | discriminate | discriminate]). eexists. reflexivity. }
  destruct E as (d & E). rewrite E. exists d. split; reflexivity.
Qed.
Lemma parse_parsed : forall i o args force v q command, parsed args force v q command ->
  parsed (parse_args i o args) (force || negb (i && o)) v q command.
Proof.
  intros i o args force v q command H. unfold parse_args. destruct (i && o); cbn [negb]; [now rewrite orb_false_r | rewrite orb_true_r].
  destruct H as (N & F & V & Q & C & NE).
  assert (K : map fst (dset str_eqb (L "_force") (VTruth true) args) = map fst args).
  { clear N V Q C. induction args as [ | [k w] args IH]; [contradiction | ]. cbn [dset]. destruct (str_eqb (L "_force") k) eqn:E; cbn [map fst].
    - reflexivity.
    - f_equal. apply IH. destruct F as [F | F]; [ | exact F]. assert (k = L "_force") by congruence. subst k. pose proof (eqb_refl (L "_force")) as X; congruence. }
  assert (KEEP : forall k w, k <> L "_force" -> In (k, w) args -> In (k, w) (dset str_eqb (L "_force") (VTruth true) args)).
  { intros k w NK I. apply get_in. rewrite get_set, (eqb_neq _ _ NK). now apply in_get. }
  split; [now rewrite K | ]. split; [apply get_in; rewrite get_set; now rewrite eqb_refl | ].
  repeat split; try (apply KEEP; [discriminate | assumption]). exact NE.
Qed.

(** The words of COT's own commands, by comparing two finite tables *)
Definition entitled (d : list (str * nat)) : list (str * option str) :=
  map (fun x => (fst x, match nth_error commands (snd x) with Some r => Some (r_title r) | None => None end)) d.
Lemma words_of : forall d l, NoDup (map fst d) ->
  (forall s t, In (s, Some t) (entitled d) <-> In (s, t) l) ->
  forall s t, (exists p, dget str_eqb s d = Some p /\ titled p t) <-> In (s, t) l.
Proof.
  intros d l N H s t. rewrite <- H. unfold entitled. rewrite in_map_iff. split.
  - intros (p & G & r & A & B). exists (s, p). cbn [fst snd]. rewrite A, B. split; [reflexivity | ]. exact (PyDictProofs.dget_In str_eqb str_eqb_eq _ _ _ G).
  - intros ((s', p) & E & I). cbn [fst snd] in E. destruct (nth_error commands p) as [r | ] eqn:A; [ | discriminate].
    injection E as -> <-. exists p. split; [exact (PyDictProofs.dget_Some_In str_eqb str_eqb_eq _ _ _ N I) | ]. now exists r.
Qed.
Definition pair_eqb (a : str * option str) (b : str * str) : bool := str_eqb (fst a) (fst b) && match snd a with Some t => str_eqb t (snd b) | None => false end.
Lemma pair_eqb_spec : forall a s t, pair_eqb a (s, t) = true <-> a = (s, Some t).
Proof.
  intros [s' [t' | ]] s t; unfold pair_eqb; cbn [fst snd].
  - rewrite andb_true_iff, !str_eqb_eq. split; [intros [-> ->]; reflexivity | intros E; injection E as -> ->; now split].
  - rewrite andb_false_r. split; discriminate.
Qed.
Lemma same_table : forall (d : list (str * option str)) (l : list (str * str)), forallb (fun a => existsb (pair_eqb a) l) d = true ->
  forallb (fun b => existsb (fun a => pair_eqb a b) d) l = true -> forall s t, In (s, Some t) d <-> In (s, t) l.
Proof.
  intros d l A B s t. rewrite forallb_forall in A, B. split.
  - intros I. specialize (A _ I). apply existsb_exists in A as ((s', t') & J & E). apply pair_eqb_spec in E. injection E as -> ->. exact J.
  - intros I. specialize (B _ I). apply existsb_exists in B as (a & J & E). apply pair_eqb_spec in E as ->. exact J.
Qed.
Fixpoint distinct (l : list str) : bool := match l with [] => true | x :: l' => negb (existsb (str_eqb x) l') && distinct l' end.
Lemma distinct_spec : forall l, distinct l = true -> NoDup l.
Proof.
  induction l as [ | x l IH]; intros H; [constructor | ]. cbn [distinct] in H. apply andb_true_iff in H as [A B]. constructor; [ | now apply IH].
  intros I. apply negb_true_iff in A. assert (C : existsb (str_eqb x) l = true); [ | rewrite C in A; discriminate].
  apply existsb_exists. exists x. split; [exact I | apply str_eqb_refl].
Qed.
Lemma accepted_words : forall s t, (exists p, dget str_eqb s (g_accepted (create_subparsers commands)) = Some p /\ titled p t) <-> In (s, t) cot_words.
Proof. apply words_of; [apply distinct_spec; vm_compute; reflexivity | apply same_table; vm_compute; reflexivity]. Qed.
Lemma lookup_words : forall s t, (exists p, dget str_eqb s (g_lookup (create_subparsers commands)) = Some p /\ titled p t) <-> In (s, t) (cot_words ++ deploy_words).
Proof. apply words_of; [apply distinct_spec; vm_compute; reflexivity | apply same_table; vm_compute; reflexivity]. Qed.
