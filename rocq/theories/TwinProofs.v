(** Hardware that reports the same (C66) has the same devices of each type, in each profile, with
    the same values: what C53 says of the one holds of the other. *)
From Coq Require Import List Ascii Bool ZArith Lia.
Import ListNotations.
From Verif Require Import PyBase PyBaseProofs PyDict PyDictProofs XmlModel NamesModel ItemModel ItemSpec ItemProofs ItemEffectProofs HardwareModel HardwareSpec HardwareProofs HardwareIdProofs CountSpec FindSpec RereadSpec
  EditHwModel EditHwSpec.
From Verif Require FindProofs LookupProofs ItemProfileProofs.

Lemma IID_text : forall v, ~ text_property v (INSTANCE_ID v).
Proof. intros [] [H|H]; discriminate H. Qed.
Lemma default_alone : forall v i n q x y, good_props v (i_props i) -> n = INSTANCE_ID v \/ n = RESOURCE_TYPE -> own (i_props i) n None x -> own (i_props i) n q y -> q = None.
Proof.
  intros v i n q x y G Hn Ho Hq. pose proof (good_single _ _ _ _ _ _ _ G Hn Ho Hq) as <-. destruct G as (G0 & G1 & _). destruct Ho as (dd & s & A1 & A2 & A3). destruct Hq as (dd' & s' & B1 & B2 & B3).
  assert (dd' = dd) as -> by (apply prget_In in A1; [|exact G0]; apply prget_In in B1; [|exact G0]; congruence).
  destruct (G1 n dd A1) as (N & D & _). assert (s' = s) as -> by (apply (vget_In _ _ _ N) in A2; apply (vget_In _ _ _ N) in B2; congruence).
  destruct (D x s A2) as (_ & _ & _ & Al). rewrite (Al A3) in B3. destruct B3 as [B3|[]]. now symmetry.
Qed.

(** ** Two devices *)
Section Pair.
Variables (F : env) (i j : item).
Hypothesis G1 : good_props (e_ver F) (i_props i).
Hypothesis G2 : good_props (e_ver F) (i_props j).
Hypothesis S : same_reports F i j.

Lemma holds_twin : forall n q x, ~ text_property (e_ver F) n -> (holds (i_props i) n q x <-> holds (i_props j) n q x).
Proof. intros n q x T. rewrite <- (reports_plain F i n q x G1 T), <- (reports_plain F j n q x G2 T). now rewrite (S n q). Qed.
End Pair.
Lemma own_holds : forall ps n q x, own ps n q x -> holds ps n q x.
Proof. intros ps n q x H. now left. Qed.
Lemma holds_own : forall ps n q x, holds ps n q x -> exists q', own ps n q' x.
Proof. intros ps n q x [H|[_ H]]; [now exists q|now exists None]. Qed.
Lemma holds_none : forall ps n x, holds ps n None x -> own ps n None x.
Proof. intros ps n x [H|[_ H]]; exact H. Qed.
Lemma same_sym : forall F i j, same_reports F i j -> same_reports F j i.
Proof. intros F i j H n q. symmetry. apply H. Qed.

(** The InstanceID and the type have one value, and are kept alike. *)
Lemma own_to : forall F i j n q x, good_props (e_ver F) (i_props i) -> good_props (e_ver F) (i_props j) -> same_reports F i j ->
  n = INSTANCE_ID (e_ver F) \/ n = RESOURCE_TYPE -> own (i_props i) n q x -> own (i_props j) n q x.
Proof.
  intros F i j n q x G1 G2 S Hn Ho. assert (T : ~ text_property (e_ver F) n) by (destruct Hn as [-> | ->]; [apply IID_text|apply FindProofs.RT_plain]).
  pose proof (proj1 (holds_twin F i j G1 G2 S n q x T) (own_holds _ _ _ _ Ho)) as [H|[N H]]; [exact H|].
  pose proof (holds_none _ _ _ (proj2 (holds_twin F i j G1 G2 S n None x T) (own_holds _ _ _ _ H))) as H'.
  rewrite (default_alone _ _ _ _ _ _ G1 Hn H' Ho). exact H.
Qed.
Lemma own_twin : forall F i j n q x, good_props (e_ver F) (i_props i) -> good_props (e_ver F) (i_props j) -> same_reports F i j ->
  n = INSTANCE_ID (e_ver F) \/ n = RESOURCE_TYPE -> (own (i_props i) n q x <-> own (i_props j) n q x).
Proof. intros F i j n q x G1 G2 S Hn. split; [now apply (own_to F)|apply (own_to F); try assumption; now apply same_sym]. Qed.
Lemma only_to : forall F i j n x, good_props (e_ver F) (i_props i) -> good_props (e_ver F) (i_props j) -> same_reports F i j -> ~ text_property (e_ver F) n ->
  only_value (i_props i) n x -> only_value (i_props j) n x.
Proof.
  intros F i j n x G1 G2 S T [[p Hp] Hall]. split.
  - apply (holds_own _ _ p). apply (holds_twin F i j G1 G2 S n p x T). now apply own_holds.
  - intros q y Hq. apply own_holds in Hq. apply (holds_twin F i j G1 G2 S n q y T) in Hq. apply holds_own in Hq as [q' Hq]. exact (Hall q' y Hq).
Qed.
Lemma only_twin : forall F i j n x, good_props (e_ver F) (i_props i) -> good_props (e_ver F) (i_props j) -> same_reports F i j -> ~ text_property (e_ver F) n ->
  (only_value (i_props i) n x <-> only_value (i_props j) n x).
Proof. intros F i j n x G1 G2 S T. split; [now apply (only_to F)|apply (only_to F); try assumption; now apply same_sym]. Qed.
Lemma is_of_values : forall w i, is_of w i -> has_values i.
Proof. intros w i [[p H] _]. now exists RESOURCE_TYPE, p, (VStr w). Qed.
Lemma of_type_only : forall F rt i, good_props (e_ver F) (i_props i) -> (of_type F rt i <-> exists x, dget str_eqb rt RES_MAP = Some x /\ is_of x i).
Proof.
  intros F rt i G. destruct (FindProofs.value_only F i RESOURCE_TYPE G (FindProofs.RT_plain _)) as (o & Ho & Hv). split; intros (x & H1 & H2); exists x; (split; [exact H1|]).
  - apply Hv. rewrite H2 in Ho. now injection Ho as <-.
  - rewrite Ho. f_equal. now apply Hv.
Qed.

(** Names that mention no value of the device *)
Lemma value_twin : forall F i j n Q, good_props (e_ver F) (i_props i) -> good_props (e_ver F) (i_props j) -> same_reports F i j -> ~ text_property (e_ver F) n -> Q <> [] ->
  get_value F (i_props j) n (Some Q) = get_value F (i_props i) n (Some Q).
Proof.
  intros F i j n Q G1 G2 S T HQ.
  assert (V : forall ps, get_value F ps n (Some Q) = Ok (get_raw ps n (Some Q))).
  { intros ps. apply ItemProfileProofs.get_value_plain. now apply ItemProfileProofs.not_text. }
  rewrite !V. f_equal. destruct (get_raw (i_props i) n (Some Q)) as [x|] eqn:A.
  - apply (LookupProofs.get_raw_set _ _ _ _ _ G2 HQ). intros p Hp. apply (holds_twin F i j G1 G2 S n p x T). exact (proj1 (LookupProofs.get_raw_set _ _ _ _ _ G1 HQ) A p Hp).
  - destruct (get_raw (i_props j) n (Some Q)) as [x|] eqn:B; [|reflexivity]. rewrite <- A. symmetry. apply (LookupProofs.get_raw_set _ _ _ _ _ G1 HQ). intros p Hp. apply (holds_twin F i j G1 G2 S n p x T). exact (proj1 (LookupProofs.get_raw_set _ _ _ _ _ G2 HQ) B p Hp).
Qed.
Lemma plain_name_twin : forall F i j t, good_props (e_ver F) (i_props i) -> good_props (e_ver F) (i_props j) -> same_reports F i j -> plain_name F j t -> plain_name F i t.
Proof.
  intros F i j t G1 G2 S [A B]. split; [exact A|]. intros Q x y HQ Em. apply (B Q x y HQ).
  assert (X : forall n, ~ text_property (e_ver F) n -> get_value F (i_props j) n (Some Q) = get_value F (i_props i) n (Some Q)) by (intros n T; now apply value_twin).
  inversion Em as [n z Hz|n z Hz|n z Hz|z Hz]; subst.
  - apply embeds_vq. rewrite X; [exact Hz|]. intros [Y|Y]; destruct (e_ver F); discriminate Y.
  - apply embeds_rst. rewrite X; [exact Hz|]. intros [Y|Y]; destruct (e_ver F); discriminate Y.
  - apply embeds_conn. rewrite X; [exact Hz|]. intros [Y|Y]; destruct (e_ver F); discriminate Y.
  - exfalso. match goal with Y : ITEM_DESCRIPTION = _ |- _ => destruct (e_ver F); discriminate Y end.
Qed.

(** ** All devices *)
Section Twins.
Variables (F : env) (h h2 : hw).
Hypothesis R : hw_reachable (e_ver F) h.
Hypothesis R2 : hw_reachable (e_ver F) h2.
Hypothesis SH : same_hardware F h h2.
Hypothesis CF : forall k i, In (k, i) h -> config_of F i = e_profiles F.
Hypothesis CF2 : forall k i, In (k, i) h2 -> config_of F i = e_profiles F.

Lemma good1 : forall k i, In (k, i) h -> good_props (e_ver F) (i_props i).
Proof. intros k i H. exact (proj2 (FindProofs.ids_good F h k i (reachable_ids _ _ R) H)). Qed.
Lemma good2 : forall k i, In (k, i) h2 -> good_props (e_ver F) (i_props i).
Proof. intros k i H. exact (proj2 (FindProofs.ids_good F h2 k i (reachable_ids _ _ R2) H)). Qed.
Lemma present_twin : forall k i j p, In (k, i) h -> In (k, j) h2 -> same_reports F i j -> (present F i p <-> present F j p).
Proof.
  intros k i j p Hi Hj S. pose proof (good1 _ _ Hi) as A. pose proof (good2 _ _ Hj) as B. unfold present. rewrite (CF _ _ Hi), (CF2 _ _ Hj).
  assert (Q : forall q, (exists x, own (i_props i) (INSTANCE_ID (e_ver F)) q x) <-> (exists x, own (i_props j) (INSTANCE_ID (e_ver F)) q x)).
  { intros q. split; intros [x Hx]; exists x; apply (own_twin F i j _ _ _ A B S (or_introl eq_refl)); exact Hx. }
  rewrite !Q. reflexivity.
Qed.
Lemma is_of_twin : forall k i j w, In (k, i) h -> In (k, j) h2 -> same_reports F i j -> (is_of w i <-> is_of w j).
Proof. intros k i j w Hi Hj S. exact (only_twin F i j _ _ (good1 _ _ Hi) (good2 _ _ Hj) S (FindProofs.RT_plain _)). Qed.
Lemma to_twin : forall k i, In (k, i) h -> has_values i -> exists j, In (k, j) h2 /\ same_reports F i j.
Proof. intros k i H V. exact (proj1 (proj2 SH) k i H V). Qed.
Lemma of_twin : forall k j, In (k, j) h2 -> exists i, In (k, i) h /\ same_reports F i j.
Proof. intros k j H. destruct (proj2 (proj2 SH) k j H) as (i & A & _ & B). now exists i. Qed.
Lemma same_key : forall k i j, In (k, i) h -> In (k, j) h2 -> same_reports F i j.
Proof.
  intros k i j Hi Hj. destruct (of_twin k j Hj) as (i' & Hi' & S). assert (i' = i) as -> ; [|exact S].
  apply (hget_In _ _ _ (proj1 (reachable_ids _ _ R))) in Hi. apply (hget_In _ _ _ (proj1 (reachable_ids _ _ R))) in Hi'. congruence.
Qed.
Lemma present_values : forall i p, present F i p -> has_values i.
Proof. intros i p [[x H]|[[x H] _]]; eexists _, _, _; exact H. Qed.

Lemma devices_twin : forall rt p ks, are_devices F h rt p ks <-> are_devices F h2 rt p ks.
Proof.
  intros rt p ks. unfold are_devices.
  assert (Q : forall k, (exists i, In (k, i) h /\ of_type F rt i /\ present F i p) <-> (exists i, In (k, i) h2 /\ of_type F rt i /\ present F i p)).
  { intros k. split.
    - intros (i & Hi & Ht & Hp). destruct (to_twin k i Hi (present_values _ _ Hp)) as (j & Hj & S). exists j. split; [exact Hj|]. split; [|now apply (present_twin k i j p Hi Hj S)].
      apply (of_type_only F rt j (good2 _ _ Hj)). apply (of_type_only F rt i (good1 _ _ Hi)) in Ht as (x & Hx & Ho). exists x. split; [exact Hx|]. now apply (is_of_twin k i j x Hi Hj S).
    - intros (j & Hj & Ht & Hp). destruct (of_twin k j Hj) as (i & Hi & S). exists i. split; [exact Hi|]. split; [|now apply (present_twin k i j p Hi Hj S)].
      apply (of_type_only F rt i (good1 _ _ Hi)). apply (of_type_only F rt j (good2 _ _ Hj)) in Ht as (x & Hx & Ho). exists x. split; [exact Hx|]. now apply (is_of_twin k i j x Hi Hj S). }
  split; intros (A & B & C); (split; [exact A|]; split; [exact B|]; intros k; rewrite (C k)); [apply Q|symmetry; apply Q].
Qed.
Lemma wanted_twin : forall rt ks, are_wanted F h (Some rt) [] [] ks <-> are_wanted F h2 (Some rt) [] [] ks.
Proof.
  intros rt ks. unfold are_wanted.
  assert (W : forall i, wanted F (Some rt) [] [] i <-> exists x, dget str_eqb rt RES_MAP = Some x /\ is_of x i).
  { intros i. split; [intros (A & _); exact (A rt eq_refl)|]. intros A. split; [|split; intros ? []]. intros t Et. now injection Et as <-. }
  assert (Q : forall k, (exists i, In (k, i) h /\ wanted F (Some rt) [] [] i) <-> (exists i, In (k, i) h2 /\ wanted F (Some rt) [] [] i)).
  { intros k. split.
    - intros (i & Hi & Ht). apply W in Ht as (x & Hx & Ho). destruct (to_twin k i Hi (is_of_values _ _ Ho)) as (j & Hj & S). exists j. split; [exact Hj|]. apply W. exists x. split; [exact Hx|]. now apply (is_of_twin k i j x Hi Hj S).
    - intros (j & Hj & Ht). apply W in Ht as (x & Hx & Ho). destruct (of_twin k j Hj) as (i & Hi & S). exists i. split; [exact Hi|]. apply W. exists x. split; [exact Hx|]. now apply (is_of_twin k i j x Hi Hj S). }
  split; intros (A & B & C); (split; [exact A|]; split; [exact B|]; intros k; rewrite (C k)); [apply Q|symmetry; apply Q].
Qed.
(** Something that all devices of a type have set *)
Lemma set_twin : forall E w n x P, e_ver E = e_ver F -> (forall i q, reports E i n q = reports F i n q) -> ~ text_property (e_ver F) n ->
  (forall k i, In (k, i) h -> is_of w i -> has_set E i n x P) -> forall k j, In (k, j) h2 -> is_of w j -> has_set E j n x P.
Proof.
  intros E w n x P EV ER T H k j Hj Ho. destruct (of_twin k j Hj) as (i & Hi & S). apply (is_of_twin k i j w Hi Hj S) in Ho as Ho'. destruct (H k i Hi Ho') as [A B]. split.
  - intros p Hp. rewrite ER, (S n p), <- ER. exact (A p Hp).
  - intros Hp. apply (only_to F i j n x (good1 _ _ Hi) (good2 _ _ Hj) S T). exact (B Hp).
Qed.
Lemma some_twin : forall w, (exists k i, In (k, i) h /\ is_of w i) -> exists k j, In (k, j) h2 /\ is_of w j.
Proof.
  intros w (k & i & Hi & Ho). destruct (to_twin k i Hi (is_of_values _ _ Ho)) as (j & Hj & S). exists k, j. split; [exact Hj|]. now apply (is_of_twin k i j w Hi Hj S).
Qed.
Lemma alike_twin : forall w, (forall k i, In (k, i) h -> is_of w i -> exists j, In (k, j) h2 /\ is_of w j /\ same_reports F i j) /\
  (forall k j, In (k, j) h2 -> is_of w j -> exists i, In (k, i) h /\ is_of w i /\ same_reports F i j).
Proof.
  intros w. split.
  - intros k i Hi Ho. destruct (to_twin k i Hi (is_of_values _ _ Ho)) as (j & Hj & S). exists j. split; [exact Hj|]. split; [now apply (is_of_twin k i j w Hi Hj S)|exact S].
  - intros k j Hj Ho. destruct (of_twin k j Hj) as (i & Hi & S). exists i. split; [exact Hi|]. split; [now apply (is_of_twin k i j w Hi Hj S)|exact S].
Qed.
End Twins.
