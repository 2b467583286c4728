From Coq Require Import Lia ZifyBool.
From Verif Require Import PyBase PyBaseProofs ValidationModel ValidationProofs PlatformModel PlatformSpec.
Ltac Zify.zify_post_hook ::= Z.div_mod_to_equations.

Lemma hardware_eqb_eq : forall a b, hardware_eqb a b = true <-> a = b.
Proof. intros [] []; cbn; split; congruence. Qed.

Lemma cached_In : forall h v c, cached h v c = true <-> In (h, v) c.
Proof.
  intros h v c. unfold cached. rewrite existsb_exists. split.
  - intros ([h' v'] & Hi & H). apply andb_true_iff in H as [H1 H2]. cbn in *.
    apply hardware_eqb_eq in H1. apply Z.eqb_eq in H2. now subst.
  - intros H. exists (h, v). split; [exact H|]. cbn. rewrite Z.eqb_refl.
    now rewrite (proj2 (hardware_eqb_eq h h) eq_refl).
Qed.

Lemma base_cache : forall p h v c x, In x (snd (base_validate p h v c)) <-> x = (h, v) \/ In x c.
Proof.
  intros p h v c x. unfold base_validate. destruct (cached h v c) eqn:E.
  - cbn. apply cached_In in E. split; [auto|]. intros [->|H]; assumption.
  - destruct (hardware_limits p h) as [lo hi]. destruct (validate_int (AInt v) lo hi); cbn; intuition congruence.
Qed.

Lemma validate_cache : forall p h v c x, In x (snd (validate p h v c)) <-> x = (h, v) \/ In x c.
Proof.
  intros p h v c x. rewrite <- (base_cache p h v c x). unfold validate.
  destruct (base_validate p h v c) as [[u|e] c'] eqn:E; reflexivity.
Qed.

Lemma after_cache : forall p hist c x, In x (after p c hist) <-> In x c \/ In x hist.
Proof.
  intros p. induction hist as [|[h v] hist IH]; intros c x; cbn [after].
  - cbn. tauto.
  - rewrite IH, validate_cache. cbn. intuition.
Qed.

Lemma limits_low : forall p h v, too_low p h v <->
  exists m, fst (hardware_limits p h) = Some m /\ (v < m)%Z.
Proof.
  intros p h v. destruct p, h; cbn [too_low hardware_limits fst];
    (split; [intros H; eexists; split; [reflexivity|lia]|intros (m & [= <-] & H); lia]).
Qed.
Lemma limits_high : forall p h v, too_high p h v <->
  exists m, snd (hardware_limits p h) = Some m /\ (m < v)%Z.
Proof.
  intros p h v. destruct p, h; cbn [too_high hardware_limits snd];
    (split; [intros H; first [contradiction|eexists; split; [reflexivity|lia]]|
             intros (m & E & H); first [discriminate|injection E as <-; lia]]).
Qed.

Lemma bad_cpu_spec : forall p h v,
  (check_cpu_list p h v = Err EValueUnsupported /\ bad_cpu_count p h v) \/
  (check_cpu_list p h v = Ok tt /\ ~ bad_cpu_count p h v).
Proof.
  intros p h v. unfold check_cpu_list. destruct p, h; cbn [cpu_list bad_cpu_count];
    try (right; split; [reflexivity|tauto]).
  - destruct (existsb (Z.eqb v) [4; 6; 10]%Z) eqn:E; cbn [existsb] in E; [right|left]; (split; [reflexivity|lia]).
  - destruct (existsb (Z.eqb v) [1; 2; 4; 8]%Z) eqn:E; cbn [existsb] in E; [right|left]; (split; [reflexivity|lia]).
Qed.

Lemma validate_new : forall p h v c, ~ In (h, v) c ->
  (fst (validate p h v c) = Err EValueTooLow <-> too_low p h v) /\
  (fst (validate p h v c) = Err EValueTooHigh <-> too_high p h v) /\
  (fst (validate p h v c) = Err EValueUnsupported <->
     bad_cpu_count p h v /\ ~ too_low p h v /\ ~ too_high p h v) /\
  (fst (validate p h v c) = Ok tt <->
     ~ too_low p h v /\ ~ too_high p h v /\ ~ bad_cpu_count p h v).
Proof.
  intros p h v c Hc. unfold validate, base_validate.
  assert (cached h v c = false) as ->.
  { destruct (cached h v c) eqn:E; [|reflexivity]. apply cached_In in E. contradiction. }
  pose proof (limits_low p h v) as HL. pose proof (limits_high p h v) as HH.
  destruct (hardware_limits p h) as [lo hi]. cbn [fst snd] in HL, HH.
  assert (HLH : ~ (too_low p h v /\ too_high p h v)).
  { intros [A B]. clear -A B. destruct p, h; cbn in A, B; try contradiction; lia. }
  destruct (validate_int_int v lo hi) as (V1 & V2 & V3 & V4).
  pose proof (bad_cpu_spec p h v) as HB.
  destruct (validate_int (AInt v) lo hi) as [r|e] eqn:E.
  - destruct (proj1 (V3 r) eq_refl) as (-> & Vl & Vh).
    assert (~ too_low p h v) by (rewrite HL; intros (m & -> & ?); specialize (Vl m eq_refl); lia).
    assert (~ too_high p h v) by (rewrite HH; intros (m & -> & ?); specialize (Vh m eq_refl); lia).
    cbn [fst]. destruct HB as [[-> B]|[-> B]]; repeat split; try discriminate; tauto.
  - cbn [fst]. destruct (V4 e eq_refl) as [-> | ->].
    + assert (too_low p h v) by now apply HL, V1. repeat split; try discriminate; try tauto.
    + assert (too_high p h v) by (apply HH; now apply V2). repeat split; try discriminate; try tauto.
Qed.

Lemma validate_again : forall p h v c, In (h, v) c ->
  (fst (validate p h v c) = Ok tt <-> ~ bad_cpu_count p h v) /\
  (fst (validate p h v c) = Err EValueUnsupported <-> bad_cpu_count p h v).
Proof.
  intros p h v c Hc. unfold validate, base_validate. rewrite (proj2 (cached_In h v c) Hc).
  pose proof (bad_cpu_spec p h v) as HB.
  cbn [fst]. destruct HB as [[-> B]|[-> B]]; repeat split; try discriminate; tauto.
Qed.

Theorem validate_first_use : forall p history h v, ~ In (h, v) history ->
  let r := fst (validate p h v (after p [] history)) in
  (r = Err EValueTooLow <-> too_low p h v) /\
  (r = Err EValueTooHigh <-> too_high p h v) /\
  (r = Err EValueUnsupported <-> bad_cpu_count p h v /\ ~ too_low p h v /\ ~ too_high p h v) /\
  (r = Ok tt <-> ~ too_low p h v /\ ~ too_high p h v /\ ~ bad_cpu_count p h v).
Proof.
  intros p history h v H. apply validate_new. rewrite after_cache. cbn. tauto.
Qed.
Theorem validate_later_use : forall p history h v, In (h, v) history ->
  let r := fst (validate p h v (after p [] history)) in
  (r = Ok tt <-> ~ bad_cpu_count p h v) /\
  (r = Err EValueUnsupported <-> bad_cpu_count p h v).
Proof.
  intros p history h v H. apply validate_again. rewrite after_cache. tauto.
Qed.

Theorem validate_invalid_accepted : exists p h v,
  (too_high p h v) /\
  fst (validate p h v []) = Err EValueTooHigh /\
  fst (validate p h v (after p [] [(h, v)])) = Ok tt.
Proof. exists IOSv, HCpus, 2%Z. repeat split. Qed.

(** ** NIC types *)
Theorem validate_nic_types_spec : forall p l,
  (validate_nic_types p l = Ok tt <-> forall t, In t l -> In t (supported_nic_types p)) /\
  (forall e, validate_nic_types p l = Err e ->
     e = EValueUnsupported /\ exists t, In t l /\ ~ In t (supported_nic_types p)).
Proof.
  intros p. induction l as [|t l [IH1 IH2]]; cbn [validate_nic_types].
  - split; [split; [intros _ t []|reflexivity]|discriminate].
  - unfold validate_nic_type. destruct (mem_str t (supported_nic_types p)) eqn:E; cbn [rbind].
    + apply mem_str_In in E. split.
      * rewrite IH1. split; [intros H x [<-|Hx]; auto|intros H x Hx; apply H; now right].
      * intros e He. destruct (IH2 e He) as (-> & x & Hx & Hn). split; [reflexivity|].
        exists x. split; [now right|exact Hn].
    + apply mem_str_false in E. split.
      * split; [discriminate|]. intros H. exfalso. apply E, H. now left.
      * intros e [= <-]. split; [reflexivity|]. exists t. split; [now left|exact E].
Qed.

(** Every supported NIC type is a canonical name. *)
Theorem supported_canonical : forall p t, In t (supported_nic_types p) ->
  canonicalize_nic_subtype (Some t) = Ok (Some t).
Proof.
  intros p t H. destruct p; cbn in H; intuition (subst; reflexivity).
Qed.

(** ** NIC names *)

Lemma zdec_digits : forall z, (0 <= z)%Z -> forallb is_digit (zdec z) = true.
Proof. intros z H. rewrite zdec_nonneg by exact H. apply dec_digits. Qed.

Lemma slash_split : forall a1 b1 a2 b2,
  forallb is_digit a1 = true -> forallb is_digit a2 = true ->
  a1 ++ "/"%char :: b1 = a2 ++ "/"%char :: b2 -> a1 = a2 /\ b1 = b2.
Proof.
  intros a1 b1 a2 b2 H1 H2 E.
  apply (span_unique _ is_digit) in E as [-> E]; auto.
  - now injection E as ->.
  - now intros c t [= <- _].
  - now intros c t [= <- _].
Qed.

Lemma app_pre_inj : forall (p a b : str), p ++ a = p ++ b -> a = b.
Proof. intros. now apply app_inv_head in H. Qed.

Theorem nic_names_distinct : forall p m n, (1 <= m)%Z -> (1 <= n)%Z ->
  guess_nic_name p m = guess_nic_name p n -> m = n.
Proof.
  intros p m n Hm Hn H.
  assert (A : forall (q a b : str), q ++ a = q ++ b -> a = b) by (intros; now apply app_inv_head in H0).
  destruct p; unfold guess_nic_name in H;
    repeat match type of H with
    | context[Z.eqb ?a ?b] => destruct (Z.eqb_spec a b)
    end; try lia; try discriminate;
    try (apply A, zdec_inj in H; lia).
  apply A in H. apply slash_split in H as [H1 H2]; try (apply zdec_digits; lia).
  apply zdec_inj in H1, H2. lia.
Qed.

Theorem nic_name_documented : forall p n, (1 <= n)%Z -> documented_name p n (guess_nic_name p n).
Proof.
  intros p n Hn.
  assert (S : forall k d, documented_name p (n - d + d) k -> documented_name p n k)
    by (intros k d; now replace (n - d + d)%Z with n by lia).
  destruct p; cbn [guess_nic_name].
  - constructor.
  - apply D_xe. now left.
  - apply D_xe. now right.
  - apply (S _ 1%Z). constructor.
  - destruct (Z.eqb_spec n 1) as [-> |N]; [constructor|]. apply (S _ 2%Z). constructor. lia.
  - destruct (Z.eqb_spec n 1) as [-> |N]; [constructor; now left|]. apply (S _ 2%Z). constructor. lia.
  - destruct (Z.eqb_spec n 1) as [-> |N]; [constructor; now right|]. apply (S _ 2%Z). constructor. lia.
  - destruct (Z.eqb_spec n 1) as [-> |N]; [constructor|].
    destruct (Z.eqb_spec n 2) as [-> |N2]; [constructor|].
    destruct (Z.eqb_spec n 3) as [-> |N3]; [constructor|]. apply (S _ 4%Z). constructor. lia.
  - destruct (Z.eqb_spec n 1) as [-> |N]; [constructor; now left|]. apply (S _ 1%Z). constructor. lia.
  - destruct (Z.eqb_spec n 1) as [-> |N]; [constructor; now right|].
    pose proof (Z.div_mod (n - 2) 48) as D. pose proof (Z.mod_pos_bound (n - 2) 48) as M.
    pose proof (Z.div_pos (n - 2) 48) as Q.
    set (q := ((n - 2) / 48)%Z) in *. set (m := ((n - 2) mod 48)%Z) in *.
    assert (Hn' : n = ((q + 2 - 2) * 48 + (m + 1) + 1)%Z) by lia. rewrite Hn' at 1. constructor; lia.
Qed.

Theorem product_exact : forall s p, p <> Generic ->
  (for_product_string (Some s) = p <-> exists t, s = L t /\ documented_product t p).
Proof.
  intros s p Hp. split.
  - cbn [for_product_string]. unfold product_platform_map. cbn [lookup_platform].
    repeat (match goal with |- context [str_eqb s ?k] => let F := fresh in destruct (str_eqb s k) eqn:F;
      [intros <-; apply str_eqb_eq in F; eexists; split; [exact F|constructor]|clear F] end).
    intros <-. contradiction.
  - intros (t & -> & D). destruct D; reflexivity.
Qed.

Theorem nic_types_documented : forall p s, In s (supported_nic_types p) <-> exists t, s = L t /\ documented_nic_type p t.
Proof.
  intros p s. split.
  - destruct p; cbn [supported_nic_types NIC_TYPES In documented_nic_type]; intros H;
      repeat (destruct H as [<- |H]; [eexists; split; [reflexivity|]; cbn; tauto|]); contradiction.
  - intros (t & -> & D). destruct p; cbn [documented_nic_type] in D;
      repeat match goal with H : _ \/ _ |- _ => destruct H end; subst t;
      cbn [supported_nic_types NIC_TYPES nic_mappings map snd In]; tauto.
Qed.
