(** Lemmas about the Python-level primitives. *)
From Verif Require Import PyBase.
From Coq Require Import Lia ZifyBool ZifyNat ZifyN.

Lemma str_eqb_refl : forall a, str_eqb a a = true.
Proof. induction a as [|x a IH]; cbn; [reflexivity|]. now rewrite Ascii.eqb_refl. Qed.

Lemma str_eqb_eq : forall a b, str_eqb a b = true <-> a = b.
Proof.
  induction a as [|x a IH]; intros [|y b]; cbn; split; intros H; try discriminate; auto.
  - apply andb_true_iff in H as [H1 H2]. apply Ascii.eqb_eq in H1.
    apply IH in H2. now subst.
  - injection H as -> ->. rewrite Ascii.eqb_refl. cbn. now apply IH.
Qed.

Lemma str_eqb_neq : forall a b, str_eqb a b = false <-> a <> b.
Proof.
  intros a b. destruct (str_eqb a b) eqn:E.
  - apply str_eqb_eq in E. split; [discriminate|contradiction].
  - split; [|reflexivity]. intros _ H. apply str_eqb_eq in H. congruence.
Qed.

Lemma str_eqb_sym : forall a b, str_eqb a b = str_eqb b a.
Proof.
  intros a b. destruct (str_eqb a b) eqn:E; symmetry.
  - apply str_eqb_eq in E. subst. apply str_eqb_refl.
  - apply str_eqb_neq in E. apply str_eqb_neq. congruence.
Qed.

Lemma mem_str_In : forall x l, mem_str x l = true <-> In x l.
Proof.
  intros x l. unfold mem_str. rewrite existsb_exists. split.
  - intros (y & Hy & E). apply str_eqb_eq in E. now subst.
  - intros H. exists x. split; [assumption|apply str_eqb_refl].
Qed.

Lemma mem_str_false : forall x l, mem_str x l = false <-> ~ In x l.
Proof.
  intros x l. rewrite <- mem_str_In. destruct (mem_str x l); split; congruence.
Qed.

Lemma starts_with_spec : forall p s,
  starts_with p s = true <-> exists t, s = p ++ t.
Proof.
  induction p as [|x p IH]; intros s; cbn.
  - split; eauto.
  - destruct s as [|y s]; cbn.
    + split; [discriminate|]. intros [t H]. discriminate.
    + rewrite andb_true_iff, Ascii.eqb_eq, IH. split.
      * intros [-> [t ->]]. now exists t.
      * intros [t H]. injection H as -> ->. split; [reflexivity|now exists t].
Qed.

Lemma starts_with_app : forall p t, starts_with p (p ++ t) = true.
Proof. intros. apply starts_with_spec. now exists t. Qed.

Lemma ends_with_spec : forall p s,
  ends_with p s = true <-> exists t, s = t ++ p.
Proof.
  intros p s. unfold ends_with. rewrite starts_with_spec. split; intros [t H].
  - exists (rev t). rewrite <- (rev_involutive s), H, rev_app_distr, rev_involutive.
    reflexivity.
  - exists (rev t). now rewrite H, rev_app_distr.
Qed.

Lemma contains_spec : forall p s,
  contains p s = true <-> exists a b, s = a ++ p ++ b.
Proof.
  intros p s. induction s as [|c s IH]; cbn [contains];
    rewrite orb_true_iff, starts_with_spec.
  - split.
    + intros [[t H]|H]; [|discriminate]. exists [], t. exact H.
    + intros (a & b & H). left. exists b.
      destruct a; [exact H|discriminate].
  - rewrite IH. split.
    + intros [[t H]|(a & b & ->)].
      * exists [], t. exact H.
      * now exists (c :: a), b.
    + intros (a & b & H). destruct a as [|x a]; cbn in H.
      * left. now exists b.
      * right. injection H as <- ->. now exists a, b.
Qed.

(** ** Characters *)

Lemma code_bound : forall c, (code c < 256)%N.
Proof. intros c. apply N_ascii_bounded. Qed.

Lemma code_ascii : forall n, (n < 256)%N -> code (ascii_of_N n) = n.
Proof. intros n H. now apply N_ascii_embedding. Qed.

Lemma in_range_iff : forall lo hi c,
  in_range lo hi c = true <-> (lo <= code c <= hi)%N.
Proof. intros. unfold in_range. lia. Qed.

Lemma digit_char_is_digit : forall d, (d < 10)%N -> is_digit (digit_char d) = true.
Proof.
  intros d H. unfold is_digit, digit_char. apply in_range_iff.
  rewrite code_ascii; lia.
Qed.

Lemma digit_val_char : forall d, (d < 10)%N -> digit_val (digit_char d) = d.
Proof. intros d H. unfold digit_val, digit_char. rewrite code_ascii; lia. Qed.

Lemma digit_val_lt : forall c, is_digit c = true -> (digit_val c < 10)%N.
Proof. intros c H. apply in_range_iff in H. unfold digit_val. lia. Qed.

Lemma digit_char_val : forall c, is_digit c = true -> digit_char (digit_val c) = c.
Proof.
  intros c H. apply in_range_iff in H. unfold digit_char, digit_val.
  replace (48 + (code c - 48))%N with (code c) by lia. apply ascii_N_embedding.
Qed.

Lemma digit_not_space : forall c, is_digit c = true -> is_space c = false.
Proof.
  intros c H. apply in_range_iff in H. unfold is_space, in_range. lia.
Qed.

(** A finite check over all 256 characters, lifted. *)
Lemma all_ascii : forall (P : ascii -> bool),
  forallb (fun n => P (ascii_of_nat n)) (seq 0 256) = true -> forall c, P c = true.
Proof.
  intros P H c. rewrite forallb_forall in H.
  rewrite <- (ascii_nat_embedding c). apply H. apply in_seq.
  pose proof (nat_ascii_bounded c). lia.
Qed.

Lemma lower_char_idem : forall c, lower_char (lower_char c) = lower_char c.
Proof.
  intros c. apply Ascii.eqb_eq.
  apply (all_ascii (fun c => Ascii.eqb (lower_char (lower_char c)) (lower_char c))).
  vm_compute. reflexivity.
Qed.

Lemma lower_idem : forall s, lower (lower s) = lower s.
Proof.
  intros s. unfold lower. rewrite map_map. apply map_ext. apply lower_char_idem.
Qed.

Lemma lower_app : forall a b, lower (a ++ b) = lower a ++ lower b.
Proof. intros. apply map_app. Qed.

(** ** strip *)

Lemma lstrip_spec : forall s, exists a,
  s = a ++ lstrip s /\ forallb is_space a = true /\
  (forall c t, lstrip s = c :: t -> is_space c = false).
Proof.
  induction s as [|c s IH].
  - exists []. repeat split. cbn. discriminate.
  - cbn [lstrip]. destruct (is_space c) eqn:E.
    + destruct IH as (a & H1 & H2 & H3). exists (c :: a). cbn.
      rewrite E, H2. split; [now rewrite <- H1|]. split; [reflexivity|exact H3].
    + exists []. split; [reflexivity|]. split; [reflexivity|].
      intros c' t H. now injection H as <- <-.
Qed.

Lemma lstrip_nospace_head : forall s,
  (forall c t, s = c :: t -> is_space c = false) -> lstrip s = s.
Proof.
  intros [|c s] H; [reflexivity|]. cbn. now rewrite (H c s eq_refl).
Qed.

Lemma lstrip_app_space : forall a s, forallb is_space a = true -> lstrip (a ++ s) = lstrip s.
Proof.
  induction a as [|c a IH]; intros s H; [reflexivity|].
  cbn in *. apply andb_true_iff in H as [-> H]. now apply IH.
Qed.

Lemma forallb_rev : forall (A : Type) (p : A -> bool) l, forallb p (rev l) = forallb p l.
Proof.
  intros A p l. induction l as [|x l IH]; [reflexivity|].
  cbn. rewrite forallb_app, IH. cbn. rewrite andb_true_r. apply andb_comm.
Qed.

(** A string is trimmed when it neither starts nor ends with white space. *)
Definition trimmed (s : str) : Prop :=
  (forall c t, s = c :: t -> is_space c = false) /\
  (forall c t, s = t ++ [c] -> is_space c = false).

Lemma rstrip_trimmed_right : forall s c t, rstrip s = t ++ [c] -> is_space c = false.
Proof.
  intros s c t H. unfold rstrip in H.
  destruct (lstrip_spec (rev s)) as (a & _ & _ & H3).
  apply (H3 c (rev t)).
  rewrite <- (rev_involutive (lstrip (rev s))), H, rev_app_distr. reflexivity.
Qed.

Lemma rstrip_spec : forall s, exists b,
  s = rstrip s ++ b /\ forallb is_space b = true.
Proof.
  intros s. destruct (lstrip_spec (rev s)) as (a & H1 & H2 & _).
  exists (rev a). unfold rstrip. split.
  - rewrite <- rev_app_distr, <- H1. now rewrite rev_involutive.
  - now rewrite forallb_rev.
Qed.

Lemma strip_spec : forall s, exists a b,
  s = a ++ strip s ++ b /\ forallb is_space a = true /\ forallb is_space b = true /\
  trimmed (strip s).
Proof.
  intros s.
  destruct (lstrip_spec s) as (a & H1 & H2 & H3).
  destruct (rstrip_spec (lstrip s)) as (b & H4 & H5).
  exists a, b. unfold strip. rewrite <- H4, <- H1. repeat split; auto.
  - intros c t H. rewrite H in H4. cbn in H4. eapply H3. rewrite H4. reflexivity.
  - intros c t H. eapply rstrip_trimmed_right. exact H.
Qed.

Lemma strip_of_trimmed : forall s, trimmed s -> strip s = s.
Proof.
  intros s [H1 H2]. unfold strip. rewrite lstrip_nospace_head by exact H1.
  unfold rstrip. rewrite lstrip_nospace_head; [apply rev_involutive|].
  intros c t H. apply (H2 c (rev t)).
  rewrite <- (rev_involutive s), H. reflexivity.
Qed.

Lemma strip_trimmed : forall s, trimmed (strip s).
Proof. intros s. destruct (strip_spec s) as (a & b & _ & _ & _ & H). exact H. Qed.

Lemma strip_idem : forall s, strip (strip s) = strip s.
Proof. intros s. apply strip_of_trimmed, strip_trimmed. Qed.

(** Trimming is determined by its specification. *)
Lemma strip_unique : forall a m b,
  forallb is_space a = true -> forallb is_space b = true -> trimmed m ->
  m <> [] -> strip (a ++ m ++ b) = m.
Proof.
  intros a m b Ha Hb [H1 H2] Hm. unfold strip.
  rewrite lstrip_app_space by exact Ha.
  rewrite lstrip_nospace_head.
  2: { intros c t H. destruct m as [|x m]; [contradiction|].
       cbn in H. injection H as -> _. now apply (H1 c m). }
  unfold rstrip. rewrite rev_app_distr.
  rewrite lstrip_app_space by now rewrite forallb_rev.
  rewrite lstrip_nospace_head; [apply rev_involutive|].
  intros c t H. apply (H2 c (rev t)). rewrite <- (rev_involutive m), H. reflexivity.
Qed.

Lemma trimmed_nospace : forall s, forallb (fun c => negb (is_space c)) s = true -> trimmed s.
Proof.
  intros s H. rewrite forallb_forall in H. split; intros c t ->.
  - apply negb_true_iff, H. now left.
  - apply negb_true_iff, H. apply in_or_app. right. now left.
Qed.

(** ** Decimal text *)

Lemma digits_val_from_app : forall a b acc,
  digits_val_from acc (a ++ b) = digits_val_from (digits_val_from acc a) b.
Proof. intros. unfold digits_val_from. apply fold_left_app. Qed.

Lemma digits_val_from_lin : forall s acc,
  digits_val_from acc s = (acc * 10 ^ N.of_nat (length s) + digits_val s)%N.
Proof.
  unfold digits_val.
  induction s as [|c s IH]; intros acc.
  - cbn [digits_val_from fold_left length N.of_nat]. cbn. lia.
  - cbn [digits_val_from fold_left length]. fold (digits_val_from (acc * 10 + digit_val c) s).
    fold (digits_val_from (0 * 10 + digit_val c) s).
    rewrite IH, (IH (0 * 10 + digit_val c)%N).
    rewrite Nat2N.inj_succ, N.pow_succ_r by lia. lia.
Qed.

Lemma div10_log2 : forall n, (n / 10 <> 0 -> N.log2 (n / 10) < N.log2 n)%N.
Proof.
  intros n H.
  assert (n / 10 <= n / 2)%N.
  { apply N.div_le_compat_l. lia. }
  assert (Hd : (n / 2 <> 0)%N) by lia.
  assert (N.log2 (n / 10) <= N.log2 (n / 2))%N by now apply N.log2_le_mono.
  assert (N.log2 (n / 2) = N.pred (N.log2 n))%N.
  { rewrite <- N.div2_div. rewrite N.div2_spec.
    rewrite N.log2_shiftr. lia. }
  assert (2 <= n)%N.
  { destruct (N.le_gt_cases 2 n); [assumption|]. exfalso. apply Hd. now apply N.div_small. }
  assert (1 <= N.log2 n)%N. { change 1%N with (N.log2 2). now apply N.log2_le_mono. }
  lia.
Qed.

Lemma dec_aux_spec : forall fuel n acc,
  (N.to_nat (N.log2 n) < fuel)%nat ->
  exists d, dec_aux fuel n acc = d ++ acc /\ forallb is_digit d = true /\
            d <> [] /\ digits_val d = n /\
            (forall c t, d = c :: t -> t <> [] -> c <> "0"%char).
Proof.
  induction fuel as [|f IH]; intros n acc Hf; [lia|].
  cbn [dec_aux].
  assert (Hm : (n mod 10 < 10)%N) by (apply N.mod_lt; lia).
  destruct (n / 10 =? 0)%N eqn:E.
  - exists [digit_char (n mod 10)%N]. repeat split.
    + cbn. now rewrite digit_char_is_digit.
    + discriminate.
    + unfold digits_val, digits_val_from. cbn [fold_left].
      rewrite digit_val_char by exact Hm.
      apply N.eqb_eq in E. pose proof (N.div_mod n 10). lia.
    + intros c t H Ht. injection H as _ <-. contradiction.
  - apply N.eqb_neq in E.
    destruct (IH (n / 10)%N (digit_char (n mod 10)%N :: acc)) as (d & H1 & H2 & H3 & H4 & H5).
    { pose proof (div10_log2 n E). lia. }
    exists (d ++ [digit_char (n mod 10)%N]). repeat split.
    + rewrite H1, <- app_assoc. reflexivity.
    + rewrite forallb_app, H2. cbn. now rewrite digit_char_is_digit.
    + destruct d; discriminate.
    + unfold digits_val in *. rewrite digits_val_from_app, H4.
      unfold digits_val_from. cbn [fold_left].
      rewrite digit_val_char by exact Hm.
      pose proof (N.div_mod n 10). lia.
    + intros c t H Ht. destruct d as [|c0 d0]; [contradiction|].
      cbn in H. injection H as <- _.
      destruct d0 as [|c1 d1].
      * intros ->. apply E. rewrite <- H4. reflexivity.
      * apply (H5 c0 (c1 :: d1)); [reflexivity|discriminate].
Qed.

Lemma dec_spec : forall n,
  forallb is_digit (dec n) = true /\ dec n <> [] /\ digits_val (dec n) = n /\
  (forall c t, dec n = c :: t -> t <> [] -> c <> "0"%char).
Proof.
  intros n. unfold dec.
  destruct (dec_aux_spec (S (N.to_nat (N.log2 n))) n []) as (d & H1 & H2 & H3 & H4 & H5); [lia|].
  rewrite app_nil_r in H1. rewrite H1. auto.
Qed.

Lemma dec_digits : forall n, forallb is_digit (dec n) = true.
Proof. intros. apply dec_spec. Qed.
Lemma dec_nonempty : forall n, dec n <> [].
Proof. intros. apply dec_spec. Qed.
Lemma digits_val_dec : forall n, digits_val (dec n) = n.
Proof. intros. apply dec_spec. Qed.

Lemma dec_inj : forall a b, dec a = dec b -> a = b.
Proof. intros a b H. rewrite <- (digits_val_dec a), <- (digits_val_dec b). now rewrite H. Qed.

Lemma forallb_impl : forall (A : Type) (p q : A -> bool) l,
  (forall x, p x = true -> q x = true) -> forallb p l = true -> forallb q l = true.
Proof.
  intros A p q l H H1. rewrite forallb_forall in *. auto.
Qed.

Lemma digits_trimmed : forall s, forallb is_digit s = true -> trimmed s.
Proof.
  intros s H. apply trimmed_nospace. eapply forallb_impl; [|exact H].
  intros c Hc. apply negb_true_iff. now apply digit_not_space.
Qed.

Lemma int_digits_digits : forall s b, forallb is_digit s = true -> s <> [] ->
  int_digits b s = Some s.
Proof.
  induction s as [|c s IH]; intros b H Hn; [contradiction|].
  cbn in H. apply andb_true_iff in H as [Hc Hs].
  cbn [int_digits]. rewrite Hc.
  destruct s as [|c' s']; [reflexivity|].
  rewrite IH; [reflexivity|exact Hs|discriminate].
Qed.

Lemma int_digits_digits_true : forall s, forallb is_digit s = true ->
  int_digits true s = Some s.
Proof.
  induction s as [|c s IH]; intros H; [reflexivity|].
  cbn in H. apply andb_true_iff in H as [Hc Hs].
  cbn [int_digits]. now rewrite Hc, IH.
Qed.

Lemma py_int_digits : forall s, forallb is_digit s = true -> s <> [] ->
  py_int s = Some (Z.of_N (digits_val s)).
Proof.
  intros s H Hn. unfold py_int. rewrite strip_of_trimmed by now apply digits_trimmed.
  destruct s as [|c s']; [contradiction|].
  assert (Hc : is_digit c = true) by (cbn in H; now apply andb_true_iff in H as [Hc _]).
  destruct (Ascii.eqb_spec c "-"%char) as [->|_]; [discriminate Hc|].
  destruct (Ascii.eqb_spec c "+"%char) as [->|_]; [discriminate Hc|].
  now rewrite int_digits_digits.
Qed.

Lemma py_int_dec : forall n, py_int (dec n) = Some (Z.of_N n).
Proof.
  intros n. rewrite py_int_digits; [|apply dec_digits|apply dec_nonempty].
  now rewrite digits_val_dec.
Qed.

Lemma py_int_zdec : forall z, py_int (zdec z) = Some z.
Proof.
  intros [|p|p]; cbn [zdec].
  - reflexivity.
  - now rewrite py_int_dec.
  - unfold py_int. rewrite strip_of_trimmed.
    2: { apply trimmed_nospace. cbn. eapply forallb_impl; [|apply (dec_digits (N.pos p))].
         intros c Hc. apply negb_true_iff. now apply digit_not_space. }
    rewrite Ascii.eqb_refl.
    rewrite int_digits_digits; [|apply dec_digits|apply dec_nonempty].
    rewrite digits_val_dec. reflexivity.
Qed.

Lemma zdec_inj : forall a b, zdec a = zdec b -> a = b.
Proof.
  intros a b H. apply (f_equal py_int) in H. rewrite !py_int_zdec in H. congruence.
Qed.

Lemma zdec_nonneg : forall z, (0 <= z)%Z -> zdec z = dec (Z.to_N z).
Proof. intros [|p|p] H; try reflexivity. lia. Qed.

(** Two strings, one a run of [p]-characters up to a non-[p] delimiter. *)
Lemma span_unique : forall (A : Type) (p : A -> bool) a1 b1 a2 b2,
  forallb p a1 = true -> forallb p a2 = true ->
  (forall c t, b1 = c :: t -> p c = false) ->
  (forall c t, b2 = c :: t -> p c = false) ->
  a1 ++ b1 = a2 ++ b2 -> a1 = a2 /\ b1 = b2.
Proof.
  induction a1 as [|x a1 IH]; intros b1 a2 b2 H1 H2 H3 H4 H.
  - destruct a2 as [|y a2]; [now split|].
    cbn in H. subst b1. cbn in H2. apply andb_true_iff in H2 as [H2 _].
    rewrite (H3 y (a2 ++ b2) eq_refl) in H2. discriminate.
  - destruct a2 as [|y a2].
    + cbn in H. subst b2. cbn in H1. apply andb_true_iff in H1 as [H1 _].
      rewrite (H4 x (a1 ++ b1) eq_refl) in H1. discriminate.
    + cbn in H. injection H as -> H. cbn in H1, H2.
      apply andb_true_iff in H1 as [_ H1]. apply andb_true_iff in H2 as [_ H2].
      destruct (IH b1 a2 b2 H1 H2 H3 H4 H) as [-> ->]. now split.
Qed.

(** ** join / split *)

Lemma split_on_aux_spec : forall sep s cur,
  forallb (fun c => negb (Ascii.eqb c sep)) cur = true ->
  (forall w, In w (split_on_aux sep cur s) ->
     forallb (fun c => negb (Ascii.eqb c sep)) w = true) /\
  join [sep] (split_on_aux sep cur s) = rev cur ++ s /\
  split_on_aux sep cur s <> [].
Proof.
  intros sep s. induction s as [|c s IH]; intros cur Hc; cbn [split_on_aux].
  - repeat split.
    + intros w [<-|[]]. now rewrite forallb_rev.
    + cbn. now rewrite app_nil_r.
    + discriminate.
  - destruct (Ascii.eqb_spec c sep) as [->|Hne].
    + destruct (IH [] eq_refl) as (H1 & H2 & H3). repeat split.
      * intros w [<-|Hw]; [now rewrite forallb_rev|auto].
      * cbn [join]. destruct (split_on_aux sep [] s) as [|y l] eqn:E; [contradiction|].
        cbn [app rev] in H2. rewrite H2. reflexivity.
      * discriminate.
    + destruct (IH (c :: cur)) as (H1 & H2 & H3).
      { cbn. rewrite Hc. apply Ascii.eqb_neq in Hne. now rewrite Hne. }
      repeat split; auto. rewrite H2. cbn. now rewrite <- app_assoc.
Qed.

Lemma join_split_on : forall sep s, join [sep] (split_on sep s) = s.
Proof. intros. unfold split_on. now apply split_on_aux_spec. Qed.

Lemma split_on_aux_app : forall sep w s cur,
  forallb (fun c => negb (Ascii.eqb c sep)) w = true ->
  split_on_aux sep cur (w ++ sep :: s) = (rev cur ++ w) :: split_on sep s.
Proof.
  intros sep w. induction w as [|c w IH]; intros s cur H.
  - cbn. rewrite Ascii.eqb_refl, app_nil_r. reflexivity.
  - cbn in H. apply andb_true_iff in H as [Hc Hw]. cbn.
    apply negb_true_iff in Hc. rewrite Hc. rewrite IH by exact Hw.
    cbn. now rewrite <- app_assoc.
Qed.

Lemma split_on_aux_last : forall sep w cur,
  forallb (fun c => negb (Ascii.eqb c sep)) w = true ->
  split_on_aux sep cur w = [rev cur ++ w].
Proof.
  intros sep w. induction w as [|c w IH]; intros cur H.
  - cbn. now rewrite app_nil_r.
  - cbn in H. apply andb_true_iff in H as [Hc Hw]. cbn.
    apply negb_true_iff in Hc. rewrite Hc. rewrite IH by exact Hw.
    cbn. now rewrite <- app_assoc.
Qed.

Lemma split_on_join : forall sep l, l <> [] ->
  (forall w, In w l -> forallb (fun c => negb (Ascii.eqb c sep)) w = true) ->
  split_on sep (join [sep] l) = l.
Proof.
  intros sep l Hn H. induction l as [|x l IH]; [contradiction|].
  destruct l as [|y l].
  - cbn [join]. unfold split_on. rewrite split_on_aux_last; [reflexivity|].
    apply H. now left.
  - cbn [join]. unfold split_on. cbn [app].
    rewrite split_on_aux_app by (apply H; now left).
    cbn [rev app]. f_equal. apply IH; [discriminate|].
    intros w Hw. apply H. now right.
Qed.
