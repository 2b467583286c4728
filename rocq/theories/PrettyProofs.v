(** Proofs about printed sizes. *)
From Coq Require Import QArith Qround Qabs Lia Lqa.
From Verif Require Import PyBase PyBaseProofs ValidationModel ValidationSpec ValidationProofs PrettyModel PrettySpec.
Local Open Scope Q_scope.

(** ** Scaling *)

Lemma pow1024_S : forall n, inject_Z (1024 ^ Z.of_nat (S n)) == 1024 * inject_Z (1024 ^ Z.of_nat n).
Proof. intros n. rewrite Nat2Z.inj_succ, Z.pow_succ_r by lia. rewrite inject_Z_mult. reflexivity. Qed.
Lemma pow1024_pos : forall n, 1 <= inject_Z (1024 ^ Z.of_nat n).
Proof. intros n. change 1 with (inject_Z 1). rewrite <- Zle_Qle. assert (0 < 1024 ^ Z.of_nat n)%Z by (apply Z.pow_pos_nonneg; lia). lia. Qed.

Lemma scale_up_spec : forall fuel v s, 0 <= v -> v < 1024 * inject_Z (2 ^ Z.of_nat fuel) ->
  exists v' j, scale_up fuel v s = Some (v', (s + j)%nat) /\ bytes_of v' j == v /\ v' < 1024 /\ 0 <= v' /\
    (j <> 0%nat -> 1 <= v').
Proof.
  induction fuel as [|f IH]; intros v s H0 Hv; cbn [scale_up].
  - destruct (Qle_bool 1024 v) eqn:E.
    + apply Qle_bool_iff in E. exfalso. change (2 ^ Z.of_nat 0)%Z with 1%Z in Hv. change (inject_Z 1) with 1 in Hv. lra.
    + assert (v < 1024) by (apply Qnot_le_lt; intros F; apply Qle_bool_iff in F; congruence).
      exists v, 0%nat. rewrite Nat.add_0_r. split; [reflexivity|]. split; [unfold bytes_of; change (1024 ^ Z.of_nat 0)%Z with 1%Z; change (inject_Z 1) with 1; lra|].
      split; [assumption|]. split; [assumption|]. intros F. now destruct F.
  - destruct (Qle_bool 1024 v) eqn:E.
    + apply Qle_bool_iff in E. destruct (IH (v / 1024) (S s)) as (v' & j & H1 & H2 & H3 & H4 & H5).
      * apply Qle_shift_div_l; lra.
      * apply Qlt_shift_div_r; [lra|]. rewrite Nat2Z.inj_succ, Z.pow_succ_r, inject_Z_mult in Hv by lia.
        assert (0 < inject_Z (2 ^ Z.of_nat f)).
        { change 0 with (inject_Z 0). rewrite <- Zlt_Qlt. apply Z.pow_pos_nonneg; lia. }
        change (inject_Z 2) with 2 in Hv. nra.
      * exists v', (S j). split; [rewrite H1; do 2 f_equal; lia|]. split; [|split; [exact H3|split; [exact H4|]]].
        -- unfold bytes_of in *. rewrite pow1024_S. transitivity (1024 * (v' * inject_Z (1024 ^ Z.of_nat j))); [ring|]. rewrite H2. field.
        -- intros _. destruct j as [|j]; [|now apply H5].
           unfold bytes_of in H2. change (1024 ^ Z.of_nat 0)%Z with 1%Z in H2. change (inject_Z 1) with 1 in H2.
           assert (v' == v / 1024) as -> by (rewrite <- H2; ring). apply Qle_shift_div_l; lra.
    + assert (v < 1024) by (apply Qnot_le_lt; intros F; apply Qle_bool_iff in F; congruence).
      exists v, 0%nat. rewrite Nat.add_0_r. split; [reflexivity|]. split; [unfold bytes_of; change (1024 ^ Z.of_nat 0)%Z with 1%Z; change (inject_Z 1) with 1; lra|].
      split; [assumption|]. split; [assumption|]. intros F. now destruct F.
Qed.

Lemma enough : forall v, 0 <= v -> v < 1024 * inject_Z (2 ^ Z.of_nat (enough_for v)).
Proof.
  intros v Hv. unfold enough_for. pose proof (Qle_ceiling v) as Hc.
  assert (Qceiling v < 2 * 2 ^ Z.log2 (Qceiling v))%Z as H.
  { destruct (Z.le_gt_cases (Qceiling v) 0) as [Hz|Hz].
    - assert (0 < 2 ^ Z.log2 (Qceiling v))%Z by (apply Z.pow_pos_nonneg; [lia|apply Z.log2_nonneg]). lia.
    - rewrite <- Z.pow_succ_r by apply Z.log2_nonneg. now apply Z.log2_spec. }
  rewrite Z2Nat.id by apply Z.log2_nonneg.
  rewrite Zlt_Qlt, inject_Z_mult in H. change (inject_Z 2) with 2 in H.
  assert (0 < inject_Z (2 ^ Z.log2 (Qceiling v))).
  { change 0 with (inject_Z 0). rewrite <- Zlt_Qlt. apply Z.pow_pos_nonneg; [lia|apply Z.log2_nonneg]. }
  lra.
Qed.

Lemma scale_down_spec : forall s v, 0 <= v -> v < 1024 -> forall v' s', scale_down v s = (v', s') ->
  bytes_of v' s' == bytes_of v s /\ 0 <= v' /\ v' < 1024 /\ (s' <> 0%nat -> 1 <= v').
Proof.
  induction s as [|s IH]; intros v H0 H1 v' s' H; cbn [scale_down] in H.
  - injection H as <- <-. split; [reflexivity|]. split; [assumption|]. split; [assumption|]. intros F. now destruct F.
  - destruct (Qle_bool 1 v) eqn:E.
    + apply Qle_bool_iff in E. injection H as <- <-. split; [reflexivity|]. auto.
    + assert (v < 1) by (apply Qnot_le_lt; intros F; apply Qle_bool_iff in F; congruence).
      apply IH in H as (A & B & C & D); [|lra|lra].
      split; [|auto]. rewrite A. unfold bytes_of. rewrite pow1024_S. ring.
Qed.

(** ** Rounding *)

Lemma inject_Z_sub : forall a b, inject_Z (a - b) == inject_Z a - inject_Z b.
Proof. intros. unfold Z.sub. rewrite inject_Z_plus, inject_Z_opp. reflexivity. Qed.

Lemma round_spec : forall q,
  - (1 # 2) <= inject_Z (round_half_even q) - q <= 1 # 2 /\
  (Qabs (inject_Z (round_half_even q) - q) == 1 # 2 -> Z.even (round_half_even q) = true).
Proof.
  intros q. unfold round_half_even. set (f := Qfloor q).
  assert (inject_Z f <= q) as Hl by apply Qfloor_le.
  assert (q < inject_Z f + 1) as Hu by (pose proof (Qlt_floor q) as F; rewrite inject_Z_plus in F; exact F).
  clearbody f. destruct (Qcompare (q - inject_Z f) (1 # 2)) eqn:E.
  - apply Qeq_alt in E. destruct (Z.even f) eqn:Ev.
    + split; [lra|auto].
    + rewrite inject_Z_plus. change (inject_Z 1) with 1. split; [lra|]. intros _. rewrite Z.add_1_r, Z.even_succ, <- Z.negb_even, Ev. reflexivity.
  - apply Qlt_alt in E. split; [lra|]. intros F. exfalso. revert F. apply Qabs_case; intros; lra.
  - apply Qgt_alt in E. rewrite inject_Z_plus. change (inject_Z 1) with 1. split; [lra|].
    intros F. exfalso. revert F. apply Qabs_case; intros; lra.
Qed.

Lemma round_int : forall z q, q == inject_Z z -> round_half_even q = z.
Proof.
  intros z q E. destruct (round_spec q) as [[H1 H2] _].
  assert (inject_Z (round_half_even q) < inject_Z (z + 1)) as A by (rewrite inject_Z_plus; change (inject_Z 1) with 1; lra).
  assert (inject_Z (z - 1) < inject_Z (round_half_even q)) as B by (rewrite inject_Z_sub; change (inject_Z 1) with 1; lra).
  rewrite <- Zlt_Qlt in A, B. lia.
Qed.

Lemma round_nonneg : forall q, 0 <= q -> (0 <= round_half_even q)%Z.
Proof.
  intros q H. destruct (round_spec q) as [[H1 _] _].
  assert (inject_Z (-1) < inject_Z (round_half_even q)) as A by (change (inject_Z (-1)) with (-1 # 1); lra).
  rewrite <- Zlt_Qlt in A. lia.
Qed.

(** ** Decimal text *)

Lemma strip_zeros_spec : forall s, exists m, s = strip_zeros s ++ repeat "0"%char m /\ forall t, strip_zeros s <> t ++ L "0".
Proof.
  intros s. unfold strip_zeros.
  assert (forall l : str, exists m, l = repeat "0"%char m ++ (fix go (l : str) := match l with
        | c :: l' => if Ascii.eqb c "0" then go l' else c :: l' | [] => [] end) l /\
        forall t, (fix go (l : str) := match l with
        | c :: l' => if Ascii.eqb c "0" then go l' else c :: l' | [] => [] end) l <> "0"%char :: t) as H.
  { induction l as [|c l IH].
    - exists 0%nat. split; [reflexivity|discriminate].
    - destruct (Ascii.eqb c "0") eqn:E.
      + apply Ascii.eqb_eq in E as ->. destruct IH as (m & Hm & Ht). exists (S m). split; [cbn; now rewrite <- Hm|exact Ht].
      + exists 0%nat. split; [reflexivity|]. intros t F. injection F as -> _. discriminate. }
  destruct (H (rev s)) as (m & Hm & Ht).
  match type of Hm with _ = _ ++ ?g => set (r := g) in * end. clearbody r. exists m. split.
  - rewrite <- (rev_involutive s), Hm, rev_app_distr. f_equal.
    clear. induction m as [|m IH]; [reflexivity|]. cbn. rewrite IH. clear. induction m as [|m IH]; [reflexivity|]. cbn. now rewrite IH.
  - intros t F. apply (f_equal (@rev ascii)) in F. rewrite rev_involutive, rev_app_distr in F. exact (Ht _ F).
Qed.

Lemma zeros_val : forall m, digits_val (repeat "0"%char m) = 0%N.
Proof. induction m as [|m IH]; [reflexivity|]. exact IH. Qed.

Lemma digits_val_app : forall a b, digits_val (a ++ b) = (digits_val a * 10 ^ N.of_nat (length b) + digits_val b)%N.
Proof. intros a b. unfold digits_val at 1. rewrite digits_val_from_app. apply digits_val_from_lin. Qed.

Lemma pad_spec : forall k s, (length s <= k)%nat -> length (pad k s) = k /\ digits_val (pad k s) = digits_val s.
Proof.
  intros k s H. unfold pad. rewrite app_length, repeat_length. split; [lia|].
  rewrite digits_val_app, zeros_val. lia.
Qed.

Lemma dec_length : forall n k, (n < 10 ^ N.of_nat k)%N -> k <> 0%nat -> (length (dec n) <= k)%nat.
Proof.
  intros n k Hn Hk. destruct (dec_spec n) as (Hd & Hne & Hv & Hz).
  destruct (dec n) as [|c t] eqn:E; [contradiction|]. destruct t as [|c' t]; [cbn; lia|].
  assert (c <> "0"%char) as Hc by now apply (Hz c (c' :: t)).
  cbn [forallb] in Hd. apply andb_true_iff in Hd as [Hd _].
  assert (digit_val c <> 0)%N as Hcv.
  { intros F. apply Hc. rewrite <- (digit_char_val c Hd), F. reflexivity. }
  assert (10 ^ N.of_nat (length (c' :: t)) <= n)%N as Hlow.
  { rewrite <- Hv. change (c :: c' :: t) with ([c] ++ (c' :: t)). rewrite digits_val_app.
    assert (digits_val [c] = digit_val c) as -> by (unfold digits_val, digits_val_from; cbn [fold_left]; lia). nia. }
  assert (10 ^ N.of_nat (length (c' :: t)) < 10 ^ N.of_nat k)%N as Hlt by lia.
  apply N.pow_lt_mono_r_iff in Hlt; [|lia]. cbn [length] in *. lia.
Qed.

Lemma pow10_pos : forall k, 0 < inject_Z (10 ^ Z.of_nat k).
Proof. intros. change 0 with (inject_Z 0). rewrite <- Zlt_Qlt. apply Z.pow_pos_nonneg; lia. Qed.

Lemma N2Z_pow10 : forall k, Z.of_N (10 ^ N.of_nat k) = (10 ^ Z.of_nat k)%Z.
Proof. intros. rewrite N2Z.inj_pow, nat_N_Z. reflexivity. Qed.

Lemma decimal_spec : forall n k, exists r, decimal_text (decimal n k) r /\
  r * inject_Z (10 ^ Z.of_nat k) == inject_Z (Z.of_N n).
Proof.
  intros n k. unfold decimal.
  set (p := (10 ^ N.of_nat k)%N).
  assert (p <> 0)%N as Hp by (apply N.pow_nonzero; lia).
  match goal with |- context [strip_zeros ?x] => set (fr := x) end.
  assert (length fr = k /\ digits_val fr = (n mod p)%N /\ all_digits fr) as (Hlen & Hval & Hdig).
  { unfold fr. destruct k as [|k].
    - split; [reflexivity|]. split; [|intros c []]. unfold p. cbn. now rewrite N.mod_1_r.
    - assert (n mod p < p)%N as Hm by now apply N.mod_lt.
      destruct (pad_spec (S k) (dec (n mod p))) as [A B]; [apply dec_length; [exact Hm|lia]|].
      split; [exact A|]. split; [rewrite B; apply digits_val_dec|].
      intros c Hc. unfold pad in Hc. apply in_app_or in Hc as [Hc|Hc]; [apply repeat_spec in Hc as ->; reflexivity|].
      pose proof (dec_digits (n mod p)) as D. rewrite forallb_forall in D. now apply D. }
  clearbody fr. destruct (strip_zeros_spec fr) as (m & Hm & Hend).
  set (b := strip_zeros fr) in *. clearbody b.
  assert (all_digits (dec (n / p))) as Hi by (apply all_digits_forallb, dec_digits).
  assert (inject_Z (Z.of_N n) == inject_Z (Z.of_N (n / p)) * inject_Z (Z.of_N p) + inject_Z (Z.of_N (n mod p))) as Hn.
  { rewrite <- inject_Z_mult, <- inject_Z_plus. rewrite <- N2Z.inj_mul, <- N2Z.inj_add.
    assert (n = n / p * p + n mod p)%N as <- by (pose proof (N.div_mod n p Hp); lia). reflexivity. }
  unfold p in Hn at 2. rewrite N2Z_pow10 in Hn.
  destruct b as [|c b'].
  - exists (inject_Z (Z.of_N (digits_val (dec (n / p))))). cbv iota beta. rewrite app_nil_r. split; [apply decimal_int; [exact Hi|apply dec_nonempty]|].
    rewrite digits_val_dec, Hn. assert (n mod p = 0)%N as ->.
    { rewrite <- Hval, Hm. apply zeros_val. }
    change (inject_Z (Z.of_N 0)) with 0. ring.
  - set (b := c :: b') in *.
    assert (all_digits b) as Hb by (intros x Hx; apply Hdig; rewrite Hm; apply in_or_app; now left).
    exists (inject_Z (Z.of_N (digits_val (dec (n / p)))) + inject_Z (Z.of_N (digits_val b)) / inject_Z (10 ^ Z.of_nat (length b))).
    split; [apply decimal_frac; auto; [apply dec_nonempty|discriminate|reflexivity]|].
    rewrite digits_val_dec, Hn.
    assert (inject_Z (Z.of_N (n mod p)) == inject_Z (Z.of_N (digits_val b)) * inject_Z (10 ^ Z.of_nat m)) as ->.
    { rewrite <- Hval, Hm, digits_val_app, zeros_val, N.add_0_r, repeat_length, N2Z.inj_mul, N2Z_pow10, inject_Z_mult. reflexivity. }
    assert (inject_Z (10 ^ Z.of_nat k) == inject_Z (10 ^ Z.of_nat (length b)) * inject_Z (10 ^ Z.of_nat m)) as Hk.
    { rewrite <- inject_Z_mult, <- Z.pow_add_r by lia. rewrite <- Nat2Z.inj_add.
      replace (length b + m)%nat with k; [reflexivity|]. rewrite <- Hlen, Hm, app_length, repeat_length. reflexivity. }
    rewrite Hk. pose proof (pow10_pos (length b)). field. lra.
Qed.

(** ** Four significant digits *)

Lemma bound_scaled : forall q r p z, 0 < p -> r * p == inject_Z z -> - (1 # 2) <= inject_Z z - q * p <= 1 # 2 ->
  Qabs (r - q) * p <= 1 # 2.
Proof.
  intros q r p z Hp Hr [H1 H2]. rewrite <- Hr in H1, H2.
  apply Qabs_case; intros _; nra.
Qed.

Lemma format_spec : forall q, 0 <= q -> exists r, decimal_text (format_4g q) r /\ Qabs (r - q) <= four_digits q /\
  (forall z, q == inject_Z z -> r == q).
Proof.
  intros q Hq. unfold format_4g, four_digits.
  assert (forall k, exists r, decimal_text (decimal (Z.to_N (round_half_even (q * inject_Z (10 ^ Z.of_nat k)))) k) r /\
    Qabs (r - q) * inject_Z (10 ^ Z.of_nat k) <= 1 # 2 /\ (forall z, q == inject_Z z -> r == q)) as K.
  { intros k. destruct (decimal_spec (Z.to_N (round_half_even (q * inject_Z (10 ^ Z.of_nat k)))) k) as (r & Hr & E).
    pose proof (pow10_pos k) as P.
    rewrite Z2N.id in E by (apply round_nonneg; nra).
    exists r. split; [exact Hr|]. split.
    - apply (bound_scaled q r _ _ P E). now destruct (round_spec (q * inject_Z (10 ^ Z.of_nat k))).
    - intros z Hz. rewrite (round_int (z * 10 ^ Z.of_nat k)) in E by (rewrite Hz, inject_Z_mult; reflexivity).
      rewrite inject_Z_mult, <- Hz in E.
      apply (Qmult_inj_r r q (inject_Z (10 ^ Z.of_nat k))); [lra|exact E]. }
  assert (forall a, Qle_bool a q = true -> a <= q) as T by (intros a; apply Qle_bool_iff).
  assert (forall a, Qle_bool a q = false -> q < a) as F.
  { intros a H. apply Qnot_le_lt. intros G. apply Qle_bool_iff in G. congruence. }
  destruct (Qle_bool 1000 q) eqn:E1; [apply T in E1|apply F in E1; destruct (Qle_bool 100 q) eqn:E2;
    [apply T in E2|apply F in E2; destruct (Qle_bool 10 q) eqn:E3; [apply T in E3|apply F in E3]]].
  - destruct (K 0%nat) as (r & A & B & C). exists r. split; [exact A|]. split; [|exact C].
    destruct (Qlt_le_dec q 10); [lra|]. destruct (Qlt_le_dec q 100); [lra|]. destruct (Qlt_le_dec q 1000); [lra|].
    change (inject_Z (10 ^ Z.of_nat 0)) with 1 in B. lra.
  - destruct (K 1%nat) as (r & A & B & C). exists r. split; [exact A|]. split; [|exact C].
    destruct (Qlt_le_dec q 10); [lra|]. destruct (Qlt_le_dec q 100); [lra|]. destruct (Qlt_le_dec q 1000); [|lra].
    change (inject_Z (10 ^ Z.of_nat 1)) with 10 in B. lra.
  - destruct (K 2%nat) as (r & A & B & C). exists r. split; [exact A|]. split; [|exact C].
    destruct (Qlt_le_dec q 10); [lra|]. destruct (Qlt_le_dec q 100); [|lra].
    change (inject_Z (10 ^ Z.of_nat 2)) with 100 in B. lra.
  - destruct (K 3%nat) as (r & A & B & C). exists r. split; [exact A|]. split; [|exact C].
    destruct (Qlt_le_dec q 10); [|lra].
    change (inject_Z (10 ^ Z.of_nat 3)) with 1000 in B. lra.
Qed.

Lemma tags_names : forall s, nth_error tags s = unit_name s.
Proof. intros s. do 9 (destruct s as [|s]; [reflexivity|]). destruct s; reflexivity. Qed.

(** ** The printed size *)

Theorem pretty_spec : forall v base, 0 <= v ->
  exists q s, bytes_of q s == bytes_of v base /\ 0 <= q /\ q < 1024 /\ (s <> 0%nat -> 1 <= q) /\
    match unit_name s with
    | None => pretty_bytes v (Z.of_nat base) = Err EIndexError
    | Some u => exists t r, pretty_bytes v (Z.of_nat base) = Ok (t ++ L " " ++ u) /\ decimal_text t r /\
        (s <> 0%nat -> Qabs (r - q) <= four_digits q) /\
        (s = 0%nat -> exists z, r == inject_Z z /\ Qabs (r - q) <= 1 # 2 /\ (Qabs (r - q) == 1 # 2 -> Z.even z = true))
    end.
Proof.
  intros v base Hv. unfold pretty_bytes.
  destruct (Z.ltb_spec (Z.of_nat base) 0) as [F|_]; [lia|]. rewrite Nat2Z.id.
  destruct (scale_up_spec (enough_for v) v base Hv (enough v Hv)) as (v1 & j & -> & E1 & L1 & P1 & _).
  destruct (scale_down v1 (base + j)) as [v2 s2] eqn:E2.
  apply scale_down_spec in E2 as (E2 & P2 & L2 & G2); [|exact P1|exact L1].
  exists v2, s2. split.
  { rewrite E2. unfold bytes_of in *. rewrite Nat2Z.inj_add, Z.pow_add_r, inject_Z_mult by lia.
    transitivity ((v1 * inject_Z (1024 ^ Z.of_nat j)) * inject_Z (1024 ^ Z.of_nat base)); [ring|]. rewrite E1. reflexivity. }
  split; [exact P2|]. split; [exact L2|]. split; [exact G2|].
  rewrite tags_names. destruct (unit_name s2) as [u|]; [|reflexivity].
  destruct s2 as [|s2].
  - destruct (format_spec (inject_Z (round_half_even v2))) as (r & A & _ & C).
    { change 0 with (inject_Z 0). rewrite <- Zle_Qle. now apply round_nonneg. }
    exists (format_4g (inject_Z (round_half_even v2))), r. split; [reflexivity|]. split; [exact A|].
    split; [intros F; now destruct F|]. intros _. specialize (C _ (Qeq_refl _)).
    exists (round_half_even v2). split; [exact C|]. destruct (round_spec v2) as [[R1 R2] R3]. rewrite <- C in R1, R2.
    split; [apply Qabs_case; intros; lra|]. intros G. apply R3. rewrite <- C. exact G.
  - destruct (format_spec v2 P2) as (r & A & B & _).
    exists (format_4g v2), r. split; [reflexivity|]. split; [exact A|]. split; [intros _; exact B|discriminate].
Qed.

(** The unit is determined by the size. *)
Theorem unit_unique : forall q s q' s', 0 <= q -> q < 1024 -> (s <> 0%nat -> 1 <= q) ->
  0 <= q' -> q' < 1024 -> (s' <> 0%nat -> 1 <= q') -> bytes_of q s == bytes_of q' s' -> s = s' /\ q == q'.
Proof.
  assert (forall q s q' s', 0 <= q -> q < 1024 -> q' < 1024 -> (s' <> 0%nat -> 1 <= q') ->
    bytes_of q s == bytes_of q' s' -> (s < s')%nat -> False) as X.
  { intros q s q' s' P H P' G E Hlt. unfold bytes_of in E.
    replace s' with (S s + (s' - S s))%nat in E by lia.
    rewrite Nat2Z.inj_add, Z.pow_add_r, inject_Z_mult, pow1024_S in E by lia.
    pose proof (pow1024_pos s) as A. pose proof (pow1024_pos (s' - S s)) as B.
    set (a := inject_Z (1024 ^ Z.of_nat s)) in *. set (b := inject_Z (1024 ^ Z.of_nat (s' - S s))) in *.
    assert (1 <= q') as Q1 by (apply G; lia).
    assert (q == q' * 1024 * b) as E'.
    { apply (Qmult_inj_r _ _ a); [lra|]. rewrite E. ring. }
    assert (q' * 1024 * b >= 1024) by nra. lra. }
  intros q s q' s' P H G P' H' G' E. destruct (Nat.lt_trichotomy s s') as [L|[->|L]].
  - exfalso. exact (X q s q' s' P H H' G' E L).
  - split; [reflexivity|]. unfold bytes_of in E. pose proof (pow1024_pos s').
    apply Qmult_inj_r in E; [exact E|lra].
  - exfalso. symmetry in E. exact (X q' s' q s P' H' H G E L).
Qed.

Theorem pretty_range : forall v base, 0 <= v ->
  (pretty_bytes v (Z.of_nat base) = Err EIndexError <-> inject_Z (1024 ^ 9) <= bytes_of v base).
Proof.
  intros v base Hv. destruct (pretty_spec v base Hv) as (q & s & E & P & H & G & M). rewrite <- E.
  assert (unit_name s = None <-> (9 <= s)%nat) as U.
  { do 9 (destruct s as [|s]; [cbn; split; [discriminate|lia]|]). destruct s; cbn; split; intros; (reflexivity || lia). }
  destruct (unit_name s) as [u|].
  - destruct M as (t & r & -> & _). split; [discriminate|]. intros F. exfalso.
    assert (s < 9)%nat as Hs by (destruct (Nat.lt_ge_cases s 9) as [Hs|Hs]; [exact Hs|]; apply U in Hs; discriminate).
    unfold bytes_of in F. replace 9%Z with (Z.of_nat s + Z.of_nat (9 - s))%Z in F by lia.
    rewrite Z.pow_add_r, inject_Z_mult in F by lia.
    replace (9 - s)%nat with (S (8 - s)) in F by lia. rewrite pow1024_S in F.
    pose proof (pow1024_pos s). pose proof (pow1024_pos (8 - s)). nra.
  - split; [|auto]. intros _. assert (9 <= s)%nat by now apply U. assert (1 <= q) by (apply G; lia).
    unfold bytes_of. replace (Z.of_nat s) with (9 + Z.of_nat (s - 9))%Z by lia.
    rewrite Z.pow_add_r, inject_Z_mult by lia. pose proof (pow1024_pos (s - 9)).
    assert (0 < inject_Z (1024 ^ 9)) by (change 0 with (inject_Z 0); rewrite <- Zlt_Qlt; reflexivity).
    set (x := inject_Z (1024 ^ 9)) in *. set (y := inject_Z (1024 ^ Z.of_nat (s - 9))) in *. clearbody x y.
    assert (1 <= q * y) by nra. nra.
Qed.
