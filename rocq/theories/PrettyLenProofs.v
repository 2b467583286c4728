(** How long a printed size is. *)
From Coq Require Import QArith Qabs Lia Lqa.
From Verif Require Import PyBase PyBaseProofs ValidationModel ValidationSpec PrettyModel PrettySpec PrettyProofs.
Local Open Scope Q_scope.

(** ** The length of the text *)
Lemma decimal_length : forall n k, (k <= 3)%nat -> (n <= 10000)%N -> (length (decimal n k) <= 5)%nat.
Proof.
  intros n k Hk Hn. unfold decimal. rewrite app_length. set (p := (10 ^ N.of_nat k)%N).
  assert (Hp : p <> 0%N) by (apply N.pow_nonzero; lia).
  destruct (N.eq_dec n 10000) as [-> | Ne].
  - assert (K : k = 0%nat \/ k = 1%nat \/ k = 2%nat \/ k = 3%nat) by lia. unfold p. destruct K as [-> | [-> | [-> | ->]]]; vm_compute; lia.
  - assert (Q : (length (dec (n / p)) <= 4 - k)%nat).
    { apply dec_length; [ | lia]. apply N.div_lt_upper_bound; [exact Hp | ]. unfold p. rewrite <- N.pow_add_r.
      replace (N.of_nat k + N.of_nat (4 - k))%N with 4%N by lia. change (10 ^ 4)%N with 10000%N. lia. }
    match goal with |- context [strip_zeros ?x] => set (fr := x) end.
    assert (F : (length (strip_zeros fr) <= k)%nat).
    { destruct (strip_zeros_spec fr) as (z & Hz & _). assert (length fr = k).
      { unfold fr. destruct k as [ | k]; [reflexivity | ]. apply pad_spec. apply dec_length; [now apply N.mod_lt | lia]. }
      apply (f_equal (@length ascii)) in Hz. rewrite app_length in Hz. unfold str in *. lia. }
    destruct (strip_zeros fr) as [ | c b]; [cbn [length]; lia | ].
    rewrite app_length. change (length (L ".")) with 1%nat. unfold str in *. lia.
Qed.
Lemma round_le : forall q z, q <= inject_Z z -> (round_half_even q <= z)%Z.
Proof.
  intros q z H. destruct (round_spec q) as [[A B] C]. set (r := round_half_even q) in *.
  destruct (Z_le_gt_dec r z) as [L1 | G]; [exact L1 | exfalso].
  assert (G2 : inject_Z z + 1 <= inject_Z r). { change 1 with (inject_Z 1). rewrite <- inject_Z_plus, <- Zle_Qle. lia. }
  lra.
Qed.
Lemma format_length : forall q, 0 <= q -> q <= 1024 -> (length (format_4g q) <= 5)%nat.
Proof.
  intros q H0 H1. unfold format_4g.
  assert (forall a, Qle_bool a q = false -> q < a) as F.
  { intros a H. apply Qnot_le_lt. intros G. apply Qle_bool_iff in G. congruence. }
  assert (K : forall k, (k <= 3)%nat -> q * inject_Z (10 ^ Z.of_nat k) <= inject_Z 10000 ->
    (length (decimal (Z.to_N (round_half_even (q * inject_Z (10 ^ Z.of_nat k)))) k) <= 5)%nat).
  { intros k Hk Hq. apply decimal_length; [exact Hk | ]. pose proof (round_le _ _ Hq). lia. }
  change (inject_Z 10000) with (10000 # 1) in K.
  destruct (Qle_bool 1000 q) eqn:E1; [apply K; [lia | change (inject_Z (10 ^ Z.of_nat 0)) with 1; lra] | ]. apply F in E1.
  destruct (Qle_bool 100 q) eqn:E2; [apply K; [lia | change (inject_Z (10 ^ Z.of_nat 1)) with 10; lra] | ]. apply F in E2.
  destruct (Qle_bool 10 q) eqn:E3; [apply K; [lia | change (inject_Z (10 ^ Z.of_nat 2)) with 100; lra] | ]. apply F in E3.
  apply K; [lia | change (inject_Z (10 ^ Z.of_nat 3)) with 1000; lra].
Qed.
Lemma tag_length : forall s u, nth_error tags s = Some u -> (length u <= 3)%nat.
Proof. intros s u H. do 9 (destruct s as [|s]; [injection H as <-; vm_compute; lia|]). destruct s; discriminate. Qed.
Theorem pretty_length : forall v base t, 0 <= v -> pretty_bytes v (Z.of_nat base) = Ok t -> (length t <= 9)%nat.
Proof.
  intros v base t Hv H. unfold pretty_bytes in H. destruct (Z.ltb_spec (Z.of_nat base) 0) as [F|_]; [lia|]. rewrite Nat2Z.id in H.
  destruct (scale_up_spec (enough_for v) v base Hv (enough v Hv)) as (v1 & j & E0 & E1 & L1 & P1 & _). rewrite E0 in H.
  destruct (scale_down v1 (base + j)) as [v2 s2] eqn:E2.
  apply scale_down_spec in E2 as (E2 & P2 & L2 & G2); [|exact P1|exact L1].
  destruct (nth_error tags s2) as [u|] eqn:U; [|discriminate]. apply tag_length in U.
  assert (A : forall q, 0 <= q -> q <= 1024 -> (length (format_4g q ++ L " " ++ u) <= 9)%nat).
  { intros q Q0 Q1. pose proof (format_length q Q0 Q1). rewrite !app_length. change (length (L " ")) with 1%nat. unfold str in *. lia. }
  assert (t = format_4g match s2 with O => inject_Z (round_half_even v2) | S _ => v2 end ++ L " " ++ u) as -> by congruence.
  destruct s2 as [|s2]; apply A; try lra.
  - change 0 with (inject_Z 0). rewrite <- Zle_Qle. now apply round_nonneg.
  - change 1024 with (inject_Z 1024). rewrite <- Zle_Qle. apply round_le. change (inject_Z 1024) with 1024. lra.
Qed.
