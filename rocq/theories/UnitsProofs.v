From Verif Require Import PyBase PyRegex PyBaseProofs PyRegexProofs UnitsModel UnitsSpec.
From Coq Require Import Lia ZifyBool.
Open Scope Z_scope.

Lemma round53_exact : forall m e, 0 <= e -> Z.abs m < 2 ^ 53 ->
  round53 (m * 2 ^ e) = m * 2 ^ e.
Proof.
  intros m e He Hm. unfold round53.
  set (z := m * 2 ^ e). set (a := Z.abs z).
  destruct (Z.leb_spec (Z.log2 a - 52) 0) as [H|H]; [reflexivity|].
  set (e0 := Z.log2 a - 52) in *.
  assert (Hp : 0 < 2 ^ e0) by (apply Z.pow_pos_nonneg; lia).
  assert (Ha : a = Z.abs m * 2 ^ e).
  { unfold a, z. rewrite Z.abs_mul. f_equal. apply Z.abs_eq.
    apply Z.lt_le_incl, Z.pow_pos_nonneg; lia. }
  assert (Hm0 : 0 < Z.abs m).
  { destruct (Z.eq_dec m 0) as [->|]; [|lia]. unfold e0 in H. rewrite Ha in H.
    cbn in H. lia. }
  assert (Hle : e0 <= e).
  { unfold e0. rewrite Ha, Z.log2_mul_pow2 by lia.
    assert (Z.log2 (Z.abs m) < 53) by (apply Z.log2_lt_pow2; lia). lia. }
  assert (Hdiv : a = (Z.abs m * 2 ^ (e - e0)) * 2 ^ e0).
  { rewrite Ha, <- Z.mul_assoc, <- Z.pow_add_r by lia. do 2 f_equal. lia. }
  assert (Hr : a mod 2 ^ e0 = 0) by (rewrite Hdiv; apply Z.mod_mul; lia).
  assert (Hq : a / 2 ^ e0 * 2 ^ e0 = a).
  { rewrite Hdiv at 1. rewrite Z.div_mul by lia. symmetry. exact Hdiv. }
  rewrite Hr. change (2 * 0) with 0.
  replace (2 ^ e0 <? 0) with false by lia.
  replace (0 =? 2 ^ e0) with false by lia. cbn [orb andb].
  rewrite Hq. unfold a. rewrite Z.mul_comm. apply Z.abs_sgn.
Qed.

Lemma round53_representable : forall z, exists m e,
  0 <= e /\ Z.abs m < 2 ^ 53 /\ round53 z = m * 2 ^ e.
Proof.
  intros z. unfold round53. set (a := Z.abs z).
  destruct (Z.leb_spec (Z.log2 a - 52) 0) as [H|H].
  - exists z, 0. split; [lia|]. split; [|lia]. fold a.
    destruct (Z.eq_dec a 0) as [->|Hn]; [lia|].
    apply Z.log2_lt_pow2; lia.
  - set (e0 := Z.log2 a - 52) in *.
    assert (Hp : 0 < 2 ^ e0) by (apply Z.pow_pos_nonneg; lia).
    assert (Ha : 0 < a).
    { destruct (Z.eq_dec a 0) as [E|]; [|lia]. unfold e0 in H. rewrite E in H. cbn in H. lia. }
    assert (Hq : a / 2 ^ e0 < 2 ^ 53).
    { apply Z.div_lt_upper_bound; [lia|]. rewrite <- Z.pow_add_r by lia.
      apply Z.log2_lt_pow2; lia. }
    assert (Hq0 : 0 <= a / 2 ^ e0) by (apply Z.div_pos; lia).
    set (q := a / 2 ^ e0) in *.
    set (up := (2 ^ e0 <? 2 * (a mod 2 ^ e0)) || ((2 * (a mod 2 ^ e0) =? 2 ^ e0) && Z.odd q)).
    assert (Hs : Z.abs (Z.sgn z) <= 1) by (destruct z; cbn; lia).
    destruct (Z.eq_dec q (2 ^ 53 - 1)) as [Eq|Nq].
    + destruct up.
      * exists (Z.sgn z * 2 ^ 52), (e0 + 1). split; [lia|]. split.
        { rewrite Z.abs_mul. change (Z.abs (2 ^ 52)) with (2 ^ 52).
          change (2 ^ 53) with (2 * 2 ^ 52). nia. }
        rewrite Eq, Z.pow_add_r by lia. change (2 ^ 53 - 1 + 1) with (2 ^ 52 * 2).
        change (2 ^ 1) with 2. ring.
      * exists (Z.sgn z * q), e0. split; [lia|]. split; [|ring].
        rewrite Z.abs_mul, (Z.abs_eq q) by lia. nia.
    + exists (Z.sgn z * (if up then q + 1 else q)), e0. split; [lia|]. split; [|ring].
      rewrite Z.abs_mul.
      assert (0 <= (if up then q + 1 else q) < 2 ^ 53) by (destruct up; lia).
      rewrite (Z.abs_eq (if up then q + 1 else q)) by lia. nia.
Qed.

Lemma truediv_exact : forall z, double_exact (z / 1024) ->
  py_int_truediv_1024 z = Ok (z / 1024).
Proof.
  intros z (m & e & He & Hm & Hq & Hr). unfold py_int_truediv_1024.
  rewrite Hq, round53_exact by assumption. rewrite <- Hq.
  now replace (2 ^ 1024 <=? Z.abs (z / 1024)) with false by lia.
Qed.

Lemma truediv_exact_inv : forall z,
  py_int_truediv_1024 z = Ok (z / 1024) -> double_exact (z / 1024).
Proof.
  intros z H. unfold py_int_truediv_1024 in H.
  destruct (Z.leb_spec (2 ^ 1024) (Z.abs (round53 (z / 1024)))) as [H1|H1]; [discriminate|].
  injection H as H. destruct (round53_representable (z / 1024)) as (m & e & He & Hm & Hq).
  exists m, e. rewrite H in *. auto.
Qed.

Lemma round53_nonzero : forall z, z <> 0 -> round53 z <> 0.
Proof.
  intros z Hz. unfold round53. set (a := Z.abs z).
  destruct (Z.leb_spec (Z.log2 a - 52) 0) as [H|H]; [exact Hz|].
  set (e0 := Z.log2 a - 52) in *.
  assert (Hp : 0 < 2 ^ e0) by (apply Z.pow_pos_nonneg; lia).
  assert (Ha : 0 < a) by lia.
  assert (Hq : 0 < a / 2 ^ e0).
  { apply Z.div_str_pos. split; [lia|].
    transitivity (2 ^ Z.log2 a); [apply Z.pow_le_mono_r; lia|].
    now apply Z.log2_spec. }
  intros E. apply Z.mul_eq_0 in E as [E|E]; [lia|].
  apply Z.mul_eq_0 in E as [E|E]; [|lia].
  destruct ((2 ^ e0 <? 2 * (a mod 2 ^ e0)) || ((2 * (a mod 2 ^ e0) =? 2 ^ e0) && Z.odd (a / 2 ^ e0))); lia.
Qed.

(** The float loop: exact, terminating on non-zero values. *)
Lemma float_loop : forall fuel v shift, v <> 0 ->
  (Z.log2 (Z.abs v) < Z.of_nat fuel) ->
  exists v' n, units_loop fuel true v shift = Ok (v', shift + 10 * n) /\
    0 <= n /\ v = v' * 1024 ^ n /\ v' mod 1024 <> 0 /\ v' <> 0.
Proof.
  induction fuel as [|k IH]; intros v shift Hv Hl.
  - pose proof (Z.log2_nonneg (Z.abs v)). lia.
  - cbn [units_loop]. destruct (Z.eqb_spec (v mod 1024) 0) as [E|E].
    + cbn [rbind].
      assert (Hv' : v = 1024 * (v / 1024)) by (apply Z.div_exact; lia).
      set (w := v / 1024) in *.
      assert (Hw : w <> 0) by lia.
      assert (Hlw : Z.log2 (Z.abs w) < Z.of_nat k).
      { rewrite Hv', Z.abs_mul in Hl. change (Z.abs 1024) with (2 ^ 10) in Hl.
        rewrite Z.mul_comm, Z.log2_mul_pow2 in Hl by lia. lia. }
      destruct (IH w (shift + 10) Hw Hlw) as (v' & n & H1 & H2 & H3 & H4 & H5).
      exists v', (n + 1). rewrite H1. split; [do 2 f_equal; lia|].
      split; [lia|]. split; [|auto].
      rewrite Z.pow_add_r by lia. rewrite Hv' at 1. rewrite H3 at 1. ring.
    + exists v, 0. split; [do 2 f_equal; lia|]. split; [lia|]. split; [|auto].
      change (1024 ^ 0) with 1. lia.
Qed.

Lemma zero_loop : forall fuel fl shift, units_loop fuel fl 0 shift = Err EOutOfFuel.
Proof.
  induction fuel as [|k IH]; intros fl shift; [reflexivity|].
  cbn [units_loop]. change (0 mod 1024 =? 0) with true. cbv iota.
  destruct fl; cbn [rbind].
  - apply IH.
  - change (py_int_truediv_1024 0) with (@Ok Z 0). cbn [rbind]. apply IH.
Qed.

Definition enough_fuel (z : Z) (fuel : nat) : Prop :=
  Z.log2 (Z.abs z) + 2 < Z.of_nat fuel.

Lemma log2_mul_1024 : forall w, w <> 0 -> Z.log2 (Z.abs (1024 * w)) = Z.log2 (Z.abs w) + 10.
Proof.
  intros w Hw. rewrite Z.abs_mul. change (Z.abs 1024) with (2 ^ 10).
  rewrite Z.mul_comm, Z.log2_mul_pow2; lia.
Qed.

(** A rounding step adds at most one bit. *)
Lemma round53_log2 : forall z, Z.log2 (Z.abs (round53 z)) <= Z.log2 (Z.abs z) + 1.
Proof.
  intros z. unfold round53. set (a := Z.abs z).
  destruct (Z.leb_spec (Z.log2 a - 52) 0) as [H|H]; [fold a; lia|].
  set (e0 := Z.log2 a - 52) in *.
  assert (Hp : 0 < 2 ^ e0) by (apply Z.pow_pos_nonneg; lia).
  assert (Ha : 0 < a).
  { destruct (Z.eq_dec a 0) as [E|]; [|lia]. unfold e0 in H. rewrite E in H. cbn in H. lia. }
  assert (Hz : z <> 0) by lia.
  set (q := a / 2 ^ e0).
  assert (Hq : q * 2 ^ e0 <= a) by (rewrite Z.mul_comm; apply Z.mul_div_le; lia).
  assert (Hpa : 2 ^ e0 <= a).
  { transitivity (2 ^ Z.log2 a); [apply Z.pow_le_mono_r; lia|]. now apply Z.log2_spec. }
  match goal with |- context [if ?u then _ else _] => set (up := u) end.
  assert (Hb : Z.abs (Z.sgn z * ((if up then q + 1 else q) * 2 ^ e0)) <= 2 * a).
  { rewrite Z.abs_mul. assert (Z.abs (Z.sgn z) = 1) by (destruct z; cbn; lia).
    rewrite H0, Z.mul_1_l.
    assert (0 <= q) by (apply Z.div_pos; lia).
    rewrite Z.abs_eq by (destruct up; nia). destruct up; nia. }
  transitivity (Z.log2 (2 * a)); [now apply Z.log2_le_mono|].
  rewrite Z.log2_double by lia. lia.
Qed.

(** The whole loop on non-zero input. *)
Lemma units_loop_spec : forall fuel z, z <> 0 -> enough_fuel z fuel ->
  (exists v n, units_loop fuel false z 0 = Ok (v, 10 * n) /\ 0 <= n /\
     v mod 1024 <> 0 /\ v <> 0 /\
     ((n = 0 /\ v = z) \/
      (0 < n /\ z mod 1024 = 0 /\ py_int_truediv_1024 z = Ok (v * 1024 ^ (n - 1)))))
  \/ (units_loop fuel false z 0 = Err EOverflowError /\ z mod 1024 = 0 /\
      py_int_truediv_1024 z = Err EOverflowError).
Proof.
  intros fuel z Hz Hf. unfold enough_fuel in Hf.
  destruct fuel as [|k]; [pose proof (Z.log2_nonneg (Z.abs z)); lia|].
  cbn [units_loop]. destruct (Z.eqb_spec (z mod 1024) 0) as [E|E].
  - assert (Hz' : z = 1024 * (z / 1024)) by (apply Z.div_exact; lia).
    assert (Hw : z / 1024 <> 0) by lia.
    destruct (py_int_truediv_1024 z) as [w|er] eqn:Et.
    + left. cbn [rbind].
      assert (Ew : w = round53 (z / 1024)).
      { unfold py_int_truediv_1024 in Et.
        destruct (2 ^ 1024 <=? Z.abs (round53 (z / 1024))); [discriminate|]. now injection Et. }
      assert (Hwn : w <> 0) by (rewrite Ew; now apply round53_nonzero).
      assert (Hwl : Z.log2 (Z.abs w) < Z.of_nat k).
      { rewrite Ew. pose proof (round53_log2 (z / 1024)).
        rewrite Hz', log2_mul_1024 in Hf by exact Hw. lia. }
      destruct (float_loop k w (0 + 10) Hwn Hwl) as (v & n & H1 & H2 & H3 & H4 & H5).
      exists v, (n + 1). rewrite H1. split; [do 2 f_equal; lia|].
      repeat split; auto; [lia|]. right. split; [lia|]. split; [auto|].
      rewrite H3. do 3 f_equal. lia.
    + right. unfold py_int_truediv_1024 in Et.
      destruct (2 ^ 1024 <=? Z.abs (round53 (z / 1024))); [|discriminate].
      injection Et as <-. auto.
  - left. exists z, 0. repeat split; auto; lia.
Qed.

(** ** Reading back *)

Lemma re_search_pow2 : forall n, re_search re_pow2 (L "byte * 2^" ++ dec n) = Some [(1%nat, dec n)].
Proof.
  intros n.
  pose proof (dec_digits n) as Hd. pose proof (dec_nonempty n) as Hn.
  destruct (dec n) as [|c t] eqn:E; [contradiction|]. clear E Hn.
  cbn in Hd. apply andb_true_iff in Hd as [Hc Ht].
  assert (G : re_match re_pow2 (L "2^" ++ c :: t) = Some [(1%nat, c :: t)]).
  { unfold re_match, re_pow2.
    assert (K : exists ys, run (RSeq (RStr (L "2^")) (RGroup 1 (RPlus (RChr is_digit))))
        (mkst (L "2^" ++ c :: t) []) = mkst [] [(1%nat, c :: t)] :: ys).
    { cbn [run RPlus RStr L list_ascii_of_string rest caps RLit app flat_map].
      cbn [Ascii.eqb Bool.eqb flat_map run rest caps app]. rewrite Hc.
      cbn [flat_map]. rewrite !app_nil_r.
      destruct (star_munch _ is_digit t [] []
        (fun s' => [mkst (rest s')
           ((1%nat, firstn (length (c :: t) - length (rest s')) (c :: t)) :: caps s')])
        (mkst [] [(1%nat, c :: t)]) []) as [ys' K]; auto.
      - discriminate.
      - cbn [rest caps length Nat.sub]. now rewrite firstn_cons, firstn_all.
      - rewrite app_nil_r in K. exists ys'.
        rewrite <- K. cbn [run rest]. clear.
        generalize (star_run (fun s : st => match rest s with
           | [] => [] | c0 :: t0 => if is_digit c0 then [mkst t0 (caps s)] else [] end) false (length t) (mkst t [])).
        intros l. induction l as [|x l IH]; [reflexivity|]. cbn [map flat_map app].
        now rewrite IH. }
    destruct K as [ys K]. now rewrite K. }
  change (L "byte * 2^" ++ c :: t) with (L "byte * " ++ L "2^" ++ c :: t).
  cbn [L list_ascii_of_string app]. cbn [re_search].
  cbn [L list_ascii_of_string app] in G.
  repeat match goal with
  | |- context [re_match re_pow2 (?x :: ?r)] =>
      lazymatch x with
      | "2"%char => fail
      | _ => change (re_match re_pow2 (x :: r)) with (@None groups); cbv iota
      end
  end.
  rewrite G. reflexivity.
Qed.

Lemma shiftl_1024 : forall v n, 0 <= n -> Z.shiftl v (10 * n) = v * 1024 ^ n.
Proof.
  intros v n Hn. rewrite Z.shiftl_mul_pow2 by lia. f_equal.
  rewrite Z.pow_mul_r by lia. reflexivity.
Qed.

Lemma read_units : forall v n, 0 <= n ->
  programmatic_bytes_to_int (zdec v) (L "byte * 2^" ++ zdec n) = Ok (Z.shiftl v n).
Proof.
  intros v n Hn. rewrite (zdec_nonneg n Hn).
  unfold programmatic_bytes_to_int.
  pose proof (re_search_pow2 (Z.to_N n)) as E.
  cbn [L list_ascii_of_string app] in *. rewrite E.
  unfold int_or_err. rewrite py_int_zdec. cbn [rbind].
  unfold group_or_empty. cbn [group Nat.eqb]. rewrite py_int_dec. cbn [rbind].
  now rewrite Z2N.id by lia.
Qed.

Lemma read_byte : forall v, programmatic_bytes_to_int (zdec v) (L "byte") = Ok v.
Proof.
  intros v. unfold programmatic_bytes_to_int. cbn [L list_ascii_of_string].
  change (re_search re_pow2 ["b"; "y"; "t"; "e"]%char) with (@None groups).
  change (re_match re_si ["b"; "y"; "t"; "e"]%char) with (@None groups).
  cbv iota. unfold int_or_err. now rewrite py_int_zdec.
Qed.

Definition bytes_survive (z : Z) : Prop := z mod 1024 <> 0 \/ double_exact (z / 1024).

Lemma conv_spec : forall fuel z, z <> 0 -> enough_fuel z fuel ->
  (exists b u z', int_bytes_to_programmatic_units fuel z = Ok (b, u) /\
     programmatic_bytes_to_int b u = Ok z' /\
     ((z mod 1024 <> 0 /\ z' = z) \/
      (z mod 1024 = 0 /\ py_int_truediv_1024 z = Ok (z' / 1024) /\ z' mod 1024 = 0)))
  \/ (int_bytes_to_programmatic_units fuel z = Err EOverflowError /\
      z mod 1024 = 0 /\ py_int_truediv_1024 z = Err EOverflowError).
Proof.
  intros fuel z Hz Hf. destruct (units_loop_spec fuel z Hz Hf) as
    [(v & n & H1 & H2 & H3 & H4 & H5)|(H1 & H2 & H3)].
  - left. unfold int_bytes_to_programmatic_units. rewrite H1. cbn [rbind].
    destruct H5 as [(-> & ->)|(Hn & Hm & Ht)].
    + change (10 * 0 =? 0) with true. cbv iota.
      exists (zdec z), (L "byte"), z. split; [reflexivity|]. split; [apply read_byte|]. left. auto.
    + replace (10 * n =? 0) with false by lia.
      exists (zdec v), (L "byte * 2^" ++ zdec (10 * n)), (v * 1024 ^ n).
      split; [reflexivity|]. split.
      * rewrite read_units by lia. now rewrite shiftl_1024 by lia.
      * right. split; [exact Hm|].
        replace n with (n - 1 + 1) by lia. rewrite Z.pow_add_r by lia.
        change (1024 ^ 1) with 1024. rewrite Z.mul_assoc.
        rewrite Z.div_mul, Z.mod_mul by lia.
        replace (n - 1 + 1 - 1) with (n - 1) by lia. auto.
  - right. unfold int_bytes_to_programmatic_units. rewrite H1. auto.
Qed.

Theorem roundtrip_iff : forall fuel z, z <> 0 -> enough_fuel z fuel ->
  ((exists b u, int_bytes_to_programmatic_units fuel z = Ok (b, u) /\
               programmatic_bytes_to_int b u = Ok z)
   <-> bytes_survive z).
Proof.
  intros fuel z Hz Hf. unfold bytes_survive.
  destruct (conv_spec fuel z Hz Hf) as [(b & u & z' & H1 & H2 & H3)|(H1 & H2 & H3)].
  - split.
    + intros (b2 & u2 & H4 & H5). rewrite H1 in H4. injection H4 as <- <-.
      rewrite H2 in H5. injection H5 as ->.
      destruct H3 as [[H3 _]|(H3 & H4 & _)]; [now left|]. right. now apply truediv_exact_inv.
    + intros H. exists b, u. split; [exact H1|]. rewrite H2. f_equal.
      destruct H3 as [[_ H3]|(H3 & H4 & H5)]; [exact H3|].
      destruct H as [H|H]; [contradiction|]. apply truediv_exact in H.
      rewrite H in H4. injection H4 as H4.
      rewrite (Z.div_mod z' 1024), (Z.div_mod z 1024) by lia. lia.
  - split.
    + intros (b2 & u2 & H4 & _). congruence.
    + intros [H|H]; [contradiction|]. apply truediv_exact in H. congruence.
Qed.

Theorem conv_terminates : forall fuel z, z <> 0 -> enough_fuel z fuel ->
  int_bytes_to_programmatic_units fuel z <> Err EOutOfFuel.
Proof.
  intros fuel z Hz Hf.
  destruct (conv_spec fuel z Hz Hf) as [(b & u & z' & H1 & _)|(H1 & _)]; congruence.
Qed.

Lemma small_survive : forall z, 0 <= z < 2 ^ 63 -> bytes_survive z.
Proof.
  intros z H. right. exists (z / 1024), 0. split; [lia|].
  assert (0 <= z / 1024 < 2 ^ 53).
  { split; [apply Z.div_pos; lia|apply Z.div_lt_upper_bound; lia]. }
  assert (2 ^ 53 < 2 ^ 1024) by (apply Z.pow_lt_mono_r; lia).
  rewrite Z.abs_eq by lia. repeat split; lia.
Qed.

(** ** Named units ("MegaBytes") *)

Lemma search_none : forall r s,
  (forall a b, s = a ++ b -> ~ exists t, mt r b t) -> re_search r s = None.
Proof.
  intros r s. induction s as [|c s IH]; intros H; cbn [re_search].
  - assert (E : re_match r [] = None) by (apply re_match_none; apply (H [] []); reflexivity).
    now rewrite E.
  - assert (E : re_match r (c :: s) = None)
      by (apply re_match_none; apply (H [] (c :: s)); reflexivity).
    rewrite E. apply IH. intros a b ->. now apply (H (c :: a) b).
Qed.

Lemma pow2_needs_caret : forall u, ~ In "^"%char u -> re_search re_pow2 u = None.
Proof.
  intros u Hu. apply search_none. intros a b -> [t Ht].
  unfold re_pow2 in Ht. apply mt_seq_inv in Ht as (v & H1 & _).
  apply mt_str_inv in H1. subst b. apply Hu. apply in_or_app. right.
  right. now left.
Qed.

Lemma lower_in : forall c u, In c (lower u) <-> exists d, In d u /\ lower_char d = c.
Proof.
  intros c u. unfold lower. rewrite in_map_iff. firstorder.
Qed.

Lemma no_newline_lower : forall u, ~ In NL (lower u) ->
  forallb (fun c => negb (Ascii.eqb c NL)) u = true.
Proof.
  intros u H. apply forallb_forall. intros c Hc. apply negb_true_iff.
  apply Ascii.eqb_neq. intros ->. apply H. apply lower_in. exists NL. split; [exact Hc|reflexivity].
Qed.

Lemma si_match : forall u1 u2, ~ In NL (lower (u1 ++ u2)) -> lower u2 = L "bytes" ->
  re_match re_si (u1 ++ u2) = Some [(1%nat, u1)].
Proof.
  intros u1 u2 Hnl H2. unfold re_match, re_si.
  assert (Hlen : length u2 = 5%nat).
  { rewrite <- (map_length lower_char). fold (lower u2). now rewrite H2. }
  assert (K : exists ys, run (RSeq (RGroup 1 (RStar RDot)) (RSeq (RStrI (L "bytes")) REnd))
     (mkst (u1 ++ u2) []) = mkst [] [(1%nat, u1)] :: ys).
  { change (exists ys, flat_map (run (RSeq (RStrI (L "bytes")) REnd))
      (map (fun s' => mkst (rest s') ((1%nat, firstn (length (u1 ++ u2) - length (rest s')) (u1 ++ u2)) :: caps s'))
         (run (RStar RDot) (mkst (u1 ++ u2) []))) = mkst [] [(1%nat, u1)] :: ys).
    rewrite flat_map_map.
    replace (run (RStar RDot) (mkst (u1 ++ u2) []))
      with (run (RStar RDot) (mkst ((u1 ++ u2) ++ []) [])) by now rewrite app_nil_r.
    assert (Hend : run (RSeq (RStrI (L "bytes")) REnd) (mkst u2 [(1%nat, u1)]) <> []).
    { destruct (run_complete (RSeq (RStrI (L "bytes")) REnd) u2 []) with (g := [(1%nat, u1)]) as [g' Hin].
      - apply mt_seq_inv. exists []. split; [|constructor].
        apply mt_stri_inv. exists u2. rewrite app_nil_r. auto.
      - intros E. rewrite E in Hin. contradiction. }
    destruct (run (RSeq (RStrI (L "bytes")) REnd) (mkst u2 [(1%nat, u1)])) as [|y ys] eqn:Ey;
      [contradiction|].
    assert (Hy : y = mkst [] [(1%nat, u1)]).
    { destruct u2 as [|c1 [|c2 [|c3 [|c4 [|c5 [|]]]]]]; try discriminate Hlen.
      cbn in H2. injection H2 as E1 E2 E3 E4 E5.
      cbn [run RStrI L list_ascii_of_string RLitI rest caps flat_map] in Ey.
      change (lower_char "b"%char) with "b"%char in Ey.
      change (lower_char "y"%char) with "y"%char in Ey.
      change (lower_char "t"%char) with "t"%char in Ey.
      change (lower_char "e"%char) with "e"%char in Ey.
      change (lower_char "s"%char) with "s"%char in Ey.
      rewrite E1 in Ey. rewrite Ascii.eqb_refl in Ey. cbn [flat_map rest caps app] in Ey.
      rewrite E2 in Ey. rewrite Ascii.eqb_refl in Ey. cbn [flat_map rest caps app] in Ey.
      rewrite E3 in Ey. rewrite Ascii.eqb_refl in Ey. cbn [flat_map rest caps app] in Ey.
      rewrite E4 in Ey. rewrite Ascii.eqb_refl in Ey. cbn [flat_map rest caps app] in Ey.
      rewrite E5 in Ey. rewrite Ascii.eqb_refl in Ey. cbn [flat_map rest caps app] in Ey.
      now injection Ey. }
    subst y.
    apply (star_first st (fun c => negb (Ascii.eqb c NL)) (u1 ++ u2) [] [] _ (length u1) _ ys).
    - now apply no_newline_lower.
    - discriminate.
    - rewrite app_length. lia.
    - intros i Hi. rewrite app_nil_r. cbn [rest caps].
      match goal with |- ?l = [] => destruct l as [|x l'] eqn:Ex; [reflexivity|exfalso] end.
      assert (Hin : In x (x :: l')) by now left. rewrite <- Ex in Hin.
      apply run_sound in Hin. cbn [rest] in Hin.
      apply mt_seq_inv in Hin as (t & Ht & _). apply mt_stri_inv in Ht as (v & Hv & Hl).
      assert (length v = 5%nat).
      { rewrite <- (map_length lower_char). fold (lower v). now rewrite Hl. }
      apply (f_equal (@length ascii)) in Hv.
      rewrite skipn_length, !app_length in Hv. rewrite app_length in Hi. lia.
    - rewrite app_nil_r. cbn [rest caps]. rewrite skipn_app, skipn_all, Nat.sub_diag.
      cbn [skipn app]. rewrite app_length.
      replace (length u1 + length u2 - length u2)%nat with (length u1) by lia.
      rewrite firstn_app, firstn_all, Nat.sub_diag. cbn [firstn]. rewrite app_nil_r.
      exact Ey. }
  destruct K as [ys K]. now rewrite K.
Qed.

Lemma named_units : forall base b units i p,
  py_int base = Some b ->
  nth_error si_prefixes i = Some p -> lower units = p ++ L "bytes" ->
  programmatic_bytes_to_int base units = Ok (b * 1024 ^ Z.of_nat i).
Proof.
  intros base b units i p Hb Hp Hu.
  assert (Hsp : exists u1 u2, units = u1 ++ u2 /\ lower u1 = p /\ lower u2 = L "bytes").
  { exists (firstn (length p) units), (skipn (length p) units).
    rewrite firstn_skipn. split; [reflexivity|].
    unfold lower in *. rewrite <- firstn_map, <- skipn_map, Hu.
    rewrite firstn_app, firstn_all, skipn_app, skipn_all, Nat.sub_diag.
    cbn [firstn skipn app]. now rewrite app_nil_r. }
  destruct Hsp as (u1 & u2 & -> & H1 & H2).
  assert (Hlow : lower (u1 ++ u2) = p ++ L "bytes") by exact Hu.
  assert (Hi : (i < 5)%nat).
  { assert (nth_error si_prefixes i <> None) by congruence.
    apply nth_error_Some in H. exact H. }
  assert (Hchars : ~ In "^"%char (u1 ++ u2) /\ ~ In NL (lower (u1 ++ u2))).
  { split.
    - intros Hin. assert (Hx : In (lower_char "^"%char) (lower (u1 ++ u2)))
        by (apply lower_in; eauto).
      rewrite Hlow in Hx.
      destruct i as [|[|[|[|[|]]]]]; try lia; cbn in Hp; injection Hp as <-;
        cbn in Hx; intuition discriminate.
    - intros Hx. rewrite Hlow in Hx.
      destruct i as [|[|[|[|[|]]]]]; try lia; cbn in Hp; injection Hp as <-;
        cbn in Hx; intuition discriminate. }
  destruct Hchars as [Hc Hnl].
  unfold programmatic_bytes_to_int.
  rewrite (pow2_needs_caret _ Hc), (si_match u1 u2 Hnl H2).
  unfold group_or_empty. cbn [group Nat.eqb]. rewrite H1.
  assert (Hidx : list_index p si_prefixes = Some (Z.of_nat i)).
  { destruct i as [|[|[|[|[|]]]]]; try lia; cbn in Hp; injection Hp as <-; reflexivity. }
  rewrite Hidx. unfold int_or_err. rewrite Hb. cbn [rbind].
  rewrite shiftl_1024 by lia.
  destruct (u1 ++ u2) eqn:E; [|reflexivity].
  apply app_eq_nil in E as [-> ->]. discriminate H2.
Qed.

Lemma fuel_exists : forall z, exists enough, forall fuel, (enough <= fuel)%nat -> enough_fuel z fuel.
Proof.
  intros z. exists (Z.to_nat (Z.log2 (Z.abs z) + 3)). intros fuel H. unfold enough_fuel.
  pose proof (Z.log2_nonneg (Z.abs z)). lia.
Qed.

Lemma roundtrip_with_fuel : forall z, z <> 0 ->
  exists enough, forall fuel, (enough <= fuel)%nat ->
  int_bytes_to_programmatic_units fuel z <> Err EOutOfFuel /\
  ((exists base units,
      int_bytes_to_programmatic_units fuel z = Ok (base, units) /\
      programmatic_bytes_to_int base units = Ok z)
   <-> (z mod 1024 <> 0 \/ double_exact (z / 1024))).
Proof.
  intros z Hz. destruct (fuel_exists z) as [n Hn]. exists n. intros fuel Hf.
  split; [now apply conv_terminates; auto|]. apply roundtrip_iff; auto.
Qed.

Lemma roundtrip_below_8EiB : forall z, 0 < z < 2 ^ 63 ->
  exists enough, forall fuel, (enough <= fuel)%nat ->
  exists base units,
    int_bytes_to_programmatic_units fuel z = Ok (base, units) /\
    programmatic_bytes_to_int base units = Ok z.
Proof.
  intros z Hz. destruct (fuel_exists z) as [n Hn]. exists n. intros fuel Hf.
  apply roundtrip_iff; auto; [lia|]. apply small_survive. lia.
Qed.

Lemma zero_never_returns : forall fuel,
  int_bytes_to_programmatic_units fuel 0 = Err EOutOfFuel.
Proof. intros. unfold int_bytes_to_programmatic_units. now rewrite zero_loop. Qed.

Lemma large_changes : exists z base units z',
  0 < z /\ int_bytes_to_programmatic_units 100 z = Ok (base, units) /\
  programmatic_bytes_to_int base units = Ok z' /\ z' <> z.
Proof.
  exists (1024 * (2 ^ 53 + 1)), (L "8"), (L "byte * 2^60"), (2 ^ 63).
  split; [lia|]. split; [vm_compute; reflexivity|]. split; [vm_compute; reflexivity|].
  vm_compute. discriminate.
Qed.

Lemma unknown_units_raise :
  programmatic_bytes_to_int (L "1") (L "PetaBytes") = Err EValueError.
Proof. vm_compute. reflexivity. Qed.
