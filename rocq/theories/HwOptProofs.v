(** Proofs about the quantity options of edit-hardware. *)
From Coq Require Import Lia.
From Verif Require Import PyBase PyBaseProofs PyRegex PyRegexProofs ValidationModel ValidationSpec
  ValidationProofs PlatformModel PlatformSpec PlatformProofs HwOptModel HwOptSpec.
Local Open Scope Z_scope.

Lemma blanks_forallb : forall s, blanks s <-> forallb is_space s = true.
Proof. intros s. unfold blanks. now rewrite forallb_forall. Qed.

(** What the groups say about the unit. *)
Definition unit_of (g : option str) : mem_unit :=
  match g with
  | Some u => if str_eqb u (L "M") || str_eqb u (L "m") then Mega
              else if str_eqb u (L "G") || str_eqb u (L "g") then Giga else Unspecified
  | None => Unspecified
  end.

Lemma mt_opt_chr : forall p s t, mt (ROpt (RChr p)) s t <-> exists w, s = w ++ t /\ (w = [] \/ exists c, w = [c] /\ p c = true).
Proof.
  intros p s t. unfold ROpt. rewrite mt_alt_inv, mt_chr_inv, mt_eps_inv. split.
  - intros [(c & -> & Hc)| ->]; [exists [c]|exists []]; split; eauto.
  - intros (w & -> & [-> |(c & -> & Hc)]); [now right|]. left. exists c. auto.
Qed.

Lemma is_byte_cases : forall c, is_byte c = true -> c = "b"%char \/ c = "B"%char.
Proof. intros c H. unfold is_byte in H. apply orb_true_iff in H as [H|H]; apply Ascii.eqb_eq in H; auto. Qed.
Lemma is_unit_cases : forall c, is_unit c = true -> c = "m"%char \/ c = "M"%char \/ c = "g"%char \/ c = "G"%char.
Proof.
  intros c H. unfold is_unit in H. rewrite !orb_true_iff in H.
  destruct H as [[[H|H]|H]|H]; apply Ascii.eqb_eq in H; auto.
Qed.

(** What follows the number. *)
Lemma tail_mt : forall s, mt (RSeq (ROpt (RLit "i"%char)) (RSeq (ROpt (RChr is_byte)) (RSeq (RStar (RChr is_space)) REnd))) s [] \/
  mt (RSeq (ROpt (RLit "i"%char)) (RSeq (ROpt (RChr is_byte)) (RSeq (RStar (RChr is_space)) REnd))) s [NL] ->
  exists i b w, s = i ++ b ++ w /\ one_of [L ""; L "i"] i /\ one_of [L ""; L "b"; L "B"] b /\ blanks w.
Proof.
  intros s H.
  assert (exists e, mt (RSeq (ROpt (RLit "i"%char)) (RSeq (ROpt (RChr is_byte)) (RSeq (RStar (RChr is_space)) REnd))) s e) as (e & H')
    by (destruct H; eauto). clear H.
  apply mt_seq_inv in H' as (s1 & H1 & H). apply mt_seq_inv in H as (s2 & H2 & H). apply mt_seq_inv in H as (s3 & H3 & H4).
  apply mt_opt_chr in H1 as (i & -> & Hi). apply mt_opt_chr in H2 as (b & -> & Hb). apply mt_star_chr in H3 as (w & -> & Hw).
  apply mt_end_inv in H4 as [-> Hend].
  exists i, b, (w ++ s3). split; [reflexivity|]. split; [|split].
  - destruct Hi as [-> |(c & -> & Hc)]; [now left|]. apply Ascii.eqb_eq in Hc as <-. right. now left.
  - destruct Hb as [-> |(c & -> & Hc)]; [now left|]. apply is_byte_cases in Hc as [-> | ->]; [right; now left|right; right; now left].
  - apply blanks_forallb. rewrite forallb_app, Hw. destruct Hend as [-> | ->]; reflexivity.
Qed.

Lemma memory_match : forall s g, re_match re_memory s = Some g ->
  exists w1 d w2 t w3, s = w1 ++ d ++ w2 ++ t ++ w3 /\ blanks w1 /\ blanks w2 /\ blanks w3 /\
    all_digits d /\ d <> [] /\ group 1 g = Some d /\ unit_text (unit_of (group 2 g)) t.
Proof.
  intros s g H. apply re_match_mtc in H as (e & H). unfold re_memory in H.
  apply mtc_seq_inv in H as (s1 & g1 & H1 & H). apply mtc_plain in H1 as [-> H1]; [|reflexivity].
  apply mt_star_chr in H1 as (w1 & -> & Hw1).
  apply mtc_seq_inv in H as (s2 & g2 & H1 & H). apply mtc_group_inv in H1 as (d & g' & -> & Es & H1).
  apply mtc_plain in H1 as [-> H1]; [|reflexivity].
  apply mt_plus_chr in H1 as (d' & Ed & Hd & Hn). rewrite Es in Ed. apply mt_app_cancel in Ed as ->. subst s1.
  apply mtc_seq_inv in H as (s3 & g3 & H1 & H). apply mtc_plain in H1 as [-> H1]; [|reflexivity].
  apply mt_star_chr in H1 as (w2 & -> & Hw2).
  apply mtc_seq_inv in H as (s4 & g4 & H1 & H). apply mtc_plain in H as [-> H]; [|reflexivity].
  assert (exists i b w, s4 = i ++ b ++ w /\ one_of [L ""; L "i"] i /\ one_of [L ""; L "b"; L "B"] b /\ blanks w) as (i & b & w & -> & Hi & Hb & Hw).
  { apply tail_mt. pose proof H as H0. apply mt_seq_inv in H0 as (x1 & _ & H0). apply mt_seq_inv in H0 as (x2 & _ & H0).
    apply mt_seq_inv in H0 as (x3 & _ & H0). apply mt_end_inv in H0 as [-> [E|E]]; subst; auto. }
  unfold ROpt in H1. apply mtc_alt_inv in H1 as [H1|H1].
  - apply mtc_group_inv in H1 as (u & g' & -> & Eu & H1). apply mtc_plain in H1 as [-> H1]; [|reflexivity].
    apply mt_chr_inv in H1 as (c & Ec & Hc). rewrite Eu in Ec.
    assert (u = [c]) as -> by (apply (mt_app_cancel u [c] (i ++ b ++ w)); exact Ec). subst s3.
    exists w1, d', w2, ([c] ++ i ++ b), w. rewrite <- !app_assoc. split; [reflexivity|].
    split; [now apply blanks_forallb|]. split; [now apply blanks_forallb|]. split; [exact Hw|].
    split; [now apply all_digits_forallb|]. split; [exact Hn|]. split; [reflexivity|].
    cbn [group Nat.eqb]. apply is_unit_cases in Hc as [-> |[-> |[-> | ->]]]; cbn [unit_of str_eqb];
      [apply unit_mega|apply unit_mega|apply unit_giga|apply unit_giga]; auto; try (now left); right; now left.
  - apply mtc_plain in H1 as [-> H1]; [|reflexivity]. apply mt_eps_inv in H1. subst s3.
    exists w1, d', w2, (i ++ b), w. rewrite <- !app_assoc. split; [reflexivity|].
    split; [now apply blanks_forallb|]. split; [now apply blanks_forallb|]. split; [exact Hw|].
    split; [now apply all_digits_forallb|]. split; [exact Hn|]. split; [reflexivity|].
    cbn [group Nat.eqb unit_of]. now apply unit_none.
Qed.

Lemma memory_test : forall w1 d w2 t w3 u, blanks w1 -> blanks w2 -> blanks w3 -> all_digits d -> d <> [] ->
  unit_text u t -> re_test re_memory (w1 ++ d ++ w2 ++ t ++ w3) = true.
Proof.
  intros w1 d w2 t w3 u H1 H2 H3 Hd Hn Ht. apply blanks_forallb in H1, H2, H3. apply all_digits_forallb in Hd.
  apply re_test_spec. exists []. unfold re_memory.
  apply mt_seq_inv. exists (d ++ w2 ++ t ++ w3). split; [apply mt_star_chr; eauto|].
  apply mt_seq_inv. exists (w2 ++ t ++ w3). split; [apply mt_group_inv, mt_plus_chr; eauto|].
  apply mt_seq_inv. exists (t ++ w3). split; [apply mt_star_chr; eauto|].
  assert (exists m i b, t = m ++ i ++ b /\ (m = [] \/ exists c, m = [c] /\ is_unit c = true) /\
    one_of [L ""; L "i"] i /\ one_of [L ""; L "b"; L "B"] b) as (m & i & b & -> & Hm & Hi & Hb).
  { destruct Ht as [i b Hi Hb|m i b Hm Hi Hb|m i b Hm Hi Hb].
    - exists [], i, b. auto.
    - exists m, i, b. split; [reflexivity|]. split; [|auto]. right.
      destruct Hm as [<-|[<-|[]]]; eexists; split; reflexivity.
    - exists m, i, b. split; [reflexivity|]. split; [|auto]. right.
      destruct Hm as [<-|[<-|[]]]; eexists; split; reflexivity. }
  rewrite <- !app_assoc.
  apply mt_seq_inv. exists (i ++ b ++ w3). split.
  { unfold ROpt. apply mt_alt_inv. destruct Hm as [-> |(c & -> & Hc)]; [right; now apply mt_eps_inv|].
    left. apply mt_group_inv, mt_chr_inv. exists c. auto. }
  apply mt_seq_inv. exists (b ++ w3). split.
  { unfold RLit. apply mt_opt_chr.
    exists i. split; [reflexivity|]. destruct Hi as [<-|[<-|[]]]; [now left|]. right. eexists. split; reflexivity. }
  apply mt_seq_inv. exists w3. split.
  { apply mt_opt_chr. exists b. split; [reflexivity|]. destruct Hb as [<-|[<-|[<-|[]]]]; [now left|right|right]; eexists; split; reflexivity. }
  apply mt_seq_inv. exists []. split; [apply mt_star_chr; exists w3; now rewrite app_nil_r|]. apply mt_end_inv. auto.
Qed.

(** The text determines number and unit. *)
Definition kind_of (s : str) : mem_unit :=
  match s with
  | c :: _ => if Ascii.eqb c "m" || Ascii.eqb c "M" then Mega
              else if Ascii.eqb c "g" || Ascii.eqb c "G" then Giga else Unspecified
  | [] => Unspecified
  end.

Lemma kind_blanks : forall w, blanks w -> kind_of (lstrip w) = Unspecified.
Proof.
  intros w H. apply blanks_forallb in H. rewrite <- (app_nil_r w). now rewrite lstrip_app_space.
Qed.

Lemma kind_text : forall u t w2 w3, unit_text u t -> blanks w2 -> blanks w3 -> kind_of (lstrip (w2 ++ t ++ w3)) = u.
Proof.
  intros u t w2 w3 Ht H2 H3. apply blanks_forallb in H2. rewrite lstrip_app_space by exact H2.
  destruct Ht as [i b Hi Hb|m i b Hm Hi Hb|m i b Hm Hi Hb].
  - destruct Hi as [<-|[<-|[]]]; [|reflexivity]. destruct Hb as [<-|[<-|[<-|[]]]]; try reflexivity.
    now apply kind_blanks.
  - destruct Hm as [<-|[<-|[]]]; reflexivity.
  - destruct Hm as [<-|[<-|[]]]; reflexivity.
Qed.

Lemma unit_text_digit : forall u t w2 w3 c r, unit_text u t -> blanks w2 -> blanks w3 ->
  w2 ++ t ++ w3 = c :: r -> is_digit c = false.
Proof.
  intros u t w2 w3 c r Ht H2 H3 E.
  assert (forall c, is_space c = true -> is_digit c = false) as S.
  { intros x Hx. destruct (is_digit x) eqn:D; [|reflexivity]. now rewrite (digit_not_space x D) in Hx. }
  destruct w2 as [|x w2]; [|injection E as -> _; apply S, H2; now left]. cbn in E.
  destruct w3 as [|y w3].
  - rewrite app_nil_r in E.
    destruct Ht as [i b Hi Hb|m i b Hm Hi Hb|m i b Hm Hi Hb].
    + destruct Hi as [<-|[<-|[]]]; [|injection E as <- _; reflexivity].
      destruct Hb as [<-|[<-|[<-|[]]]]; [discriminate| |]; injection E as <- _; reflexivity.
    + destruct Hm as [<-|[<-|[]]]; injection E as <- _; reflexivity.
    + destruct Hm as [<-|[<-|[]]]; injection E as <- _; reflexivity.
  - destruct Ht as [i b Hi Hb|m i b Hm Hi Hb|m i b Hm Hi Hb].
    + destruct Hi as [<-|[<-|[]]]; [|injection E as <- _; reflexivity].
      destruct Hb as [<-|[<-|[<-|[]]]]; injection E as <- _; try reflexivity. apply S, H3. now left.
    + destruct Hm as [<-|[<-|[]]]; injection E as <- _; reflexivity.
    + destruct Hm as [<-|[<-|[]]]; injection E as <- _; reflexivity.
Qed.

Lemma memory_text_unique : forall s v v', memory_text s v -> memory_text s v' -> v = v'.
Proof.
  intros s v v' (w1 & d & w2 & t & w3 & u & -> & H1 & H2 & H3 & Hd & Hn & Ht & _ & ->)
    (x1 & e & x2 & t' & x3 & u' & E & K1 & K2 & K3 & He & Hm & Ht' & _ & ->).
  apply blanks_forallb in H1, K1.
  assert (forall d : str, all_digits d -> d <> [] -> forall r : str, forall c t, d ++ r = c :: t -> is_space c = false) as D.
  { intros d0 Hd0 Hn0 r c t0 E0. destruct d0 as [|x d0]; [contradiction|]. injection E0 as <- _.
    apply digit_not_space, Hd0. now left. }
  destruct (span_unique _ is_space w1 (d ++ w2 ++ t ++ w3) x1 (e ++ x2 ++ t' ++ x3)) as [_ E1]; auto.
  { intros c r. now apply D. } { intros c r. now apply D. }
  destruct (span_unique _ is_digit d (w2 ++ t ++ w3) e (x2 ++ t' ++ x3)) as [-> E2]; auto.
  { now apply all_digits_forallb. } { now apply all_digits_forallb. }
  { intros c r. now apply (unit_text_digit u). } { intros c r. now apply (unit_text_digit u'). }
  f_equal. rewrite <- (kind_text u t w2 w3), <- (kind_text u' t' x2 x3) by assumption. now rewrite E2.
Qed.

Theorem memory_value_spec : forall s,
  (forall v, memory_value s = Ok v <-> memory_text s v) /\
  (forall e, memory_value s = Err e -> e = EInvalidInput).
Proof.
  intros s.
  assert (forall g, re_match re_memory s = Some g -> match memory_value s with
    | Ok v => memory_text s v
    | Err e => e = EInvalidInput /\ forall v, ~ memory_text s v end) as M.
  { intros g E. pose proof (memory_match s g E) as (w1 & d & w2 & t & w3 & Es & H1 & H2 & H3 & Hd & Hn & G1 & G2).
    assert (forall v, Z.of_N (digits_val d) > 0 -> v = in_mib (Z.of_N (digits_val d)) (unit_of (group 2 g)) -> memory_text s v) as Y.
    { intros v P ->. exists w1, d, w2, t, w3, (unit_of (group 2 g)).
      repeat (split; [assumption|]). split; [lia|reflexivity]. }
    unfold memory_value. rewrite E, G1.
    destruct (Z.leb_spec (Z.of_N (digits_val d)) 0) as [Z0|Z0].
    - split; [reflexivity|]. intros v (x1 & e & x2 & t' & x3 & u & Es' & K1 & K2 & K3 & He & Hm & Ht & P & _).
      assert (d = e) as <-.
      { rewrite Es in Es'. apply blanks_forallb in H1, K1.
        destruct (span_unique _ is_space w1 (d ++ w2 ++ t ++ w3) x1 (e ++ x2 ++ t' ++ x3)) as [_ E1]; auto.
        { intros c r E0. destruct d as [|x d0]; [contradiction|]. injection E0 as <- _. apply digit_not_space, Hd. now left. }
        { intros c r E0. destruct e as [|x d0]; [contradiction|]. injection E0 as <- _. apply digit_not_space, He. now left. }
        destruct (span_unique _ is_digit d (w2 ++ t ++ w3) e (x2 ++ t' ++ x3)) as [-> _]; auto.
        { now apply all_digits_forallb. } { now apply all_digits_forallb. }
        { intros c r. now apply (unit_text_digit (unit_of (group 2 g))). } { intros c r. now apply (unit_text_digit u). } }
      lia.
    - assert (Z.of_N (digits_val d) > 0) as P by lia. specialize (Y _ P eq_refl).
      unfold unit_of in Y. destruct (group 2 g) as [x|]; [|cbn [in_mib] in Y; destruct (Z.leb _ 64); exact Y].
      destruct (str_eqb x (L "M") || str_eqb x (L "m")); [exact Y|].
      destruct (str_eqb x (L "G") || str_eqb x (L "g")); [exact Y|].
      cbn [in_mib] in Y; destruct (Z.leb _ 64); exact Y. }
  assert (re_match re_memory s = None -> forall v, ~ memory_text s v) as N.
  { intros E v (w1 & d & w2 & t & w3 & u & -> & H1 & H2 & H3 & Hd & Hn & Ht & _).
    pose proof (memory_test w1 d w2 t w3 u H1 H2 H3 Hd Hn Ht) as T. unfold re_test in T. now rewrite E in T. }
  destruct (re_match re_memory s) as [g|] eqn:E.
  - specialize (M g eq_refl). split.
    + intros v. split.
      * intros F. now rewrite F in M.
      * intros F. destruct (memory_value s) as [v'|e]; [now rewrite (memory_text_unique s v v')|]. now destruct (proj2 M v).
    + intros e F. rewrite F in M. tauto.
  - specialize (N eq_refl). unfold memory_value. rewrite E. split.
    + intros v. split; [discriminate|]. intros F. now destruct (N v).
    + intros e F. now injection F.
Qed.

Theorem option_value_spec : forall h s,
  (forall v, option_value h s = Ok v <-> wanted h s v) /\
  (forall e, option_value h s = Err e -> is_invalid_input e = true).
Proof.
  intros h s. pose proof (memory_value_spec s) as [M1 M2].
  destruct h; cbn [option_value wanted].
  - split.
    + intros v. rewrite <- py_int_spec. destruct (py_int s) as [z|]; [|split; [discriminate|intros [F _]; discriminate]].
      destruct (Z.ltb_spec z 1); split.
      * discriminate.
      * intros [F G]. injection F as ->. lia.
      * intros F. injection F as ->. now split.
      * intros [F G]. now injection F as ->.
    + intros e. destruct (py_int s) as [z|]; [destruct (z <? 1)|]; intros F; try discriminate; now injection F as <-.
  - split; [exact M1|]. intros e F. now rewrite (M2 e F).
  - split.
    + intros v. rewrite <- py_int_spec. destruct (py_int s) as [z|]; [|split; [discriminate|intros [F _]; discriminate]].
      unfold non_negative_int. destruct (validate_int_int z (Some 0) None) as (_ & _ & V & _). rewrite V. split.
      * intros (-> & Hl & _). split; [reflexivity|]. now apply Hl.
      * intros [F G]. injection F as ->. split; [reflexivity|]. split; [intros m Em; injection Em as <-; exact G|discriminate].
    + intros e. destruct (py_int s) as [z|]; [|intros F; now injection F as <-].
      unfold non_negative_int. destruct (validate_int_int z (Some 0) None) as (_ & _ & _ & V). intros F. now destruct (V e F) as [-> | ->].
  - split.
    + intros v. rewrite <- py_int_spec. destruct (py_int s) as [z|]; [|split; [discriminate|intros [F _]; discriminate]].
      unfold non_negative_int. destruct (validate_int_int z (Some 0) None) as (_ & _ & V & _). rewrite V. split.
      * intros (-> & Hl & _). split; [reflexivity|]. now apply Hl.
      * intros [F G]. injection F as ->. split; [reflexivity|]. split; [intros m Em; injection Em as <-; exact G|discriminate].
    + intros e. destruct (py_int s) as [z|]; [|intros F; now injection F as <-].
      unfold non_negative_int. destruct (validate_int_int z (Some 0) None) as (_ & _ & _ & V). intros F. now destruct (V e F) as [-> | ->].
Qed.

(** ** Histories *)

Lemma stored_store : forall h h' z o, stored (store h z o) h' = if hardware_eqb h' h then Some z else stored o h'.
Proof. intros [] [] z o; reflexivity. Qed.
Lemma stored_checked : forall h o c, stored (with_checked o c) h = stored o h.
Proof. intros [] o c; reflexivity. Qed.
Lemma checked_store : forall h z o, o_checked (store h z o) = o_checked o.
Proof. intros [] z o; reflexivity. Qed.

Lemma wanted_unique : forall h s v v', wanted h s v -> wanted h s v' -> v = v'.
Proof.
  intros h s v v' H H'. apply option_value_spec in H, H'. congruence.
Qed.

Definition agreed (p : platform) (checked : Prop) (h : hardware) (v : Z) (answer : bool) : Prop :=
  supported p h v \/ (checked /\ ~ bad_cpu_count p h v) \/ answer = true.

Lemma validate_cases : forall p h v c,
  (fst (validate p h v c) = Ok tt /\ (supported p h v \/ (In (h, v) c /\ ~ bad_cpu_count p h v))) \/
  (exists e, fst (validate p h v c) = Err e /\ is_value_unsupported e = true /\
     ~ (supported p h v \/ (In (h, v) c /\ ~ bad_cpu_count p h v))).
Proof.
  intros p h v c.
  assert (forall e, fst (validate p h v c) = Err e -> is_value_unsupported e = true) as U.
  { intros e. unfold validate, base_validate. destruct (cached h v c).
    - cbn [fst]. destruct (bad_cpu_spec p h v) as [[-> _]|[-> _]]; intros F; [now injection F as <-|discriminate].
    - destruct (hardware_limits p h) as [lo hi]. destruct (validate_int_int v lo hi) as (_ & _ & _ & V).
      destruct (validate_int (AInt v) lo hi) as [r|e'].
      + cbn [fst]. destruct (bad_cpu_spec p h v) as [[-> _]|[-> _]]; intros F; [now injection F as <-|discriminate].
      + cbn [fst]. intros F. injection F as <-. now destruct (V e' eq_refl) as [-> | ->]. }
  destruct (cached h v c) eqn:E.
  - apply cached_In in E. destruct (validate_again p h v c E) as [A _].
    destruct (fst (validate p h v c)) as [[]|e] eqn:F.
    + left. split; [reflexivity|]. right. split; [exact E|]. now apply A.
    + right. exists e. split; [reflexivity|]. split; [now apply U|].
      assert (~ ~ bad_cpu_count p h v) as B by (intros B; apply A in B; discriminate).
      intros [(_ & _ & S)|[_ S]]; contradiction.
  - assert (~ In (h, v) c) as N by (intros F; apply cached_In in F; congruence).
    destruct (validate_new p h v c N) as (_ & _ & _ & A). unfold supported.
    destruct (fst (validate p h v c)) as [[]|e] eqn:F.
    + left. split; [reflexivity|]. left. now apply A.
    + right. exists e. split; [reflexivity|]. split; [now apply U|].
      intros [S|[S _]]; [|contradiction]. apply A in S. discriminate.
Qed.

Lemma set_option_spec : forall p o h text answer v, wanted h text v ->
  (agreed p (In (h, v) (o_checked o)) h v answer /\ fst (set_option p o h text answer) = Ok tt /\
   forall h', stored (snd (set_option p o h text answer)) h' = if hardware_eqb h' h then Some v else stored o h') \/
  (~ agreed p (In (h, v) (o_checked o)) h v answer /\
   (exists e, fst (set_option p o h text answer) = Err e /\ is_value_unsupported e = true) /\
   forall h', stored (snd (set_option p o h text answer)) h' = stored o h').
Proof.
  intros p o h text answer v Hw. apply option_value_spec in Hw. unfold set_option. rewrite Hw.
  pose proof (validate_cases p h v (o_checked o)) as V.
  destruct (validate p h v (o_checked o)) as [r c]. cbn [fst] in V. unfold agreed.
  destruct V as [[-> V]|(e & -> & He & V)]; cbn [validate_value].
  - left. split; [tauto|]. split; [reflexivity|]. intros h'. cbn [snd]. now rewrite stored_store, stored_checked.
  - assert (is_value_error e = true) as -> by (destruct e; (reflexivity || discriminate)).
    destruct answer.
    + left. split; [tauto|]. split; [reflexivity|]. intros h'. cbn [snd]. now rewrite stored_store, stored_checked.
    + right. split; [intros [F|[F|F]]; [tauto|tauto|discriminate]|]. split; [exists e; auto|]. intros h'. cbn [snd]. now rewrite stored_checked.
Qed.

Lemma set_option_checked : forall p o h text answer x, In x (o_checked (snd (set_option p o h text answer))) <->
  In x (o_checked o) \/ exists v, wanted h text v /\ x = (h, v).
Proof.
  intros p o h text answer x. unfold set_option. destruct (option_value h text) as [z|e] eqn:E.
  - pose proof (validate_cache p h z (o_checked o) x) as V. destruct (validate p h z (o_checked o)) as [r c]. cbn [snd] in V.
    assert (In x (o_checked (snd (match validate_value r answer with Ok _ => (Ok tt, store h z (with_checked o c)) | Err e => (Err e, with_checked o c) end))) <-> In x c) as ->.
    { destruct (validate_value r answer); cbn [snd]; [now rewrite checked_store|reflexivity]. }
    rewrite V. apply option_value_spec in E. split.
    + intros [-> |F]; [right; eauto|now left].
    + intros [F|(v & Hv & ->)]; [now right|]. left. now rewrite (wanted_unique h text v z).
  - cbn [snd]. split; [now left|]. intros [F|(v & Hv & _)]; [exact F|]. apply option_value_spec in Hv. congruence.
Qed.

Lemma after_app : forall p l1 l2 o, after_options p o (l1 ++ l2) = after_options p (after_options p o l1) l2.
Proof. induction l1 as [|[[h t] a] l1 IH]; intros l2 o; cbn; [reflexivity|]. apply IH. Qed.

Lemma checked_tried : forall p l o h v, In (h, v) (o_checked (after_options p o l)) <-> In (h, v) (o_checked o) \/ tried l h v.
Proof.
  induction l as [|[[h' t] a] l IH]; intros o h v; cbn [after_options].
  - split; [now left|]. intros [F|(t & a & [] & _)]. exact F.
  - rewrite IH, set_option_checked. split.
    + intros [[F|(u & Hu & E)]|(x & b & Hi & Hx)]; [now left|right|right].
      * injection E as -> ->. exists t, a. split; [now left|exact Hu].
      * exists x, b. split; [now right|exact Hx].
    + intros [F|(x & b & [E|Hi] & Hx)]; [left; now left| |].
      * injection E as -> -> ->. left. right. eauto.
      * right. exists x, b. auto.
Qed.

Theorem assign_spec : forall p l h text answer v, wanted h text v ->
  let o := after_options p no_hw_options l in
  let r := set_option p o h text answer in
  ((supported p h v \/ (tried l h v /\ ~ bad_cpu_count p h v) \/ answer = true) /\
   fst r = Ok tt /\ stored (snd r) h = Some v /\ forall h', h' <> h -> stored (snd r) h' = stored o h') \/
  (~ (supported p h v \/ (tried l h v /\ ~ bad_cpu_count p h v) \/ answer = true) /\
   (exists e, fst r = Err e /\ is_value_unsupported e = true) /\ forall h', stored (snd r) h' = stored o h').
Proof.
  intros p l h text answer v Hw o r.
  assert (In (h, v) (o_checked o) <-> tried l h v) as T.
  { unfold o. rewrite checked_tried. cbn. tauto. }
  destruct (set_option_spec p o h text answer v Hw) as [(A & R & S)|(A & R & S)]; unfold agreed in A; rewrite T in A; [left|right].
  - split; [exact A|]. split; [exact R|]. split.
    + unfold r. rewrite S. now destruct h.
    + intros h' N. unfold r. rewrite S. destruct (hardware_eqb h' h) eqn:E; [|reflexivity]. apply hardware_eqb_eq in E. contradiction.
  - auto.
Qed.

Theorem reject_spec : forall p l h text answer, (forall v, ~ wanted h text v) ->
  let o := after_options p no_hw_options l in
  exists e, set_option p o h text answer = (Err e, o) /\ is_invalid_input e = true.
Proof.
  intros p l h text answer N o. unfold set_option. destruct (option_value h text) as [z|e] eqn:E.
  - exfalso. apply (N z). now apply option_value_spec.
  - exists e. split; [reflexivity|]. now apply option_value_spec in E.
Qed.

Theorem history_spec : forall p l h v, stored (after_options p no_hw_options l) h = Some v ->
  exists l1 text answer l2, l = l1 ++ (h, text, answer) :: l2 /\ wanted h text v /\
    (supported p h v \/ answer = true \/ (tried l1 h v /\ ~ bad_cpu_count p h v)).
Proof.
  intros p l. induction l as [|[[h0 t] a] l IH] using rev_ind; intros h v H.
  - destruct h; discriminate.
  - rewrite after_app in H. cbn [after_options] in H.
    assert (stored (after_options p no_hw_options l) h = Some v -> exists l1 text answer l2,
      l ++ [(h0, t, a)] = l1 ++ (h, text, answer) :: l2 /\ wanted h text v /\
      (supported p h v \/ answer = true \/ (tried l1 h v /\ ~ bad_cpu_count p h v))) as K.
    { intros K. destruct (IH h v K) as (l1 & x & b & l2 & -> & W & S). exists l1, x, b, (l2 ++ [(h0, t, a)]).
      split; [|auto]. rewrite <- app_assoc. reflexivity. }
    destruct (option_value h0 t) as [z|e] eqn:E.
    + apply option_value_spec in E. destruct (assign_spec p l h0 t a z E) as [(A & _ & S1 & S2)|(A & _ & S)].
      * destruct (hardware_eqb h h0) eqn:Eh.
        -- apply hardware_eqb_eq in Eh as ->. rewrite S1 in H. injection H as ->. exists l, t, a, []. split; [reflexivity|]. split; [exact E|]. tauto.
        -- rewrite S2 in H; [auto|]. intros ->. now rewrite (proj2 (hardware_eqb_eq h0 h0) eq_refl) in Eh.
      * rewrite S in H. auto.
    + unfold set_option in H. rewrite E in H. auto.
Qed.
