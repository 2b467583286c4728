(** Proofs about numbered name lists. *)
From Coq Require Import Lia.
From Verif Require Import PyBase PyBaseProofs PyRegex PyRegexProofs ValidationModel ValidationSpec
  ValidationProofs WildListModel WildListSpec.

(** ** Wildcards *)

Definition starts_wild (s : str) : Prop := exists d b, a_number d /\ s = wildcard d ++ b.

Lemma wild_mtc : forall s g t g', mtc re_wild s g t g' ->
  exists d, a_number d /\ s = wildcard d ++ t /\ g' = (1, d) :: g.
Proof.
  intros s g t g' H. unfold re_wild in H.
  apply mtc_seq_inv in H as (u & g1 & H1 & H). apply mtc_plain in H1 as [-> H1]; [|reflexivity].
  apply mt_lit_inv in H1 as ->.
  apply mtc_seq_inv in H as (w & g2 & H1 & H). apply mtc_plain in H as [-> H]; [|reflexivity].
  apply mt_lit_inv in H as ->.
  apply mtc_group_inv in H1 as (x & gx & -> & Eu & H1).
  apply mtc_plain in H1 as [-> H1]; [|reflexivity].
  apply mt_plus_chr in H1 as (d & Ed & Hd & Hn). rewrite Eu in Ed. apply mt_app_cancel in Ed as ->.
  exists d. split; [split; [now apply all_digits_forallb|exact Hn]|].
  split; [|reflexivity]. subst u. unfold wildcard. cbn. now rewrite <- app_assoc.
Qed.

Lemma wild_mt : forall d t, a_number d -> mt re_wild (wildcard d ++ t) t.
Proof.
  intros d t [Hd Hn]. apply all_digits_forallb in Hd. unfold re_wild, wildcard.
  apply mt_seq_inv. exists (d ++ "}"%char :: t). split; [apply mt_lit_inv; cbn; now rewrite <- app_assoc|].
  apply mt_seq_inv. exists ("}"%char :: t). split; [|now apply mt_lit_inv].
  apply mt_group_inv, mt_plus_chr. now exists d.
Qed.

Lemma wild_run : forall s,
  (exists d x l, a_number d /\ s = wildcard d ++ rest x /\ run re_wild (mkst s []) = x :: l /\ caps x = [(1, d)]) \/
  (~ starts_wild s /\ run re_wild (mkst s []) = []).
Proof.
  intros s. destruct (run re_wild (mkst s [])) as [|x l] eqn:E.
  - right. split; [|reflexivity]. intros (d & b & Hd & ->).
    destruct (run_complete re_wild _ b (wild_mt d b Hd) []) as (g & Hi).
    rewrite E in Hi. destruct Hi.
  - left. assert (In x (run re_wild (mkst s []))) as Hi by (rewrite E; now left).
    apply run_mtc in Hi. cbn [rest caps] in Hi. apply wild_mtc in Hi as (d & Hd & -> & Hc).
    exists d, x, l. auto.
Qed.

Lemma no_wildcard_nil : no_wildcard [].
Proof. intros a d b _ H. destruct a; discriminate. Qed.

Lemma no_wildcard_cons : forall c t, no_wildcard (c :: t) <-> ~ starts_wild (c :: t) /\ no_wildcard t.
Proof.
  intros c t. split.
  - intros H. split.
    + intros (d & b & Hd & E). exact (H [] d b Hd E).
    + intros a d b Hd ->. now apply (H (c :: a) d b).
  - intros [H1 H2] a d b Hd E. destruct a as [|x a].
    + apply H1. now exists d, b.
    + injection E as -> ->. now apply (H2 a d b).
Qed.

Lemma digit_not_brace : forall d a b, all_digits d -> d <> a ++ "{"%char :: b.
Proof. intros d a b H ->. specialize (H "{"%char). rewrite in_app_iff in H. discriminate H. right. now left. Qed.

(** A wildcard that starts in [t] ends in [t] if a brace follows. *)
Lemma starts_wild_app : forall t s, starts_wild (t ++ "{"%char :: s) -> t <> [] -> starts_wild t.
Proof.
  intros t s (d & b & [Hd Hn] & E) Ht. destruct t as [|c t]; [contradiction|].
  cbn in E. injection E as -> E.
  assert (exists b', t = d ++ "}"%char :: b') as (b' & ->).
  { clear Ht Hn. revert t E. induction d as [|x d IH]; intros t E.
    - destruct t as [|y t]; [discriminate|]. injection E as -> E. now exists t.
    - destruct t as [|y t].
      + injection E as <- _. exfalso. now apply (digit_not_brace ("{"%char :: d) [] d Hd).
      + injection E as -> E. destruct (IH (fun c Hc => Hd c (or_intror Hc)) t E) as (b' & ->).
        now exists b'. }
  exists d, b'. split; [now split|]. unfold wildcard. cbn. now rewrite <- app_assoc.
Qed.

Lemma filled_cons : forall v c s out, filled v s out -> ~ starts_wild (c :: s) -> filled v (c :: s) (c :: out).
Proof.
  intros v c s out H Hc. destruct H as [t Ht|t d s out Ht Hd Hf].
  - apply filled_end. now apply no_wildcard_cons.
  - change (c :: t ++ wildcard d ++ s) with ((c :: t) ++ wildcard d ++ s).
    change (c :: t ++ dec v ++ out) with ((c :: t) ++ dec v ++ out).
    apply filled_more; [|exact Hd|exact Hf]. apply no_wildcard_cons. split; [|exact Ht].
    intros (d' & b & Hd' & E). apply Hc. exists d', (b ++ wildcard d ++ s). split; [exact Hd'|].
    change (c :: t ++ wildcard d ++ s) with ((c :: t) ++ wildcard d ++ s). rewrite E. now rewrite <- app_assoc.
Qed.

Lemma sub_skip : forall r rep k s, re_sub_aux r rep k s = re_sub_aux r rep 0 (skipn k s).
Proof.
  induction k as [|k IH]; intros s; [reflexivity|]. destruct s as [|c s]; [reflexivity|]. cbn [re_sub_aux skipn]. apply IH.
Qed.

Lemma wildcard_length : forall d, length (wildcard d) = length d + 2.
Proof. intros. unfold wildcard. cbn. rewrite app_length. cbn. lia. Qed.

Lemma fill_filled_n : forall n v s, length s <= n -> filled v s (re_sub_aux re_wild (dec v) 0 s).
Proof.
  induction n as [|n IH]; intros v s Hn.
  - destruct s; [|cbn in Hn; lia]. apply filled_end, no_wildcard_nil.
  - destruct s as [|c s]; [apply filled_end, no_wildcard_nil|]. cbn [re_sub_aux]. cbn in Hn.
    destruct (wild_run (c :: s)) as [(d & x & l & Hd & Es & -> & _)|[Hs ->]].
    + rewrite sub_skip.
      assert (length s = length d + 1 + length (rest x)) as Hl.
      { apply (f_equal (@length ascii)) in Es. rewrite app_length, wildcard_length in Es. cbn in Es. lia. }
      assert (skipn (length s - length (rest x)) s = rest x) as ->.
      { unfold wildcard in Es. cbn in Es. injection Es as -> ->.
        replace (length ((d ++ ["}"%char]) ++ rest x) - length (rest x)) with (length (d ++ ["}"%char]))
          by (rewrite !app_length; lia). rewrite skipn_app, skipn_all, Nat.sub_diag. reflexivity. }
      rewrite Es. apply (filled_more v [] d); [apply no_wildcard_nil|exact Hd|]. apply IH. lia.
    + apply filled_cons; [|exact Hs]. apply IH. lia.
Qed.
Lemma fill_filled : forall v s, filled v s (fill_wildcard s v).
Proof. intros. unfold fill_wildcard, re_sub. eapply fill_filled_n. reflexivity. Qed.

Lemma wildcard_split : forall t1 d1 s1 t2 d2 s2, no_wildcard t1 -> no_wildcard t2 -> a_number d1 -> a_number d2 ->
  t1 ++ wildcard d1 ++ s1 = t2 ++ wildcard d2 ++ s2 -> t1 = t2 /\ d1 = d2 /\ s1 = s2.
Proof.
  induction t1 as [|c t1 IH]; intros d1 s1 t2 d2 s2 H1 H2 Hd1 Hd2 E.
  - destruct t2 as [|c2 t2].
    + split; [reflexivity|]. cbn in E. injection E as E. rewrite <- !app_assoc in E. cbn in E.
      destruct Hd1 as [Hd1 _], Hd2 as [Hd2 _]. apply all_digits_forallb in Hd1, Hd2.
      assert (d1 = d2 /\ "}"%char :: s1 = "}"%char :: s2) as [-> E2].
      { apply (span_unique _ is_digit); auto; intros c t F; injection F as <- _; reflexivity. }
      injection E2 as ->. auto.
    + exfalso. assert (starts_wild (c2 :: t2)) as W.
      { apply (starts_wild_app (c2 :: t2) (d2 ++ "}"%char :: s2)); [|discriminate].
        exists d1, s1. split; [exact Hd1|]. cbn in E. cbn. rewrite <- app_assoc in E. symmetry.
        rewrite <- !app_assoc in *. exact E. }
      apply no_wildcard_cons in H2 as [H2 _]. contradiction.
  - destruct t2 as [|c2 t2].
    + exfalso. assert (starts_wild (c :: t1)) as W.
      { apply (starts_wild_app (c :: t1) (d1 ++ "}"%char :: s1)); [|discriminate].
        exists d2, s2. split; [exact Hd2|]. cbn in E. cbn. rewrite <- !app_assoc in *. exact E. }
      apply no_wildcard_cons in H1 as [H1 _]. contradiction.
    + injection E as -> E. apply no_wildcard_cons in H1 as [_ H1]. apply no_wildcard_cons in H2 as [_ H2].
      destruct (IH d1 s1 t2 d2 s2 H1 H2 Hd1 Hd2 E) as (-> & -> & ->). auto.
Qed.

Lemma filled_unique : forall v s x y, filled v s x -> filled v s y -> x = y.
Proof.
  intros v s x y H. revert y. induction H as [t Ht|t d s out Ht Hd Hf IH]; intros y Hy.
  - destruct Hy as [t' _|t' d' s' out' _ Hd' _]; [reflexivity|]. exfalso. exact (Ht t' d' s' Hd' eq_refl).
  - inversion Hy as [t' Ht' E1 E2|t' d' s' out' Ht' Hd' Hf' E1 E2]; subst.
    + exfalso. exact (Ht' t d s Hd eq_refl).
    + destruct (wildcard_split _ _ _ _ _ _ Ht' Ht Hd' Hd E1) as (-> & -> & ->). now rewrite (IH out').
Qed.

Lemma search_starts : forall s, starts_at s (first_index s).
Proof.
  intros s. unfold first_index.
  assert (forall s, (exists t d u, no_wildcard t /\ a_number d /\ s = t ++ wildcard d ++ u /\ re_search re_wild s = Some [(1, d)]) \/
                    (no_wildcard s /\ re_search re_wild s = None)) as H.
  { clear s. induction s as [|c s IH].
    - right. split; [apply no_wildcard_nil|]. reflexivity.
    - destruct (wild_run (c :: s)) as [(d & x & l & Hd & Es & Er & Hc)|[Hs Er]].
      + left. exists [], d, (rest x). split; [apply no_wildcard_nil|]. split; [exact Hd|]. split; [exact Es|].
        cbn [re_search]. unfold re_match. rewrite Er, Hc. reflexivity.
      + cbn [re_search]. unfold re_match. rewrite Er. destruct IH as [(t & d & u & Ht & Hd & -> & ->)|[Hn ->]].
        * left. exists (c :: t), d, u. split; [|auto]. apply no_wildcard_cons. split; [|exact Ht].
          intros (d' & b & Hd' & E). apply Hs. exists d', (b ++ wildcard d ++ u). split; [exact Hd'|].
          change (c :: t ++ wildcard d ++ u) with ((c :: t) ++ wildcard d ++ u). rewrite E. now rewrite <- app_assoc.
        * right. split; [|reflexivity]. now apply no_wildcard_cons. }
  destruct (H s) as [(t & d & u & Ht & Hd & -> & ->)|[Hn ->]].
  - cbn [group Nat.eqb]. now apply starts_some.
  - now apply starts_none.
Qed.

Lemma starts_at_unique : forall s m n, starts_at s m -> starts_at s n -> m = n.
Proof.
  intros s m n [t Ht|t d u Ht Hd] H.
  - inversion H as [t' Ht' E|t' d' u' Ht' Hd' E]; subst; [reflexivity|]. exfalso. exact (Ht t' d' u' Hd' eq_refl).
  - inversion H as [t' Ht' E|t' d' u' Ht' Hd' E]; subst.
    + exfalso. exact (Ht' t d u Hd eq_refl).
    + destruct (wildcard_split _ _ _ _ _ _ Ht' Ht Hd' Hd E) as (_ & -> & _). reflexivity.
Qed.

(** ** Expansion *)

Lemma number_names_spec : forall p n v, numbered p v (number_names p v n) /\ length (number_names p v n) = n.
Proof.
  induction n as [|n IH]; intros v; cbn; [split; [constructor|reflexivity]|].
  destruct (IH (v + 1)%N) as [H1 H2]. split; [|now rewrite H2]. constructor; [apply fill_filled|exact H1].
Qed.

Lemma numbered_unique : forall p v a b, numbered p v a -> numbered p v b -> length a = length b -> a = b.
Proof.
  intros p v a b H. revert b. induction H as [v|v x l Hx Hl IH]; intros b Hb E.
  - destruct b; [reflexivity|discriminate].
  - destruct Hb as [v|v y m Hy Hm]; [discriminate|]. injection E as E.
    rewrite (filled_unique v p x y Hx Hy), (IH m Hm E). reflexivity.
Qed.

Lemma expand_snoc : forall (given : list str) (pattern : str) n, length given + 1 < n ->
  expand_list_wildcard (given ++ [pattern]) n =
  given ++ number_names pattern (first_index pattern) (n - length given).
Proof.
  intros given pattern n H. unfold expand_list_wildcard.
  destruct (given ++ [pattern]) as [|x l] eqn:E; [destruct given; discriminate|]. rewrite <- E. clear x l E.
  assert (Nat.ltb (length (given ++ [pattern])) n = true) as ->
    by (apply Nat.ltb_lt; rewrite app_length; cbn; lia).
  now rewrite last_last, removelast_last.
Qed.

Theorem expand_spec : forall (given : list str) (pattern : str) n start, length given + 1 < n -> starts_at pattern start ->
  exists names, expand_list_wildcard (given ++ [pattern]) n = given ++ names /\
    length names = n - length given /\ numbered pattern start names.
Proof.
  intros given pattern n start H Hs. rewrite expand_snoc by exact H.
  rewrite (starts_at_unique _ _ _ Hs (search_starts pattern)).
  destruct (number_names_spec pattern (n - length given) (first_index pattern)) as [H1 H2].
  eauto.
Qed.

Theorem expand_long : forall l n, n <= length l -> expand_list_wildcard l n = l.
Proof.
  intros [|x l] n H; [reflexivity|]. unfold expand_list_wildcard.
  destruct (Nat.ltb (length (x :: l)) n) eqn:E; [|reflexivity]. apply Nat.ltb_lt in E. lia.
Qed.

Theorem expand_length : forall l n, l <> [] -> length (expand_list_wildcard l n) = Nat.max (length l) n.
Proof.
  intros l n Hl. destruct (Nat.le_gt_cases n (length l)) as [H|H].
  - rewrite expand_long by exact H. lia.
  - destruct (exists_last Hl) as (given & pattern & ->). rewrite app_length in *. cbn in *.
    rewrite expand_snoc by lia. rewrite app_length, (proj2 (number_names_spec _ _ _)). lia.
Qed.

(** ** Guessing *)

Lemma strs_eqb_eq : forall a b, strs_eqb a b = true <-> a = b.
Proof.
  induction a as [|x a IH]; intros [|y b]; cbn; try (split; congruence).
  rewrite andb_true_iff, str_eqb_eq, IH. split; [intros [-> ->]; reflexivity|intros E; now injection E as -> ->].
Qed.

Lemma guess_token_sound : forall known index next after before names,
  guess_token known index next before after = Some names ->
  expand_list_wildcard names (length known) = known /\
  exists p d q, a_number d /\ names = firstn index known ++ [p ++ wildcard d ++ q].
Proof.
  induction after as [|[s|n] after IH]; intros before names H; cbn in H; [discriminate|eauto|].
  match type of H with (if ?b then _ else _) = _ => destruct b eqn:E end; [|eauto].
  apply andb_true_iff in E as [_ E]. apply strs_eqb_eq in E. injection H as <-. split; [exact E|].
  exists (concat (map token_str before)), (dec n), (concat (map token_str after)).
  split; [split; [apply all_digits_forallb, dec_digits|apply dec_nonempty]|].
  unfold wildcard. cbn. now rewrite <- app_assoc.
Qed.

Lemma guess_value_sound : forall known values index names,
  guess_value known index values = Ok (Some names) -> index + length values = length known ->
  expand_list_wildcard names (length known) = known /\
  exists i p d q, a_number d /\ i + 1 < length known /\ names = firstn i known ++ [p ++ wildcard d ++ q].
Proof.
  induction values as [|cur values IH]; intros index names H Hl; [discriminate|].
  destruct values as [|next values]; [discriminate|].
  change (rbind (alphanum_split cur) (fun tokens =>
    match guess_token known index next [] tokens with
    | Some names0 => Ok (Some names0)
    | None => guess_value known (S index) (next :: values) end) = Ok (Some names)) in H.
  destruct (alphanum_split cur) as [tokens|e]; [|discriminate]. cbn [rbind] in H.
  destruct (guess_token known index next [] tokens) as [g|] eqn:E.
  - injection H as ->. apply guess_token_sound in E as (E & p & d & q & Hd & ->).
    split; [exact E|]. exists index, p, d, q. cbn in Hl. split; [exact Hd|]. split; [lia|reflexivity].
  - apply (IH (S index) names H). cbn in *. lia.
Qed.

Theorem guess_sound : forall known names, guess_list_wildcard known = Ok (Some names) ->
  expand_list_wildcard names (length known) = known /\
  exists i p d q, a_number d /\ i + 1 < length known /\ names = firstn i known ++ [p ++ wildcard d ++ q].
Proof. intros known names H. now apply (guess_value_sound known known 0). Qed.

(** ** The guess is found *)

Lemma dec_unique_aux : forall n d e, length d <= n -> forallb is_digit d = true -> forallb is_digit e = true ->
  (forall c t, d = c :: t -> t <> [] -> c <> "0"%char) -> (forall c t, e = c :: t -> t <> [] -> c <> "0"%char) ->
  d <> [] -> e <> [] -> digits_val d = digits_val e -> d = e.
Proof.
  assert (forall p c, digits_val (p ++ [c]) = (10 * digits_val p + digit_val c)%N) as S.
  { intros p c. unfold digits_val. rewrite digits_val_from_app. unfold digits_val_from at 1. cbn [fold_left]. lia. }
  assert (forall d, forallb is_digit d = true -> d <> [] ->
    (forall c t, d = c :: t -> c <> "0"%char) -> (0 < digits_val d)%N) as P.
  { intros [|c d] Hd Hn Hc; [contradiction|]. unfold digits_val, digits_val_from. cbn [fold_left].
    fold (digits_val_from (0 * 10 + digit_val c) d). rewrite digits_val_from_lin.
    cbn in Hd. apply andb_true_iff in Hd as [Hd _].
    assert (digit_val c <> 0)%N.
    { intros E. apply (Hc c d eq_refl). rewrite <- (digit_char_val c Hd), E. reflexivity. }
    assert (10 ^ N.of_nat (length d) <> 0)%N by now apply N.pow_nonzero. nia. }
  induction n as [|n IH]; intros d e Hl Hd He Zd Ze Nd Ne E.
  - destruct d; [contradiction|cbn in Hl; lia].
  - destruct (exists_last Nd) as (p & c & ->). destruct (exists_last Ne) as (q & c' & ->).
    rewrite !S in E. rewrite forallb_app in Hd, He. apply andb_true_iff in Hd as [Hp Hc].
    apply andb_true_iff in He as [Hq Hc']. cbn in Hc, Hc'. rewrite andb_true_r in Hc, Hc'.
    pose proof (digit_val_lt c Hc). pose proof (digit_val_lt c' Hc').
    assert (digits_val p = digits_val q) as E1 by lia. assert (digit_val c = digit_val c') as E2 by lia.
    assert (c = c') as -> by (rewrite <- (digit_char_val c Hc), <- (digit_char_val c' Hc'), E2; reflexivity).
    f_equal.
    assert (forall p c, (forall c0 t, p ++ [c] = c0 :: t -> t <> [] -> c0 <> "0"%char) ->
      forall c0 t, p = c0 :: t -> c0 <> "0"%char) as Z.
    { intros p0 x Z c0 t ->. apply (Z c0 (t ++ [x]) eq_refl). destruct t; discriminate. }
    destruct p as [|x p], q as [|y q]; [reflexivity| | |].
    + pose proof (P (y :: q) Hq ltac:(discriminate) (Z _ _ Ze)). change (digits_val []) with 0%N in E1. lia.
    + pose proof (P (x :: p) Hp ltac:(discriminate) (Z _ _ Zd)). change (digits_val []) with 0%N in E1. lia.
    + rewrite app_length in Hl. cbn in Hl.
      apply IH; auto; try discriminate; try (cbn; lia).
      * intros. eapply (Z _ _ Zd). eassumption.
      * intros. eapply (Z _ _ Ze). eassumption.
Qed.

Lemma dec_digits_val : forall d, all_digits d -> d <> [] -> (forall t, d = "0"%char :: t -> t = []) ->
  dec (digits_val d) = d.
Proof.
  intros d Hd Hn Hz. destruct (dec_spec (digits_val d)) as (H1 & H2 & H3 & H4).
  apply (dec_unique_aux (length (dec (digits_val d)))); auto.
  - now apply all_digits_forallb.
  - intros c t E Ht ->. apply Ht. exact (Hz t E).
Qed.

Lemma plain_tail : forall a b, plain_numbers (a ++ b) -> ~ ends_in_digit a -> plain_numbers b.
Proof.
  intros a b H Ha a' d b' -> Hd.
  destruct (H (a ++ a') d b') as (x & c & E & Hc); [now rewrite <- app_assoc|exact Hd|].
  destruct (exists_last (l := a')) as (a'' & c' & ->).
  - intros ->. rewrite app_nil_r in E. apply Ha. now exists x, c.
  - rewrite app_assoc in E. apply app_inj_tail in E as [_ ->]. eauto.
Qed.

Lemma no_digits_end : forall t, no_digits t -> ~ ends_in_digit t.
Proof.
  intros t H (a & c & -> & Hc). rewrite (H c) in Hc; [discriminate|]. apply in_or_app. right. now left.
Qed.

Lemma plain_number_head : forall d s, plain_numbers (d ++ s) -> all_digits d -> forall t, d = "0"%char :: t -> t = [].
Proof.
  intros d s H Hd t ->. destruct t as [|c t]; [reflexivity|exfalso].
  destruct (H [] (c :: t) s) as (x & c' & E & _); [reflexivity| |destruct x; discriminate].
  split; [|discriminate]. intros y Hy. apply Hd. now right.
Qed.

(** The rest behind a number: cut in front of the number's last digits. *)
Lemma plain_after_digits : forall d s ts, all_digits d -> splits_after s ts -> plain_numbers (d ++ s) -> plain_numbers s.
Proof.
  intros d s ts Hd Hs H a e b E He.
  destruct a as [|x a].
  - exfalso. subst s. apply (splits_after_head _ _ "0"%char (e ++ b)) in Hs; [|reflexivity]. discriminate.
  - destruct (H (d ++ x :: a) e b) as (y & c & E2 & Hc); [rewrite E; now rewrite <- app_assoc|exact He|].
    destruct (exists_last (l := x :: a)) as (a' & c' & Ea); [discriminate|]. rewrite Ea in *.
    rewrite app_assoc in E2. apply app_inj_tail in E2 as [_ ->]. eauto.
Qed.

Lemma render_after : forall s ts, splits_after s ts -> plain_numbers s -> concat (map token_str ts) = s.
Proof.
  induction 1 as [t Ht|t d s ts Ht Hn Hd Hdn Hs IH]; intros H.
  - cbn. apply app_nil_r.
  - cbn [map concat token_str]. apply plain_tail in H; [|now apply no_digits_end].
    rewrite dec_digits_val by (auto; now apply (plain_number_head d s)).
    rewrite IH; [reflexivity|]. now apply (plain_after_digits d s ts).
Qed.

Lemma render : forall s ts, splits s ts -> plain_numbers s -> concat (map token_str ts) = s.
Proof.
  intros s ts [s' ts' H|d s' ts' Hd Hn H] Hp; [now apply render_after|].
  cbn [map concat token_str app]. rewrite dec_digits_val by (auto; now apply (plain_number_head d s')).
  rewrite (render_after s' ts' H); [reflexivity|]. now apply (plain_after_digits d s' ts').
Qed.

Lemma splits_after_join : forall p tp, splits_after p tp -> p <> [] -> ~ ends_in_digit p ->
  forall d q tq, all_digits d -> d <> [] -> splits_after q tq ->
  splits_after (p ++ d ++ q) (tp ++ TNum (digits_val d) :: tq).
Proof.
  induction 1 as [t Ht|t d s ts Ht Hn Hd Hdn Hs IH]; intros Hp Hend d' q tq Hd' Hn' Hq.
  - cbn. now apply splits_more.
  - rewrite <- !app_assoc. cbn [app]. apply splits_more; auto. apply IH; auto.
    + intros ->. apply Hend. destruct (exists_last Hdn) as (x & c & ->). exists (t ++ x), c.
      split; [now rewrite app_nil_r, app_assoc|]. apply Hd, in_or_app. right. now left.
    + intros (a & c & -> & Hc). apply Hend. exists (t ++ d ++ a), c. split; [|exact Hc]. now rewrite <- !app_assoc.
Qed.

Lemma splits_join : forall p d q, ~ ends_in_digit p -> all_digits d -> d <> [] -> ~ starts_with_digit q ->
  exists tp tq, splits p tp /\ splits q tq /\ splits (p ++ d ++ q) (tp ++ TNum (digits_val d) :: tq).
Proof.
  intros p d q Hp Hd Hn Hq. destruct (splits_ex p) as [tp Htp]. destruct (splits_ex q) as [tq Htq].
  assert (splits_after q tq) as Hqa.
  { destruct Htq as [s ts H|d' s ts Hd' Hn' H]; [exact H|]. exfalso. apply Hq. destruct d' as [|c d']; [contradiction|].
    exists (d' ++ s), c. split; [reflexivity|]. apply Hd'. now left. }
  exists tp, tq. split; [exact Htp|]. split; [exact Htq|].
  destruct Htp as [s ts H|d' s ts Hd' Hn' H].
  - destruct s as [|c s].
    + destruct ts as [|t ts]; [inversion H|].
      assert (t :: ts = [TText []]) as ->.
      { apply (splits_unique [] (t :: ts) [TText []]); [now apply splits_text|].
        apply splits_text, splits_end. intros c []. }
      cbn. now apply splits_number.
    + apply splits_text. apply splits_after_join; auto. discriminate.
  - rewrite <- app_assoc. cbn [app]. apply splits_number; auto. apply splits_after_join; auto.
    + intros ->. apply Hp. destruct (exists_last Hn') as (x & c & ->). exists x, c.
      split; [now rewrite app_nil_r|]. apply Hd', in_or_app. right. now left.
    + intros (a & c & -> & Hc). apply Hp. exists (d' ++ a), c. split; [now rewrite <- app_assoc|exact Hc].
Qed.

Lemma guess_token_num : forall known index next before n after,
  guess_token known index next before (TNum n :: after) =
  if str_eqb next (concat (map token_str before) ++ dec (n + 1) ++ concat (map token_str after)) &&
     strs_eqb (expand_list_wildcard (firstn index known ++
       [concat (map token_str before) ++ L "{" ++ dec n ++ L "}" ++ concat (map token_str after)]) (length known)) known
  then Some (firstn index known ++ [concat (map token_str before) ++ L "{" ++ dec n ++ L "}" ++ concat (map token_str after)])
  else guess_token known index next (before ++ [TNum n]) after.
Proof. reflexivity. Qed.

Lemma guess_token_complete : forall known index next tp n tq before,
  str_eqb next (concat (map token_str (before ++ tp)) ++ dec (n + 1) ++ concat (map token_str tq)) = true ->
  expand_list_wildcard (firstn index known ++
    [concat (map token_str (before ++ tp)) ++ wildcard (dec n) ++ concat (map token_str tq)]) (length known) = known ->
  exists names, guess_token known index next before (tp ++ TNum n :: tq) = Some names.
Proof.
  induction tp as [|[s|m] tp IH]; intros n tq before H1 H2.
  - rewrite app_nil_r in H1, H2. change ([] ++ TNum n :: tq) with (TNum n :: tq). rewrite guess_token_num.
    rewrite H1. unfold wildcard in H2. rewrite <- !app_assoc in H2.
    match goal with |- context [strs_eqb ?a ?b] =>
      replace (strs_eqb a b) with true by (symmetry; apply strs_eqb_eq; exact H2) end. eexists. reflexivity.
  - cbn [app guess_token]. apply IH; rewrite <- app_assoc; assumption.
  - cbn [app guess_token].
    match goal with |- exists _, (if ?b then _ else _) = _ => destruct b end; [eauto|].
    apply IH; rewrite <- app_assoc; assumption.
Qed.

Lemma counting_length : forall p q k n, length (counting p q n k) = k.
Proof. induction k as [|k IH]; intros n; cbn; [reflexivity|]. now rewrite IH. Qed.

Lemma numbered_counting : forall p q d k n, no_wildcard p -> no_wildcard q -> a_number d ->
  numbered (p ++ wildcard d ++ q) n (counting p q n k).
Proof.
  induction k as [|k IH]; intros n Hp Hq Hd; cbn; constructor; [|now apply IH].
  apply filled_more; auto. now apply filled_end.
Qed.

Lemma expand_counting : forall (given : list str) (p q : str) n k, no_wildcard p -> no_wildcard q -> 2 <= k ->
  expand_list_wildcard (given ++ [p ++ wildcard (dec n) ++ q]) (length (given ++ counting p q n k)) =
  given ++ counting p q n k.
Proof.
  intros given p q n k Hp Hq Hk.
  assert (a_number (dec n)) as Hd by (split; [apply all_digits_forallb, dec_digits|apply dec_nonempty]).
  rewrite app_length, counting_length. rewrite expand_snoc by lia. f_equal.
  assert (starts_at (p ++ wildcard (dec n) ++ q) n) as Hs.
  { pose proof (starts_some p (dec n) q Hp Hd) as S0. now rewrite digits_val_dec in S0. }
  rewrite (starts_at_unique _ _ _ (search_starts _) Hs).
  destruct (number_names_spec (p ++ wildcard (dec n) ++ q) (length given + k - length given) n) as [H1 H2].
  eapply numbered_unique; [exact H1|now apply numbered_counting|]. rewrite H2, counting_length. lia.
Qed.

Lemma firstn_app_exact : forall (A : Type) (a b : list A), firstn (length a) (a ++ b) = a.
Proof. intros. rewrite firstn_app, firstn_all, Nat.sub_diag. cbn. apply app_nil_r. Qed.

Lemma alphanum_ok : forall s ts, plain_text s -> splits s ts -> alphanum_split s = Ok ts.
Proof.
  intros s ts Hp H. destruct (plain_split_ok s Hp) as [ts' E].
  rewrite E. f_equal. apply (splits_unique s); [now apply alphanum_split_ok|exact H].
Qed.

Lemma guess_value_step : forall known index cur next values,
  guess_value known index (cur :: next :: values) =
  rbind (alphanum_split cur) (fun tokens =>
    match guess_token known index next [] tokens with
    | Some names0 => Ok (Some names0)
    | None => guess_value known (S index) (next :: values) end).
Proof. reflexivity. Qed.

Theorem guess_complete : forall (given : list str) (p q : str) n k, 2 <= k ->
  (forall s, In s (given ++ counting p q n k) -> plain_text s) ->
  ~ ends_in_digit p -> ~ starts_with_digit q -> plain_numbers p -> plain_numbers q ->
  no_wildcard p -> no_wildcard q ->
  exists names, guess_list_wildcard (given ++ counting p q n k) = Ok (Some names).
Proof.
  intros given p q n k Hk Hplain Hp Hq Cp Cq Wp Wq. unfold guess_list_wildcard.
  set (known := given ++ counting p q n k) in *.
  assert (forall todo done, done ++ todo = given ->
    exists names, guess_value known (length done) (todo ++ counting p q n k) = Ok (Some names)) as H.
  2:{ destruct (H given [] eq_refl) as (names & E). exists names. exact E. }
  induction todo as [|x todo IH]; intros done E.
  - rewrite app_nil_r in E. subst done. cbn [app].
    destruct k as [|[|k]]; [lia|lia|]. cbn [counting]. rewrite guess_value_step.
    destruct (splits_join p (dec n) q Hp) as (tp & tq & H1 & H2 & H3); auto.
    { apply all_digits_forallb, dec_digits. } { apply dec_nonempty. }
    rewrite digits_val_dec in H3. rewrite (alphanum_ok _ _ (Hplain (p ++ dec n ++ q) ltac:(unfold known; apply in_or_app; right; left; reflexivity)) H3).
    cbn [rbind]. pose proof (render p tp H1 Cp) as Rp. pose proof (render q tq H2 Cq) as Rq.
    destruct (guess_token_complete known (length given) (p ++ dec (n + 1) ++ q) tp n tq []) as (names & ->); [| |eauto].
    + cbn [app]. rewrite Rp, Rq. apply str_eqb_refl.
    + cbn [app]. rewrite Rp, Rq. unfold known. rewrite firstn_app_exact. now apply expand_counting.
  - assert (exists y l, todo ++ counting p q n k = y :: l) as (y & l & Ey).
    { destruct todo; [|cbn; eauto]. destruct k as [|[|k]]; [lia|lia|]. cbn. eauto. }
    cbn [app]. rewrite Ey, guess_value_step.
    destruct (plain_split_ok x) as [tokens ->].
    { apply Hplain. unfold known. rewrite <- E. apply in_or_app. left. apply in_or_app. right. now left. }
    cbn [rbind]. destruct (guess_token known (length done) y [] tokens) as [names|]; [eauto|].
    rewrite <- Ey. specialize (IH (done ++ [x])). rewrite app_length, Nat.add_1_r in IH. apply IH.
    rewrite <- app_assoc. exact E.
Qed.
