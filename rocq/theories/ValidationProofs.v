(** Lemmas about the validators. *)
From Coq Require Import Lia ZifyBool Sorting.Sorted Permutation.
From Verif Require Import PyBase PyBaseProofs PyRegex PyRegexProofs ValidationModel ValidationSpec.

Lemma all_digits_forallb : forall s, all_digits s <-> forallb is_digit s = true.
Proof. intros. unfold all_digits. now rewrite forallb_forall. Qed.

(** ** Splitting *)

Lemma split_num : forall d s cur,
  all_digits d -> (forall c r, s = c :: r -> is_digit c = false) ->
  split_digits true cur (d ++ s) = (rev cur ++ d) :: split_digits false [] s.
Proof.
  induction d as [|x d IH]; intros s cur Hd Hs; cbn [app].
  - rewrite app_nil_r. destruct s as [|c r]; [reflexivity|].
    cbn [split_digits]. rewrite (Hs c r eq_refl). cbn. reflexivity.
  - cbn [split_digits]. rewrite (Hd x (or_introl eq_refl)). cbn [Bool.eqb].
    rewrite IH; [|intros c Hc; apply Hd; now right|exact Hs].
    cbn [rev]. now rewrite <- app_assoc.
Qed.

Lemma split_text : forall t c s cur,
  no_digits t -> is_digit c = true ->
  split_digits false cur (t ++ c :: s) = (rev cur ++ t) :: split_digits true [] (c :: s).
Proof.
  induction t as [|x t IH]; intros c s cur Ht Hc; cbn [app].
  - rewrite app_nil_r. cbn [split_digits]. rewrite Hc. reflexivity.
  - cbn [split_digits]. rewrite (Ht x (or_introl eq_refl)). cbn [Bool.eqb].
    rewrite IH; [|intros y Hy; apply Ht; now right|exact Hc].
    cbn [rev]. now rewrite <- app_assoc.
Qed.

Lemma split_text_end : forall t cur,
  no_digits t -> split_digits false cur t = [rev cur ++ t].
Proof.
  induction t as [|x t IH]; intros cur Ht.
  - now rewrite app_nil_r.
  - cbn [split_digits]. rewrite (Ht x (or_introl eq_refl)). cbn [Bool.eqb].
    rewrite IH by (intros y Hy; apply Ht; now right). cbn [rev]. now rewrite <- app_assoc.
Qed.

(** The texts left over after a digit run start with a non-digit. *)
Lemma splits_after_head : forall s ts c r,
  splits_after s ts -> s = c :: r -> is_digit c = false.
Proof.
  intros s ts c r H E. destruct H as [t Ht|t d s' ts' Ht Hn Hd Hdn Hs].
  - subst t. apply Ht. now left.
  - destruct t as [|x t]; [contradiction|]. injection E as -> _. apply Ht. now left.
Qed.

Lemma split_digits_num : forall d s ts,
  all_digits d -> d <> [] -> splits_after s ts ->
  split_digits true [] (d ++ s) = d :: split_digits false [] s.
Proof.
  intros d s ts Hd Hn Hs. rewrite split_num; [reflexivity|exact Hd|].
  intros c r E. eapply splits_after_head; eauto.
Qed.

(** Pairing of the pieces. *)
Fixpoint toks (l : list str) : list token :=
  match l with
  | t :: d :: l' => TText t :: TNum (digits_val d) :: toks l'
  | [t] => [TText t]
  | [] => []
  end.

Lemma split_pieces_after : forall t d s ts,
  no_digits t -> all_digits d -> d <> [] -> splits_after s ts ->
  split_digits false [] (t ++ d ++ s) = t :: d :: split_digits false [] s.
Proof.
  intros t d s ts Ht Hd Hn Hs. destruct d as [|c d]; [contradiction|]. cbn [app].
  rewrite split_text; [|exact Ht|apply Hd; now left]. cbn [rev app]. f_equal.
  apply (split_digits_num (c :: d) s ts Hd Hn Hs).
Qed.

Lemma splits_after_toks : forall s ts, splits_after s ts -> ts = toks (split_digits false [] s).
Proof.
  induction 1 as [t Ht|t d s ts Ht Hn Hd Hdn Hs IH].
  - now rewrite split_text_end.
  - rewrite (split_pieces_after t d s ts) by assumption. cbn [toks]. now rewrite <- IH.
Qed.

Lemma splits_toks : forall s ts, splits s ts -> ts = toks (split_digits false [] s).
Proof.
  intros s ts [s' ts' H|d s' ts' Hd Hn H].
  - now apply splits_after_toks.
  - rewrite (split_pieces_after [] d s' ts' (fun c F => match F with end) Hd Hn H : split_digits false [] (d ++ s') = _).
    cbn [toks]. now rewrite <- (splits_after_toks s' ts').
Qed.

Lemma splits_unique : forall s t1 t2, splits s t1 -> splits s t2 -> t1 = t2.
Proof. intros s t1 t2 H1 H2. now rewrite (splits_toks s t1 H1), (splits_toks s t2 H2). Qed.

Lemma splits_after_ex : forall n s, length s <= n ->
  (forall c r, s = c :: r -> is_digit c = false) -> exists ts, splits_after s ts.
Proof.
  induction n as [|n IH]; intros s Hl Hh.
  - destruct s; [|cbn in Hl; lia]. exists [TText []]. constructor. intros c [].
  - destruct (span (fun c => negb (is_digit c)) s) as [t s1] eqn:E.
    apply span_spec in E as (-> & Ht & Hs1).
    assert (no_digits t) as Hnt.
    { intros c Hc. rewrite forallb_forall in Ht. apply negb_true_iff. now apply Ht. }
    destruct s1 as [|c s1].
    + rewrite app_nil_r. exists [TText t]. now constructor.
    + destruct t as [|x t].
      { specialize (Hh c s1 eq_refl). specialize (Hs1 c s1 eq_refl). rewrite Hh in Hs1. discriminate. }
      destruct (span is_digit (c :: s1)) as [d s2] eqn:E2.
      apply span_spec in E2 as (E2 & Hd & Hs2).
      assert (d <> []) as Hdn.
      { intros ->. cbn in E2. specialize (Hs2 c s1 (eq_sym E2)). specialize (Hs1 c s1 eq_refl).
        rewrite Hs2 in Hs1. discriminate. }
      rewrite E2 in *.
      destruct (IH s2) as [ts Hts].
      { rewrite !app_length in Hl. cbn in Hl. lia. }
      { exact Hs2. }
      exists (TText (x :: t) :: TNum (digits_val d) :: ts).
      constructor; auto; [discriminate|]. now apply all_digits_forallb.
Qed.

Lemma splits_ex : forall s, exists ts, splits s ts.
Proof.
  intros s. destruct (span is_digit s) as [d s2] eqn:E. apply span_spec in E as (-> & Hd & Hs2).
  destruct (splits_after_ex (length s2) s2 (le_n _) Hs2) as [ts Hts].
  destruct d as [|c d].
  - exists ts. now constructor.
  - exists (TText [] :: TNum (digits_val (c :: d)) :: ts). constructor; auto; [|discriminate].
    now apply all_digits_forallb.
Qed.

Lemma splits_exists_unique : forall s, exists ts, splits s ts /\ forall ts', splits s ts' -> ts' = ts.
Proof.
  intros s. destruct (splits_ex s) as [ts H]. exists ts. split; [exact H|].
  intros ts' H'. now apply (splits_unique s).
Qed.

(** ** The number conversion *)

Definition superscript (c : ascii) : bool :=
  (code c =? 178)%N || (code c =? 179)%N || (code c =? 185)%N.
Definition superscripts (t : str) : bool :=
  match t with [] => false | _ => forallb superscript t end.

Lemma isdigit_no_digits : forall t, no_digits t -> py_isdigit t = superscripts t.
Proof.
  intros [|c t] H; [reflexivity|]. unfold py_isdigit, superscripts.
  assert (forall l, no_digits l -> forallb is_unicode_digit l = forallb superscript l) as G.
  { induction l as [|x l IH]; intros Hl; [reflexivity|]. cbn [forallb].
    rewrite IH by (intros y Hy; apply Hl; now right). f_equal.
    unfold is_unicode_digit, superscript. rewrite (Hl x (or_introl eq_refl)).
    reflexivity. }
  now apply G.
Qed.

Lemma superscripts_int : forall t, superscripts t = true -> py_int t = None.
Proof.
  intros t H. destruct t as [|c t]; [discriminate|]. unfold superscripts in H.
  assert (trimmed (c :: t)) as T.
  { apply trimmed_nospace. eapply forallb_impl; [|exact H].
    intros x Hx. unfold superscript in Hx. unfold is_space, in_range. lia. }
  unfold py_int. rewrite strip_of_trimmed by exact T.
  cbn [forallb] in H. apply andb_true_iff in H as [H _].
  assert (forall d, code d <> 178%N -> code d <> 179%N -> code d <> 185%N -> Ascii.eqb c d = false) as Q.
  { intros d H1 H2 H3. apply Ascii.eqb_neq. intros ->. unfold superscript in H. lia. }
  rewrite (Q "-"%char), (Q "+"%char) by (vm_compute; discriminate).
  cbn [int_digits].
  replace (is_digit c) with false.
  2:{ symmetry. unfold is_digit, in_range. unfold superscript in H. lia. }
  rewrite (Q "_"%char) by (vm_compute; discriminate). reflexivity.
Qed.

Lemma text_to_int_text : forall t, no_digits t ->
  text_to_int t = if superscripts t then Err EValueError else Ok (TText t).
Proof.
  intros t H. unfold text_to_int. rewrite isdigit_no_digits by exact H.
  destruct (superscripts t) eqn:E; [|reflexivity]. now rewrite superscripts_int.
Qed.

Lemma text_to_int_num : forall d, all_digits d -> d <> [] ->
  text_to_int d = Ok (TNum (digits_val d)).
Proof.
  intros d Hd Hn. apply all_digits_forallb in Hd. unfold text_to_int.
  replace (py_isdigit d) with true.
  - rewrite py_int_digits by assumption. now rewrite N2Z.id.
  - symmetry. destruct d as [|c d]; [contradiction|]. unfold py_isdigit.
    eapply forallb_impl; [|exact Hd]. intros x Hx. unfold is_unicode_digit. now rewrite Hx.
Qed.

Definition bad_token (t : token) : bool :=
  match t with TText s => superscripts s | TNum _ => false end.

Lemma rmap_after : forall s ts, splits_after s ts ->
  rmap text_to_int (split_digits false [] s) =
  if existsb bad_token ts then Err EValueError else Ok ts.
Proof.
  induction 1 as [t Ht|t d s ts Ht Hn Hd Hdn Hs IH].
  - rewrite split_text_end by exact Ht. cbn [rev app rmap]. rewrite text_to_int_text by exact Ht.
    cbn [existsb bad_token]. rewrite orb_false_r. destruct (superscripts t); reflexivity.
  - rewrite (split_pieces_after t d s ts) by assumption. cbn [rmap].
    rewrite (text_to_int_text t), (text_to_int_num d), IH by assumption. cbn [existsb bad_token].
    destruct (superscripts t); [reflexivity|]. cbn [rbind orb].
    destruct (existsb bad_token ts); reflexivity.
Qed.

Lemma alphanum_split_splits : forall s ts, splits s ts ->
  alphanum_split s = if existsb bad_token ts then Err EValueError else Ok ts.
Proof.
  intros s ts [s' ts' H|d s' ts' Hd Hn H]; unfold alphanum_split.
  - now apply rmap_after.
  - rewrite (split_pieces_after [] d s' ts' (fun c F => match F with end) Hd Hn H : split_digits false [] (d ++ s') = _).
    cbn [rmap]. rewrite (text_to_int_num d), (rmap_after s' ts') by assumption.
    cbn. destruct (existsb bad_token ts'); reflexivity.
Qed.

Lemma alphanum_split_ok : forall s ts, alphanum_split s = Ok ts -> splits s ts.
Proof.
  intros s ts H. destruct (splits_ex s) as [ts' H'].
  rewrite (alphanum_split_splits s ts' H') in H.
  destruct (existsb bad_token ts'); congruence.
Qed.


Lemma superscripts_spec : forall t, superscripts t = true <-> only_superscripts t.
Proof.
  intros t. unfold only_superscripts. destruct t as [|c t].
  - cbn. split; [discriminate|intros [H _]; contradiction].
  - unfold superscripts. rewrite forallb_forall. split.
    + intros H. split; [discriminate|]. intros x Hx. specialize (H x Hx). unfold superscript in H. lia.
    + intros [_ H] x Hx. specialize (H x Hx). unfold superscript. lia.
Qed.

Lemma alphanum_split_spec : forall s ts, splits s ts ->
  ((forall t, In (TText t) ts -> ~ only_superscripts t) /\ alphanum_split s = Ok ts) \/
  ((exists t, In (TText t) ts /\ only_superscripts t) /\ alphanum_split s = Err EValueError).
Proof.
  intros s ts H. rewrite (alphanum_split_splits s ts H).
  destruct (existsb bad_token ts) eqn:E.
  - right. split; [|reflexivity]. apply existsb_exists in E as (t & Hi & Ht).
    destruct t as [t|n]; [|discriminate]. exists t. split; [exact Hi|]. now apply superscripts_spec.
  - left. split; [|reflexivity]. intros t Hi Ht. apply superscripts_spec in Ht.
    assert (existsb bad_token ts = true) by (apply existsb_exists; exists (TText t); auto). congruence.
Qed.

Lemma splits_after_in : forall s ts, splits_after s ts ->
  forall t, In (TText t) ts -> forall c, In c t -> In c s.
Proof.
  induction 1 as [t Ht|t d s ts Ht Hn Hd Hdn Hs IH]; intros t' Hi c Hc.
  - destruct Hi as [E|[]]. injection E as ->. exact Hc.
  - destruct Hi as [E|[E|Hi]]; [injection E as ->; apply in_or_app; now left|discriminate|].
    apply in_or_app. right. apply in_or_app. right. eauto.
Qed.
Lemma splits_in : forall s ts, splits s ts ->
  forall t, In (TText t) ts -> forall c, In c t -> In c s.
Proof.
  intros s ts [s' ts' H|d s' ts' Hd Hn H] t Hi c Hc.
  - eapply splits_after_in; eauto.
  - destruct Hi as [E|[E|Hi]]; [injection E as <-; destruct Hc|discriminate|].
    apply in_or_app. right. eapply splits_after_in; eauto.
Qed.

Lemma plain_split_ok : forall s, plain_text s -> exists ts, alphanum_split s = Ok ts.
Proof.
  intros s Hp. destruct (splits_ex s) as [ts H].
  destruct (alphanum_split_spec s ts H) as [[_ E]|[(t & Hi & Hn & Ht) _]]; [eauto|exfalso].
  destruct t as [|c t]; [contradiction|].
  specialize (Hp c (splits_in s ts H _ Hi c (or_introl eq_refl))).
  specialize (Ht c (or_introl eq_refl)). unfold is_unicode_digit, is_digit, in_range in Hp. lia.
Qed.

(** ** Orders *)

Lemma code_inj : forall a b, code a = code b -> a = b.
Proof. intros a b H. rewrite <- (ascii_N_embedding a), <- (ascii_N_embedding b). unfold code in H. now rewrite H. Qed.

Lemma str_ltb_spec : forall a b, str_ltb a b = true <-> str_lt a b.
Proof.
  induction a as [|x a IH]; intros [|y b]; cbn [str_ltb].
  - split; [discriminate|inversion 1].
  - split; [constructor|reflexivity].
  - split; [discriminate|inversion 1].
  - destruct (code x =? code y)%N eqn:E.
    + apply N.eqb_eq, code_inj in E. subst y. rewrite IH. split.
      * now constructor.
      * inversion 1; subst; [lia|assumption].
    + split.
      * intros H. constructor. lia.
      * inversion 1; subst; lia.
Qed.

Lemma str_lt_irrefl : forall a, ~ str_lt a a.
Proof. induction a as [|x a IH]; inversion 1; subst; [lia|contradiction]. Qed.

Lemma str_lt_trans : forall a b c, str_lt a b -> str_lt b c -> str_lt a c.
Proof.
  intros a b c H. revert c. induction H as [y b|x y a b H|x a b H IH]; intros c Hc; inversion Hc; subst.
  - constructor.
  - constructor.
  - constructor. lia.
  - constructor. lia.
  - constructor. lia.
  - constructor 3. now apply IH.
Qed.

Lemma str_lt_total : forall a b, str_lt a b \/ a = b \/ str_lt b a.
Proof.
  induction a as [|x a IH]; intros [|y b].
  - auto.
  - left. constructor.
  - right. right. constructor.
  - destruct (N.lt_trichotomy (code x) (code y)) as [H|[H|H]].
    + left. now constructor.
    + apply code_inj in H. subst y. destruct (IH b) as [H|[H|H]].
      * left. now constructor.
      * right. left. now subst.
      * right. right. now constructor.
    + right. right. now constructor.
Qed.

Lemma key_ltb_spec : forall a b, key_ltb a b = true <-> key_lt a b.
Proof.
  induction a as [|x a IH]; intros [|y b].
  - cbn. split; [discriminate|inversion 1].
  - cbn. split; [constructor|reflexivity].
  - destruct x; cbn; (split; [discriminate|inversion 1]).
  - destruct x as [x|m], y as [y|n]; cbn [key_ltb].
    + destruct (str_eqb x y) eqn:E.
      * apply str_eqb_eq in E. subst y. rewrite IH. split.
        -- now constructor.
        -- inversion 1; subst; [exfalso; eapply str_lt_irrefl; eassumption|assumption].
      * apply str_eqb_neq in E. rewrite str_ltb_spec. split.
        -- now constructor.
        -- inversion 1; subst; [assumption|contradiction].
    + split; [discriminate|inversion 1].
    + split; [discriminate|inversion 1].
    + destruct (m =? n)%N eqn:E.
      * apply N.eqb_eq in E. subst n. rewrite IH. split.
        -- now constructor.
        -- inversion 1; subst; [lia|assumption].
      * split.
        -- intros H. constructor. lia.
        -- inversion 1; subst; lia.
Qed.

Lemma key_lt_irrefl : forall a, ~ key_lt a a.
Proof.
  induction a as [|x a IH]; inversion 1; subst; [eapply str_lt_irrefl; eassumption|lia|contradiction].
Qed.

Lemma key_lt_trans : forall a b c, key_lt a b -> key_lt b c -> key_lt a c.
Proof.
  intros a b c H. revert c.
  induction H as [y b|x y a b H|m n a b H|x a b H IH]; intros c Hc; inversion Hc; subst;
    try (constructor; fail).
  - constructor. eapply str_lt_trans; eassumption.
  - constructor. assumption.
  - constructor. lia.
  - constructor. assumption.
  - now constructor.
  - now constructor.
  - constructor 4. now apply IH.
Qed.

(** Texts and numbers alternate. *)
Inductive alt : bool -> list token -> Prop :=
| alt_nil b : alt b []
| alt_text t k : alt true k -> alt false (TText t :: k)
| alt_num n k : alt false k -> alt true (TNum n :: k).

Lemma splits_after_alt : forall s ts, splits_after s ts -> alt false ts.
Proof. induction 1; repeat constructor; assumption. Qed.
Lemma splits_alt : forall s ts, splits s ts -> alt false ts.
Proof. intros s ts [? ? H|? ? ? ? ? H]; apply splits_after_alt in H; repeat constructor; assumption. Qed.

Lemma key_lt_total : forall b k1 k2, alt b k1 -> alt b k2 ->
  key_lt k1 k2 \/ k1 = k2 \/ key_lt k2 k1.
Proof.
  intros b k1 k2 H. revert k2. induction H as [b|t k H IH|n k H IH]; intros k2 H2.
  - destruct k2; [auto|left; constructor].
  - inversion H2 as [|t2 k2' H2'|]; subst; [right; right; constructor|].
    destruct (str_lt_total t t2) as [Hl|[->|Hl]].
    + left. now constructor.
    + destruct (IH k2' H2') as [Hl|[->|Hl]]; [left; now constructor 4|now right; left|].
      right. right. now constructor 4.
    + right. right. now constructor.
  - inversion H2 as [|t2 k2' H2'|n2 k2' H2']; subst; [right; right; constructor|].
    destruct (N.lt_trichotomy n n2) as [Hl|[->|Hl]].
    + left. now constructor.
    + destruct (IH k2' H2') as [Hl|[->|Hl]]; [left; now constructor 4|now right; left|].
      right. right. now constructor 4.
    + right. right. now constructor.
Qed.

(** ** Sorting *)

Lemma insert_perm : forall x l, Permutation (x :: l) (insert_by_key x l).
Proof.
  intros x. induction l as [|y l IH]; cbn [insert_by_key]; [reflexivity|].
  destruct (key_ltb (fst y) (fst x)); [|reflexivity].
  rewrite perm_swap. now constructor.
Qed.

Lemma sort_perm : forall l, Permutation l (sort_by_key l).
Proof.
  induction l as [|x l IH]; [reflexivity|]. cbn. rewrite IH at 1. apply insert_perm.
Qed.

Definition keyed_ok (x : list token * str) : Prop := alt false (fst x).
Definition keyed_le (x y : list token * str) : Prop := ~ key_lt (fst y) (fst x).

Lemma keyed_le_trans : forall x y z, keyed_ok x -> keyed_ok y -> keyed_ok z ->
  keyed_le x y -> keyed_le y z -> keyed_le x z.
Proof.
  unfold keyed_ok, keyed_le. intros x y z Hx Hy Hz H1 H2 H3.
  destruct (key_lt_total false (fst x) (fst y) Hx Hy) as [H|[H|H]].
  - apply H2. eapply key_lt_trans; eassumption.
  - rewrite H in H3. contradiction.
  - contradiction.
Qed.

Lemma insert_sorted : forall x l, keyed_ok x -> Forall keyed_ok l ->
  StronglySorted keyed_le l -> StronglySorted keyed_le (insert_by_key x l).
Proof.
  intros x l Hx. induction l as [|y l IH]; intros Hl Hs; cbn [insert_by_key].
  - repeat constructor.
  - inversion Hl as [|? ? Hy Hl']; subst. inversion Hs as [|? ? Hs' Hy']; subst.
    destruct (key_ltb (fst y) (fst x)) eqn:E.
    + apply key_ltb_spec in E. constructor; [now apply IH|].
      rewrite <- (insert_perm x l). constructor; [|exact Hy'].
      unfold keyed_le. intros H. apply (key_lt_irrefl (fst x)). eapply key_lt_trans; eassumption.
    + assert (keyed_le x y) as Hxy.
      { unfold keyed_le. intros H. apply key_ltb_spec in H. congruence. }
      constructor; [now constructor|]. constructor; [exact Hxy|].
      rewrite Forall_forall in *. intros z Hz.
      apply (keyed_le_trans x y z); auto.
Qed.

Lemma sort_sorted : forall l, Forall keyed_ok l -> StronglySorted keyed_le (sort_by_key l).
Proof.
  induction l as [|x l IH]; intros H; [constructor|]. inversion H; subst. cbn.
  apply insert_sorted; auto. now rewrite <- (sort_perm l).
Qed.

Lemma insert_stable : forall (q : list token * str -> bool) k x l,
  (forall y, In y (x :: l) -> q y = true -> fst y = k) ->
  filter q (insert_by_key x l) = filter q (x :: l).
Proof.
  intros q k x l Hq1. induction l as [|y l IH]; cbn [insert_by_key]; [reflexivity|].
  destruct (key_ltb (fst y) (fst x)) eqn:E; [|reflexivity].
  assert (q x = true -> q y = false) as D.
  { intros Hx. destruct (q y) eqn:Hy; [|reflexivity]. exfalso.
    apply Hq1 in Hx; [|now left]. apply Hq1 in Hy; [|right; now left]. apply key_ltb_spec in E. rewrite Hx, Hy in E.
    now apply (key_lt_irrefl k). }
  cbn [filter] in *. rewrite IH.
  2:{ intros z [->|Hz]; apply Hq1; [now left|right; now right]. }
  destruct (q x); [now rewrite D|]. destruct (q y); reflexivity.
Qed.

Lemma sort_stable : forall (q : list token * str -> bool) k l,
  (forall y, In y l -> q y = true -> fst y = k) ->
  filter q (sort_by_key l) = filter q l.
Proof.
  intros q k l. induction l as [|x l IH]; intros Hq; [reflexivity|]. cbn [sort_by_key fold_right].
  fold (sort_by_key l). rewrite (insert_stable q k).
  - cbn [filter]. rewrite IH; [reflexivity|]. intros y Hy. apply Hq. now right.
  - intros y [->|Hy]; apply Hq; [now left|right].
    apply (Permutation_in y (Permutation_sym (sort_perm l)) Hy).
Qed.

Lemma rmap_ok_inv : forall (A B : Type) (f : A -> result B) l out,
  rmap f l = Ok out -> Forall2 (fun x y => f x = Ok y) l out.
Proof.
  intros A B f. induction l as [|x l IH]; intros out H; cbn in H.
  - injection H as <-. constructor.
  - destruct (f x) eqn:E; [|discriminate]. cbn in H.
    destruct (rmap f l) eqn:E2; [|discriminate]. cbn in H. injection H as <-.
    constructor; auto.
Qed.

Lemma rmap_all_ok : forall (A B : Type) (f : A -> result B) l,
  (forall x, In x l -> exists y, f x = Ok y) -> exists out, rmap f l = Ok out.
Proof.
  intros A B f. induction l as [|x l IH]; intros H; [now exists []|].
  destruct (H x (or_introl eq_refl)) as [y Hy]. destruct IH as [out Ho].
  { intros z Hz. apply H. now right. }
  exists (y :: out). cbn. now rewrite Hy, Ho.
Qed.

Lemma keyed_pairs : forall l keyed,
  rmap (fun s => do k <- alphanum_split s; Ok (k, s)) l = Ok keyed ->
  map snd keyed = l /\ Forall (fun x => splits (snd x) (fst x)) keyed.
Proof.
  intros l keyed H. apply rmap_ok_inv in H. induction H as [|s [k s'] l keyed H _ [IH1 IH2]].
  - split; [reflexivity|constructor].
  - destruct (alphanum_split s) eqn:E; [|discriminate]. cbn in H. injection H as -> ->.
    split; [cbn; now rewrite IH1|]. constructor; [|exact IH2]. cbn. now apply alphanum_split_ok.
Qed.

Lemma filter_map_snd : forall (A B : Type) (p : B -> bool) (l : list (A * B)),
  filter p (map snd l) = map snd (filter (fun x => p (snd x)) l).
Proof.
  intros. induction l as [|[a b] l IH]; [reflexivity|]. cbn. destruct (p b); cbn; now rewrite IH.
Qed.

Lemma sorted_map_snd : forall keyed,
  Forall (fun x => splits (snd x) (fst x)) keyed -> StronglySorted keyed_le keyed ->
  StronglySorted (fun a b => ~ natural_lt b a) (map snd keyed).
Proof.
  intros keyed HF H. induction H as [|x l H IH Hx]; [constructor|].
  inversion HF as [|? ? Hsx HFl]; subst. cbn. constructor; [auto|].
  rewrite Forall_forall in *. intros b Hb. apply in_map_iff in Hb as (y & <- & Hy).
  intros (k1 & k2 & H1 & H2 & Hlt). apply (Hx y Hy).
  rewrite (splits_unique (snd y) (fst y) k1), (splits_unique (snd x) (fst x) k2); auto.
Qed.

Theorem natural_sort_sound : forall l out, natural_sort l = Ok out -> stably_sorted l out.
Proof.
  intros l out H. unfold natural_sort in H.
  destruct (rmap _ l) as [keyed|] eqn:E; [|discriminate]. cbn in H. injection H as <-.
  apply keyed_pairs in E as [<- HF].
  assert (Forall keyed_ok keyed) as Hk.
  { eapply Forall_impl; [|exact HF]. intros x. apply splits_alt. }
  split; [|split].
  - apply Permutation_map, sort_perm.
  - apply sorted_map_snd; [|now apply sort_sorted]. now rewrite <- (sort_perm keyed).
  - intros k same Hs. rewrite !filter_map_snd. f_equal.
    apply (sort_stable _ k). intros y Hy Hq. apply Hs in Hq. rewrite Forall_forall in HF.
    now apply (splits_unique (snd y)); [apply HF|].
Qed.

(** A stable sort has only one result. *)
Lemma natural_total : forall a b, ~ natural_lt a b -> ~ natural_lt b a ->
  exists k, splits a k /\ splits b k.
Proof.
  intros a b H1 H2. destruct (splits_ex a) as [ka Ha], (splits_ex b) as [kb Hb].
  destruct (key_lt_total false ka kb (splits_alt a ka Ha) (splits_alt b kb Hb)) as [H|[H|H]].
  - exfalso. apply H1. exists ka, kb. auto.
  - subst. eauto.
  - exfalso. apply H2. exists kb, ka. auto.
Qed.

Lemma token_eq_dec : forall a b : token, {a = b} + {a <> b}.
Proof. decide equality; [apply str_eq_dec|apply N.eq_dec]. Qed.

(** A boolean test for "the tokens of [s] are [k]". *)
Definition same_key (k : list token) (s : str) : bool :=
  if list_eq_dec token_eq_dec (toks (split_digits false [] s)) k then true else false.
Lemma same_key_spec : forall k s, same_key k s = true <-> splits s k.
Proof.
  intros k s. unfold same_key. destruct (splits_ex s) as [k' H].
  pose proof (splits_toks s k' H) as E. rewrite <- E.
  destruct (list_eq_dec token_eq_dec k' k) as [->|N]; split; auto; [discriminate|].
  intros H'. exfalso. apply N. now apply (splits_unique s).
Qed.

Lemma stable_unique_aux : forall o1 o2,
  Permutation o1 o2 ->
  StronglySorted (fun a b => ~ natural_lt b a) o1 ->
  StronglySorted (fun a b => ~ natural_lt b a) o2 ->
  (forall k, filter (same_key k) o1 = filter (same_key k) o2) -> o1 = o2.
Proof.
  induction o1 as [|x o1 IH]; intros o2 HP H1 H2 HF.
  - now apply Permutation_nil in HP.
  - destruct o2 as [|y o2]; [apply Permutation_sym, Permutation_nil in HP; discriminate|].
    inversion H1 as [|? ? H1' Hx]; subst. inversion H2 as [|? ? H2' Hy]; subst.
    assert (exists k, splits x k /\ splits y k) as (k & Kx & Ky).
    { assert (In x (y :: o2)) as Ix by (apply (Permutation_in x HP); now left).
      assert (In y (x :: o1)) as Iy by (apply (Permutation_in y (Permutation_sym HP)); now left).
      destruct Ix as [->|Ix].
      { destruct (splits_ex x) as [k K]. eauto. }
      destruct Iy as [->|Iy].
      { destruct (splits_ex y) as [k K]. eauto. }
      rewrite Forall_forall in *. apply natural_total; auto. }
    assert (x = y) as ->.
    { pose proof (HF k) as E. cbn [filter] in E.
      rewrite (proj2 (same_key_spec k x) Kx), (proj2 (same_key_spec k y) Ky) in E. congruence. }
    f_equal. apply IH; auto.
    + now apply Permutation_cons_inv in HP.
    + intros k'. specialize (HF k'). cbn [filter] in HF. destruct (same_key k' y); congruence.
Qed.

Theorem stably_sorted_unique : forall l o1 o2,
  stably_sorted l o1 -> stably_sorted l o2 -> o1 = o2.
Proof.
  intros l o1 o2 (P1 & S1 & F1) (P2 & S2 & F2). apply stable_unique_aux; auto.
  - rewrite <- P1. exact P2.
  - intros k. rewrite (F1 k), (F2 k); auto using same_key_spec.
Qed.

Theorem natural_sort_ok : forall l, (forall s, In s l -> plain_text s) ->
  exists out, natural_sort l = Ok out /\ stably_sorted l out /\
    forall out', stably_sorted l out' -> out' = out.
Proof.
  intros l H.
  destruct (rmap_all_ok _ _ (fun s => do k <- alphanum_split s; Ok (k, s)) l) as [keyed E].
  { intros s Hs. destruct (plain_split_ok s (H s Hs)) as [k Hk]. exists (k, s). now rewrite Hk. }
  exists (map snd (sort_by_key keyed)).
  assert (natural_sort l = Ok (map snd (sort_by_key keyed))) as R.
  { unfold natural_sort. now rewrite E. }
  split; [exact R|]. split; [now apply natural_sort_sound|].
  intros out' H'. eapply stably_sorted_unique; [exact H'|now apply natural_sort_sound].
Qed.

(** Without superscripts, two texts are equivalent or ordered one way. *)
Lemma natural_order : forall a b,
  (natural_lt a b /\ ~ natural_eq a b /\ ~ natural_lt b a) \/
  (~ natural_lt a b /\ natural_eq a b /\ ~ natural_lt b a) \/
  (~ natural_lt a b /\ ~ natural_eq a b /\ natural_lt b a).
Proof.
  assert (irr : forall a b, natural_lt a b -> natural_eq a b -> False).
  { intros a b (k1 & k2 & A1 & B1 & Hl) (k & A2 & B2).
    rewrite (splits_unique a k1 k), (splits_unique b k2 k) in Hl by auto.
    now apply (key_lt_irrefl k). }
  assert (asy : forall a b, natural_lt a b -> natural_lt b a -> False).
  { intros a b (k1 & k2 & A1 & B1 & Hl) (k3 & k4 & B2 & A2 & Hl').
    rewrite (splits_unique a k4 k1), (splits_unique b k3 k2) in Hl' by auto.
    apply (key_lt_irrefl k1). eapply key_lt_trans; eassumption. }
  intros a b. destruct (splits_ex a) as [ka Ha], (splits_ex b) as [kb Hb].
  destruct (key_lt_total false ka kb (splits_alt a ka Ha) (splits_alt b kb Hb)) as [H|[H|H]].
  - assert (natural_lt a b) as B by (exists ka, kb; auto). left.
    repeat split; auto; intros H'; [now apply (irr a b)|now apply (asy a b)].
  - subst. assert (natural_eq a b) by (exists kb; auto). right. left.
    repeat split; auto; intros H'; [now apply (irr a b)|].
    apply (irr b a H'). now exists kb.
  - assert (natural_lt b a) as B by (exists kb, ka; auto). right. right.
    repeat split; auto; intros H'; [now apply (asy a b)|].
    apply (irr b a B). destruct H' as (k & ? & ?). now exists k.
Qed.

Lemma superscript_error : exists s, s <> [] /\ natural_sort [s] = Err EValueError.
Proof. exists [ascii_of_N 178]. split; [discriminate|reflexivity]. Qed.

(** ** Conflicts *)

Section Conflict.
Context {A : Type} (eqb : A -> A -> bool) (Heqb : forall a b, eqb a b = true <-> a = b).

Lemma conflict_with_spec : forall x l, conflict_with eqb x l = false <->
  forall y, In (Some y) l -> y = x.
Proof.
  intros x l. induction l as [|[y|] l IH]; cbn [conflict_with].
  - split; [intros _ y []|reflexivity].
  - rewrite orb_false_iff, negb_false_iff, Heqb, IH. split.
    + intros [-> H] z [E|Hz]; [congruence|auto].
    + intros H. split; [symmetry; apply H; now left|]. intros z Hz. apply H. now right.
  - rewrite IH. split; intros H y; [intros [E|Hy]; [discriminate|auto]|intros Hy; apply H; now right].
Qed.

Lemma conflict_from_spec : forall refs obj, (forall x, obj = Some x -> forall y, In (Some y) refs -> y = x) ->
  (forall r, check_for_conflict_from eqb obj refs = Ok r <->
     (r = obj /\ (forall y, ~ In (Some y) refs)) \/
     (exists x, r = Some x /\ In (Some x) refs /\ forall y, In (Some y) refs -> y = x)) /\
  (forall e, check_for_conflict_from eqb obj refs = Err e ->
     e = EValueMismatch /\ exists x y, In (Some x) refs /\ In (Some y) refs /\ x <> y).
Proof.
  induction refs as [|[x|] refs IH]; intros obj Ho; cbn [check_for_conflict_from].
  - split; [|discriminate]. intros r. split.
    + intros [= <-]. left. split; [reflexivity|]. intros y [].
    + intros [[-> _]|(x & _ & [] & _)]. reflexivity.
  - destruct (conflict_with eqb x refs) eqn:E.
    + assert (exists y, In (Some y) refs /\ y <> x) as (y & Hy & N).
      { clear -E Heqb. induction refs as [|[y|] refs IH]; cbn in E; [discriminate| |].
        - apply orb_true_iff in E as [E|E].
          + exists y. split; [now left|]. intros ->. apply negb_true_iff in E.
            rewrite (proj2 (Heqb x x) eq_refl) in E. discriminate.
          + destruct (IH E) as (z & Hz & N). exists z. split; [now right|exact N].
        - destruct (IH E) as (z & Hz & N). exists z. split; [now right|exact N]. }
      split.
      * intros r. split; [discriminate|]. intros [[_ H]|(z & _ & _ & H)].
        -- exfalso. apply (H x). now left.
        -- exfalso. apply N. rewrite (H y), (H x); [reflexivity|now left|now right].
      * intros e [= <-]. split; [reflexivity|]. exists x, y. repeat split; [now left|now right|congruence].
    + assert (forall y, In (Some y) refs -> y = x) as Hx by now apply conflict_with_spec.
      destruct (IH (Some x)) as [IH1 IH2]; [intros z [= <-]; exact Hx|]. split.
      * intros r. rewrite IH1. split.
        -- intros [[-> Hn]|(z & -> & Hz & Hz')]; right.
           ++ exists x. repeat split; [now left|]. intros y [E'|Hy]; [congruence|auto].
           ++ exists z. repeat split; [now right|]. intros y [E'|Hy]; [|auto].
              injection E' as ->. symmetry. now apply Hx.
        -- intros [[_ H]|(z & -> & Hz & Hz')].
           ++ exfalso. apply (H x). now left.
           ++ assert (x = z) as -> by (apply Hz'; now left).
              destruct (existsb (fun o => match o with Some _ => true | None => false end) refs) eqn:Ex.
              ** apply existsb_exists in Ex as ([y|] & Hy & ?); [|discriminate].
                 right. exists z. rewrite (Hx y Hy) in Hy. auto.
              ** left. split; [reflexivity|]. intros y Hy.
                 assert (existsb (fun o => match o with Some _ => true | None => false end) refs = true)
                   by (apply existsb_exists; exists (Some y); auto). congruence.
      * intros e He. destruct (IH2 e He) as (-> & a & b & Ha & Hb & N).
        split; [reflexivity|]. exists a, b. repeat split; auto; now right.
  - destruct (IH obj) as [IH1 IH2].
    { intros x Hx y Hy. apply (Ho x Hx). now right. }
    split.
    + intros r. rewrite IH1. split.
      * intros [[-> H]|(x & -> & Hx & H)]; [left|right].
        -- split; [reflexivity|]. intros y [E|Hy]; [discriminate|now apply (H y)].
        -- exists x. repeat split; [now right|]. intros y [E|Hy]; [discriminate|auto].
      * intros [[-> H]|(x & -> & Hx & H)]; [left|right].
        -- split; [reflexivity|]. intros y Hy. apply (H y). now right.
        -- destruct Hx as [E|Hx]; [discriminate|]. exists x. repeat split; auto.
           intros y Hy. apply H. now right.
    + intros e He. destruct (IH2 e He) as (-> & a & b & Ha & Hb & N).
      split; [reflexivity|]. exists a, b. repeat split; auto; now right.
Qed.

Theorem check_for_conflict_spec : forall refs,
  (check_for_conflict eqb refs = Ok None <-> forall y, ~ In (Some y) refs) /\
  (forall x, check_for_conflict eqb refs = Ok (Some x) <->
     In (Some x) refs /\ forall y, In (Some y) refs -> y = x) /\
  (check_for_conflict eqb refs = Err EValueMismatch <->
     exists x y, In (Some x) refs /\ In (Some y) refs /\ x <> y) /\
  (forall e, check_for_conflict eqb refs = Err e -> e = EValueMismatch).
Proof.
  intros refs. destruct (conflict_from_spec refs None) as [H1 H2]; [discriminate|].
  unfold check_for_conflict. split; [|split; [|split]].
  - split; intros H.
    + apply H1 in H as [[_ H]|(x & E & _)]; [exact H|discriminate].
    + apply H1. left. auto.
  - intros x. split.
    + intros H. apply H1 in H as [[E _]|(z & E & Hz)]; [discriminate|]. injection E as ->. exact Hz.
    + intros [Hi Ha]. apply H1. right. eauto.
  - split.
    + intros H. now apply H2 in H as [_ H].
    + intros (x & y & Hx & Hy & N). destruct (check_for_conflict_from eqb None refs) as [r|e] eqn:E.
      * exfalso. destruct (proj1 (H1 r) eq_refl) as [[_ H]|(z & _ & _ & H)]; [now apply (H x)|].
        apply N. now rewrite (H x), (H y).
      * f_equal. now apply (H2 e eq_refl).
  - intros e H. now apply H2 in H as [H _].
Qed.
End Conflict.

(** ** Trimmed strings *)

Lemma forallb_In : forall (A : Type) (p : A -> bool) l,
  forallb p l = true <-> forall x, In x l -> p x = true.
Proof. intros. apply forallb_forall. Qed.

Lemma strip_trimmed_of : forall s, trimmed_of s (strip s).
Proof.
  intros s. destruct (strip_spec s) as (a & b & E & Ha & Hb & T1 & T2).
  rewrite forallb_forall in Ha, Hb. exists a, b. auto.
Qed.

Lemma trimmed_of_strip : forall s t, t <> [] -> trimmed_of s t -> strip s = t.
Proof.
  intros s t Hn (a & b & -> & Ha & Hb & T1 & T2). apply strip_unique; auto.
  - now apply forallb_forall.
  - now apply forallb_forall.
  - split; assumption.
Qed.

Lemma strip_no_final_nl : forall s w, strip s <> w ++ [NL].
Proof.
  intros s w E. destruct (strip_trimmed s) as [_ H]. specialize (H NL w E). discriminate.
Qed.

(** ** MAC addresses *)

Lemma mt_seq_rep : forall n a s t,
  mt (RRep (S n) a) s t <-> exists u, mt a s u /\ mt (RRep n a) u t.
Proof. intros. cbn [RRep]. apply mt_seq_inv. Qed.

Lemma mt_groups : forall n m sep s t,
  mt (RRep m (RSeq (RRep n (RChr is_hex)) (RLit sep))) s t <->
  exists gs : list str, s = concat (map (fun g => g ++ [sep]) gs) ++ t /\ length gs = m /\
    Forall (fun g => length g = n /\ forall c, In c g -> is_hex c = true) gs.
Proof.
  intros n m sep. induction m as [|m IH]; intros s t.
  - cbn [RRep]. rewrite mt_eps_inv. split.
    + intros ->. exists []. repeat split. constructor.
    + intros (gs & -> & Hl & _). destruct gs; [reflexivity|discriminate].
  - rewrite mt_seq_rep. split.
    + intros (u & H1 & H2). apply mt_seq_inv in H1 as (v & H1 & H3).
      apply mt_rep_chr in H1 as (w & -> & Hw & Hl). apply mt_lit_inv in H3 as ->.
      apply IH in H2 as (gs & -> & Hg & HF). exists (w :: gs). cbn [map concat length].
      split; [now rewrite <- !app_assoc|]. split; [now rewrite Hg|].
      constructor; [|exact HF]. split; [exact Hl|]. now apply forallb_In.
    + intros (gs & -> & Hl & HF). destruct gs as [|g gs]; [discriminate|].
      inversion HF as [|? ? [Hg Hc] HF']; subst.
      exists (concat (map (fun g => g ++ [sep]) gs) ++ t). split.
      * apply mt_seq_inv. exists ([sep] ++ concat (map (fun g => g ++ [sep]) gs) ++ t). split.
        -- apply mt_rep_chr. exists g. split; [cbn [map concat]; now rewrite <- !app_assoc|].
           split; [now apply forallb_In|reflexivity].
        -- now apply mt_lit_inv.
      * apply IH. exists gs. repeat split; auto.
Qed.

Lemma join_concat : forall sep gs g,
  join [sep] (gs ++ [g]) = concat (map (fun g => g ++ [sep]) gs) ++ g.
Proof.
  intros sep gs g. induction gs as [|x gs IH]; [reflexivity|].
  cbn [map concat app]. rewrite <- app_assoc. cbn [app].
  destruct (gs ++ [g]) as [|y l] eqn:E; [destruct gs; discriminate|].
  change (join [sep] (x :: y :: l)) with (x ++ [sep] ++ join [sep] (y :: l)).
  rewrite IH. now rewrite <- app_assoc.
Qed.

Lemma re_mac_spec : forall n m sep s, (forall w, s <> w ++ [NL]) ->
  re_test (re_mac n m sep) s = true <-> hex_groups n (S m) sep s.
Proof.
  intros n m sep s Hnl. rewrite re_test_spec. unfold re_mac, hex_groups. split.
  - intros (t & H). apply mt_seq_inv in H as (u & H1 & H2).
    apply mt_groups in H1 as (gs & -> & Hl & HF). apply mt_seq_inv in H2 as (v & H2 & H3).
    apply mt_rep_chr in H2 as (w & -> & Hw & Hwl). apply mt_end_inv in H3 as [-> [->| ->]].
    + exists (gs ++ [w]). rewrite join_concat, app_nil_r. split; [reflexivity|].
      split; [rewrite app_length, Hl; cbn; lia|]. apply Forall_app. split; [exact HF|].
      constructor; [|constructor]. split; [exact Hwl|]. now apply forallb_In.
    + exfalso. rewrite app_assoc in Hnl. eapply Hnl. reflexivity.
  - intros (gs & -> & Hl & HF).
    destruct (@exists_last str gs) as (gs' & g & ->). { intros ->. discriminate. }
    rewrite app_length in Hl. cbn in Hl. apply Forall_app in HF as [HF1 HF2].
    inversion HF2 as [|? ? [Hg Hc] _]; subst.
    exists []. apply mt_seq_inv. exists g. rewrite join_concat. split.
    + apply mt_groups. exists gs'. repeat split; [lia|exact HF1].
    + apply mt_seq_inv. exists []. split.
      * apply mt_rep_chr. exists g. rewrite app_nil_r. repeat split. now apply forallb_In.
      * apply mt_end_inv. auto.
Qed.

Lemma mac_test_spec : forall s, (forall w, s <> w ++ [NL]) ->
  re_test (re_mac 2 5 ":"%char) s || re_test (re_mac 2 5 "-"%char) s
     || re_test (re_mac 4 2 "."%char) s = true <-> mac_form s.
Proof.
  intros s H. rewrite !orb_true_iff, !re_mac_spec by exact H. unfold mac_form. tauto.
Qed.

Lemma hex_groups_nonempty : forall n m sep s, hex_groups (S n) (S m) sep s -> s <> [].
Proof.
  intros n m sep s (gs & -> & Hl & HF) E. destruct gs as [|g gs]; [discriminate|].
  inversion HF as [|? ? [Hg _] _]; subst. destruct g as [|c g]; [discriminate|].
  destruct gs; discriminate.
Qed.

Lemma mac_form_nonempty : forall s, mac_form s -> s <> [].
Proof. intros s [H|[H|H]]; eapply hex_groups_nonempty; exact H. Qed.

Theorem mac_address_spec : forall s t,
  mac_address s = Ok t <-> trimmed_of s t /\ mac_form t.
Proof.
  intros s t. unfold mac_address.
  pose proof (mac_test_spec (strip s) (strip_no_final_nl s)) as M.
  destruct (_ || _ || _) eqn:E.
  - split.
    + intros [= <-]. split; [apply strip_trimmed_of|now apply M].
    + intros [H F]. f_equal. apply trimmed_of_strip; [now apply mac_form_nonempty|exact H].
  - split; [discriminate|]. intros [H F].
    rewrite (trimmed_of_strip s t) in M by (try apply mac_form_nonempty; assumption).
    apply M in F. congruence.
Qed.

Lemma mac_address_error : forall s e, mac_address s = Err e -> e = EInvalidInput.
Proof. intros s e. unfold mac_address. destruct (_ || _ || _); congruence. Qed.

(** ** Device addresses *)

Lemma re_device_spec : forall s, (forall w, s <> w ++ [NL]) ->
  re_test re_device s = true <-> device_form s.
Proof.
  intros s Hnl. rewrite re_test_spec. unfold re_device, device_form. split.
  - intros (t & H). apply mt_seq_inv in H as (u & H1 & H2).
    apply mt_plus_chr in H1 as (a & -> & Ha & Han). apply mt_seq_inv in H2 as (v & H2 & H3).
    apply mt_lit_inv in H2 as ->. apply mt_seq_inv in H3 as (x & H3 & H4).
    apply mt_plus_chr in H3 as (b & -> & Hb & Hbn). apply mt_end_inv in H4 as [-> [->| ->]].
    + exists a, b. rewrite app_nil_r. repeat split; auto; now apply all_digits_forallb.
    + exfalso. eapply (Hnl (a ++ ":"%char :: b)). now rewrite <- app_assoc.
  - intros (a & b & -> & Ha & Hb & Da & Db). exists [].
    apply all_digits_forallb in Da, Db.
    apply mt_seq_inv. exists (L ":" ++ b). split; [apply mt_plus_chr; now exists a|].
    apply mt_seq_inv. exists b. split; [now apply mt_lit_inv|].
    apply mt_seq_inv. exists []. split; [apply mt_plus_chr; exists b; now rewrite app_nil_r|].
    apply mt_end_inv. auto.
Qed.

Theorem device_address_spec : forall s t,
  device_address s = Ok t <-> trimmed_of s t /\ device_form t.
Proof.
  intros s t. unfold device_address.
  pose proof (re_device_spec (strip s) (strip_no_final_nl s)) as M.
  assert (device_form t -> t <> []) as N.
  { intros (a & b & -> & Ha & _) E. destruct a; [contradiction|discriminate]. }
  destruct (re_test _ _) eqn:E.
  - split.
    + intros [= <-]. split; [apply strip_trimmed_of|now apply M].
    + intros [H F]. f_equal. apply trimmed_of_strip; auto.
  - split; [discriminate|]. intros [H F].
    rewrite (trimmed_of_strip s t) in M by auto. apply M in F. congruence.
Qed.

(** ** no_whitespace *)


Lemma words_aux_spaceless : forall s cur, spaceless s ->
  words_aux cur s = match rev cur ++ s with [] => [] | w => [w] end.
Proof.
  induction s as [|c s IH]; intros cur H; cbn [words_aux].
  - rewrite app_nil_r. destruct cur as [|x cur]; [reflexivity|].
    destruct (rev (x :: cur)) eqn:E; [|reflexivity].
    apply (f_equal (@length _)) in E. rewrite rev_length in E. discriminate.
  - rewrite (H c (or_introl eq_refl)). rewrite IH by (intros d Hd; apply H; now right).
    cbn [rev]. now rewrite <- app_assoc.
Qed.

Lemma words_aux_cut : forall a c b cur, spaceless a -> is_space c = true -> rev cur ++ a <> [] ->
  words_aux cur (a ++ c :: b) = (rev cur ++ a) :: words_aux [] b.
Proof.
  induction a as [|x a IH]; intros c b cur Ha Hc Hn; cbn [app words_aux].
  - rewrite Hc, app_nil_r in *. destruct cur; [contradiction|reflexivity].
  - rewrite (Ha x (or_introl eq_refl)). rewrite IH.
    + cbn [rev]. now rewrite <- app_assoc.
    + intros d Hd. apply Ha. now right.
    + exact Hc.
    + cbn [rev]. now rewrite <- app_assoc.
Qed.

Lemma words_aux_some : forall b cur, cur <> [] \/ (exists d, In d b /\ is_space d = false) ->
  words_aux cur b <> [].
Proof.
  induction b as [|x b IH]; intros cur H; cbn [words_aux].
  - destruct H as [H|(d & [] & _)]. destruct cur; [contradiction|discriminate].
  - destruct (is_space x) eqn:E.
    + destruct cur; [|discriminate]. apply IH. destruct H as [H|(d & [->|Hd] & Hs)]; [now left|congruence|].
      right. eauto.
    + apply IH. left. discriminate.
Qed.

Lemma words_count : forall s, trimmed s -> ((length (words s) <= 1)%nat <-> spaceless s).
Proof.
  intros s T. unfold words. split.
  - intros H. destruct (span (fun c => negb (is_space c)) s) as [a b] eqn:E.
    apply span_spec in E as (-> & Ha & Hb).
    assert (spaceless a) as Sa.
    { intros c Hc. rewrite forallb_forall in Ha. apply negb_true_iff. now apply Ha. }
    destruct b as [|c b]; [now rewrite app_nil_r|]. exfalso.
    specialize (Hb c b eq_refl). apply negb_false_iff in Hb.
    assert (a <> []) as Hn.
    { intros ->. destruct T as [T _]. specialize (T c b eq_refl). congruence. }
    rewrite words_aux_cut in H by assumption. cbn [length] in H.
    destruct (@exists_last _ (c :: b)) as (l & y & Ey); [discriminate|].
    assert (is_space y = false) as Hy.
    { destruct T as [_ T]. apply (T y (a ++ l)). now rewrite Ey, app_assoc. }
    assert (In y b) as Iy.
    { assert (In y (c :: b)) as Iy by (rewrite Ey; apply in_or_app; right; now left).
      destruct Iy as [->|Iy]; [congruence|exact Iy]. }
    assert (words_aux [] b <> []) as W by (apply words_aux_some; right; eauto).
    destruct (words_aux [] b); [contradiction|cbn in H; lia].
  - intros H. rewrite words_aux_spaceless by exact H. destruct (rev [] ++ s); cbn; lia.
Qed.

Theorem no_whitespace_spec : forall s,
  (forall t, no_whitespace s = Ok t -> trimmed_of s t /\ spaceless t) /\
  (forall t, t <> [] -> trimmed_of s t -> spaceless t -> no_whitespace s = Ok t) /\
  (spaceless (strip s) \/ no_whitespace s = Err EInvalidInput).
Proof.
  intros s. unfold no_whitespace. pose proof (words_count (strip s) (strip_trimmed s)) as W.
  destruct (Nat.ltb 1 (length (words (strip s)))) eqn:E.
  - apply Nat.ltb_lt in E. repeat split; try discriminate.
    + intros t Hn H1 H2. rewrite (trimmed_of_strip s t) in * by assumption. apply W in H2. lia.
    + now right.
  - apply Nat.ltb_ge in E. repeat split.
    + injection H as <-. apply strip_trimmed_of.
    + injection H as <-. now apply W.
    + intros t Hn H1 H2. now rewrite (trimmed_of_strip s t).
    + left. now apply W.
Qed.

(** Validated values validate to themselves. *)
Lemma revalidate : forall s t,
  (mac_address s = Ok t -> mac_address t = Ok t) /\
  (device_address s = Ok t -> device_address t = Ok t) /\
  (no_whitespace s = Ok t -> no_whitespace t = Ok t).
Proof.
  intros s t. repeat split; intros H.
  - unfold mac_address in *. destruct (_ || _ || _) eqn:E; [|discriminate]. injection H as <-.
    now rewrite strip_idem, E.
  - unfold device_address in *. destruct (re_test _ _) eqn:E; [|discriminate]. injection H as <-.
    now rewrite strip_idem, E.
  - unfold no_whitespace in *. destruct (Nat.ltb _ _) eqn:E; [discriminate|]. injection H as <-.
    now rewrite strip_idem, E.
Qed.

(** ** Canonical names *)

Lemma mt_words : forall ws s, ws <> [] ->
  (exists t, mt (re_words ws) s t) <-> alias_prefix ws s.
Proof.
  induction ws as [|w ws IH]; intros s Hn; [contradiction|].
  destruct ws as [|w2 ws].
  - cbn [re_words]. split.
    + intros (t & H). apply mt_stri_inv in H as (v & -> & H). now constructor.
    + inversion 1; subst; [|contradiction]. exists rest. apply mt_stri_inv. eauto.
  - change (re_words (w :: w2 :: ws)) with
      (RSeq (RStrI w) (RSeq (RStar (RLit " "%char)) (re_words (w2 :: ws)))). split.
    + intros (t & H). apply mt_seq_inv in H as (u & H1 & H2).
      apply mt_stri_inv in H1 as (v & -> & H1). apply mt_seq_inv in H2 as (x & H2 & H3).
      apply mt_star_chr in H2 as (b & -> & H2). constructor; auto; [discriminate| |].
      * intros c Hc. rewrite forallb_forall in H2. specialize (H2 c Hc).
        apply Ascii.eqb_eq in H2. now subst.
      * apply IH; [discriminate|eauto].
    + inversion 1 as [|? ? v b r H1 H2 H3 H4]; subst. apply IH in H4 as (t & H4); [|discriminate].
      exists t. apply mt_seq_inv. exists (b ++ r). split; [apply mt_stri_inv; eauto|].
      apply mt_seq_inv. exists r. split; [|exact H4]. apply mt_star_chr. exists b.
      split; [reflexivity|]. apply forallb_forall. intros c Hc. rewrite (H3 c Hc). apply Ascii.eqb_refl.
Qed.

Definition mappings_of (table : list (list str * str)) : list (re * str) :=
  map (fun e => (re_words (fst e), snd e)) table.

Lemma first_alias_cons : forall ws c table s d,
  first_alias ((ws, c) :: table) s d <->
  (alias_prefix ws s /\ d = c) \/ (~ alias_prefix ws s /\ first_alias table s d).
Proof.
  intros ws c table s d. split.
  - intros (i & ws' & Hi & Hp & Hj). destruct i as [|i].
    + cbn in Hi. injection Hi as <- <-. now left.
    + right. split; [apply (Hj O ws c); [lia|reflexivity]|].
      exists i, ws'. repeat split; auto. intros j w' c' Hl Hn. apply (Hj (S j) w' c'); [lia|exact Hn].
  - intros [[H ->]|[H (i & ws' & Hi & Hp & Hj)]].
    + exists O, ws. repeat split; auto. intros j w' c' Hl. lia.
    + exists (S i), ws'. repeat split; auto. intros [|j] w' c' Hl Hn.
      * cbn in Hn. injection Hn as <- <-. exact H.
      * apply (Hj j w' c'); [lia|exact Hn].
Qed.

Lemma first_mapping_spec : forall table s, Forall (fun e => fst e <> []) table ->
  (forall r, first_mapping s (mappings_of table) = Ok r <->
     exists c, r = Some c /\ first_alias table s c) /\
  (forall e, first_mapping s (mappings_of table) = Err e <->
     e = EValueUnsupported /\ forall ws c, In (ws, c) table -> ~ alias_prefix ws s).
Proof.
  induction table as [|[ws c] table IH]; intros s HF; cbn [mappings_of map first_mapping fst snd].
  - split.
    + intros r. split; [discriminate|]. intros (c & _ & i & ws & Hi & _). destruct i; discriminate.
    + intros e. split.
      * intros [= <-]. split; [reflexivity|]. intros ws c [].
      * intros [-> _]. reflexivity.
  - inversion HF as [|? ? Hw HF']; subst. cbn [fst] in Hw.
    pose proof (mt_words ws s Hw) as M. destruct (re_test (re_words ws) s) eqn:E.
    + apply re_test_spec in E. apply M in E. split.
      * intros r. split.
        -- intros [= <-]. exists c. split; [reflexivity|]. apply first_alias_cons. now left.
        -- intros (d & -> & H). apply first_alias_cons in H as [[_ ->]|[H _]]; [reflexivity|contradiction].
      * intros e. split; [discriminate|]. intros [_ H]. exfalso. apply (H ws c); [now left|exact E].
    + assert (~ alias_prefix ws s) as N.
      { intros H. apply M, re_test_spec in H. congruence. }
      destruct (IH s HF') as [IH1 IH2]. split.
      * intros r. fold (mappings_of table). rewrite IH1. split.
        -- intros (d & -> & H). exists d. split; [reflexivity|]. apply first_alias_cons. now right.
        -- intros (d & -> & H). exists d. split; [reflexivity|].
           apply first_alias_cons in H as [[H _]|[_ H]]; [contradiction|exact H].
      * intros e. fold (mappings_of table). rewrite IH2. split.
        -- intros [-> H]. split; [reflexivity|]. intros w d [[= <- <-]|Hi]; [exact N|eauto].
        -- intros [-> H]. split; [reflexivity|]. intros w d Hi. apply (H w d). now right.
Qed.

Theorem canonicalize_spec : forall table s, Forall (fun e => fst e <> []) table -> s <> [] ->
  (forall r, canonicalize_helper (Some s) (mappings_of table) = Ok r <->
     exists c, r = Some c /\ first_alias table s c) /\
  (forall e, canonicalize_helper (Some s) (mappings_of table) = Err e <->
     e = EValueUnsupported /\ forall ws c, In (ws, c) table -> ~ alias_prefix ws s).
Proof.
  intros table s HF Hn. destruct s as [|x s]; [contradiction|]. now apply first_mapping_spec.
Qed.

Lemma ide_mappings_of : ide_mappings = mappings_of ide_aliases. Proof. reflexivity. Qed.
Lemma nic_mappings_of : nic_mappings = mappings_of nic_aliases. Proof. reflexivity. Qed.
Lemma scsi_mappings_of : scsi_mappings = mappings_of scsi_aliases. Proof. reflexivity. Qed.

Lemma ide_nonempty : Forall (fun e : list str * str => fst e <> []) ide_aliases.
Proof. repeat constructor; discriminate. Qed.
Lemma nic_nonempty : Forall (fun e : list str * str => fst e <> []) nic_aliases.
Proof. repeat constructor; discriminate. Qed.
Lemma scsi_nonempty : Forall (fun e : list str * str => fst e <> []) scsi_aliases.
Proof. repeat constructor; discriminate. Qed.

Lemma first_alias_In : forall table s c, first_alias table s c -> In c (map snd table).
Proof.
  intros table s c (i & ws & Hi & _). apply nth_error_In in Hi. apply in_map_iff.
  exists (ws, c). auto.
Qed.

Lemma canonicalize_idem : forall table s c, Forall (fun e => fst e <> []) table ->
  (forall d, In d (map snd table) -> canonicalize_helper (Some d) (mappings_of table) = Ok (Some d)) ->
  canonicalize_helper (Some s) (mappings_of table) = Ok (Some c) ->
  In c (map snd table) /\ canonicalize_helper (Some c) (mappings_of table) = Ok (Some c).
Proof.
  intros table s c HF Hd H. destruct s as [|x s]; [discriminate|].
  apply (canonicalize_spec table) in H as (d & [= <-] & H); [|exact HF|discriminate].
  apply first_alias_In in H. auto.
Qed.

(** Letter case is irrelevant. *)
Lemma lower_app_inv : forall s a b, lower s = a ++ b ->
  exists a' b', s = a' ++ b' /\ lower a' = a /\ lower b' = b.
Proof.
  intros s a b H. unfold lower in H. apply map_eq_app in H as (a' & b' & -> & <- & <-). eauto.
Qed.

Lemma lower_blank : forall b b', lower b = lower b' ->
  (forall c, In c b -> c = " "%char) -> forall c, In c b' -> c = " "%char.
Proof.
  induction b as [|x b IH]; intros [|y b'] E H c Hc; try discriminate; [destruct Hc|].
  cbn in E. injection E as E1 E2. destruct Hc as [<-|Hc].
  - rewrite (H x (or_introl eq_refl)) in E1. clear -E1.
    assert (forall y, (if Ascii.eqb (lower_char " ") (lower_char y) then Ascii.eqb y " " else true) = true) as A.
    { apply all_ascii. vm_compute. reflexivity. }
    specialize (A y). rewrite E1, Ascii.eqb_refl in A. now apply Ascii.eqb_eq.
  - apply (IH b' E2); auto. intros d Hd. apply H. now right.
Qed.

Lemma alias_case : forall ws s1 s2, lower s1 = lower s2 -> alias_prefix ws s1 -> alias_prefix ws s2.
Proof.
  intros ws s1 s2 E H. revert s2 E. induction H as [w v r Hv|w ws v b r Hn Hv Hb Hr IH]; intros s2 E.
  - rewrite lower_app in E. symmetry in E. apply lower_app_inv in E as (a' & b' & -> & Ea & _).
    constructor. congruence.
  - rewrite !lower_app in E. symmetry in E. apply lower_app_inv in E as (a' & b' & -> & Ea & Eb).
    apply lower_app_inv in Eb as (b1 & r1 & -> & Eb1 & Er1).
    constructor; auto; [congruence|]. now apply (lower_blank b).
Qed.

Lemma canonicalize_case : forall table s1 s2, Forall (fun e => fst e <> []) table ->
  lower s1 = lower s2 ->
  canonicalize_helper (Some s1) (mappings_of table) = canonicalize_helper (Some s2) (mappings_of table).
Proof.
  intros table s1 s2 HF E.
  destruct s1 as [|x1 s1]; [destruct s2; [reflexivity|discriminate]|].
  destruct s2 as [|x2 s2]; [discriminate|]. cbn [canonicalize_helper].
  clear -HF E. remember (x1 :: s1) as a. remember (x2 :: s2) as b. clear Heqa Heqb x1 x2 s1 s2.
  induction HF as [|[ws c] table Hw HF IH]; [reflexivity|].
  cbn [mappings_of map first_mapping fst snd]. fold (mappings_of table). rewrite IH.
  replace (re_test (re_words ws) b) with (re_test (re_words ws) a); [reflexivity|].
  apply eq_true_iff_eq. rewrite !re_test_spec, !mt_words by exact Hw.
  split; apply alias_case; congruence.
Qed.

Lemma subtype_empty :
  canonicalize_ide_subtype None = Ok None /\ canonicalize_ide_subtype (Some []) = Ok None /\
  canonicalize_nic_subtype None = Ok None /\ canonicalize_nic_subtype (Some []) = Ok None /\
  canonicalize_scsi_subtype None = Ok None /\ canonicalize_scsi_subtype (Some []) = Ok None.
Proof. repeat split. Qed.

(** ** Integers and booleans *)

Lemma validate_int_spec : forall arg lo hi,
  match arg with
  | ANone => validate_int arg lo hi = Err ETypeError
  | AStr s => match py_int s with
              | None => validate_int arg lo hi = Err EValueUnsupported
              | Some z => validate_int arg lo hi = validate_int (AInt z) lo hi
              end
  | AInt z =>
      (validate_int arg lo hi = Err EValueTooLow <-> exists m, lo = Some m /\ (z < m)%Z) /\
      (validate_int arg lo hi = Err EValueTooHigh <->
         (forall m, lo = Some m -> (m <= z)%Z) /\ exists m, hi = Some m /\ (m < z)%Z) /\
      (forall r, validate_int arg lo hi = Ok r <->
         r = z /\ (forall m, lo = Some m -> (m <= z)%Z) /\ (forall m, hi = Some m -> (z <= m)%Z)) /\
      (forall e, validate_int arg lo hi = Err e -> e = EValueTooLow \/ e = EValueTooHigh)
  end.
Proof.
  intros [s|z|] lo hi; unfold validate_int; cbn [rbind].
  - destruct (py_int s); reflexivity.
  - destruct lo as [lo|].
    + destruct (Z.ltb_spec z lo).
      * repeat split; try discriminate; eauto.
        -- intros [H1 _]. specialize (H1 lo eq_refl). lia.
        -- intros (_ & H1 & _). specialize (H1 lo eq_refl). lia.
        -- intros e [= <-]. auto.
      * destruct hi as [hi|].
        -- destruct (Z.ltb_spec hi z).
           ++ repeat split; try discriminate; eauto.
              ** intros (m & [= <-] & ?). lia.
              ** intros m [= <-]. lia.
              ** intros (_ & _ & H1). specialize (H1 hi eq_refl). lia.
              ** intros e [= <-]. auto.
           ++ repeat split; try discriminate; eauto.
              ** intros (m & [= <-] & ?). lia.
              ** intros (_ & m & [= <-] & ?). lia.
              ** congruence.
              ** intros m [= <-]. lia.
              ** intros m [= <-]. lia.
              ** intros (-> & _). reflexivity.
        -- repeat split; try discriminate; eauto.
           ++ intros (m & [= <-] & ?). lia.
           ++ intros (_ & m & [=] & ?).
           ++ congruence.
           ++ intros m [= <-]. lia.
           ++ intros (-> & _). reflexivity.
    + destruct hi as [hi|].
      * destruct (Z.ltb_spec hi z).
        -- repeat split; try discriminate; eauto.
           ++ intros (m & [=] & ?).
           ++ intros (_ & _ & H1). specialize (H1 hi eq_refl). lia.
           ++ intros e [= <-]. auto.
        -- repeat split; try discriminate; eauto.
           ++ intros (m & [=] & ?).
           ++ intros (_ & m & [= <-] & ?). lia.
           ++ congruence.
           ++ intros m [= <-]. lia.
           ++ intros (-> & _). reflexivity.
      * repeat split; try discriminate; eauto.
        -- intros (m & [=] & ?).
        -- intros (_ & m & [=] & ?).
        -- congruence.
        -- intros (-> & _). reflexivity.
  - reflexivity.
Qed.

Lemma int_digits_spec : forall s ds,
  (int_digits false s = Some ds <-> digits_text s ds) /\
  (int_digits true s = Some ds <-> (s = [] /\ ds = []) \/ digits_text s ds \/
     exists t, s = "_"%char :: t /\ digits_text t ds).
Proof.
  induction s as [|c s IH]; intros ds; cbn [int_digits].
  - split.
    + split; [discriminate|inversion 1].
    + split; [intros [= <-]; now left|]. intros [[_ ->]|[H|(t & [=] & _)]]; [reflexivity|inversion H].
  - assert (G : is_digit c = true -> forall ds,
      match int_digits true s with Some r => Some (c :: r) | None => None end = Some ds <->
      digits_text (c :: s) ds).
    { intros D ds'. split.
      - destruct (int_digits true s) as [r|] eqn:E; [|discriminate]. intros [= <-].
        destruct (IH r) as [_ IH']. destruct (proj1 IH' eq_refl) as [[-> ->]|[H|(t & -> & H)]].
        + now constructor.
        + now constructor.
        + now constructor.
      - inversion 1 as [c' Hc|c' t r Hc Ht|c' t r Hc Ht]; subst.
        + reflexivity.
        + destruct (IH r) as [_ IH']. rewrite (proj2 IH'); auto.
        + destruct (IH r) as [_ IH']. rewrite (proj2 IH'); eauto. }
    destruct (is_digit c) eqn:D.
    + split; [now apply G|]. rewrite G by reflexivity. split; [auto|].
      intros [[E _]|[H|(t & E & _)]]; [discriminate|exact H|]. injection E as -> _. discriminate.
    + assert (ND : forall ds, ~ digits_text (c :: s) ds) by (intros ds'; inversion 1; congruence).
      rewrite andb_comm. cbn [andb]. split.
      * split; [discriminate|intros H; now apply ND in H].
      * destruct (Ascii.eqb c "_") eqn:U.
        -- apply Ascii.eqb_eq in U. subst c. destruct (IH ds) as [IH' _]. rewrite IH'. split.
           ++ intros H. right. right. eauto.
           ++ intros [[E _]|[H|(t & E & H)]]; [discriminate|now apply ND in H|congruence].
        -- apply Ascii.eqb_neq in U. split; [discriminate|].
           intros [[E _]|[H|(t & E & H)]]; [discriminate|now apply ND in H|congruence].
Qed.

Lemma digits_text_chars : forall t ds, digits_text t ds ->
  t <> [] /\ forall c, In c t -> is_digit c = true \/ c = "_"%char.
Proof.
  induction 1 as [c H|c t ds H _ [_ IH]|c t ds H _ [_ IH]]; split; try discriminate.
  - intros d [<-|[]]. now left.
  - intros d [<-|Hd]; auto.
  - intros d [<-|[<-|Hd]]; auto.
Qed.

Theorem py_int_spec : forall s z, py_int s = Some z <-> int_text s z.
Proof.
  intros s z. split.
  - intros H. destruct (strip_spec s) as (a & b & E & Ha & Hb & T).
    rewrite forallb_forall in Ha, Hb. unfold py_int in H.
    destruct (strip s) as [|c s'] eqn:Es; [discriminate|].
    destruct (Ascii.eqb c "-") eqn:E1; [|destruct (Ascii.eqb c "+") eqn:E2].
    + apply Ascii.eqb_eq in E1. subst c. destruct (int_digits false s') as [ds|] eqn:Ed; [|discriminate].
      injection H as <-. apply (int_digits_spec s' ds) in Ed.
      exists a, (L "-"), s', b, ds. rewrite E at 1. repeat split; auto.
    + apply Ascii.eqb_eq in E2. subst c. destruct (int_digits false s') as [ds|] eqn:Ed; [|discriminate].
      injection H as <-. apply (int_digits_spec s' ds) in Ed.
      exists a, (L "+"), s', b, ds. rewrite E at 1. repeat split; auto.
    + destruct (int_digits false (c :: s')) as [ds|] eqn:Ed; [|discriminate].
      injection H as <-. apply (int_digits_spec (c :: s') ds) in Ed.
      exists a, [], (c :: s'), b, ds. rewrite E at 1. repeat split; auto.
  - intros (a & sign & t & b & ds & -> & Ha & Hb & Ht & Hz).
    destruct (digits_text_chars t ds Ht) as [Hn Hc].
    assert (Hs : forall c, In c (sign ++ t) -> is_space c = false).
    { assert (Hd : forall c, In c t -> is_space c = false).
      { intros c Hc'. destruct (Hc c Hc') as [D| ->]; [now apply digit_not_space|reflexivity]. }
      intros c Hin. apply in_app_or in Hin as [Hin|Hin]; [|now apply Hd].
      destruct Hz as [[-> _]|[[->| ->] _]]; cbn in Hin; intuition (subst; reflexivity). }
    assert (strip (a ++ sign ++ t ++ b) = sign ++ t) as E.
    { rewrite (app_assoc sign). apply strip_unique.
      - now apply forallb_forall.
      - now apply forallb_forall.
      - apply trimmed_nospace, forallb_forall. intros c Hin. now rewrite Hs.
      - destruct sign; [exact Hn|discriminate]. }
    unfold py_int. rewrite E. apply (int_digits_spec t ds) in Ht.
    destruct Hz as [[-> ->]|[[->| ->] ->]].
    + cbn [app L list_ascii_of_string]. now rewrite Ascii.eqb_refl, Ht.
    + cbn [app]. destruct t as [|c t]; [contradiction|].
      replace (Ascii.eqb c "-") with false; [replace (Ascii.eqb c "+") with false; [now rewrite Ht|]|];
        symmetry; apply Ascii.eqb_neq; intros ->; destruct (Hc _ (or_introl eq_refl)); discriminate.
    + cbn [app L list_ascii_of_string].
      change (Ascii.eqb "+" "-") with false. cbn iota. now rewrite Ascii.eqb_refl, Ht.
Qed.

Theorem validate_int_text : forall s lo hi,
  ((forall z, ~ int_text s z) -> validate_int (AStr s) lo hi = Err EValueUnsupported) /\
  (forall z, int_text s z -> validate_int (AStr s) lo hi = validate_int (AInt z) lo hi).
Proof.
  intros s lo hi. split.
  - intros H. unfold validate_int. destruct (py_int s) as [z|] eqn:E; [|reflexivity].
    exfalso. apply (H z). now apply py_int_spec.
  - intros z H. apply py_int_spec in H. unfold validate_int. now rewrite H.
Qed.

Theorem validate_int_int : forall z lo hi,
  (validate_int (AInt z) lo hi = Err EValueTooLow <-> exists m, lo = Some m /\ (z < m)%Z) /\
  (validate_int (AInt z) lo hi = Err EValueTooHigh <->
     (forall m, lo = Some m -> (m <= z)%Z) /\ exists m, hi = Some m /\ (m < z)%Z) /\
  (forall r, validate_int (AInt z) lo hi = Ok r <->
     r = z /\ (forall m, lo = Some m -> (m <= z)%Z) /\ (forall m, hi = Some m -> (z <= m)%Z)) /\
  (forall e, validate_int (AInt z) lo hi = Err e -> e = EValueTooLow \/ e = EValueTooHigh).
Proof. intros z lo hi. exact (validate_int_spec (AInt z) lo hi). Qed.

Theorem bounded_ints : forall z,
  (non_negative_int (AInt z) = if (0 <=? z)%Z then Ok z else Err EValueTooLow) /\
  (positive_int (AInt z) = if (1 <=? z)%Z then Ok z else Err EValueTooLow).
Proof.
  intros z. unfold non_negative_int, positive_int, validate_int. cbn [rbind]. split.
  - destruct (Z.ltb_spec z 0), (Z.leb_spec 0 z); try reflexivity; lia.
  - destruct (Z.ltb_spec z 1), (Z.leb_spec 1 z); try reflexivity; lia.
Qed.

Lemma int_text_zdec : forall z, int_text (zdec z) z.
Proof. intros z. apply py_int_spec, py_int_zdec. Qed.

(** Truth values *)
Theorem truth_value_spec : forall s b,
  truth_value (inr s) = Ok b <->
  In (lower s) (if b then [L "y"; L "yes"; L "t"; L "true"; L "on"; L "1"]
                else [L "n"; L "no"; L "f"; L "false"; L "off"; L "0"]).
Proof.
  intros s b. unfold truth_value, strtobool.
  destruct (mem_str (lower s) [L "y"; L "yes"; L "t"; L "true"; L "on"; L "1"]) eqn:E1.
  - apply mem_str_In in E1. split.
    + now intros [= <-].
    + destruct b; [reflexivity|]. intros H. exfalso. cbn in E1, H.
      repeat (destruct E1 as [E1|E1]; [rewrite <- E1 in H; cbn in H; intuition discriminate|]). exact E1.
  - apply mem_str_false in E1.
    destruct (mem_str (lower s) [L "n"; L "no"; L "f"; L "false"; L "off"; L "0"]) eqn:E2.
    + apply mem_str_In in E2. split; [now intros [= <-]|]. destruct b; [contradiction|reflexivity].
    + apply mem_str_false in E2. split; [discriminate|]. destruct b; contradiction.
Qed.
Theorem truth_value_error : forall v e, truth_value v = Err e -> e = EValueUnsupported.
Proof. intros [b|s] e; cbn; [discriminate|]. destruct (strtobool s); congruence. Qed.
