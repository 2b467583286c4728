(** How usage strings and examples are taken apart. *)
From Coq Require Import List Ascii ZArith Lia Bool.
Import ListNotations.
From Verif Require Import PyBase PyBaseProofs PyRegex PyRegexProofs WrapModel WrapSpec InfoModel UsageModel UsageSpec.
Local Open Scope nat_scope.

(** ** findall *)
Lemma findall_skip : forall r w s, re_findall r (length w) (w ++ s) = re_findall r 0 s.
Proof. intros r w s. induction w as [ | c w IH]; [reflexivity | ]. exact IH. Qed.
Lemma findall_match : forall r w s, w <> [] -> matched r (w ++ s) = Some w -> re_findall r 0 (w ++ s) = w :: re_findall r 0 s.
Proof.
  intros r [ | c w] s N H; [contradiction | ]. cbn [app] in *. cbn [re_findall]. rewrite H. f_equal.
  cbn [length]. replace (S (length w) - 1) with (length w) by lia. apply findall_skip.
Qed.
Lemma findall_none : forall r c s, matched r (c :: s) = None -> re_findall r 0 (c :: s) = re_findall r 0 s.
Proof. intros r c s H. cbn [re_findall]. now rewrite H. Qed.

Definition first_rest (r : re) (s t : str) : Prop := wins r (fun x => [x]) (mkst s []) (mkst t []).
Lemma flat_map_single : forall A (l : list A), flat_map (fun x => [x]) l = l.
Proof. intros A l. induction l as [ | x l IH]; [reflexivity | ]. cbn. now rewrite IH. Qed.
Lemma first_matched : forall r w s, first_rest r (w ++ s) s -> matched r (w ++ s) = Some w.
Proof.
  intros r w s [ys H]. rewrite flat_map_single in H. unfold matched. rewrite H. cbn [rest]. f_equal.
  rewrite app_length. replace (length w + length s - length s) with (length w) by lia.
  rewrite firstn_app, firstn_all, Nat.sub_diag. cbn. apply app_nil_r.
Qed.

Lemma ink_word : forall w, word w <-> w <> [] /\ forallb (fun c => negb (is_space c)) w = true.
Proof.
  intros w. unfold word. split; intros [H1 H2]; (split; [exact H1 | ]).
  - apply forallb_forall. intros c Hc. now rewrite (H2 c Hc).
  - intros c Hc. rewrite forallb_forall in H2. apply H2 in Hc. now apply negb_true_iff.
Qed.
Lemma ends_ink : forall s, word_ends s -> forall c t, s = c :: t -> negb (is_space c) = false.
Proof. intros s H c t E. now rewrite (H c t E). Qed.

(** p+ at its longest *)
Lemma wins_plus_munch : forall B p a b g (k : st -> list B) y,
  a <> [] -> forallb p a = true -> (forall c t, b = c :: t -> p c = false) ->
  (exists ys, k (mkst b g) = y :: ys) -> wins (RPlus (RChr p)) k (mkst (a ++ b) g) y.
Proof.
  intros B p [ | c a] b g k y N Ha Hb Hk; [contradiction | ]. cbn [forallb] in Ha. apply andb_true_iff in Ha as [Hc Ha].
  cbn [app]. apply wins_seq. apply wins_chr; [exact Hc | ]. destruct Hk as [ys Hk].
  exact (star_munch B p a b g k y ys Ha Hb Hk).
Qed.

(** ** Enclosed parameters *)
Definition enclosed_re (o c : ascii) : re := RSeq (RLit o) (RSeq (RLazy RDot) (RPlus (RLit c))).
Lemma dot_ok : forall x, ~ In NL x -> forallb (fun c => negb (Ascii.eqb c NL)) x = true.
Proof.
  intros x H. apply forallb_forall. intros c Hc. apply negb_true_iff. apply Ascii.eqb_neq. intros ->. contradiction.
Qed.
Lemma repeat_cons_app : forall (c : ascii) n t, 1 <= n -> exists m, repeat c n ++ t = c :: repeat c m ++ t.
Proof. intros c [ | n] t H; [lia | ]. exists n. reflexivity. Qed.
Lemma span_app : forall p x s, forallb p x = true -> span p (x ++ s) = (x ++ fst (span p s), snd (span p s)).
Proof.
  intros p x s. induction x as [ | c x IH]; intros H; cbn [app span].
  - now destruct (span p s).
  - cbn [forallb] in H. apply andb_true_iff in H as [H1 H2]. rewrite H1, (IH H2). reflexivity.
Qed.
Lemma skipn_in : forall (x : str) i, i < length x -> exists c t, skipn i x = c :: t /\ In c x.
Proof.
  intros x. induction x as [ | d x IH]; intros i H; [cbn in H; lia | ]. destruct i as [ | i].
  - exists d, x. split; [reflexivity | now left].
  - cbn [length] in H. destruct (IH i ltac:(lia)) as (c & t & E & I). exists c, t. cbn [skipn]. split; [exact E | now right].
Qed.
Lemma repeat_all : forall (c : ascii) n, forallb (Ascii.eqb c) (repeat c n) = true.
Proof. intros c n. induction n as [ | n IH]; [reflexivity | ]. cbn. now rewrite Ascii.eqb_refl. Qed.

Lemma enclosed_wins : forall o c g after, enclosed o c g after -> forall B (k : st -> list B) y,
  (exists ys, k (mkst after []) = y :: ys) -> c <> NL -> wins (enclosed_re o c) k (mkst (g ++ after) []) y.
Proof.
  intros o c g after (x & n & [Fc Fn] & Hn & -> & Ha) B k y Hk Nc.
  cbn [app]. unfold enclosed_re. apply wins_seq, wins_lit. apply wins_seq. unfold wins.
  rewrite <- app_assoc.
  set (s := repeat c n ++ after).
  assert (EX : x ++ s = (x ++ fst (span (fun c => negb (Ascii.eqb c NL)) s)) ++ snd (span (fun c => negb (Ascii.eqb c NL)) s)).
  { rewrite <- app_assoc. f_equal. destruct (span _ s) as [a b] eqn:E. apply span_spec in E as [E _]. exact E. }
  destruct (span (fun c => negb (Ascii.eqb c NL)) s) as [a b] eqn:E. cbn [fst snd] in EX. rewrite EX.
  destruct (span_spec _ _ _ _ E) as (E1 & E2 & E3).
  assert (W : wins (RPlus (RLit c)) k (mkst s []) y).
  { unfold s, RLit. apply wins_plus_munch.
    - destruct n; [lia | discriminate].
    - apply repeat_all.
    - intros d t Hd. apply Ascii.eqb_neq. intros <-. exact (Ha _ Hd).
    - exact Hk. }
  destruct W as [ys W].
  apply (lazy_first B _ (x ++ a) b [] _ (length x) y ys).
  - rewrite forallb_app, E2, (dot_ok x Fn). reflexivity.
  - exact E3.
  - rewrite app_length. lia.
  - intros i Hi. rewrite skipn_app. replace (i - length x) with 0 by lia. cbn [skipn].
    destruct (skipn_in x i Hi) as (d & t & Ed & Id). rewrite Ed. cbn [app].
    unfold RPlus, RLit. cbn [run rest]. 
    assert (Ascii.eqb c d = false) as ->. { apply Ascii.eqb_neq. intros <-. contradiction. } reflexivity.
  - rewrite skipn_app, skipn_all, Nat.sub_diag. cbn [skipn app]. rewrite <- E1. exact W.
Qed.

Lemma lazy_dot_mt : forall s t, mt (RLazy RDot) s t -> exists x, s = x ++ t /\ ~ In NL x.
Proof.
  intros s t H. apply mt_lazy_star in H. unfold RDot in H. apply mt_star_chr in H as (x & -> & Hx).
  exists x. split; [reflexivity | ]. intros I. rewrite forallb_forall in Hx. apply Hx in I.
  rewrite Ascii.eqb_refl in I. discriminate.
Qed.
(** the first one closes *)
Lemma first_closing : forall (c : ascii) y u, In c y -> ~ In NL y -> c <> NL ->
  exists x n after, free_of c x /\ 1 <= n /\ y ++ u = x ++ repeat c n ++ after /\ (forall t, after <> c :: t).
Proof.
  intros c y u I N Nc.
  assert (H : exists x z, y = x ++ c :: z /\ ~ In c x).
  { clear N. induction y as [ | d y IH]; [contradiction | ]. destruct (ascii_dec d c) as [-> | D].
    - exists [], y. split; [reflexivity | auto].
    - destruct IH as (x & z & -> & Hx). { destruct I as [<- | I]; [contradiction | exact I]. }
      exists (d :: x), z. split; [reflexivity | ]. intros [<- | J]; contradiction. }
  destruct H as (x & z & -> & Hx).
  assert (H : exists n after, 1 <= n /\ c :: z ++ u = repeat c n ++ after /\ (forall t, after <> c :: t)).
  { generalize (z ++ u). intros s. clear. induction s as [ | d s IH].
    - exists 1, []. split; [lia | ]. split; [reflexivity | discriminate].
    - destruct (ascii_dec d c) as [-> | D].
      + destruct IH as (n & after & H1 & H2 & H3). exists (S n), after. split; [lia | ]. split; [ | exact H3]. cbn. now rewrite H2.
      + exists 1, (d :: s). split; [lia | ]. split; [reflexivity | ]. intros t E. injection E as E _. contradiction. }
  destruct H as (n & after & H1 & H2 & H3). exists x, n, after. split; [ | split; [exact H1 | split; [ | exact H3]]].
  - split; [exact Hx | ]. intros J. apply N. apply in_or_app. now left.
  - rewrite <- app_assoc. cbn [app]. now rewrite H2.
Qed.
Lemma enclosed_mt : forall o c s t, c <> NL -> mt (enclosed_re o c) s t -> exists u after, s = u ++ after /\ enclosed o c u after.
Proof.
  intros o c s t Nc H. unfold enclosed_re in H. apply mt_seq_inv in H as (s1 & H1 & H). apply mt_lit_inv in H1.
  apply mt_seq_inv in H as (s2 & H2 & H). apply lazy_dot_mt in H2 as (x & E2 & N2).
  unfold RPlus in H. apply mt_seq_inv in H as (s3 & H3 & H). apply mt_lit_inv in H3. clear H t. subst.
  destruct (first_closing c (x ++ [c]) s3) as (y & n & after & H1 & H2 & H3 & H4).
  - apply in_or_app. right. now left.
  - intros I. apply in_app_or in I as [I | [I | []]]; [contradiction | congruence].
  - exact Nc.
  - exists (o :: y ++ repeat c n), after. split.
    + cbn [app]. rewrite <- app_assoc, <- H3, <- app_assoc. reflexivity.
    + exists y, n. auto.
Qed.

(** ** Options *)
Definition option_re : re := RSeq (RLit DASH) (RSeq (RPlus RInk) (RSeq (RPlus RBlank) (RPlus RInk))).
Lemma word_space_first : forall gap, no_ink gap -> forallb is_space gap = true.
Proof. intros gap H. apply forallb_forall. exact H. Qed.
Lemma option_wins : forall g after, option_value g after -> forall B (k : st -> list B) y,
  (exists ys, k (mkst after []) = y :: ys) -> wins option_re k (mkst (g ++ after) []) y.
Proof.
  intros g after (w & gap & x & Hw & Ng & Hg & Hx & Ha & ->) B k y Hk.
  apply ink_word in Hw as [Nw Hw]. apply ink_word in Hx as [Nx Hx]. pose proof (word_space_first _ Hg) as Hg'.
  cbn [app]. unfold option_re. apply wins_seq, wins_lit. apply wins_seq. rewrite <- !app_assoc.
  apply wins_plus_munch; [exact Nw | exact Hw | | ].
  - intros c t E. destruct gap as [ | d gap]; [contradiction | ]. cbn [app] in E. injection E as <- _.
    now rewrite (Hg d (or_introl eq_refl)).
  - apply wins_seq. apply wins_plus_munch; [exact Ng | exact Hg' | | ].
    + intros c t E. destruct x as [ | d x]; [contradiction | ]. cbn [app] in E. injection E as <- _.
      cbn [forallb] in Hx. apply andb_true_iff in Hx as [Hx _]. now apply negb_true_iff.
    + apply wins_plus_munch; [exact Nx | exact Hx | apply ends_ink, Ha | exact Hk].
Qed.
Lemma plus_mt : forall p s t, mt (RPlus (RChr p)) s t -> exists x, s = x ++ t /\ x <> [] /\ forallb p x = true.
Proof.
  intros p s t H. unfold RPlus in H. apply mt_seq_inv in H as (s1 & H1 & H2). apply mt_chr_inv in H1 as (c & -> & Hc).
  apply mt_star_chr in H2 as (x & -> & Hx). exists (c :: x). split; [reflexivity | ]. split; [discriminate | ]. cbn. now rewrite Hc, Hx.
Qed.
Lemma longest_word : forall s, exists w after, s = w ++ after /\ forallb (fun c => negb (is_space c)) w = true /\ word_ends after.
Proof.
  intros s. destruct (span (fun c => negb (is_space c)) s) as [a b] eqn:E. destruct (span_spec _ _ _ _ E) as (H1 & H2 & H3).
  exists a, b. split; [exact H1 | ]. split; [exact H2 | ]. intros c t Hc. specialize (H3 c t Hc). now apply negb_false_iff.
Qed.
Lemma option_mt : forall s t, mt option_re s t -> exists u after, s = u ++ after /\ option_value u after.
Proof.
  intros s t H. unfold option_re in H. apply mt_seq_inv in H as (s1 & H1 & H). apply mt_lit_inv in H1.
  apply mt_seq_inv in H as (s2 & H2 & H). apply plus_mt in H2 as (w & E2 & Nw & Hw).
  apply mt_seq_inv in H as (s3 & H3 & H). apply plus_mt in H3 as (gap & E3 & Ng & Hg).
  apply plus_mt in H as (x & E4 & Nx & Hx). destruct (longest_word t) as (x' & after & E5 & Hx' & Ha). subst.
  exists (DASH :: w ++ gap ++ x ++ x'), after. split. { cbn [app]. now rewrite <- !app_assoc. }
  exists w, gap, (x ++ x'). split; [now apply ink_word | ]. split; [exact Ng | ]. split. { intros c Hc. rewrite forallb_forall in Hg. now apply Hg. }
  split; [ | split; [exact Ha | reflexivity]]. apply ink_word. split; [now destruct x | ]. now rewrite forallb_app, Hx, Hx'.
Qed.

(** ** Usage strings *)
Lemma usage_re_shape : usage_re = RAlt (enclosed_re OPEN CLOSE) (RAlt (enclosed_re BRA KET) (RAlt option_re (RPlus RInk))).
Proof. reflexivity. Qed.
Lemma other_start : forall B o r (k : st -> list B) c s, c <> o -> fails (RSeq (RLit o) r) k (mkst (c :: s) []).
Proof.
  intros B o r k c s H. unfold fails, RLit. cbn [run rest].
  assert (Ascii.eqb o c = false) as ->. { apply Ascii.eqb_neq. congruence. } reflexivity.
Qed.
Lemma usage_unit_match : forall g after, usage_unit g after -> matched usage_re (g ++ after) = Some g /\ g <> [].
Proof.
  intros g after H.
  assert (N : g <> []).
  { destruct H as [(x & n & _ & _ & -> & _) | [(x & n & _ & _ & -> & _) | (w & gap & x & _ & _ & _ & _ & _ & ->)]]; discriminate. }
  split; [ | exact N]. apply first_matched. unfold first_rest. rewrite usage_re_shape.
  destruct H as [H | [H | H]].
  - apply wins_altl. eapply enclosed_wins; [exact H | eauto | discriminate].
  - apply wins_altr.
    + destruct H as (x & n & _ & _ & -> & _). apply other_start. discriminate.
    + apply wins_altl. eapply enclosed_wins; [exact H | eauto | discriminate].
  - apply wins_altr; [ | apply wins_altr].
    + destruct H as (w & gap & x & _ & _ & _ & _ & _ & ->). apply other_start. discriminate.
    + destruct H as (w & gap & x & _ & _ & _ & _ & _ & ->). apply other_start. discriminate.
    + apply wins_altl. eapply option_wins; [exact H | eauto].
Qed.
Lemma word_last : forall B g s (k : st -> list B) y, word g -> word_ends s -> (exists ys, k (mkst s []) = y :: ys) ->
  wins (RPlus RInk) k (mkst (g ++ s) []) y.
Proof.
  intros B g s k y H Hs Hk. apply ink_word in H as [N H]. apply wins_plus_munch; [exact N | exact H | apply ends_ink, Hs | exact Hk].
Qed.
Lemma usage_word_match : forall g s, word g -> word_ends s -> (forall u t, g ++ s = u ++ t -> ~ usage_unit u t) ->
  matched usage_re (g ++ s) = Some g.
Proof.
  intros g s Hg Hs Hn. apply first_matched. unfold first_rest. rewrite usage_re_shape.
  apply wins_altr; [ | apply wins_altr; [ | apply wins_altr]].
  - apply no_mt_fails. cbn [rest]. intros (t & M). apply enclosed_mt in M as (u & after & E & U); [ | discriminate].
    apply (Hn u after E). now left.
  - apply no_mt_fails. cbn [rest]. intros (t & M). apply enclosed_mt in M as (u & after & E & U); [ | discriminate].
    apply (Hn u after E). right. now left.
  - apply no_mt_fails. cbn [rest]. intros (t & M). apply option_mt in M as (u & after & E & U).
    apply (Hn u after E). right. now right.
  - eapply word_last; eauto.
Qed.
Lemma space_start : forall c, is_space c = true -> c <> OPEN /\ c <> BRA /\ c <> DASH.
Proof. intros c H. split; [ | split]; intros ->; discriminate H. Qed.
Lemma space_no_plus : forall B (k : st -> list B) c s, is_space c = true -> fails (RPlus RInk) k (mkst (c :: s) []).
Proof. intros B k c s H. unfold fails, RPlus, RInk. cbn [run rest]. rewrite H. reflexivity. Qed.
Lemma fails_run : forall r s, fails r (fun x => [x]) (mkst s []) -> run r (mkst s []) = [].
Proof. intros r s H. unfold fails in H. now rewrite flat_map_single in H. Qed.
Lemma fails_alt : forall B a b (k : st -> list B) s, fails a k s -> fails b k s -> fails (RAlt a b) k s.
Proof. intros B a b k s H1 H2. unfold fails in *. cbn [run]. now rewrite flat_map_app, H1, H2. Qed.
Lemma fails_matched : forall r s, fails r (fun x => [x]) (mkst s []) -> matched r s = None.
Proof. intros r s H. unfold matched. now rewrite (fails_run _ _ H). Qed.
Lemma usage_space_match : forall c s, is_space c = true -> matched usage_re (c :: s) = None.
Proof.
  intros c s H. apply fails_matched. rewrite usage_re_shape. destruct (space_start c H) as (N1 & N2 & N3).
  apply fails_alt; [now apply other_start | ]. apply fails_alt; [now apply other_start | ]. apply fails_alt; [now apply other_start | ].
  now apply space_no_plus.
Qed.

Lemma usage_parts_groups : forall s gs, usage_parts s gs -> usage_groups s = gs.
Proof.
  intros s gs H. unfold usage_groups. induction H as [ | c s l Hc _ IH | g s l Hu _ IH | g s l Hg Hs Hn _ IH].
  - reflexivity.
  - rewrite findall_none by now apply usage_space_match. exact IH.
  - destruct (usage_unit_match _ _ Hu) as [M N]. rewrite (findall_match _ _ _ N M). now rewrite IH.
  - rewrite (findall_match _ _ _ (proj1 Hg) (usage_word_match _ _ Hg Hs Hn)). now rewrite IH.
Qed.
Lemma usage_unit_dec : forall s, (exists u t, s = u ++ t /\ usage_unit u t) \/ (forall u t, s = u ++ t -> ~ usage_unit u t).
Proof.
  intros s.
  assert (D : forall r (P : str -> str -> Prop), (forall u t, P u t -> matched r (u ++ t) = Some u) -> (forall t, mt r s t -> exists u a, s = u ++ a /\ P u a) ->
              (exists u t, s = u ++ t /\ P u t) \/ (forall u t, s = u ++ t -> ~ P u t)).
  { intros r P H1 H2. destruct (run r (mkst s [])) as [ | x l] eqn:E.
    - right. intros u t Es HP. specialize (H1 u t HP). rewrite <- Es in H1. unfold matched in H1. rewrite E in H1. discriminate.
    - left. apply (H2 (rest x)). change s with (rest (mkst s [])). apply run_sound. rewrite E. now left. }
  destruct (D (enclosed_re OPEN CLOSE) (enclosed "(" ")")) as [(u & t & E & P) | N1].
  { intros u t P. apply first_matched. eapply enclosed_wins; [exact P | eauto | discriminate]. }
  { intros t M. eapply enclosed_mt; [discriminate | exact M]. }
  { left. exists u, t. split; [exact E | now left]. }
  destruct (D (enclosed_re BRA KET) (enclosed "[" "]")) as [(u & t & E & P) | N2].
  { intros u t P. apply first_matched. eapply enclosed_wins; [exact P | eauto | discriminate]. }
  { intros t M. eapply enclosed_mt; [discriminate | exact M]. }
  { left. exists u, t. split; [exact E | right; now left]. }
  destruct (D option_re option_value) as [(u & t & E & P) | N3].
  { intros u t P. apply first_matched. eapply option_wins; [exact P | eauto]. }
  { intros t M. eapply option_mt. exact M. }
  { left. exists u, t. split; [exact E | right; now right]. }
  right. intros u t E [U | [U | U]]; [exact (N1 u t E U) | exact (N2 u t E U) | exact (N3 u t E U)].
Qed.
Lemma usage_parts_exist : forall n s, length s <= n -> exists gs, usage_parts s gs.
Proof.
  intros n. induction n as [ | n IH]; intros s Hn.
  - destruct s; [ | cbn in Hn; lia]. exists []. constructor.
  - destruct s as [ | c s]; [exists []; constructor | ]. cbn [length] in Hn.
    destruct (is_space c) eqn:Ec.
    + destruct (IH s ltac:(lia)) as (gs & H). exists gs. now constructor.
    + destruct (usage_unit_dec (c :: s)) as [(u & t & E & U) | N].
      * destruct (usage_unit_match _ _ U) as [_ Nu]. destruct u as [ | d u]; [contradiction | ].
        destruct (IH t) as (gs & H). { apply (f_equal (@length _)) in E. cbn [app length] in E. rewrite app_length in E. lia. }
        rewrite E. exists ((d :: u) :: gs). now apply up_unit.
      * destruct (longest_word (c :: s)) as (w & after & E & Hw & Ha).
        assert (Nw : w <> []). { intros ->. cbn [app] in E. specialize (Ha c s (eq_sym E)). congruence. }
        destruct w as [ | d w]; [contradiction | ].
        destruct (IH after) as (gs & H). { apply (f_equal (@length _)) in E. cbn [app length] in E. rewrite app_length in E. lia. }
        rewrite E in N |- *. exists ((d :: w) :: gs). apply up_word; [ | exact Ha | exact N | exact H].
        apply ink_word. split; [discriminate | exact Hw].
Qed.
Lemma usage_groups_parts : forall s, usage_parts s (usage_groups s).
Proof.
  intros s. destruct (usage_parts_exist (length s) s ltac:(lia)) as (gs & H). now rewrite (usage_parts_groups _ _ H).
Qed.

(** ** Examples *)
Definition simple_re : re := RSeq (RLit DASH) (RSeq (RPlus RInk) (RSeq REither (RPlus RInk))).
Definition quoted_re : re := RSeq (RLit DASH) (RSeq (RPlus RInk) (RSeq REither (RSeq (RLit QUOTE) (RSeq (RLazy RDot) (RLit QUOTE))))).
Lemma example_re_shape : example_re = RAlt simple_re (RAlt quoted_re (RPlus RInk)).
Proof. reflexivity. Qed.

(** a quoted value never gets its own treatment: the first alternative takes it *)
Lemma quoted_simple : forall s t, mt quoted_re s t -> exists t', mt simple_re s t'.
Proof.
  intros s t H. unfold quoted_re in H. apply mt_seq_inv in H as (s1 & H1 & H). apply mt_seq_inv in H as (s2 & H2 & H).
  apply mt_seq_inv in H as (s3 & H3 & H). apply mt_seq_inv in H as (s4 & H4 & _). apply mt_lit_inv in H4. subst s3.
  exists s4. apply mt_seq_inv. exists s1. split; [exact H1 | ]. apply mt_seq_inv. exists s2. split; [exact H2 | ].
  apply mt_seq_inv. exists (QUOTE :: s4). split; [exact H3 | ]. apply mt_plus_chr. exists [QUOTE]. split; [reflexivity | ].
  split; [reflexivity | discriminate].
Qed.

(** what follows the dash of an option: its name, then one blank or equals sign *)
Lemma either_spec : forall s t, mt REither s t <-> s = " "%char :: t \/ s = "="%char :: t.
Proof.
  intros s t. unfold REither. rewrite mt_chr_inv. split.
  - intros (c & -> & H). apply orb_prop in H as [H | H]; apply Ascii.eqb_eq in H; subst c; auto.
  - intros [-> | ->]; eexists; split; reflexivity.
Qed.
Lemma app_split : forall (a b c d : str), a ++ b = c ++ d -> length a <= length c -> exists m, c = a ++ m /\ b = m ++ d.
Proof.
  induction a as [ | x a IH]; intros b c d E H.
  - exists c. auto.
  - destruct c as [ | y c]; [cbn in H; lia | ]. cbn [app] in E. injection E as -> E. cbn [length] in H.
    destruct (IH b c d E ltac:(lia)) as (m & -> & ->). exists m. auto.
Qed.

Lemma simple_blank_wins : forall g after, option_value1 g after -> forall B (k : st -> list B) y,
  (exists ys, k (mkst after []) = y :: ys) -> wins simple_re k (mkst (g ++ after) []) y.
Proof.
  intros g after (w & x & Hw & Hx & Ha & ->) B k y Hk.
  apply ink_word in Hw as [Nw Hw]. apply ink_word in Hx as [Nx Hx].
  cbn [app]. unfold simple_re. apply wins_seq, wins_lit. apply wins_seq. rewrite <- !app_assoc.
  apply wins_plus_munch; [exact Nw | exact Hw | | ].
  - intros c t E. change (L " ") with [" "%char] in E. cbn [app] in E. injection E as <- _. reflexivity.
  - apply wins_seq. change (L " ") with [" "%char]. cbn [app]. unfold REither. apply wins_chr; [reflexivity | ].
    apply wins_plus_munch; [exact Nx | exact Hx | apply ends_ink, Ha | exact Hk].
Qed.

(** the ways to match a plus of ink followed by [k]: one of them *)
Lemma plus_first : forall B p a b (k : st -> list B), a <> [] -> forallb p a = true -> (forall c t, b = c :: t -> p c = false) ->
  flat_map k (run (RPlus (RChr p)) (mkst (a ++ b) [])) = [] \/
  exists m y ys, 1 <= m <= length a /\ k (mkst (skipn m a ++ b) []) = y :: ys /\ wins (RPlus (RChr p)) k (mkst (a ++ b) []) y.
Proof.
  intros B p [ | c a] b k N Ha Hb; [contradiction | ]. cbn [forallb] in Ha. apply andb_true_iff in Ha as [Hc Ha].
  assert (H : (forall i, i <= length a -> k (mkst (skipn i a ++ b) []) = []) \/
              exists m y ys, m <= length a /\ k (mkst (skipn m a ++ b) []) = y :: ys /\
                (forall i, m < i <= length a -> k (mkst (skipn i a ++ b) []) = [])).
  { assert (G : forall n, n <= S (length a) -> (forall i, n <= i -> i <= length a -> k (mkst (skipn i a ++ b) []) = []) \/
              exists m y ys, m <= length a /\ k (mkst (skipn m a ++ b) []) = y :: ys /\
                (forall i, m < i <= length a -> k (mkst (skipn i a ++ b) []) = [])).
    { intros n Hn. remember (S (length a) - n) as d eqn:Hd. revert n Hn Hd. induction d as [ | d IH]; intros n Hn Hd.
      - left. intros i I1 I2. lia.
      - destruct (IH (S n) ltac:(lia) ltac:(lia)) as [H | H]; [ | now right].
        destruct (k (mkst (skipn n a ++ b) [])) as [ | y ys] eqn:E.
        + left. intros i I1 I2. destruct (Nat.eq_dec i n) as [-> | D]; [exact E | ]. apply H; lia.
        + right. exists n, y, ys. split; [lia | ]. split; [exact E | ]. intros i Hi. apply H; lia. }
    destruct (G 0 ltac:(lia)) as [H | H]; [left; intros i Hi; apply H; lia | now right]. }
  destruct H as [H | (m & y & ys & H1 & H2 & H3)].
  - left. cbn [app]. unfold RPlus. cbn [run rest]. rewrite Hc. cbn [flat_map]. rewrite app_nil_r.
    change (flat_map k (run (RStar (RChr p)) (mkst (a ++ b) [])) = []).
    rewrite run_star_chr by assumption. apply flat_map_nil. intros z Hz. apply in_rev, in_map_iff in Hz as (i & <- & Hi).
    apply in_seq in Hi. apply H. lia.
  - right. exists (S m), y, ys. split; [cbn; lia | ]. split; [exact H2 | ]. cbn [app]. apply wins_seq. apply wins_chr; [exact Hc | ].
    apply (star_first B p a b [] k m y ys); assumption.
Qed.

(** without a blank and a value the equals sign is inside the word *)
Lemma simple_word_wins : forall g s, word g -> word_ends s -> (forall u t, g ++ s = u ++ t -> ~ option_value1 u t) ->
  flat_map (fun x => [x]) (run simple_re (mkst (g ++ s) [])) = [] \/ first_rest simple_re (g ++ s) s.
Proof.
  intros g s Hg Hs Hn. destruct (flat_map (fun x => [x]) (run simple_re (mkst (g ++ s) []))) as [ | y ys] eqn:E; [now left | right].
  unfold first_rest, wins. 
  destruct g as [ | c g]; [now destruct Hg | ]. cbn [app] in *.
  destruct (ascii_dec c DASH) as [-> | Nc].
  2:{ exfalso. assert (F : fails simple_re (fun x => [x]) (mkst (c :: g ++ s) [])) by now apply other_start.
      unfold fails in F. rewrite F in E. discriminate. }
  assert (Hg' : forallb (fun c => negb (is_space c)) g = true).
  { apply ink_word in Hg as [_ Hg]. cbn [forallb] in Hg. now apply andb_true_iff in Hg as [_ Hg]. }
  assert (EQ : flat_map (fun x => [x]) (run simple_re (mkst (DASH :: g ++ s) [])) =
               flat_map (fun x => run (RSeq REither (RPlus RInk)) x) (run (RPlus RInk) (mkst (g ++ s) []))).
  { rewrite flat_map_single. unfold simple_re, RLit. cbn [run rest]. rewrite Ascii.eqb_refl. cbn [flat_map caps]. now rewrite app_nil_r. }
  rewrite EQ. rewrite EQ in E.
  assert (Ng : g <> []).
  { intros ->. cbn [app] in E. 
    destruct s as [ | d s]; [discriminate E | ]. unfold RPlus, RInk in E. cbn [run rest] in E. rewrite (Hs d s eq_refl) in E. discriminate E. }
  destruct (plus_first _ (fun c => negb (is_space c)) g s (fun x => run (RSeq REither (RPlus RInk)) x) Ng Hg' (ends_ink s Hs)) as [F | F].
  { fold RInk in F. rewrite F in E. discriminate E. }
  destruct F as (m & y' & ys' & Hm & Hk & [zs W]). 
  assert (y' = mkst s []) as ->.
  { assert (M : m < length g).
    { destruct (Nat.eq_dec m (length g)) as [-> | D]; [exfalso | lia].
      rewrite skipn_all in Hk. cbn [app] in Hk.
      assert (MT : mt (RSeq REither (RPlus RInk)) s (rest y')).
      { change s with (rest (mkst s [])). apply run_sound. rewrite Hk. now left. }
      apply mt_seq_inv in MT as (s1 & M1 & M2). apply either_spec in M1. apply plus_mt in M2 as (x & E2 & Nx & Hx).
      destruct M1 as [M1 | M1].
      2:{ specialize (Hs _ _ M1). discriminate Hs. }
      destruct (longest_word (rest y')) as (x' & after & E3 & Hx' & Ha).
      apply (Hn (DASH :: g ++ L " " ++ x ++ x') after).
      - rewrite M1, E2, E3. change (L " ") with [" "%char]. cbn [app]. f_equal. rewrite <- app_assoc. f_equal. cbn [app]. f_equal. apply app_assoc.
      - exists g, (x ++ x'). split; [now apply ink_word | ]. split; [ | split; [exact Ha | reflexivity]].
        apply ink_word. split; [now destruct x | ]. now rewrite forallb_app, Hx, Hx'. }
    assert (H : exists d g2, skipn m g = d :: g2). { destruct (skipn_in g m M) as (d & t & H & _). eauto. }
    destruct H as (d & g2 & Hd).
    assert (Sg : forallb (fun c => negb (is_space c)) (d :: g2) = true).
    { rewrite <- Hd. rewrite <- (firstn_skipn m g), forallb_app in Hg'. now apply andb_true_iff in Hg' as [_ Hg']. }
    cbn [forallb] in Sg. apply andb_true_iff in Sg as [Sd Sg].
    rewrite Hd in Hk. cbn [app] in Hk.
    assert (MT : mt (RSeq REither (RPlus RInk)) (d :: g2 ++ s) (rest y')).
    { change (d :: g2 ++ s) with (rest (mkst (d :: g2 ++ s) [])). apply run_sound. rewrite Hk. now left. }
    apply mt_seq_inv in MT as (s1 & M1 & M2). apply plus_mt in M2 as (x & E2 & Nx & Hx).
    assert (D : d = "="%char /\ s1 = g2 ++ s).
    { apply either_spec in M1 as [M1 | M1]; injection M1 as -> M1; [discriminate Sd | auto]. }
    destruct D as [-> D]. rewrite D in E2. 
    assert (Ng2 : g2 <> []).
    { intros ->. cbn [app] in E2. destruct x as [ | z x]; [contradiction | ]. cbn [app] in E2.
      specialize (Hs _ _ E2). cbn [forallb] in Hx. apply andb_true_iff in Hx as [Hx _]. rewrite Hs in Hx. discriminate. }
    assert (W2 : wins (RSeq REither (RPlus RInk)) (fun x => [x]) (mkst ("="%char :: g2 ++ s) []) (mkst s [])).
    { apply wins_seq. unfold REither. apply wins_chr; [reflexivity | ]. apply wins_plus_munch; [exact Ng2 | exact Sg | apply ends_ink, Hs | eauto]. }
    destruct W2 as [ws W2]. rewrite flat_map_single in W2. congruence. }
  exists zs. exact W.
Qed.

Lemma quoted_fails : forall s, flat_map (fun x => [x]) (run simple_re (mkst s [])) = [] -> fails quoted_re (fun x => [x]) (mkst s []).
Proof.
  intros s H. apply no_mt_fails. cbn [rest]. intros (t & M). apply quoted_simple in M as (t' & M).
  destruct (run_complete _ _ _ M []) as (x & I). rewrite flat_map_single in H. rewrite H in I. contradiction.
Qed.
Lemma example_unit_match : forall g after, option_value1 g after -> matched example_re (g ++ after) = Some g /\ g <> [].
Proof.
  intros g after H. split.
  - apply first_matched. unfold first_rest. rewrite example_re_shape. apply wins_altl. eapply simple_blank_wins; [exact H | eauto].
  - destruct H as (w & x & _ & _ & _ & ->). discriminate.
Qed.
Lemma example_word_match : forall g s, word g -> word_ends s -> (forall u t, g ++ s = u ++ t -> ~ option_value1 u t) ->
  matched example_re (g ++ s) = Some g.
Proof.
  intros g s Hg Hs Hn. apply first_matched. unfold first_rest. rewrite example_re_shape.
  destruct (simple_word_wins g s Hg Hs Hn) as [F | W].
  - apply wins_altr; [exact F | ]. apply wins_altr; [now apply quoted_fails | ]. eapply word_last; eauto.
  - now apply wins_altl.
Qed.
Lemma example_space_match : forall c s, is_space c = true -> matched example_re (c :: s) = None.
Proof.
  intros c s H. apply fails_matched. rewrite example_re_shape. destruct (space_start c H) as (_ & _ & N3).
  apply fails_alt; [now apply other_start | ]. apply fails_alt; [now apply other_start | ]. now apply space_no_plus.
Qed.
Lemma example_parts_params : forall s gs, example_parts s gs -> example_params s = gs.
Proof.
  intros s gs H. unfold example_params. induction H as [ | c s l Hc _ IH | g s l Hu _ IH | g s l Hg Hs Hn _ IH].
  - reflexivity.
  - rewrite findall_none by now apply example_space_match. exact IH.
  - destruct (example_unit_match _ _ Hu) as [M N]. rewrite (findall_match _ _ _ N M). now rewrite IH.
  - rewrite (findall_match _ _ _ (proj1 Hg) (example_word_match _ _ Hg Hs Hn)). now rewrite IH.
Qed.
Definition blank_re : re := RSeq (RLit DASH) (RSeq (RPlus RInk) (RSeq (RLit " ") (RPlus RInk))).
Lemma option1_dec : forall s, (exists u t, s = u ++ t /\ option_value1 u t) \/ (forall u t, s = u ++ t -> ~ option_value1 u t).
Proof.
  intros s. destruct (run blank_re (mkst s [])) as [ | x l] eqn:E.
  - right. intros u t -> (w & x & Hw & Hx & Ha & ->).
    assert (M : mt blank_re ((DASH :: w ++ L " " ++ x) ++ t) t).
    { cbn [app]. rewrite <- !app_assoc. apply mt_seq_inv. eexists. split; [now apply mt_lit_inv | ].
      apply mt_seq_inv. exists (L " " ++ x ++ t). split. { apply ink_word in Hw as [N H]. apply mt_plus_chr. exists w. auto. }
      apply mt_seq_inv. exists (x ++ t). split; [now apply mt_lit_inv | ]. apply ink_word in Hx as [N H]. apply mt_plus_chr. exists x. auto. }
    destruct (run_complete _ _ _ M []) as (y & I). change "-"%char with DASH in E. rewrite E in I. contradiction.
  - left. assert (M : mt blank_re s (rest x)). { change s with (rest (mkst s [])). apply run_sound. rewrite E. now left. }
    apply mt_seq_inv in M as (s1 & M1 & M). apply mt_lit_inv in M1. apply mt_seq_inv in M as (s2 & M2 & M).
    apply plus_mt in M2 as (w & E2 & Nw & Hw). apply mt_seq_inv in M as (s3 & M3 & M). apply mt_lit_inv in M3.
    apply plus_mt in M as (y & E4 & Ny & Hy). destruct (longest_word (rest x)) as (y' & after & E5 & Hy' & Ha).
    exists (DASH :: w ++ L " " ++ y ++ y'), after. split.
    + rewrite M1, E2, M3, E4, E5. change (L " ") with [" "%char]. cbn [app]. f_equal. rewrite <- app_assoc. f_equal. cbn [app]. f_equal. apply app_assoc.
    + exists w, (y ++ y'). split; [now apply ink_word | ]. split; [ | split; [exact Ha | reflexivity]].
      apply ink_word. split; [now destruct y | ]. now rewrite forallb_app, Hy, Hy'.
Qed.
Lemma example_parts_exist : forall n s, length s <= n -> exists gs, example_parts s gs.
Proof.
  intros n. induction n as [ | n IH]; intros s Hn.
  - destruct s; [ | cbn in Hn; lia]. exists []. constructor.
  - destruct s as [ | c s]; [exists []; constructor | ]. cbn [length] in Hn.
    destruct (is_space c) eqn:Ec.
    + destruct (IH s ltac:(lia)) as (gs & H). exists gs. now constructor.
    + destruct (option1_dec (c :: s)) as [(u & t & E & U) | N].
      * destruct (example_unit_match _ _ U) as [_ Nu]. destruct u as [ | d u]; [contradiction | ].
        destruct (IH t) as (gs & H). { apply (f_equal (@length _)) in E. cbn [app length] in E. rewrite app_length in E. lia. }
        rewrite E. exists ((d :: u) :: gs). now apply ep_unit.
      * destruct (longest_word (c :: s)) as (w & after & E & Hw & Ha).
        assert (Nw : w <> []). { intros ->. cbn [app] in E. specialize (Ha c s (eq_sym E)). congruence. }
        destruct w as [ | d w]; [contradiction | ].
        destruct (IH after) as (gs & H). { apply (f_equal (@length _)) in E. cbn [app length] in E. rewrite app_length in E. lia. }
        rewrite E in N |- *. exists ((d :: w) :: gs). apply ep_word; [ | exact Ha | exact N | exact H].
        apply ink_word. split; [discriminate | exact Hw].
Qed.
Lemma example_params_parts : forall s, example_parts s (example_params s).
Proof.
  intros s. destruct (example_parts_exist (length s) s ltac:(lia)) as (gs & H). now rewrite (example_parts_params _ _ H).
Qed.
