(** Proofs about wrapping. *)
From Coq Require Import List Ascii ZArith Lia Bool.
Import ListNotations.
From Verif Require Import PyBase PyBaseProofs WrapModel WrapSpec.
Local Open Scope nat_scope.

(** ** Words *)

Lemma words_aux_app_space : forall a cur c b, is_space c = true ->
  words_aux cur (a ++ c :: b) = words_aux cur a ++ words b.
Proof.
  induction a as [ | x a IH]; intros cur c b H; cbn [app words_aux].
  - rewrite H. destruct cur; reflexivity.
  - destruct (is_space x).
    + destruct cur; rewrite (IH _ _ _ H); reflexivity.
    + now rewrite (IH _ _ _ H).
Qed.
Lemma words_space_l : forall c b, is_space c = true -> words (c :: b) = words b.
Proof. intros c b H. unfold words. cbn [words_aux]. now rewrite H. Qed.
Lemma words_spaces_l : forall a b, forallb is_space a = true -> words (a ++ b) = words b.
Proof.
  induction a as [ | x a IH]; intros b H; [reflexivity | ]. cbn [forallb] in H. apply andb_prop in H as [H1 H2].
  cbn [app]. rewrite words_space_l by exact H1. now apply IH.
Qed.
Lemma words_app_l : forall a b, a <> [] -> forallb is_space a = true -> forall x, words (x ++ a ++ b) = words x ++ words b.
Proof.
  intros [ | c a] b Hn H x; [contradiction | ]. cbn [forallb] in H. apply andb_prop in H as [H1 H2].
  unfold words at 1. cbn [app]. rewrite words_aux_app_space by exact H1. fold (words x). now rewrite words_spaces_l.
Qed.
Lemma words_spaces : forall a, forallb is_space a = true -> words a = [].
Proof. intros a H. rewrite <- (app_nil_r a), words_spaces_l by exact H. reflexivity. Qed.
Lemma words_app_r : forall x a, forallb is_space a = true -> words (x ++ a) = words x.
Proof.
  intros x a H. destruct a as [ | c a]; [now rewrite app_nil_r | ].
  rewrite <- (app_nil_r (c :: a)), words_app_l by (try exact H; discriminate). apply app_nil_r.
Qed.

Lemma blank_space : forall c, is_blank c = true -> is_space c = true.
Proof.
  intros c H. unfold is_blank in H. unfold is_space, in_range in *.
  apply orb_true_iff in H as [H | H]; [rewrite H; reflexivity | ].
  apply N.eqb_eq in H. rewrite H. reflexivity.
Qed.
Lemma SP_space : is_space SP = true. Proof. reflexivity. Qed.
Lemma blank_spec : forall c, is_blank c = true <-> blank c.
Proof.
  intros c. unfold is_blank, blank, in_range. rewrite orb_true_iff, andb_true_iff, !N.leb_le, N.eqb_eq. cbn [In]. split; intros H.
  - destruct H as [H | H]; [ | auto 10].
    assert (code c = 9 \/ code c = 10 \/ code c = 11 \/ code c = 12 \/ code c = 13)%N by lia. intuition.
  - repeat (destruct H as [<- | H]; [ (left; split; lia) || (right; reflexivity) | ]). contradiction.
Qed.

(** ** Preparing the text keeps the words *)

Lemma munge_words_aux : forall s col cur,
  words_aux cur (map (fun c => if is_blank c then SP else c) (expandtabs col s)) = words_aux cur s.
Proof.
  induction s as [ | c s IH]; intros col cur; [reflexivity | ]. cbn [expandtabs].
  destruct (code c =? 9)%N eqn:E9.
  - assert (Hs : is_space c = true). { apply N.eqb_eq in E9. apply blank_space. unfold is_blank, in_range. now rewrite E9. }
    assert (Hm : exists k, repeat SP (8 - col mod 8) = SP :: repeat SP k).
    { pose proof (Nat.mod_upper_bound col 8). destruct (8 - col mod 8) as [ | k] eqn:Ek; [lia | ]. now exists k. }
    destruct Hm as [k ->]. rewrite map_app. cbn [map]. change (is_blank SP) with true. cbn iota. cbn [app words_aux].
    rewrite SP_space, Hs.
    assert (Hk : forall k t, words_aux [] (map (fun c0 : ascii => if is_blank c0 then SP else c0) (repeat SP k) ++ t) = words_aux [] t).
    { induction k0 as [ | k0 IHk]; intros t; [reflexivity | ]. cbn [repeat map app]. change (is_blank SP) with true. cbn iota.
      cbn [words_aux]. rewrite SP_space. apply IHk. }
    destruct cur; rewrite Hk, IH; reflexivity.
  - assert (Hc : forall col', words_aux cur ((if is_blank c then SP else c) :: map (fun c0 => if is_blank c0 then SP else c0) (expandtabs col' s))
                 = words_aux cur (c :: s)).
    { intros col'. cbn [words_aux]. destruct (is_blank c) eqn:Eb.
      - rewrite SP_space, (blank_space _ Eb). destruct cur; now rewrite IH.
      - destruct (is_space c); [destruct cur; now rewrite IH | apply IH]. }
    destruct ((code c =? 10)%N || (code c =? 13)%N); cbn [map]; apply Hc.
Qed.
Lemma munge_words : forall s, words (munge s) = words s.
Proof. intros s. apply munge_words_aux. Qed.

(** ** Chunks *)

Definition pure (c : str) : Prop :=
  c <> [] /\ (forallb is_blank c = true \/ forallb (fun x => negb (is_blank x)) c = true).
Definition first_blank (c : str) : bool := match c with x :: _ => is_blank x | [] => false end.
Fixpoint alt (l : list str) : Prop :=
  match l with
  | c :: ((d :: _) as l') => first_blank c <> first_blank d /\ alt l'
  | _ => True
  end.

Lemma chunks_concat : forall s, concat (chunks s) = s.
Proof.
  induction s as [ | c s IH]; [reflexivity | ]. cbn [chunks].
  destruct (chunks s) as [ | [ | d r] l] eqn:E.
  - cbn in *. now rewrite <- IH.
  - cbn [concat app] in *. now rewrite <- IH.
  - destruct (Bool.eqb (is_blank c) (is_blank d)); cbn [concat app] in *; now rewrite <- IH.
Qed.
Lemma chunks_good : forall s, Forall pure (chunks s) /\ alt (chunks s).
Proof.
  induction s as [ | c s IH]; [cbn; auto | ]. cbn [chunks].
  assert (P1 : pure [c]). { split; [discriminate | ]. cbn. destruct (is_blank c); auto. }
  destruct (chunks s) as [ | [ | d r] l] eqn:E.
  - split; [constructor; auto | exact I].
  - destruct IH as [IH _]. inversion IH as [ | ? ? [H _] ?]. contradiction.
  - destruct IH as [IH1 IH2]. inversion IH1 as [ | ? ? H1 H2]. subst.
    destruct (Bool.eqb (is_blank c) (is_blank d)) eqn:Ed.
    + apply eqb_prop in Ed. split.
      * constructor; [ | assumption]. split; [discriminate | ]. destruct H1 as [_ H1].
        cbn [forallb] in H1 |- *. rewrite Ed. destruct H1 as [H1 | H1].
        -- left. apply andb_prop in H1 as [H3 H4]. now rewrite H3, H4.
        -- right. apply andb_prop in H1 as [H3 H4]. now rewrite H3, H4.
      * destruct l as [ | e l]; [exact I | ]. cbn [alt first_blank] in *. now rewrite Ed.
    + apply eqb_false_iff in Ed. split; [constructor; assumption | ]. cbn [alt first_blank] in *. auto.
Qed.

Lemma pure_blank : forall c, pure c -> first_blank c = true -> c <> [] /\ forallb is_space c = true.
Proof.
  intros c [H1 H2] H. destruct c as [ | x c]; [contradiction | ]. split; [assumption | ]. cbn [first_blank] in H.
  destruct H2 as [H2 | H2].
  - clear -H2. revert H2. generalize (x :: c). intros l. induction l as [ | y l IH]; [reflexivity | ]. cbn.
    intros H. apply andb_prop in H as [H3 H4]. now rewrite (blank_space _ H3), IH.
  - cbn in H2. rewrite H in H2. discriminate.
Qed.
Lemma pure_piece : forall c, pure c -> first_blank c = false -> one_piece c.
Proof.
  intros c [H1 H2] H. destruct c as [ | x c]; [contradiction | ]. cbn [first_blank] in H. destruct H2 as [H2 | H2].
  - cbn in H2. rewrite H in H2. discriminate.
  - intros y Hy B. apply blank_spec in B. rewrite forallb_forall in H2. apply H2 in Hy. rewrite B in Hy. discriminate.
Qed.

Lemma alt_tl : forall c l, alt (c :: l) -> alt l.
Proof. intros c [ | d l] H; [exact I | apply H]. Qed.
Lemma alt_app_r : forall a b, alt (a ++ b) -> alt b.
Proof. induction a as [ | c a IH]; intros b H; [assumption | ]. apply IH. eapply alt_tl. exact H. Qed.
Lemma alt_app_l : forall a b, alt (a ++ b) -> alt a.
Proof.
  induction a as [ | c a IH]; intros b H; [exact I | ]. destruct a as [ | d a]; [exact I | ].
  cbn [app alt] in H |- *. destruct H as [H1 H2]. split; [assumption | ]. exact (IH b H2).
Qed.
Lemma alt_words : forall a b, Forall pure (a ++ b) -> alt (a ++ b) ->
  words (concat (a ++ b)) = words (concat a) ++ words (concat b).
Proof.
  intros a b HP HA. rewrite concat_app.
  destruct b as [ | d b]; [cbn; now rewrite !app_nil_r | ].
  destruct a as [ | c a] using rev_ind; [reflexivity | clear IHa].
  rewrite <- app_assoc in HP, HA. cbn [app] in HP, HA.
  apply alt_app_r in HA. cbn [alt] in HA. destruct HA as [HA _].
  apply Forall_app in HP as [_ HP]. inversion HP as [ | ? ? P1 HP']. inversion HP' as [ | ? ? P2 _]. subst.
  rewrite concat_app. cbn [concat]. rewrite app_nil_r.
  destruct (first_blank c) eqn:Ec.
  - apply (pure_blank _ P1) in Ec as [N1 S1]. rewrite <- app_assoc, (words_app_l c) by assumption.
    now rewrite (words_app_r _ c).
  - destruct (first_blank d) eqn:Ed; [ | congruence]. apply (pure_blank _ P2) in Ed as [N1 S1].
    rewrite (words_app_l d) by assumption. now rewrite (words_spaces_l d).
Qed.

Lemma lstrip_nil : forall s, lstrip s = [] <-> forallb is_space s = true.
Proof.
  induction s as [ | c s IH]; [now split | ]. cbn [lstrip forallb]. destruct (is_space c); [exact IH | ].
  split; discriminate.
Qed.
Lemma lstrip_head : forall s c t, lstrip s = c :: t -> is_space c = false.
Proof.
  induction s as [ | x s IH]; intros c t H; [discriminate | ]. cbn [lstrip] in H. destruct (is_space x) eqn:E; [eauto | ].
  injection H as <- <-. exact E.
Qed.
Lemma forallb_rev : forall {A} (f : A -> bool) l, forallb f (rev l) = forallb f l.
Proof.
  intros A f l. induction l as [ | x l IH]; [reflexivity | ]. cbn [rev]. rewrite forallb_app, IH. cbn. 
  destruct (f x); now rewrite ?andb_true_r, ?andb_false_r.
Qed.
Lemma empty_looking_spec : forall s, empty_looking s = true <-> forallb is_space s = true.
Proof.
  intros s. unfold empty_looking. rewrite <- lstrip_nil. unfold strip, rstrip. split; intros H.
  - destruct (lstrip s) as [ | c t] eqn:E; [reflexivity | ]. exfalso.
    destruct (rev (lstrip (rev (c :: t)))) eqn:E2; [ | discriminate].
    assert (lstrip (rev (c :: t)) = []) as E3. { rewrite <- (rev_involutive (lstrip (rev (c :: t)))), E2. reflexivity. }
    apply lstrip_nil in E3. rewrite forallb_rev in E3. cbn in E3. rewrite (lstrip_head _ _ _ E) in E3. discriminate.
  - now rewrite H.
Qed.

(** ** One line *)

Definition total (l : list str) : Z := zlen (concat l).
Lemma total_cons : forall c l, total (c :: l) = (zlen c + total l)%Z.
Proof. intros. unfold total, zlen. cbn [concat]. rewrite app_length. lia. Qed.
Lemma total_app : forall a b, total (a ++ b) = (total a + total b)%Z.
Proof. intros. unfold total, zlen. rewrite concat_app, app_length. lia. Qed.

Lemma take_fit_spec : forall room l used a b, take_fit room used l = (a, b) ->
  l = a ++ b /\ (a <> [] -> (used + total a <= room)%Z)
  /\ (forall c b', b = c :: b' -> (room < used + total a + zlen c)%Z).
Proof.
  intros room l. induction l as [ | c l IH]; intros used a b H; cbn [take_fit] in H.
  - injection H as <- <-. split; [reflexivity | ]. split; [contradiction | discriminate].
  - destruct (used + zlen c <=? room)%Z eqn:E.
    + destruct (take_fit room (used + zlen c) l) as [a' b'] eqn:E2. injection H as <- <-.
      destruct (IH _ _ _ E2) as (H1 & H2 & H3). rewrite H1. apply Z.leb_le in E. split; [reflexivity | ].
      rewrite total_cons. split.
      * intros _. destruct a' as [ | x a']; [change (total []) with 0%Z; lia | ]. specialize (H2 ltac:(discriminate)). lia.
      * intros d b'' Hd. specialize (H3 _ _ Hd). lia.
    + injection H as <- <-. apply Z.leb_gt in E. split; [reflexivity | ]. split; [contradiction | ].
      intros d b' Hd. injection Hd as <- <-. change (total []) with 0%Z. lia.
Qed.

Lemma drop_last_spec : forall l, exists t, l = drop_last_empty l ++ t /\ Forall (fun c => empty_looking c = true) t
  /\ (forall x, l = [x] -> drop_last_empty l = [] \/ (drop_last_empty l = [x] /\ empty_looking x = false)).
Proof.
  intros l. unfold drop_last_empty. destruct (rev l) as [ | c r] eqn:E.
  - exists []. rewrite app_nil_r. split; [reflexivity | ]. split; [constructor | ]. intros x ->. discriminate.
  - assert (El : l = rev r ++ [c]). { rewrite <- (rev_involutive l), E. reflexivity. }
    destruct (empty_looking c) eqn:Ec.
    + exists [c]. split; [assumption | ]. split; [constructor; auto | ]. intros x Hx. left. subst l.
      destruct r as [ | y r]; [reflexivity | ]. cbn [rev] in Hx. rewrite <- app_assoc in Hx. 
      apply (f_equal (@length _)) in Hx. rewrite !app_length in Hx. cbn in Hx. lia.
    + exists []. rewrite app_nil_r. split; [reflexivity | ]. split; [constructor | ]. intros x Hx. right.
      split; [assumption | ]. rewrite Hx in E. cbn in E. injection E as E' _. now rewrite E'.
Qed.

(** the state of a line: which chunks it takes *)
Definition line_of (room : Z) (l1 : list str) : list str * list str :=
  let (cur, rest) := take_fit room 0 l1 in
  match cur, rest with
  | [], x :: rest' => if (room <? zlen x)%Z then ([x], rest') else (cur, rest)
  | _, _ => (cur, rest)
  end.
Lemma line_of_spec : forall room l1 cur rest, line_of room l1 = (cur, rest) ->
  l1 = cur ++ rest /\ (l1 <> [] -> cur <> [])
  /\ ((total cur <= room)%Z \/ (exists x, cur = [x]) \/ cur = [])
  /\ (cur <> [] -> forall c rest', rest = c :: rest' -> (room < total cur + zlen c)%Z).
Proof.
  intros room l1 cur rest H. unfold line_of in H. destruct (take_fit room 0 l1) as [a b] eqn:E.
  destruct (take_fit_spec _ _ _ _ _ E) as (H1 & H2 & H3).
  destruct a as [ | y a].
  - destruct b as [ | x b].
    + injection H as <- <-. subst l1. repeat split; try contradiction. auto.
    + specialize (H3 _ _ eq_refl). change (total []) with 0%Z in H3.
      assert (E3 : (room <? zlen x)%Z = true) by (apply Z.ltb_lt; lia). rewrite E3 in H. injection H as <- <-.
      split; [assumption | ]. split; [discriminate | ]. split; [right; left; eauto | ].
      intros _ c rest' _. rewrite total_cons. change (total []) with 0%Z. unfold zlen in *. lia.
  - injection H as <- <-. split; [assumption | ]. split; [discriminate | ]. specialize (H2 ltac:(discriminate)).
    split; [left; lia | ]. intros _ c rest' Hc. specialize (H3 _ _ Hc). lia.
Qed.

Lemma wrap_step : forall fuel width first ini sub c l', wrap_chunks (S fuel) width first ini sub (c :: l') =
  let indent := if first then ini else sub in
  let l1 := if empty_looking c && negb first then l' else c :: l' in
  let '(cur, rest) := line_of (width - zlen indent) l1 in
  match drop_last_empty cur with
  | [] => wrap_chunks fuel width first ini sub rest
  | x :: cur => do lines <- wrap_chunks fuel width false ini sub rest;
           Ok ((indent ++ concat (x :: cur)) :: lines)
  end.
Proof.
  intros. cbn [wrap_chunks]. unfold line_of. cbv zeta.
  destruct (take_fit (width - zlen (if first then ini else sub)) 0 (if empty_looking c && negb first then l' else c :: l')) as [[ | a1 a] [ | b1 b]]; 
    reflexivity.
Qed.

Definition placed (first : bool) (ini sub : str) (bodies : list str) : list str :=
  if first then indented ini sub bodies else map (fun x => sub ++ x) bodies.
Definition placed_fit (width : Z) (first : bool) (ini sub : str) (bodies : list str) : Prop :=
  if first then all_fit width ini sub bodies else Forall (fits_or_one width sub) bodies.

Lemma wrap_chunks_spec : forall fuel width first ini sub l, Forall pure l -> alt l -> length l <= fuel ->
  exists bodies, wrap_chunks fuel width first ini sub l = Ok (placed first ini sub bodies)
    /\ flat_map words bodies = words (concat l)
    /\ placed_fit width first ini sub bodies
    /\ Forall (fun b => b <> []) bodies.
Proof.
  intros fuel width first ini sub. revert first. induction fuel as [ | fuel IH]; intros first l HP HA HL.
  - destruct l; [ | cbn in HL; lia]. exists []. destruct first; cbn; auto.
  - destruct l as [ | c l']; [exists []; destruct first; cbn; auto | ]. rewrite wrap_step. cbv zeta.
    set (indent := if first then ini else sub).
    set (l1 := if empty_looking c && negb first then l' else c :: l').
    assert (H1 : Forall pure l1 /\ alt l1 /\ words (concat (c :: l')) = words (concat l1)
                 /\ (length l1 <= length l' \/ l1 = c :: l')).
    { unfold l1. destruct (empty_looking c && negb first) eqn:E; [ | auto].
      inversion HP as [ | ? ? P1 P2]. subst. split; [assumption | ]. split; [now apply alt_tl with c | ]. split; [ | auto].
      apply andb_prop in E as [E _]. apply empty_looking_spec in E. cbn [concat]. now rewrite words_spaces_l. }
    destruct H1 as (P1 & A1 & W1 & L1). rewrite W1.
    destruct (line_of (width - zlen indent) l1) as [cur rest] eqn:E.
    destruct (line_of_spec _ _ _ _ E) as (F1 & F2 & F3 & _).
    assert (LR : length rest <= fuel).
    { cbn [length] in HL. destruct l1 as [ | y l1'] eqn:El1.
      - symmetry in F1. apply app_eq_nil in F1 as [_ ->]. cbn. lia.
      - specialize (F2 ltac:(discriminate)). destruct cur as [ | z cur]; [contradiction | ].
        apply (f_equal (@length _)) in F1. cbn [app length] in F1. rewrite app_length in F1.
        destruct L1 as [L1 | L1]; [cbn [length] in L1; lia | ]. apply (f_equal (@length _)) in L1. cbn [length] in L1. lia. }
    rewrite F1 in P1, A1.
    pose proof (alt_words _ _ P1 A1) as W2. rewrite <- F1 in W2. rewrite W2.
    apply Forall_app in P1 as [PC PR]. pose proof (alt_app_r _ _ A1) as AR. pose proof (alt_app_l _ _ A1) as AC.
    destruct (drop_last_spec cur) as (t & D1 & D2 & D3).
    assert (W3 : words (concat cur) = words (concat (drop_last_empty cur))).
    { rewrite D1 at 1. rewrite concat_app. apply words_app_r. clear -D2.
      induction D2 as [ | x t Hx _ IHt]; [reflexivity | ]. cbn [concat]. rewrite forallb_app, IHt.
      apply empty_looking_spec in Hx. now rewrite Hx. }
    rewrite W3.
    destruct (drop_last_empty cur) as [ | x cur'] eqn:Ed.
    + destruct (IH first rest PR AR LR) as (bodies & B1 & B2 & B3 & B4). exists bodies.
      rewrite B1, B2. cbn. auto.
    + destruct (IH false rest PR AR LR) as (bodies & B1 & B2 & B3 & B4).
      exists (concat (x :: cur') :: bodies). rewrite B1. cbn [rbind]. split; [ | split; [ | split]].
      * unfold placed, indent. destruct first; reflexivity.
      * cbn [flat_map]. now rewrite B2.
      * assert (FB : fits_or_one width indent (concat (x :: cur'))).
        { destruct F3 as [F3 | [(y & Hy) | Hy]].
          - left. unfold len. fold (zlen indent). fold (zlen (concat (x :: cur'))). fold (total (x :: cur')).
            rewrite D1, total_app in F3. unfold total in *. unfold zlen in *. lia.
          - right. destruct (D3 _ Hy) as [D | [D D4]]; [discriminate | ]. rewrite D. cbn [concat]. rewrite app_nil_r.
            apply pure_piece.
            + subst cur. now inversion PC.
            + destruct (first_blank y) eqn:Ey; [ | reflexivity]. exfalso.
              assert (Py : pure y) by (subst cur; now inversion PC).
              apply (pure_blank _ Py) in Ey as [_ Ey]. apply empty_looking_spec in Ey. congruence.
          - rewrite Hy in D1. cbn [app] in D1. discriminate. }
        unfold placed_fit in *. destruct first; [split; assumption | constructor; assumption].
      * constructor; [ | assumption]. 
        assert (PX : pure x). { rewrite D1 in PC. cbn [app] in PC. now inversion PC. }
        destruct x; [now destruct PX | discriminate].
Qed.

Lemma wrap_spec : forall width ini sub text, (0 < width)%Z ->
  exists bodies, wrap width ini sub text = Ok (indented ini sub bodies)
    /\ flat_map words bodies = words text
    /\ all_fit width ini sub bodies
    /\ Forall (fun b => b <> []) bodies.
Proof.
  intros width ini sub text H. unfold wrap. assert (E : (width <=? 0)%Z = false) by (apply Z.leb_gt; lia). rewrite E.
  destruct (chunks_good (munge text)) as [P A].
  destruct (wrap_chunks_spec (S (length (chunks (munge text)))) width true ini sub _ P A ltac:(lia)) as (bodies & B1 & B2 & B3 & B4).
  exists bodies. rewrite chunks_concat, munge_words in B2. auto.
Qed.

(** ** Single blanks *)

Lemma munge_plain : forall s, (forall c, In c s -> is_blank c = true -> c = SP) -> munge s = s.
Proof.
  intros s. unfold munge. generalize 0. induction s as [ | c s IH]; intros n H; [reflexivity | ]. cbn [expandtabs].
  assert (Hc : (code c =? 9)%N = false /\ (code c =? 10)%N || (code c =? 13)%N = false).
  { split; [destruct (code c =? 9)%N eqn:E | destruct ((code c =? 10)%N || (code c =? 13)%N) eqn:E]; try reflexivity; exfalso.
    - apply N.eqb_eq in E. assert (c = SP) as -> by (apply H; [now left | ]; unfold is_blank, in_range; now rewrite E). discriminate.
    - assert (c = SP) as ->. { apply H; [now left | ]. unfold is_blank, in_range. apply orb_true_iff in E as [E | E]; apply N.eqb_eq in E; now rewrite E. }
      discriminate. }
  destruct Hc as [-> ->]. cbn [map]. rewrite IH by (intros; apply H; [now right | assumption]).
  destruct (is_blank c) eqn:E; [ | reflexivity]. now rewrite (H c (or_introl eq_refl) E).
Qed.

Lemma word_blank : forall w, word w -> forallb (fun c => negb (is_blank c)) w = true.
Proof.
  intros w [_ H]. apply forallb_forall. intros c Hc. destruct (is_blank c) eqn:E; [ | reflexivity].
  apply blank_space in E. rewrite (H c Hc) in E. discriminate.
Qed.
Lemma chunks_run : forall w rest, forallb (fun c => negb (is_blank c)) w = true -> w <> [] ->
  (match rest with [] => True | c :: _ => is_blank c = true end) -> chunks (w ++ rest) = w :: chunks rest.
Proof.
  induction w as [ | c w IH]; intros rest H Hn Hr; [contradiction | ]. cbn [forallb] in H. apply andb_prop in H as [H1 H2].
  apply negb_true_iff in H1. cbn [app chunks]. destruct w as [ | d w].
  - cbn [app]. destruct rest as [ | e rest]; [reflexivity | ]. cbn [chunks].
    destruct (chunks rest) as [ | [ | f r] l]; try now (rewrite H1, Hr). 
    destruct (Bool.eqb (is_blank e) (is_blank f)); now rewrite H1, Hr.
  - rewrite (IH rest H2 ltac:(discriminate) Hr). cbn [forallb] in H2. apply andb_prop in H2 as [H2 _]. apply negb_true_iff in H2.
    now rewrite H1, H2.
Qed.
Lemma chunks_space : forall c s, is_blank c = false -> chunks (SP :: c :: s) = [SP] :: chunks (c :: s).
Proof.
  intros c s H. cbn [chunks]. destruct (chunks s) as [ | [ | d r] l].
  - change (is_blank SP) with true. now rewrite H.
  - change (is_blank SP) with true. now rewrite H.
  - destruct (Bool.eqb (is_blank c) (is_blank d)); change (is_blank SP) with true; now rewrite H.
Qed.

(** words with single spaces between them *)
Fixpoint spaced (ws : list str) : list str :=
  match ws with
  | [] => []
  | [w] => [w]
  | w :: ws' => w :: [SP] :: spaced ws'
  end.
Lemma spaced_cons : forall w ws, ws <> [] -> spaced (w :: ws) = w :: [SP] :: spaced ws.
Proof. intros w [ | x ws] H; [contradiction | reflexivity]. Qed.
Lemma word_cons : forall w, word w -> exists c w', w = c :: w' /\ is_blank c = false.
Proof.
  intros w H. pose proof (word_blank _ H) as HB. destruct H as [H _]. destruct w as [ | c w]; [contradiction | ].
  cbn in HB. apply andb_prop in HB as [HB _]. apply negb_true_iff in HB. eauto.
Qed.
Lemma chunks_join : forall ws, Forall word ws -> chunks (join (L " ") ws) = spaced ws.
Proof.
  induction ws as [ | w ws IH]; intros H; [reflexivity | ]. inversion H as [ | ? ? H1 H2]. subst. destruct ws as [ | w2 ws].
  - cbn [join spaced]. rewrite <- (app_nil_r w) at 1. rewrite chunks_run; [reflexivity | now apply word_blank | apply H1 | exact I].
  - change (join (L " ") (w :: w2 :: ws)) with (w ++ SP :: join (L " ") (w2 :: ws)).
    rewrite chunks_run; [ | now apply word_blank | apply H1 | reflexivity].
    inversion H2 as [ | ? ? H3 _]. subst.
    assert (E : exists c s, join (L " ") (w2 :: ws) = c :: s /\ is_blank c = false).
    { destruct (word_cons _ H3) as (c & w' & -> & Hc). exists c. destruct ws; eexists; split; (reflexivity || exact Hc). }
    rewrite spaced_cons by discriminate. f_equal. pose proof (IH H2) as IH'. destruct E as (c & s & E & Hc).
    rewrite E in IH' |- *. rewrite chunks_space by exact Hc. now f_equal.
Qed.
Lemma concat_spaced : forall ws, concat (spaced ws) = join (L " ") ws.
Proof.
  induction ws as [ | w ws IH]; [reflexivity | ]. destruct ws as [ | w2 ws]; [cbn; now rewrite app_nil_r | ].
  change (concat (spaced (w :: w2 :: ws))) with (w ++ [SP] ++ concat (spaced (w2 :: ws))). rewrite IH. reflexivity.
Qed.
Lemma empty_word : forall w, word w -> empty_looking w = false.
Proof.
  intros w [H1 H2]. destruct (empty_looking w) eqn:E; [ | reflexivity]. apply empty_looking_spec in E.
  destruct w as [ | c w]; [contradiction | ]. cbn in E. rewrite (H2 c) in E by now left. discriminate.
Qed.


(** a prefix of the chunks: some words, perhaps one blank more *)
Lemma spaced_prefix : forall ws a b, spaced ws = a ++ b -> a <> [] ->
  exists some rest, ws = some ++ rest /\ some <> [] /\
    ((a = spaced some /\ b = match rest with [] => [] | _ => [SP] :: spaced rest end)
     \/ (a = spaced some ++ [[SP]] /\ b = spaced rest /\ rest <> [])).
Proof.
  induction ws as [ | w ws IH]; intros a b H Hn; [destruct a; [contradiction | discriminate] | ].
  destruct ws as [ | w2 ws].
  - cbn [spaced] in H. destruct a as [ | x a]; [contradiction | ]. injection H as -> H. symmetry in H. apply app_eq_nil in H as [-> ->].
    exists [x], []. split; [reflexivity | ]. split; [discriminate | ]. left. auto.
  - change (spaced (w :: w2 :: ws)) with (w :: [SP] :: spaced (w2 :: ws)) in H.
    destruct a as [ | x a]; [contradiction | ]. cbn [app] in H. injection H as -> H.
    destruct a as [ | y a].
    + cbn [app] in H. exists [x], (w2 :: ws). split; [reflexivity | ]. split; [discriminate | ]. left. split; [reflexivity | symmetry; exact H].
    + cbn [app] in H. apply (f_equal (fun l => (hd [] l, tl l))) in H. injection H as <- H.
      destruct a as [ | z a].
      * exists [x], (w2 :: ws). split; [reflexivity | ]. split; [discriminate | ]. right. split; [reflexivity | ]. split; [symmetry; exact H | discriminate].
      * destruct (IH (z :: a) b H ltac:(discriminate)) as (some & rest & E & N & D).
        exists (x :: some), rest. split; [cbn [app]; now rewrite <- E | ]. split; [discriminate | ].
        rewrite (spaced_cons x some N). destruct D as [[D1 D2] | [D1 D2]].
        -- left. split; [now rewrite D1 | assumption].
        -- right. split; [now rewrite D1 | assumption].
Qed.

Lemma drop_last_app : forall l x, drop_last_empty (l ++ [x]) = if empty_looking x then l else l ++ [x].
Proof.
  intros l x. unfold drop_last_empty. rewrite rev_app_distr. cbn [rev app]. now rewrite rev_involutive.
Qed.
Lemma spaced_last : forall some, some <> [] -> exists l w, spaced some = l ++ [w] /\ In w some.
Proof.
  induction some as [ | w some IH]; intros H; [contradiction | ]. destruct some as [ | w2 some].
  - exists [], w. split; [reflexivity | now left].
  - destruct (IH ltac:(discriminate)) as (l & x & E & I1). exists (w :: [SP] :: l), x. split; [ | now right].
    rewrite spaced_cons by discriminate. now rewrite E.
Qed.
Lemma spaced_snoc : forall some w, some <> [] -> spaced (some ++ [w]) = spaced some ++ [[SP]; w].
Proof.
  induction some as [ | x some IH]; intros w H; [contradiction | ]. destruct some as [ | y some]; [reflexivity | ].
  cbn [app]. rewrite spaced_cons by (destruct some; discriminate). change (y :: some ++ [w]) with ((y :: some) ++ [w]).
  rewrite IH by discriminate. rewrite (spaced_cons x (y :: some)) by discriminate. reflexivity.
Qed.

Lemma filled_app : forall width sub ini some rest lines ws, ws = some ++ rest -> some <> [] ->
  ((len ini + len (join (L " ") some) <= width)%Z \/ length some = 1) ->
  (forall w rest', rest = w :: rest' -> (width < len ini + len (join (L " ") (some ++ [w])))%Z) ->
  filled width sub sub rest lines -> filled width sub ini ws ((ini ++ join (L " ") some) :: lines).
Proof. intros. subst. now constructor. Qed.

(** a line that starts with a word *)
Lemma line_words : forall width indent ws cur rest, Forall word ws -> ws <> [] ->
  line_of (width - zlen indent) (spaced ws) = (cur, rest) ->
  exists some others, ws = some ++ others /\ some <> [] /\ drop_last_empty cur = spaced some
    /\ ((len indent + len (join (L " ") some) <= width)%Z \/ length some = 1)
    /\ (forall w rest', others = w :: rest' -> (width < len indent + len (join (L " ") (some ++ [w])))%Z)
    /\ ((others = [] /\ rest = []) \/ (others <> [] /\ (rest = [SP] :: spaced others \/ rest = spaced others))).
Proof.
  intros width indent ws cur rest HW HN H.
  destruct (line_of_spec _ _ _ _ H) as (F1 & F2 & F3 & F4).
  assert (HS : spaced ws <> []). { destruct ws as [ | w [ | w2 ws]]; [contradiction | discriminate | discriminate]. }
  specialize (F2 HS). specialize (F4 F2).
  destruct (spaced_prefix _ _ _ F1 F2) as (some & others & E1 & E2 & D).
  exists some, others. split; [assumption | ]. split; [assumption | ].
  assert (HT : forall l, total (spaced l) = len (join (L " ") l)). { intros l. unfold total. rewrite concat_spaced. reflexivity. }
  assert (HL : drop_last_empty cur = spaced some).
  { destruct (spaced_last some E2) as (l & w & El & Hw).
    assert (Ww : word w). { rewrite E1 in HW. apply Forall_app in HW as [HW _]. rewrite Forall_forall in HW. auto. }
    destruct D as [[D1 D2] | [D1 D2]].
    - rewrite D1, El, drop_last_app, (empty_word _ Ww). reflexivity.
    - rewrite D1, drop_last_app. change (empty_looking [SP]) with true. reflexivity. }
  split; [assumption | ].
  assert (HS1 : forall w, others <> [] -> len (join (L " ") (some ++ [w])) = (len (join (L " ") some) + 1 + zlen w)%Z).
  { intros w _. rewrite <- !HT, (spaced_snoc some w E2), total_app, !total_cons. change (total []) with 0%Z. unfold zlen. cbn [length]. lia. }
  split; [ | split].
  - destruct F3 as [F3 | [(x & Hx) | Hx]]; [ | | contradiction].
    + left. destruct D as [[D1 D2] | [D1 D2]].
      * rewrite D1, HT in F3. unfold len, zlen in *. lia.
      * rewrite D1, total_app, HT in F3. change (total [[SP]]) with 1%Z in F3. unfold len, zlen in *. lia.
    + right. destruct D as [[D1 D2] | [D1 D2]].
      * rewrite Hx in D1. destruct some as [ | s1 [ | s2 some]]; [contradiction | reflexivity | ].
        rewrite spaced_cons in D1 by discriminate. discriminate.
      * rewrite Hx in D1. destruct some as [ | s1 [ | s2 some]]; [contradiction | reflexivity | ].
        rewrite spaced_cons in D1 by discriminate. discriminate.
  - intros w rest' Ho. rewrite HS1 by (rewrite Ho; discriminate). destruct D as [[D1 D2] | (D1 & D2 & D3)].
    + rewrite Ho in D2. specialize (F4 _ _ D2). rewrite D1, HT in F4. unfold len, zlen in *. cbn [length] in F4. lia.
    + rewrite Ho in D2. assert (E : exists r, rest = w :: r). { rewrite D2. destruct rest'; eexists; reflexivity. }
      destruct E as [r E]. specialize (F4 _ _ E). rewrite D1, total_app, HT in F4. change (total [[SP]]) with 1%Z in F4. unfold len, zlen in *. lia.
  - destruct D as [[D1 D2] | (D1 & D2 & D3)].
    + destruct others as [ | o others]; [left; auto | ]. right. split; [discriminate | ]. auto.
    + right. auto.
Qed.

Lemma wrap_words : forall fuel width ini sub,
  (forall ws first, Forall word ws -> length (spaced ws) <= fuel ->
     exists lines, wrap_chunks fuel width first ini sub (spaced ws) = Ok lines /\ filled width sub (if first then ini else sub) ws lines)
  /\ (forall ws, Forall word ws -> ws <> [] -> S (length (spaced ws)) <= fuel ->
     exists lines, wrap_chunks fuel width false ini sub ([SP] :: spaced ws) = Ok lines /\ filled width sub sub ws lines).
Proof.
  intros fuel width ini sub. induction fuel as [ | fuel [IH1 IH2]].
  - split.
    + intros ws first HW HL. destruct ws as [ | w [ | w2 ws]]; try (cbn in HL; lia). exists []. split; [reflexivity | constructor].
    + intros; lia.
  - assert (Step : forall ws (first : bool) cur rest, Forall word ws -> ws <> [] -> length rest <= fuel ->
        line_of (width - zlen (if first then ini else sub)) (spaced ws) = (cur, rest) ->
        exists lines, match drop_last_empty cur with
                      | [] => wrap_chunks fuel width first ini sub rest
                      | x :: cur => do lines <- wrap_chunks fuel width false ini sub rest;
                                    Ok (((if first then ini else sub) ++ concat (x :: cur)) :: lines)
                      end = Ok lines /\ filled width sub (if first then ini else sub) ws lines).
    { intros ws first cur rest HW HN HL E. destruct (line_words _ _ _ _ _ HW HN E) as (some & others & E1 & E2 & E3 & E4 & E5 & E6).
      assert (HO : Forall word others). { rewrite E1 in HW. now apply Forall_app in HW as [_ HW]. }
      assert (R : exists lines, wrap_chunks fuel width false ini sub rest = Ok lines /\ filled width sub sub others lines).
      { destruct E6 as [[-> ->] | [N [-> | ->]]].
        - exists []. split; [destruct fuel; reflexivity | constructor].
        - apply IH2; [assumption | assumption | ]. cbn [length] in HL. lia.
        - apply (IH1 others false); assumption. }
      destruct R as (lines & R1 & R2). rewrite E3.
      destruct (spaced some) as [ | x l] eqn:Es.
      - destruct some as [ | s1 [ | s2 some]]; [contradiction | discriminate | discriminate].
      - rewrite R1. cbn [rbind]. rewrite <- Es, concat_spaced. eexists. split; [reflexivity | ].
        eapply filled_app; eassumption. }
    assert (LenStep : forall (first : bool) room (l l1 : list str), length l1 <= S fuel -> forall cur rest, line_of room l1 = (cur, rest) -> l1 <> [] -> length rest <= fuel).
    { intros first room l l1 H cur rest E N. destruct (line_of_spec _ _ _ _ E) as (F1 & F2 & _). specialize (F2 N).
      destruct cur; [contradiction | ]. apply (f_equal (@length _)) in F1. rewrite app_length in F1. cbn [length] in F1. lia. }
    split.
    + intros ws first HW HL. destruct ws as [ | w ws]; [exists []; split; [reflexivity | constructor] | ].
      assert (E : exists l, spaced (w :: ws) = w :: l). { destruct ws; eexists; reflexivity. }
      destruct E as [l E]. rewrite E, wrap_step. cbv zeta.
      assert (Ww : word w) by now inversion HW. rewrite (empty_word _ Ww). cbn [andb]. rewrite <- E.
      destruct (line_of (width - zlen (if first then ini else sub)) (spaced (w :: ws))) as [cur rest] eqn:El.
      apply (Step (w :: ws) first cur rest HW ltac:(discriminate)); [ | exact El].
      apply (LenStep first _ [] _ HL _ _ El). rewrite E. discriminate.
    + intros ws HW HN HL. rewrite wrap_step. cbv zeta. change (empty_looking [SP]) with true. cbn [andb negb].
      destruct (line_of (width - zlen sub) (spaced ws)) as [cur rest] eqn:El.
      apply (Step ws false cur rest HW HN); [ | exact El].
      apply (LenStep false _ [] _ (Nat.lt_le_incl _ _ HL) _ _ El). destruct ws as [ | w [ | w2 ws]]; [contradiction | discriminate | discriminate].
Qed.

Lemma join_space : forall ws c, In c (join (L " ") ws) -> c = SP \/ exists w, In w ws /\ In c w.
Proof.
  induction ws as [ | w ws IH]; intros c H; [contradiction | ]. destruct ws as [ | w2 ws].
  - right. exists w. split; [now left | exact H].
  - change (join (L " ") (w :: w2 :: ws)) with (w ++ SP :: join (L " ") (w2 :: ws)) in H. apply in_app_or in H as [H | [H | H]].
    + right. exists w. split; [now left | assumption].
    + left. now symmetry.
    + destruct (IH c H) as [Hc | (x & H1 & H2)]; [now left | ]. right. exists x. split; [now right | assumption].
Qed.
Lemma wrap_filled : forall width ini sub ws, (0 < width)%Z -> Forall word ws ->
  exists lines, wrap width ini sub (join (L " ") ws) = Ok lines /\ filled width sub ini ws lines.
Proof.
  intros width ini sub ws H HW. unfold wrap. assert (E : (width <=? 0)%Z = false) by (apply Z.leb_gt; lia). rewrite E.
  assert (M : munge (join (L " ") ws) = join (L " ") ws).
  { apply munge_plain. intros c Hc HB. destruct (join_space _ _ Hc) as [-> | (w & H1 & H2)]; [reflexivity | ].
    rewrite Forall_forall in HW. destruct (HW w H1) as [_ HS]. apply blank_space in HB. rewrite (HS c H2) in HB. discriminate. }
  rewrite M, (chunks_join _ HW).
  destruct (wrap_words (S (length (spaced ws))) width ini sub) as [W _]. exact (W ws true HW ltac:(lia)).
Qed.

(** the filling is unique *)
Lemma join_more : forall some w others, (len (join (L " ") (some ++ [w])) <= len (join (L " ") (some ++ w :: others)))%Z.
Proof.
  intros some w others. unfold len. apply inj_le. induction some as [ | x some IH].
  - cbn [app join]. destruct others; [lia | ]. rewrite !app_length. lia.
  - cbn [app join]. destruct (some ++ [w]) eqn:A; [destruct some; discriminate | ].
    destruct (some ++ w :: others) eqn:B; [destruct some; discriminate | ]. rewrite !app_length. lia.
Qed.
Lemma line_same : forall width ini some rest some' rest', some ++ rest = some' ++ rest' ->
  (some <> [] /\ ((len ini + len (join (L " ") some) <= width)%Z \/ length some = 1) /\
   forall w r, rest = w :: r -> (width < len ini + len (join (L " ") (some ++ [w])))%Z) ->
  (some' <> [] /\ ((len ini + len (join (L " ") some') <= width)%Z \/ length some' = 1) /\
   forall w r, rest' = w :: r -> (width < len ini + len (join (L " ") (some' ++ [w])))%Z) ->
  length some <= length some' -> some = some'.
Proof.
  intros width ini some rest some' rest' E (N & F & G) (N' & F' & G') Le.
  assert (P : exists t, some' = some ++ t /\ rest = t ++ rest').
  { exists (skipn (length some) some'). pose proof (f_equal (firstn (length some)) E) as A. pose proof (f_equal (skipn (length some)) E) as B.
    rewrite !firstn_app, Nat.sub_diag in A. cbn [firstn] in A. rewrite app_nil_r, firstn_all in A.
    rewrite !skipn_app, Nat.sub_diag in B. cbn [skipn] in B. rewrite skipn_all in B.
    replace (length some - length some') with 0 in A, B by lia. cbn [firstn skipn] in A, B. rewrite app_nil_r in A.
    split; [ | exact B]. rewrite A at 1. symmetry. apply firstn_skipn. }
  destruct P as (t & Et & Er). destruct t as [ | w t]; [now rewrite Et, app_nil_r | exfalso].
  specialize (G w (t ++ rest')). cbn [app] in Er. specialize (G Er). pose proof (join_more some w t) as J. rewrite Et in F'.
  destruct F' as [F' | F']; [lia | ]. rewrite app_length in F'. cbn [length] in F'. destruct some; [congruence | cbn [length] in F'; lia].
Qed.
Lemma filled_unique : forall width sub ini ws lines lines', filled width sub ini ws lines -> filled width sub ini ws lines' -> lines = lines'.
Proof.
  intros width sub ini ws lines lines' H. revert lines'. induction H as [ini | ini some rest lines N F G H IH]; intros lines' H'.
  - inversion H' as [ | ? some' rest' ? N' ? ? ? E]; [reflexivity | ]. destruct some'; [congruence | discriminate].
  - inversion H' as [ini' E | ini' some' rest' lines2 N' F' G' H2 E E2 E3]; [destruct some; [congruence | discriminate] | ].
    assert (S : some = some').
    { destruct (Nat.le_ge_cases (length some) (length some')) as [Le | Le].
      - exact (line_same width ini some rest some' rest' (eq_sym E2) (conj N (conj F G)) (conj N' (conj F' G')) Le).
      - symmetry. exact (line_same width ini some' rest' some rest E2 (conj N' (conj F' G')) (conj N (conj F G)) Le). }
    subst some'. apply app_inv_head in E2. subst rest'. f_equal. now apply IH.
Qed.
