(** Wrapping with long words cut, and the texts made with it. *)
From Coq Require Import List Ascii ZArith Lia Bool.
Import ListNotations.
From Verif Require Import PyBase PyBaseProofs WrapModel WrapSpec WrapProofs InfoModel InfoProfileProofs InfoMoreSpec InfoMoreProofs
  UsageModel UsageSpec UsageReProofs UsageProofs.
Local Open Scope nat_scope.

Definition cut_line (room : Z) (l1 : list str) : list str * list str :=
  let (cur, rest) := take_fit room 0 l1 in
  match rest with
  | x :: rest' =>
      if (room <? zlen x)%Z
      then let left := if (room <? 1)%Z then 1 else Z.to_nat (room - zlen (concat cur)) in
           (cur ++ [firstn left x], skipn left x :: rest')
      else (cur, rest)
  | [] => (cur, rest)
  end.
Lemma break_step : forall fuel width first ini sub c l', break_chunks (S fuel) width first ini sub (c :: l') =
  let indent := if first then ini else sub in
  let l1 := if empty_looking c && negb first then l' else c :: l' in
  let '(cur, rest) := cut_line (width - zlen indent) l1 in
  match drop_last_empty cur with
  | [] => break_chunks fuel width first ini sub rest
  | x :: cur => do lines <- break_chunks fuel width false ini sub rest;
           Ok ((indent ++ concat (x :: cur)) :: lines)
  end.
Proof.
  intros. cbn [break_chunks]. unfold cut_line. cbv zeta.
  destruct (take_fit (width - zlen (if first then ini else sub)) 0 (if empty_looking c && negb first then l' else c :: l')) as [a [ | b1 b]];
    [reflexivity | ].
  destruct (width - zlen (if first then ini else sub) <? zlen b1)%Z; reflexivity.
Qed.

Definition size (l : list str) : nat := length (concat l) + length l.
Lemma size_app : forall a b, size (a ++ b) = size a + size b.
Proof. intros. unfold size. rewrite concat_app, !app_length. lia. Qed.
Lemma size_cons : forall c l, size (c :: l) = S (length c) + size l.
Proof. intros. unfold size. cbn [concat length]. rewrite app_length. lia. Qed.

(** nothing but blanks is cut *)
Definition short_pieces (room : Z) (l : list str) : Prop := forall c, In c l -> first_blank c = false -> (zlen c <= room)%Z.

Lemma skipn_pure : forall c n, pure c -> n < length c -> pure (skipn n c) /\ first_blank (skipn n c) = first_blank c.
Proof.
  intros c n [N P] H.
  assert (NE : skipn n c <> []). { intros E. apply (f_equal (@length _)) in E. rewrite skipn_length in E. cbn in E. lia. }
  rewrite <- (firstn_skipn n c) in P. 
  assert (F : forall f, forallb f (firstn n c ++ skipn n c) = true -> forallb f (skipn n c) = true).
  { intros f E. rewrite forallb_app in E. now apply andb_prop in E as [_ E]. }
  split.
  - split; [exact NE | ]. destruct P as [P | P]; [left | right]; now apply F.
  - destruct (skipn n c) as [ | d t] eqn:E; [contradiction | ]. destruct c as [ | x c]; [contradiction | ]. cbn [first_blank].
    rewrite <- E in P. rewrite firstn_skipn in P. destruct P as [P | P].
    + assert (Px := P). cbn [forallb] in Px. apply andb_prop in Px as [Px _]. rewrite Px.
      rewrite <- (firstn_skipn n (x :: c)), E in P. apply F in P. cbn [forallb] in P. now apply andb_prop in P as [P _].
    + assert (Px := P). cbn [forallb] in Px. apply andb_prop in Px as [Px _]. apply negb_true_iff in Px. rewrite Px.
      rewrite <- (firstn_skipn n (x :: c)), E in P. apply F in P. cbn [forallb] in P. apply andb_prop in P as [P _].
      now apply negb_true_iff.
Qed.
Lemma alt_head : forall c d l, first_blank c = first_blank d -> alt (c :: l) -> alt (d :: l).
Proof. intros c d [ | e l] H A; [exact I | ]. cbn [alt] in *. rewrite <- H. exact A. Qed.

Lemma cut_line_spec : forall room l1 cur rest, (1 <= room)%Z -> Forall pure l1 -> alt l1 -> cut_line room l1 = (cur, rest) ->
  concat l1 = concat cur ++ concat rest
  /\ (zlen (concat cur) <= room)%Z
  /\ (l1 <> [] -> size rest < size l1)
  /\ Forall pure rest /\ alt rest
  /\ Forall (fun c => c <> []) (drop_last_empty cur)
  /\ (short_pieces room l1 -> words (concat l1) = words (concat cur) ++ words (concat rest))
  /\ (forall r, short_pieces r l1 -> short_pieces room l1 -> short_pieces r rest).
Proof.
  intros room l1 cur rest HR HP HA H. unfold cut_line in H. destruct (take_fit room 0 l1) as [a b] eqn:E.
  destruct (take_fit_spec _ _ _ _ _ E) as (H1 & H2 & H3).
  assert (TA : (zlen (concat a) <= room)%Z). { destruct a as [ | y a]; [cbn; lia | ]. specialize (H2 ltac:(discriminate)). unfold total in H2. lia. }
  assert (PA : Forall (fun c : str => c <> []) a).
  { rewrite H1 in HP. apply Forall_app in HP as [HP _]. eapply Forall_impl; [ | exact HP]. intros c [Hc _]. exact Hc. }
  assert (DA : forall l t, Forall (fun c : str => c <> []) l -> Forall (fun c : str => c <> []) (drop_last_empty (l ++ t)) -> True) by auto.
  assert (DL : forall l : list str, Forall (fun c : str => c <> []) l -> Forall (fun c : str => c <> []) (drop_last_empty l)).
  { intros l F. destruct (drop_last_spec l) as (t & D & _). rewrite D in F. now apply Forall_app in F as [F _]. }
  destruct b as [ | x b].
  - injection H as <- <-. rewrite app_nil_r in H1. subst l1. cbn [concat]. rewrite app_nil_r. split; [reflexivity | ]. split; [exact TA | ].
    split. { intros N. destruct a as [ | y a]; [contradiction | ]. rewrite size_cons. cbn. lia. }
    split; [constructor | ]. split; [exact I | ]. split; [now apply DL | ]. split; [intros _; cbn; now rewrite app_nil_r | ].
    intros r _ _ c [].
  - specialize (H3 _ _ eq_refl). unfold total in H3.
    destruct (room <? zlen x)%Z eqn:L.
    + apply Z.ltb_lt in L. assert (Z.ltb room 1 = false) as R1 by (apply Z.ltb_ge; lia). rewrite R1 in H. cbv zeta in H. injection H as <- <-.
      set (left := Z.to_nat (room - zlen (concat a))).
      assert (LL : left < length x). { unfold left, zlen in *. lia. }
      assert (Px : pure x). { rewrite H1 in HP. apply Forall_app in HP as [_ HP]. now inversion HP. }
      destruct (skipn_pure x left Px LL) as [PS FS].
      split. { rewrite H1, !concat_app. cbn [concat]. rewrite app_nil_r, <- app_assoc. f_equal. rewrite app_assoc. f_equal. symmetry. apply firstn_skipn. }
      split. { rewrite concat_app. cbn [concat]. rewrite app_nil_r. unfold zlen in *. rewrite app_length, firstn_length. unfold left. lia. }
      split. { intros _. rewrite H1, size_app, !size_cons, skipn_length. 
        destruct a as [ | y a]; [ | rewrite size_cons; lia]. assert (1 <= left); [ | lia]. unfold left. cbn. lia. }
      rewrite H1 in HP, HA. apply Forall_app in HP as [HPa HPb]. inversion HPb as [ | ? ? P1 P2]. subst x0 l.
      pose proof (alt_app_r _ _ HA) as AB.
      split; [now constructor | ]. split. { eapply alt_head; [ | exact AB]. now symmetry. }
      split.
      { rewrite WrapProofs.drop_last_app. destruct (empty_looking (firstn left x)) eqn:EL; [exact PA | ]. apply Forall_app. split; [exact PA | ].
        constructor; [ | constructor]. intros X. rewrite X in EL. discriminate EL. }
      assert (SB : short_pieces room l1 -> first_blank x = true).
      { intros S. destruct (first_blank x) eqn:F; [reflexivity | ]. exfalso. assert (zlen x <= room)%Z; [ | lia]. apply S; [ | exact F].
        rewrite H1. apply in_or_app. right. now left. }
      split.
      * intros S. specialize (SB S). destruct (pure_blank _ P1 SB) as [Nx Sx]. rewrite H1, !concat_app. cbn [concat]. rewrite app_nil_r.
        assert (S12 : forallb is_space (firstn left x) = true /\ forallb is_space (skipn left x) = true).
        { rewrite <- (firstn_skipn left x), forallb_app in Sx. now apply andb_prop in Sx. }
        destruct S12 as [S1 S2]. rewrite (words_app_l x) by assumption. rewrite words_app_r by exact S1. now rewrite words_spaces_l.
      * intros r SR S c [<- | I] Fc.
        -- rewrite FS, (SB S) in Fc. discriminate.
        -- apply SR; [ | exact Fc]. rewrite H1. apply in_or_app. right. now right.
    + apply Z.ltb_ge in L. injection H as <- <-. rewrite H1. split; [apply concat_app | ]. split; [exact TA | ].
      split. { intros _. rewrite size_app. destruct a as [ | y a]; [ | rewrite (size_cons y a); lia]. cbn in H3. lia. }
      rewrite H1 in HP, HA. pose proof (alt_words _ _ HP HA) as W. apply Forall_app in HP as [HPa HPb].
      split; [exact HPb | ]. split; [now apply alt_app_r in HA | ]. split; [now apply DL | ]. split; [intros _; exact W | ].
      intros r SR _ c I. apply SR. apply in_or_app. now right.
Qed.

Lemma break_spec : forall fuel width first ini sub l,
  (1 <= width - zlen ini)%Z -> (1 <= width - zlen sub)%Z -> Forall pure l -> alt l -> size l <= fuel ->
  exists bodies, break_chunks fuel width first ini sub l = Ok (placed first ini sub bodies)
    /\ ink (concat bodies) = ink (concat l)
    /\ Forall (fun x => (zlen x <= width)%Z) (placed first ini sub bodies)
    /\ Forall (fun b => b <> []) bodies
    /\ (short_pieces (width - zlen ini) l -> short_pieces (width - zlen sub) l -> flat_map words bodies = words (concat l)).
Proof.
  intros fuel width first ini sub l HI HS. revert first l. induction fuel as [ | fuel IH]; intros first l HP HA HF.
  - destruct l as [ | c l]; [ | rewrite size_cons in HF; lia]. exists []. cbn [break_chunks concat ink filter flat_map].
    split; [now destruct first | ]. split; [reflexivity | ]. split; [destruct first; constructor | ]. split; [constructor | reflexivity].
  - destruct l as [ | c l'].
    { exists []. cbn [break_chunks concat]. split; [now destruct first | ]. split; [reflexivity | ]. split; [destruct first; constructor | ].
      split; [constructor | reflexivity]. }
    rewrite break_step. cbv zeta. set (indent := if first then ini else sub).
    set (l1 := if empty_looking c && negb first then l' else c :: l').
    assert (H1 : Forall pure l1 /\ alt l1 /\ words (concat (c :: l')) = words (concat l1) /\ ink (concat (c :: l')) = ink (concat l1)
                 /\ size l1 <= size (c :: l') /\ (l1 = [] -> size (c :: l') > 0) /\ (l1 = c :: l' \/ size l1 < size (c :: l')) /\ incl l1 (c :: l')).
    { unfold l1. destruct (empty_looking c && negb first) eqn:E.
      - inversion HP as [ | ? ? P1 P2]. subst. apply andb_prop in E as [E _]. apply empty_looking_spec in E.
        split; [assumption | ]. split; [now apply alt_tl with c | ]. split; [cbn [concat]; now rewrite words_spaces_l | ].
        split; [cbn [concat]; rewrite ink_app, (ink_forallb _ E); reflexivity | ]. rewrite size_cons.
        split; [lia | ]. split; [lia | ]. split; [right; lia | ]. intros z Z. now right.
      - split; [assumption | ]. split; [assumption | ]. split; [reflexivity | ]. split; [reflexivity | ]. split; [lia | ].
        split; [discriminate | ]. split; [now left | apply incl_refl]. }
    destruct H1 as (P1 & A1 & W1 & I1 & S1 & S2 & S3 & SI). rewrite W1, I1.
    assert (HR : (1 <= width - zlen indent)%Z) by (unfold indent; destruct first; assumption).
    destruct (cut_line (width - zlen indent) l1) as [cur rest] eqn:E.
    destruct (cut_line_spec _ _ _ _ HR P1 A1 E) as (F1 & F2 & F3 & F4 & F5 & F6 & F7 & F8).
    assert (LR : size rest <= fuel).
    { destruct l1 as [ | y l1'] eqn:El1.
      - unfold cut_line in E. cbn [take_fit] in E. injection E as <- <-. change (size (@nil str)) with 0. lia.
      - specialize (F3 ltac:(discriminate)). lia. }
    destruct (drop_last_spec cur) as (t & D1 & D2 & _).
    assert (ST : forallb is_space (concat t) = true).
    { clear -D2. induction D2 as [ | x t Hx _ IHt]; [reflexivity | ]. cbn [concat]. rewrite forallb_app, IHt. apply empty_looking_spec in Hx. now rewrite Hx. }
    assert (W3 : words (concat cur) = words (concat (drop_last_empty cur))).
    { rewrite D1 at 1. rewrite concat_app. now apply words_app_r. }
    assert (I3 : ink (concat cur) = ink (concat (drop_last_empty cur))).
    { rewrite D1 at 1. rewrite concat_app, ink_app, (ink_forallb _ ST). apply app_nil_r. }
    assert (Z3 : (zlen (concat (drop_last_empty cur)) <= width - zlen indent)%Z).
    { rewrite D1, concat_app in F2. unfold zlen in *. rewrite app_length in F2. lia. }
    assert (SH : short_pieces (width - zlen ini) (c :: l') -> short_pieces (width - zlen sub) (c :: l') ->
                 short_pieces (width - zlen indent) l1 /\ short_pieces (width - zlen ini) rest /\ short_pieces (width - zlen sub) rest).
    { intros X Y. assert (X1 : short_pieces (width - zlen ini) l1) by (intros z Z; apply X, SI, Z).
      assert (Y1 : short_pieces (width - zlen sub) l1) by (intros z Z; apply Y, SI, Z).
      assert (K : short_pieces (width - zlen indent) l1) by (unfold indent; destruct first; assumption).
      split; [exact K | ]. split; now apply F8. }
    rewrite F1, ink_app, I3.
    destruct (drop_last_empty cur) as [ | x cur'] eqn:Ed.
    + destruct (IH first rest F4 F5 LR) as (bodies & B1 & B2 & B3 & B4 & B5). exists bodies.
      split; [exact B1 | ]. split; [cbn; exact B2 | ]. split; [exact B3 | ]. split; [exact B4 | ].
      intros X Y. destruct (SH X Y) as (K1 & K2 & K3). rewrite <- F1, (F7 K1), W3. cbn [concat app]. now rewrite B5.
    + destruct (IH false rest F4 F5 LR) as (bodies & B1 & B2 & B3 & B4 & B5).
      exists (concat (x :: cur') :: bodies). rewrite B1. cbn [rbind]. split; [ | split; [ | split; [ | split]]].
      * unfold placed, indent. destruct first; reflexivity.
      * change (concat (concat (x :: cur') :: bodies)) with (concat (x :: cur') ++ concat bodies). now rewrite ink_app, B2.
      * assert (FX : (zlen (indent ++ concat (x :: cur')) <= width)%Z). { unfold zlen in *. rewrite app_length. lia. }
        unfold placed in B3 |- *. unfold indent in FX. destruct first; cbn [indented map]; constructor; assumption.
      * constructor; [ | exact B4]. inversion F6 as [ | ? ? N _]. subst. cbn [concat]. destruct x; [contradiction | discriminate].
      * intros X Y. destruct (SH X Y) as (K1 & K2 & K3). rewrite <- F1, (F7 K1), W3. cbn [flat_map]. now rewrite (B5 K2 K3).
Qed.

(** ** Pieces of the text *)
Lemma expandtabs_ink : forall s col, ink (map (fun c => if is_blank c then SP else c) (expandtabs col s)) = ink s.
Proof.
  assert (R : forall n, ink (map (fun c => if is_blank c then SP else c) (repeat SP n)) = []).
  { intros n. apply ink_forallb. induction n as [ | n IH]; [reflexivity | ]. cbn [repeat map forallb]. exact IH. }
  assert (B : forall c s, is_blank c = true -> ink (c :: s) = ink s).
  { intros c s H. apply blank_space in H. unfold ink. cbn [filter]. now rewrite H. }
  intros s. induction s as [ | c s IH]; intros col; [reflexivity | ]. cbn [expandtabs].
  destruct (code c =? 9)%N eqn:E1.
  - rewrite map_app, ink_app, R, IH. cbn [app]. symmetry. apply B. unfold is_blank, in_range. apply N.eqb_eq in E1. now rewrite E1.
  - destruct ((code c =? 10)%N || (code c =? 13)%N) eqn:E2; cbn [map].
    + assert (BC : is_blank c = true). { unfold is_blank, in_range. apply orb_prop in E2 as [E2 | E2]; apply N.eqb_eq in E2; now rewrite E2. }
      rewrite BC, (B _ _ BC), <- (IH 0). reflexivity.
    + destruct (is_blank c) eqn:BC.
      * rewrite (B _ _ BC), <- (IH (S col)). reflexivity.
      * unfold ink. cbn [filter]. destruct (negb (is_space c)); [f_equal | ]; apply IH.
Qed.
Lemma munge_ink : forall s, ink (munge s) = ink s.
Proof. intros s. apply expandtabs_ink. Qed.

(** a piece without blanks is already in the text *)
Lemma munge_piece : forall s col a p b, map (fun c => if is_blank c then SP else c) (expandtabs col s) = a ++ p ++ b ->
  p <> [] -> forallb (fun c => negb (is_blank c)) p = true -> exists a' b', s = a' ++ p ++ b'.
Proof.
  assert (Start : forall s col p b, map (fun c => if is_blank c then SP else c) (expandtabs col s) = p ++ b ->
    forallb (fun c => negb (is_blank c)) p = true -> exists b', s = p ++ b').
  { induction s as [ | c s IH]; intros col p b E H.
    - cbn in E. symmetry in E. apply app_eq_nil in E as [-> _]. exists []. reflexivity.
    - destruct p as [ | x p]; [exists (c :: s); reflexivity | ]. cbn [forallb] in H. apply andb_prop in H as [Hx H].
      apply negb_true_iff in Hx. cbn [expandtabs] in E.
      destruct (code c =? 9)%N.
      + exfalso. assert (R : exists n, 8 - col mod 8 = S n). { exists (7 - col mod 8). pose proof (Nat.mod_upper_bound col 8). lia. }
        destruct R as [n R]. rewrite R in E. cbn [repeat app map] in E. injection E as E _. subst x. discriminate Hx.
      + destruct ((code c =? 10)%N || (code c =? 13)%N) eqn:E2; cbn [map] in E; injection E as Ec E.
        * exfalso. assert (BC : is_blank c = true). { unfold is_blank, in_range. apply orb_prop in E2 as [E2 | E2]; apply N.eqb_eq in E2; now rewrite E2. }
          rewrite BC in Ec. subst x. discriminate Hx.
        * destruct (is_blank c) eqn:BC; [subst x; discriminate Hx | ]. subst x. destruct (IH _ _ _ E H) as (b' & ->). exists b'. reflexivity. }
  induction s as [ | c s IH]; intros col a p b E N H.
  - cbn in E. symmetry in E. apply app_eq_nil in E as [_ E]. apply app_eq_nil in E as [-> _]. contradiction.
  - destruct a as [ | x a].
    { cbn [app] in E. destruct (Start (c :: s) col p b E H) as (b' & ->). exists [], b'. reflexivity. }
    assert (G : forall c2 (l : str), map (fun c => if is_blank c then SP else c) (expandtabs c2 s) = a ++ p ++ b -> exists a' b', c :: s = a' ++ p ++ b').
    { intros c2 _ E2. destruct (IH _ _ _ _ E2 N H) as (a' & b' & ->). exists (c :: a'), b'. reflexivity. }
    cbn [expandtabs] in E. destruct (code c =? 9)%N.
    + rewrite map_app in E. remember (8 - col mod 8) as n. clear Heqn G.
      assert (G : forall n a0, map (fun c => if is_blank c then SP else c) (repeat SP n) ++ map (fun c => if is_blank c then SP else c) (expandtabs 0 s) = a0 ++ p ++ b ->
                  exists a' b', c :: s = a' ++ p ++ b').
      { clear E. intros n0. induction n0 as [ | n0 IHn]; intros a0 E; cbn [repeat map app] in E.
        - destruct (IH _ _ _ _ E N H) as (a' & b' & ->). exists (c :: a'), b'. reflexivity.
        - destruct a0 as [ | y a0]; [ | injection E as _ E; now apply (IHn a0)].
          destruct p as [ | y p]; [contradiction | ]. injection E as E _. subst y. discriminate H. }
      exact (G n _ E).
    + destruct ((code c =? 10)%N || (code c =? 13)%N); cbn [map] in E; injection E as _ E; exact (G _ [] E).
Qed.
Lemma concat_In : forall (c : str) l, In c l -> exists a b, concat l = a ++ c ++ b.
Proof.
  intros c l H. apply in_split in H as (l1 & l2 & ->). exists (concat l1), (concat l2). rewrite concat_app. reflexivity.
Qed.
Lemma pieces_short : forall text room, (forall a p b, text = a ++ p ++ b -> one_piece p -> (len p <= room)%Z) -> short_pieces room (chunks (munge text)).
Proof.
  intros text room H c I Fc. destruct (chunks_good (munge text)) as [P _]. rewrite Forall_forall in P. specialize (P c I).
  assert (Hc : forallb (fun x => negb (is_blank x)) c = true).
  { destruct P as [N [P | P]]; [ | exact P]. destruct c as [ | x c]; [contradiction | ]. cbn [first_blank] in Fc. cbn [forallb] in P. rewrite Fc in P. discriminate. }
  destruct (concat_In _ _ I) as (a & b & E). rewrite chunks_concat in E. unfold munge in E.
  destruct (munge_piece _ _ _ _ _ E (proj1 P) Hc) as (a' & b' & Et). apply (H a' c b' Et). now apply pure_piece.
Qed.
Lemma wrap_break_spec : forall width indent text, (1 <= width - zlen indent)%Z ->
  exists lines, wrap_break (wrap_fuel text) width indent indent text = Ok lines /\ cut_wrapped width indent text lines.
Proof.
  intros width indent text H. unfold wrap_break. assert (E : (width <=? 0)%Z = false). { apply Z.leb_gt. unfold zlen in H. lia. } rewrite E.
  destruct (chunks_good (munge text)) as [P A].
  destruct (break_spec (wrap_fuel text) width true indent indent (chunks (munge text)) H H P A) as (bodies & B1 & B2 & B3 & B4 & B5).
  { unfold wrap_fuel, size. rewrite chunks_concat. lia. }
  eexists. split; [exact B1 | ]. 
  assert (PE : placed true indent indent bodies = map (fun b => indent ++ b) bodies) by (destruct bodies; reflexivity).
  rewrite PE in *. exists bodies. split; [reflexivity | ]. split; [now rewrite B2, chunks_concat, munge_ink | ]. split; [exact B3 | ].
  split; [exact B4 | ]. intros S. rewrite B5, chunks_concat, munge_words; [reflexivity | | ];
  apply pieces_short; intros a p b Et Hp; specialize (S a p b Et Hp); unfold len, zlen in *; lia.
Qed.
