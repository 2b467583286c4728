(** The texts of the interface: layout and wrapping. *)
From Coq Require Import List Ascii ZArith Lia Bool.
Import ListNotations.
From Verif Require Import PyBase PyBaseProofs PyRegex WrapModel WrapSpec WrapProofs InfoModel InfoProfileProofs InfoMoreSpec InfoMoreProofs
  UsageModel UsageSpec UsageReProofs.
Local Open Scope nat_scope.

(** ** Layout *)
Lemma row_nil : forall start, row start [] = start.
Proof. intros. unfold row. cbn. apply app_nil_r. Qed.
Lemma row_app : forall start a b, row start (a ++ b) = row (row start a) b.
Proof. intros. unfold row. rewrite map_app, concat_app. apply app_assoc. Qed.
Lemma row_snoc : forall start now g, row start (now ++ [g]) = row start now ++ L " " ++ g.
Proof. intros. rewrite row_app. unfold row at 1. cbn [map concat]. now rewrite app_nil_r. Qed.
Lemma row_snoc_len : forall start now g, len (row start (now ++ [g])) = (len (row start now) + 1 + len g)%Z.
Proof. intros. rewrite row_snoc. unfold len. rewrite !app_length. change (length (L " ")) with 1. lia. Qed.
Lemma row_app_len : forall start a b, (len (row start a) <= len (row start (a ++ b)))%Z.
Proof. intros. rewrite row_app. unfold row at 2. unfold len. rewrite app_length. lia. Qed.

Lemma lay_laid : forall gs width ending indent b start now, room_for width b start now ->
  laid width ending indent b start (now ++ gs) (lay width ending indent (row start now) gs).
Proof.
  induction gs as [ | g gs IH]; intros width ending indent b start now H; cbn [lay].
  - rewrite app_nil_r. now apply laid_last.
  - destruct (width <=? zlen (row start now) + zlen g)%Z eqn:E.
    + apply Z.leb_le in E. apply laid_more; [exact H | rewrite row_snoc_len; unfold len, zlen in *; lia | ].
      assert (ER : indent ++ L " " ++ g = row indent [g]). { unfold row. cbn [map concat]. now rewrite app_nil_r. }
      rewrite ER. apply (IH width ending indent true indent [g]). right. right. auto.
    + apply Z.leb_gt in E. rewrite <- row_snoc. replace (now ++ g :: gs) with ((now ++ [g]) ++ gs) by (rewrite <- app_assoc; reflexivity).
      apply IH. right. left. split; [now destruct now | ]. rewrite row_snoc_len. unfold len, zlen in *. lia.
Qed.
Lemma lay_start : forall gs width ending indent start, laid width ending indent false start gs (lay width ending indent start gs).
Proof.
  intros gs width ending indent start.
  assert (H : room_for width false start []) by (left; auto).
  pose proof (lay_laid gs width ending indent false start [] H) as R. rewrite row_nil in R. exact R.
Qed.

(** ** The layout is determined *)
Lemma app_cases : forall (a b c d : list str), a ++ b = c ++ d ->
  (exists x m, c = a ++ x :: m /\ b = x :: m ++ d) \/ (exists x m, a = c ++ x :: m /\ d = x :: m ++ b) \/ (a = c /\ b = d).
Proof.
  induction a as [ | x a IH]; intros b c d E; destruct c as [ | y c]; cbn [app] in E.
  - auto.
  - left. exists y, c. auto.
  - right. left. exists x, a. auto.
  - injection E as -> E. destruct (IH _ _ _ E) as [(z & m & -> & ->) | [(z & m & -> & ->) | [-> ->]]].
    + left. exists z, m. auto.
    + right. left. exists z, m. auto.
    + auto.
Qed.
Lemma room_no_more : forall width b start now g m, room_for width b start now -> (width < len (row start (now ++ [g])))%Z ->
  ~ room_for width b start (now ++ g :: m).
Proof.
  intros width b start now g m H1 H2 H3.
  assert (A : now ++ g :: m = (now ++ [g]) ++ m) by (rewrite <- app_assoc; reflexivity).
  destruct H3 as [[_ H3] | [[_ H3] | [B H3]]].
  - destruct now; discriminate.
  - rewrite A in H3. pose proof (row_app_len start (now ++ [g]) m). lia.
  - rewrite app_length in H3. cbn [length] in H3. destruct now as [ | x now]; [ | cbn [length] in H3; lia].
    destruct H1 as [[H1 _] | [[H1 _] | [_ H1]]]; [congruence | contradiction | discriminate].
Qed.
Lemma laid_unique : forall width ending indent b start gs lines, laid width ending indent b start gs lines ->
  forall lines', laid width ending indent b start gs lines' -> lines = lines'.
Proof.
  intros width ending indent b start gs lines H. induction H as [b start gs R | b start now g later lines R W _ IH]; intros lines' H'.
  - inversion H' as [? ? ? R' | ? ? now g later lines2 R' W' L']; subst; [reflexivity | ].
    exfalso. exact (room_no_more _ _ _ _ _ _ R' W' R).
  - inversion H' as [? ? gs' R' E1 | ? ? now' g' later' lines2 R' W' L' ]; subst.
    + exfalso. exact (room_no_more _ _ _ _ _ _ R W R').
    + match goal with E : _ ++ _ :: _ = _ ++ _ :: _ |- _ => rename E into EE end.
      symmetry in EE. destruct (app_cases _ _ _ _ EE) as [(x & m & -> & E2) | [(x & m & -> & E2) | [-> E2]]].
      * injection E2 as -> _. exfalso. exact (room_no_more _ _ _ _ _ _ R W R').
      * injection E2 as -> _. exfalso. exact (room_no_more _ _ _ _ _ _ R' W' R).
      * injection E2 as -> ->. f_equal. now apply IH.
Qed.

(** ** Nothing visible is lost, and lines fit *)
Lemma ink_app : forall a b, ink (a ++ b) = ink a ++ ink b.
Proof. intros. apply filter_app. Qed.
Lemma ink_none : forall s, no_ink s -> ink s = [].
Proof.
  intros s H. unfold ink. induction s as [ | c s IH]; [reflexivity | ]. cbn [filter]. rewrite (H c (or_introl eq_refl)). cbn [negb].
  apply IH. intros d Hd. apply H. now right.
Qed.
Lemma ink_forallb : forall s, forallb is_space s = true -> ink s = [].
Proof. intros s H. apply ink_none. intros c Hc. rewrite forallb_forall in H. auto. Qed.
Lemma ink_row : forall start gs, ink (row start gs) = ink start ++ ink (concat gs).
Proof.
  intros start gs. unfold row. rewrite ink_app. f_equal. induction gs as [ | g gs IH]; [reflexivity | ].
  cbn [map concat]. rewrite !ink_app. change (ink (L " ")) with (@nil ascii). cbn [app]. now rewrite IH.
Qed.
Lemma laid_ink : forall width indent b start gs lines, no_ink indent -> laid width [] indent b start gs lines ->
  ink (concat lines) = ink start ++ ink (concat gs).
Proof.
  intros width indent b start gs lines N H. induction H as [b start gs R | b start now g later lines R W _ IH].
  - cbn [concat]. rewrite app_nil_r. apply ink_row.
  - cbn [concat]. rewrite app_nil_r, ink_app, ink_row, IH, (ink_none _ N). cbn [app].
    rewrite concat_app, ink_app. cbn [concat]. now rewrite !app_assoc.
Qed.
Lemma parts_ink : forall s gs, usage_parts s gs -> ink (concat gs) = ink s.
Proof.
  intros s gs H. induction H as [ | c s l Hc _ IH | g s l _ _ IH | g s l _ _ _ _ IH]; [reflexivity | | | ].
  - rewrite IH. unfold ink at 2. cbn [filter]. rewrite Hc. reflexivity.
  - cbn [concat]. now rewrite !ink_app, IH.
  - cbn [concat]. now rewrite !ink_app, IH.
Qed.
Lemma laid_fit : forall width indent b start gs lines, laid width [] indent b start gs lines -> forall bound,
  (len start <= bound)%Z -> (len indent <= bound)%Z -> (forall g, In g gs -> (bound + len g < width)%Z) -> gs <> [] \/ (bound <= width)%Z ->
  Forall (fun l => (len l <= width)%Z) lines.
Proof.
  intros width indent b start gs lines H bound. induction H as [b start gs R | b start now g later lines R W _ IH]; intros HS HI HG HN.
  - constructor; [ | constructor]. destruct R as [[_ ->] | [[_ R] | [_ R]]]; [ | exact R | ].
    + rewrite row_nil. destruct HN as [HN | HN]; [contradiction | lia].
    + destruct gs as [ | g [ | g' gs]]; try discriminate. pose proof (row_snoc_len start [] g) as E. cbn [app] in E. rewrite E, row_nil.
      specialize (HG g (or_introl eq_refl)). lia.
  - assert (Hg : (bound + len g < width)%Z) by (apply HG, in_or_app; right; now left).
    assert (L0 : (0 <= len g)%Z) by (unfold len; lia).
    constructor.
    + rewrite app_nil_r. destruct R as [[_ ->] | [[_ R] | [_ R]]]; [ | exact R | ].
      * rewrite row_nil. lia.
      * destruct now as [ | x [ | x' now]]; try discriminate. pose proof (row_snoc_len start [] x) as E. cbn [app] in E. rewrite E, row_nil.
        assert (Hx : (bound + len x < width)%Z) by (apply HG, in_or_app; left; now left). lia.
    + apply IH; [exact HI | exact HI | | left; discriminate]. intros x Hx. apply HG, in_or_app. now right.
Qed.
Lemma laid_long : forall width ending indent b start gs lines, laid width ending indent b start gs lines -> forall line, In line lines ->
  exists body, (line = body \/ line = body ++ ending) /\
    ((len body <= width)%Z \/ (b = false /\ body = start) \/ exists g, In g gs /\ (body = row indent [g] \/ (b = true /\ body = row start [g]))).
Proof.
  intros width ending indent b start gs lines H. induction H as [b start gs R | b start now g later lines R W _ IH]; intros line I.
  - destruct I as [<- | []]. exists (row start gs). split; [auto | ].
    destruct R as [[-> ->] | [[_ R] | [-> R]]]; [rewrite row_nil; auto | auto | ].
    destruct gs as [ | g [ | g' gs]]; try discriminate. right. right. exists g. split; [now left | right; auto].
  - destruct I as [<- | I].
    + exists (row start now). split; [auto | ]. destruct R as [[-> ->] | [[_ R] | [-> R]]]; [rewrite row_nil; auto | auto | ].
      destruct now as [ | x [ | x' now]]; try discriminate. right. right. exists x. split; [now left | right; auto].
    + destruct (IH line I) as (body & H1 & H2). exists body. split; [exact H1 | ].
      destruct H2 as [H2 | [[H2 _] | (x & I2 & H2)]]; [auto | discriminate | ]. right. right. exists x.
      split; [apply in_or_app; now right | ]. left. destruct H2 as [H2 | [_ H2]]; exact H2.
Qed.

(** ** Usage *)
Lemma longest_le : forall gs n, (forall g, In g gs -> length g <= n) -> longest gs <= n.
Proof.
  intros gs n. induction gs as [ | g gs IH]; intros H; cbn; [lia | ].
  pose proof (H g (or_introl eq_refl)). assert (longest gs <= n) by (apply IH; intros x Hx; apply H; now right). unfold longest in *. lia.
Qed.
Lemma longest_in : forall gs, gs <> [] -> exists g, In g gs /\ length g = longest gs.
Proof.
  intros gs. induction gs as [ | g gs IH]; intros N; [contradiction | ]. destruct gs as [ | g2 gs].
  - exists g. split; [now left | ]. cbn. lia.
  - destruct (IH ltac:(discriminate)) as (x & I & E). 
    change (longest (g :: g2 :: gs)) with (Nat.max (length g) (longest (g2 :: gs))).
    destruct (Nat.max_spec (length g) (longest (g2 :: gs))) as [[_ ->] | [_ ->]].
    + exists x. split; [now right | exact E].
    + exists g. split; [now left | reflexivity].
Qed.
Lemma all_short_longest : forall width prefix gs, gs <> [] ->
  (all_short width prefix gs <-> (zlen prefix + Z.of_nat (longest gs) < width)%Z).
Proof.
  intros width prefix gs N. unfold all_short, len, zlen. split.
  - intros H. destruct (longest_in gs N) as (g & I & <-). now apply H.
  - intros H g I. assert (length g <= longest gs); [ | lia].
    clear -I. induction gs as [ | x gs IH]; [contradiction | ]. 
    change (longest (x :: gs)) with (Nat.max (length x) (longest gs)). destruct I as [-> | I]; [lia | ]. specialize (IH I). lia.
Qed.
Lemma usage_lines_spec : forall width prefix u lines, usage_lines width prefix u = Ok lines -> usage_shown width prefix u lines.
Proof.
  intros width prefix u lines H. unfold usage_lines in H. pose proof (usage_groups_parts u) as P.
  destruct (usage_groups u) as [ | g gs] eqn:E; [discriminate | ]. apply InfoProfileProofs.ok_inj in H.
  set (l := g :: gs) in *. assert (N : l <> []) by discriminate. clearbody l.
  pose proof (all_short_longest width prefix l N) as A.
  exists l. eexists. split; [exact P | ]. split; [exact N | ]. split; [ | split; [ | rewrite <- H; apply lay_start]].
  - intros S. apply A in S. assert (Z.leb width (zlen prefix + Z.of_nat (longest l)) = false) as -> by (apply Z.leb_gt; lia). reflexivity.
  - intros S. assert (Z.leb width (zlen prefix + Z.of_nat (longest l)) = true) as ->; [ | reflexivity].
    apply Z.leb_le. destruct (Z.le_gt_cases width (zlen prefix + Z.of_nat (longest l))) as [G | G]; [exact G | ]. exfalso. apply S, A. exact G.
Qed.
Lemma parts_none : forall u gs, usage_parts u gs -> (gs = [] <-> no_ink u).
Proof.
  intros u gs H. induction H as [ | c s l Hc _ IH | g s l Hu _ _ | g s l Hg _ _ _ _].
  - split; [intros _ c [] | reflexivity].
  - rewrite IH. split; intros N d; [intros [<- | I]; [exact Hc | now apply N] | intros I; apply N; now right].
  - split; [discriminate | ]. intros N. exfalso.
    assert (I : exists c, In c g /\ is_space c = false).
    { destruct Hu as [(x & n & _ & _ & -> & _) | [(x & n & _ & _ & -> & _) | (w & gap & x & _ & _ & _ & _ & _ & ->)]].
      - exists "("%char. split; [now left | reflexivity].
      - exists "["%char. split; [now left | reflexivity].
      - exists "-"%char. split; [now left | reflexivity]. }
    destruct I as (c & I & S). rewrite (N c) in S; [discriminate | ]. apply in_or_app. now left.
  - split; [discriminate | ]. intros N. exfalso. destruct Hg as [G1 G2]. destruct g as [ | c g]; [contradiction | ].
    specialize (G2 c (or_introl eq_refl)). rewrite (N c) in G2; [discriminate | now left].
Qed.
Lemma usage_lines_fails : forall width prefix u, no_ink u -> usage_lines width prefix u = Err EValueError.
Proof.
  intros width prefix u H. apply (parts_none _ _ (usage_groups_parts u)) in H. unfold usage_lines. now rewrite H.
Qed.
Lemma usage_lines_ok : forall width prefix u, ~ no_ink u -> exists lines, usage_lines width prefix u = Ok lines.
Proof.
  intros width prefix u H. unfold usage_lines. destruct (usage_groups u) as [ | g gs] eqn:E.
  - exfalso. apply H. apply (parts_none _ _ (usage_groups_parts u)). exact E.
  - eexists. reflexivity.
Qed.
Lemma each_lines : forall A (f : A -> result (list str)) l lines, each f l = Ok lines ->
  exists ls, lines = concat ls /\ Forall2 (fun x ys => f x = Ok ys) l ls.
Proof.
  intros A f l. induction l as [ | x l IH]; intros lines H; cbn [each] in H.
  - apply InfoProfileProofs.ok_inj in H. subst. exists []. split; [reflexivity | constructor].
  - destruct (f x) as [a | e] eqn:Ea; [ | discriminate]. cbn [rbind] in H. destruct (each f l) as [r | e] eqn:Er; [ | discriminate].
    cbn [rbind] in H. apply InfoProfileProofs.ok_inj in H. subst. destruct (IH r eq_refl) as (ls & -> & F).
    exists (a :: ls). split; [reflexivity | ]. now constructor.
Qed.
Lemma each_fine : forall A (f : A -> result (list str)) l, Forall (fun x => exists ys, f x = Ok ys) l -> exists lines, each f l = Ok lines.
Proof.
  intros A f l H. induction H as [ | x l (ys & E) _ (r & IH)]; [eexists; reflexivity | ]. cbn [each]. rewrite E, IH. eexists. reflexivity.
Qed.
Lemma fill_usage_spec : forall width sub us text, fill_usage width sub us = Ok text ->
  exists ls, text = join [NL] (([NL] ++ L "  cot " ++ sub ++ L " --help") :: concat ls)
    /\ Forall2 (usage_shown width (L "  cot <opts> " ++ sub)) us ls.
Proof.
  intros width sub us text H. unfold fill_usage in H.
  destruct (each (usage_lines width (L "  cot <opts> " ++ sub)) us) as [lines | e] eqn:E; [ | discriminate].
  cbn [rbind] in H. apply InfoProfileProofs.ok_inj in H. destruct (each_lines _ _ _ _ E) as (ls & -> & F). exists ls.
  split; [now symmetry | ]. clear -F. induction F as [ | u lines us ls H _ IH]; constructor; [now apply usage_lines_spec | exact IH].
Qed.
Lemma fill_usage_total : forall width sub us,
  (Forall (fun u => ~ no_ink u) us -> exists text, fill_usage width sub us = Ok text)
  /\ (Exists no_ink us -> fill_usage width sub us = Err EValueError).
Proof.
  intros width sub us. unfold fill_usage. split.
  - intros H. destruct (each_fine _ (usage_lines width (L "  cot <opts> " ++ sub)) us) as (lines & E).
    + eapply Forall_impl; [ | exact H]. intros u Hu. now apply usage_lines_ok.
    + rewrite E. eexists. reflexivity.
  - intros H. assert (E : each (usage_lines width (L "  cot <opts> " ++ sub)) us = Err EValueError); [ | now rewrite E].
    induction us as [ | u us IH]; [inversion H | ]. cbn [each].
    assert (D : no_ink u \/ ~ no_ink u).
    { pose proof (parts_none _ _ (usage_groups_parts u)) as P. destruct (usage_groups u); [left; now apply P | right; intros X; apply P in X; discriminate]. }
    destruct D as [D | D].
    + now rewrite usage_lines_fails.
    + destruct (usage_lines_ok width (L "  cot <opts> " ++ sub) u D) as (ys & ->). cbn [rbind].
      rewrite IH; [reflexivity | ]. inversion H as [? ? X | ? ? X]; subst; [contradiction | exact X].
Qed.
Lemma no_ink_spaces : forall n, no_ink (spaces n).
Proof. intros n c I. apply repeat_spec in I. now subst. Qed.
Lemma usage_shown_ink : forall width prefix u lines, usage_shown width prefix u lines -> ink (concat lines) = ink prefix ++ ink u.
Proof.
  intros width prefix u lines (gs & indent & P & N & S1 & S2 & H).
  rewrite <- (parts_ink _ _ P). apply (laid_ink width indent false); [ | exact H].
  destruct (Z_lt_le_dec (zlen prefix + Z.of_nat (longest gs)) width) as [A | A].
  - rewrite S1; [apply no_ink_spaces | ]. now apply all_short_longest.
  - rewrite S2; [apply no_ink_spaces | ]. intros X. apply all_short_longest in X; [lia | exact N].
Qed.
Lemma usage_shown_width : forall width prefix u lines, usage_shown width prefix u lines ->
  (forall gs, usage_parts u gs -> all_short width prefix gs) -> Forall (fun l => (len l <= width)%Z) lines.
Proof.
  intros width prefix u lines (gs & indent & P & N & S1 & _ & H) A. specialize (A gs P). rewrite (S1 A) in H.
  eapply laid_fit with (bound := len prefix); [exact H | lia | | exact A | now left].
  unfold len, spaces. rewrite repeat_length. lia.
Qed.
Lemma usage_shown_long : forall width prefix u lines, usage_shown width prefix u lines -> forall line, In line lines ->
  (len line <= width)%Z \/ line = prefix \/ exists gs g, usage_parts u gs /\ In g gs /\ line = spaces 5 ++ L " " ++ g.
Proof.
  intros width prefix u lines S line I. pose proof S as (gs & indent & P & N & S1 & S2 & H).
  destruct (Z_lt_le_dec (zlen prefix + Z.of_nat (longest gs)) width) as [A | A].
  - left. apply (all_short_longest _ _ _ N) in A. assert (F : Forall (fun l => (len l <= width)%Z) lines).
    { eapply usage_shown_width; [exact S | ]. intros gs' P'. now rewrite <- (usage_parts_groups _ _ P'), (usage_parts_groups _ _ P). }
    rewrite Forall_forall in F. now apply F.
  - assert (NA : ~ all_short width prefix gs) by (intros X; apply all_short_longest in X; [lia | exact N]).
    destruct (laid_long _ _ _ _ _ _ _ H line I) as (body & B1 & B2).
    assert (line = body) as -> by (destruct B1 as [-> | ->]; [reflexivity | apply app_nil_r]).
    destruct B2 as [B2 | [[_ ->] | (g & I2 & [-> | [X _]])]]; [auto | auto | | discriminate].
    right. right. exists gs, g. split; [exact P | ]. split; [exact I2 | ]. rewrite (S2 NA). unfold row. cbn [map concat]. now rewrite app_nil_r.
Qed.
Lemma usage_parts_unique : forall u gs gs', usage_parts u gs -> usage_parts u gs' -> gs = gs'.
Proof. intros u gs gs' H H'. now rewrite <- (usage_parts_groups _ _ H), (usage_parts_groups _ _ H'). Qed.
Lemma example_parts_unique : forall u gs gs', example_parts u gs -> example_parts u gs' -> gs = gs'.
Proof. intros u gs gs' H H'. now rewrite <- (example_parts_params _ _ H), (example_parts_params _ _ H'). Qed.
