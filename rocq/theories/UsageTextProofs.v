(** Examples and prompts. *)
From Coq Require Import List Ascii ZArith Lia Bool.
Import ListNotations.
From Verif Require Import PyBase PyBaseProofs WrapModel WrapSpec WrapProofs InfoModel InfoProfileProofs InfoMoreSpec InfoMoreProofs
  UsageModel UsageSpec UsageReProofs UsageProofs UsageWrapProofs.
Local Open Scope nat_scope.

Lemma example_lines_spec : forall width x, (4 <= width)%Z -> exists block, example_lines width x = Ok block /\ block_shown width x block.
Proof.
  intros width [desc example] H. unfold example_lines.
  destruct (wrap_break_spec (width - 1) (L "  ") desc) as (d & E & W). { change (zlen (L "  ")) with 2%Z. lia. }
  rewrite E. cbn [rbind]. eexists. split; [reflexivity | ].
  exists d, (splitlines example). eexists. split; [reflexivity | ]. split; [exact W | ]. split; [apply splitlines_spec | ].
  destruct (splitlines example) as [ | l1 [ | l2 ls]].
  - right. split; [cbn; lia | ]. exists (example_params example). split; [apply example_params_parts | ]. apply lay_start.
  - right. split; [cbn; lia | ]. exists (example_params example). split; [apply example_params_parts | ]. apply lay_start.
  - left. split; [cbn; lia | reflexivity].
Qed.
Lemma all_examples_spec : forall width l, (4 <= width)%Z -> forall first, exists blocks,
  all_examples width first l = Ok ((if first then [] else match l with [] => [] | _ => [[]] end) ++ blank_between blocks) /\ Forall2 (block_shown width) l blocks.
Proof.
  intros width l H. induction l as [ | x l IH]; intros first; cbn [all_examples].
  - exists []. destruct first; split; constructor.
  - destruct (example_lines_spec width x H) as (a & E & W). rewrite E. cbn [rbind].
    destruct (IH false) as (blocks & E2 & F). rewrite E2. cbn [rbind]. exists (a :: blocks). split; [ | now constructor].
    f_equal. f_equal. destruct F as [ | y b l' bs]; [cbn; now rewrite app_nil_r | reflexivity].
Qed.
Lemma fill_examples_spec : forall width l, (4 <= width)%Z -> exists blocks,
  fill_examples width l = Ok (join [NL] (L "Examples:" :: blank_between blocks)) /\ Forall2 (block_shown width) l blocks.
Proof.
  intros width l H. unfold fill_examples. destruct (all_examples_spec width l H true) as (blocks & E & F). rewrite E. exists blocks. auto.
Qed.
Lemma fill_examples_narrow : forall width x l, (width <= 1)%Z -> fill_examples width (x :: l) = Err EValueError.
Proof.
  intros width [d e] l H. unfold fill_examples. cbn [all_examples example_lines]. unfold wrap_break.
  assert (E : (width - 1 <=? 0)%Z = true) by (apply Z.leb_le; lia). rewrite E. reflexivity.
Qed.

(** ** Pasting an example *)
Lemma continued_cons : forall r rows, rows <> [] -> continued (r :: rows) = (r ++ L " \") :: continued rows.
Proof. intros r [ | x rows] H; [contradiction | reflexivity]. Qed.
Lemma row_words : forall start gs, no_ink start -> flat_map words gs = words (row start gs).
Proof.
  intros start gs N.
  assert (H : forall gs, flat_map words gs = words (concat (map (fun g => L " " ++ g) gs))).
  { induction gs0 as [ | g gs0 IH]; [reflexivity | ]. cbn [flat_map map concat]. change (L " ") with [" "%char]. cbn [app].
    rewrite words_space_l by reflexivity. destruct gs0 as [ | g2 gs0]; [cbn; now rewrite !app_nil_r | ].
    rewrite IH. cbn [map concat]. change (L " ") with [" "%char]. 
    change (words g ++ words ((" "%char :: g2) ++ concat (map (fun g0 => [" "%char] ++ g0) gs0)) =
            words (g ++ [" "%char] ++ (g2 ++ concat (map (fun g0 => [" "%char] ++ g0) gs0)))).
    rewrite (words_app_l [" "%char]) by (try reflexivity; discriminate). cbn [app]. now rewrite words_space_l by reflexivity. }
  unfold row. rewrite words_spaces_l; [apply H | ]. apply forallb_forall. exact N.
Qed.
Lemma laid_rows : forall width indent b start gs lines, no_ink start -> no_ink indent -> laid width (L " \") indent b start gs lines ->
  exists rows, rows <> [] /\ lines = continued rows /\ flat_map words rows = flat_map words gs.
Proof.
  intros width indent b start gs lines NS NI H. induction H as [b start gs R | b start now g later lines R W _ IH].
  - exists [row start gs]. split; [discriminate | ]. split; [reflexivity | ]. cbn [flat_map]. rewrite app_nil_r. symmetry. now apply row_words.
  - destruct (IH NI) as (rows & N & -> & E). exists (row start now :: rows). split; [discriminate | ].
    split; [now rewrite continued_cons | ]. cbn [flat_map]. rewrite E, flat_map_app, (row_words start now NS). reflexivity.
Qed.
Lemma word_space_end : forall s, word_ends s -> s = [] \/ exists c t, s = c :: t /\ is_space c = true.
Proof. intros [ | c s] H; [now left | right]. exists c, s. split; [reflexivity | exact (H c s eq_refl)]. Qed.
Lemma words_before_space : forall g s, word_ends s -> words (g ++ s) = words g ++ words s.
Proof.
  intros g s H. destruct (word_space_end s H) as [-> | (c & t & -> & Hc)].
  - cbn. now rewrite !app_nil_r.
  - change (c :: t) with ([c] ++ t). rewrite (words_app_l [c]) by (try discriminate; cbn; now rewrite Hc).
    cbn [app]. now rewrite words_space_l.
Qed.
Lemma example_words : forall s gs, example_parts s gs -> flat_map words gs = words s.
Proof.
  intros s gs H. induction H as [ | c s l Hc _ IH | g s l Hu _ IH | g s l Hg Hs _ _ IH]; [reflexivity | | | ].
  - now rewrite words_space_l.
  - cbn [flat_map]. rewrite IH. destruct Hu as (w & x & _ & _ & Ha & ->). symmetry. now apply words_before_space.
  - cbn [flat_map]. rewrite IH. symmetry. now apply words_before_space.
Qed.
Lemma example_pasted : forall width example gs lines, example_parts example gs ->
  laid width (L " \") (spaces 7) false (spaces 3) gs lines ->
  exists rows, lines = continued rows /\ flat_map words rows = words example.
Proof.
  intros width example gs lines P H.
  destruct (laid_rows _ _ _ _ _ _ (no_ink_spaces 3) (no_ink_spaces 7) H) as (rows & _ & E & W). exists rows. split; [exact E | ].
  now rewrite W, (example_words _ _ P).
Qed.
Lemma example_fits : forall width gs lines, (7 <= width)%Z -> laid (width - 4) (L " \") (spaces 7) false (spaces 3) gs lines ->
  forall line, In line lines -> (len line <= width - 2)%Z \/ exists g, In g gs /\ (line = spaces 8 ++ g \/ line = spaces 8 ++ g ++ L " \").
Proof.
  intros width gs lines HW H line I. destruct (laid_long _ _ _ _ _ _ _ H line I) as (body & B1 & B2).
  assert (LB : (len line <= len body + 2)%Z).
  { destruct B1 as [-> | ->]; unfold len; [lia | ]. rewrite app_length. change (length (L " \")) with 2. lia. }
  destruct B2 as [B2 | [[_ ->] | (g & I2 & [-> | [X _]])]]; [left; lia | left; change (len (spaces 3)) with 3%Z in LB; lia | | discriminate].
  right. exists g. split; [exact I2 | ]. 
  assert (R : row (spaces 7) [g] = spaces 8 ++ g). { unfold row. cbn [map concat]. rewrite app_nil_r. reflexivity. }
  destruct B1 as [-> | ->]; rewrite R; [now left | right; now rewrite <- app_assoc].
Qed.

(** ** The prompt *)
Lemma prompt_spec : forall width prompt, (2 <= width)%Z -> exists lines blocks,
  confirm_prompt width prompt = Ok (join [NL] (concat blocks) ++ L " [y] ")
  /\ lines_of prompt lines /\ Forall2 (cut_wrapped (width - 1) []) lines blocks.
Proof.
  intros width prompt H. exists (splitlines prompt). unfold confirm_prompt.
  assert (G : forall ls, exists blocks, each (fun line => wrap_break (wrap_fuel line) (width - 1) [] [] line) ls = Ok (concat blocks)
              /\ Forall2 (cut_wrapped (width - 1) []) ls blocks).
  { induction ls as [ | l ls (blocks & E & F)]; [exists []; split; constructor | ]. cbn [each].
    destruct (wrap_break_spec (width - 1) [] l) as (b & Eb & W). { cbn. lia. }
    rewrite Eb, E. exists (b :: blocks). split; [reflexivity | now constructor]. }
  destruct (G (splitlines prompt)) as (blocks & E & F). exists blocks. rewrite E. split; [reflexivity | ]. split; [apply splitlines_spec | exact F].
Qed.
Lemma prompt_narrow : forall width prompt, (width <= 1)%Z -> prompt <> [] -> confirm_prompt width prompt = Err EValueError.
Proof.
  intros width prompt H N. unfold confirm_prompt. pose proof (splitlines_spec prompt) as S. destruct (splitlines prompt) as [ | l ls].
  - inversion S; subst; [contradiction | ..]; try (match goal with E : _ ++ _ = [] |- _ => apply app_eq_nil in E as [_ E]; discriminate E end).
  - cbn [each]. unfold wrap_break. assert (E : (width - 1 <=? 0)%Z = true) by (apply Z.leb_le; lia). now rewrite E.
Qed.

(** ** Wrapping that does not end *)
Lemma hang : forall fuel, break_chunks fuel 1 true (L "  ") (L "  ") [[]; L "x"] = Err EOutOfFuel.
Proof.
  induction fuel as [ | fuel IH]; [reflexivity | ]. rewrite break_step. cbv zeta.
  change (cut_line (1 - zlen (L "  ")) (if empty_looking [] && negb true then [L "x"] else [[]; L "x"])) with ([[] : str], [[]; L "x"]).
  change (drop_last_empty [[]]) with (@nil str). exact IH.
Qed.
Lemma wrap_hangs : forall fuel, wrap_break fuel 1 (L "  ") (L "  ") (L " x") = Err EOutOfFuel.
Proof.
  intros fuel. unfold wrap_break. change ((1 <=? 0)%Z) with false. cbv iota.
  change (chunks (munge (L " x"))) with [L " "; L "x"]. destruct fuel as [ | fuel]; [reflexivity | ].
  rewrite break_step. cbv zeta.
  change (cut_line (1 - zlen (L "  ")) (if empty_looking (L " ") && negb true then [L "x"] else [L " "; L "x"])) with ([L " "], [[]; L "x"]).
  change (drop_last_empty [L " "]) with (@nil str). apply hang.
Qed.
