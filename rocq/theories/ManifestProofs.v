From Verif Require Import PyBase PyRegex PyDict PyBaseProofs PyRegexProofs PyDictProofs ManifestModel ManifestSpec.
From Coq Require Import Lia.

Lemma no_newline_forallb : forall s, no_newline s ->
  forallb (fun c => negb (Ascii.eqb c NL)) s = true.
Proof.
  intros s H. apply forallb_forall. intros c Hc. apply negb_true_iff, Ascii.eqb_neq.
  intros ->. contradiction.
Qed.

Lemma class_disjoint : forall (p q : ascii -> bool) s,
  (forall c, p c = true -> q c = false) -> forallb p s = true ->
  forall c t, s = c :: t -> q c = false.
Proof.
  intros p q s H Hs c t ->. cbn in Hs. apply andb_true_iff in Hs as [Hc _]. auto.
Qed.

Lemma algo_not_space : forall c, is_algo_char c = true -> is_space c = false.
Proof.
  intros c H.
  assert (G : implb (is_algo_char c) (negb (is_space c)) = true)
    by (apply (all_ascii (fun c => implb (is_algo_char c) (negb (is_space c)))); vm_compute; reflexivity).
  rewrite H in G. now apply negb_true_iff.
Qed.

Lemma sum_not_special : forall c, is_sum_char c = true ->
  is_space c = false /\ c <> ")"%char /\ c <> NL /\ c <> "="%char.
Proof.
  intros c H.
  assert (G : implb (is_sum_char c) (negb (is_space c) && negb (Ascii.eqb c ")"%char)
      && negb (Ascii.eqb c NL) && negb (Ascii.eqb c "="%char)) = true)
    by (apply (all_ascii (fun c => implb (is_sum_char c) (negb (is_space c) && negb (Ascii.eqb c ")"%char)
      && negb (Ascii.eqb c NL) && negb (Ascii.eqb c "="%char)))); vm_compute; reflexivity).
  rewrite H in G. cbn [implb] in G.
  rewrite !andb_true_iff, !negb_true_iff, !Ascii.eqb_neq in G. tauto.
Qed.

Lemma parse_line : forall algo name sum,
  algo <> [] -> forallb is_algo_char algo = true ->
  name <> [] -> no_newline name ->
  sum <> [] -> forallb is_sum_char sum = true ->
  parse_manifest_line (algo ++ L "(" ++ name ++ L ")= " ++ sum) = Some (name, (algo, sum)).
Proof.
  intros algo name sum Ha0 Ha Hn0 Hn Hs0 Hs. unfold parse_manifest_line.
  assert (M : re_match re_manifest (algo ++ L "(" ++ name ++ L ")= " ++ sum)
     = Some [(3, sum); (2, name); (1, algo)]).
  { apply (wins_match _ _ []). unfold re_manifest.
    apply wins_seq. apply wins_star_none.
    { destruct algo as [|a0 algo]; [contradiction|]. intros c t E. cbn in E. injection E as <- _.
      cbn in Ha. apply andb_true_iff in Ha as [Ha _]. now apply algo_not_space. }
    apply wins_seq. apply wins_group_plus_munch; auto.
    { intros c t E. cbn in E. injection E as <- _. reflexivity. }
    apply wins_seq. apply wins_star_none.
    { intros c t E. cbn in E. injection E as <- _. reflexivity. }
    apply wins_seq. apply wins_lit.
    apply wins_seq.
    rewrite <- (app_nil_r (name ++ L ")= " ++ sum)).
    apply (wins_group_plus st 2 (fun c => negb (Ascii.eqb c NL)) (name ++ L ")= " ++ sum) []
              [(1, algo)] _ (length name)).
    - rewrite forallb_app. rewrite (no_newline_forallb name Hn). cbn [andb].
      rewrite forallb_app. apply andb_true_iff. split; [reflexivity|].
      eapply forallb_impl; [|exact Hs]. intros c Hc. apply negb_true_iff, Ascii.eqb_neq.
      now apply sum_not_special.
    - discriminate.
    - rewrite app_length. destruct name; [contradiction|]. cbn. lia.
    - intros i Hi. rewrite app_nil_r. apply no_mt_fails. cbn [rest].
      intros [t Ht]. apply mt_seq_inv in Ht as (u & Hu & _). apply mt_lit_inv in Hu.
      rewrite skipn_app, (skipn_all2 name) in Hu by lia. cbn [app] in Hu.
      destruct (i - length name) as [|j] eqn:Ej; [lia|].
      cbn [L list_ascii_of_string app skipn] in Hu.
      assert (Hin : In ")"%char (skipn j ("="%char :: " "%char :: sum))).
      { rewrite Hu. now left. }
      assert (Hin2 : In ")"%char ("="%char :: " "%char :: sum)).
      { rewrite <- (firstn_skipn j). apply in_or_app. now right. }
      destruct Hin2 as [E|[E|Hin2]]; try discriminate.
      rewrite forallb_forall in Hs. apply Hs in Hin2. now apply sum_not_special in Hin2.
    - rewrite app_nil_r, skipn_app, skipn_all, Nat.sub_diag.
      rewrite firstn_app, firstn_all, Nat.sub_diag. cbn [skipn firstn app].
      rewrite app_nil_r.
      apply wins_seq. cbn [L list_ascii_of_string app]. apply wins_lit.
      apply wins_seq. apply wins_star_none.
      { intros c t E. injection E as <- _. reflexivity. }
      apply wins_seq. apply wins_lit.
      apply wins_seq. apply (wins_star_munch st is_space [" "%char] sum).
      { reflexivity. }
      { apply (class_disjoint is_sum_char); [|exact Hs]. intros c Hc. now apply sum_not_special. }
      apply wins_seq. rewrite <- (app_nil_r sum) at 1.
      apply wins_group_plus_munch; auto; [discriminate|].
      apply wins_seq. apply wins_star_none; [discriminate|].
      apply wins_end0. eexists. reflexivity. }
  rewrite M. reflexivity.
Qed.

(** Every accepted line is of the documented shape (with optional blanks) and
    the result is made of its parts. *)
Lemma parse_line_sound : forall line name algo sum,
  parse_manifest_line line = Some (name, (algo, sum)) ->
  exists b1 b2 b3 b4 b5,
     line = b1 ++ algo ++ b2 ++ L "(" ++ name ++ L ")" ++ b3 ++ L "=" ++ b4 ++ sum ++ b5 /\
     blanks b1 /\ blanks b2 /\ blanks b3 /\ blanks b4 /\ blanks b5 /\
     algo <> [] /\ forallb is_algo_char algo = true /\
     name <> [] /\ no_newline name /\
     sum <> [] /\ forallb is_sum_char sum = true.
Proof.
  intros line name algo sum H. unfold parse_manifest_line in H.
  destruct (re_match re_manifest line) as [g|] eqn:E; [|discriminate].
  apply re_match_mtc in E as [t E]. unfold re_manifest in E.
  apply mtc_seq_inv in E as (s1 & g1 & E1 & E). apply mtc_plain in E1 as [-> E1]; [|reflexivity].
  apply mtc_seq_inv in E as (s2 & g2 & E2 & E).
  apply mtc_seq_inv in E as (s3 & g3 & E3 & E). apply mtc_plain in E3 as [-> E3]; [|reflexivity].
  apply mtc_seq_inv in E as (s4 & g4 & E4 & E). apply mtc_plain in E4 as [-> E4]; [|reflexivity].
  apply mtc_seq_inv in E as (s5 & g5 & E5 & E).
  apply mtc_seq_inv in E as (s6 & g6 & E6 & E). apply mtc_plain in E6 as [-> E6]; [|reflexivity].
  apply mtc_seq_inv in E as (s7 & g7 & E7 & E). apply mtc_plain in E7 as [-> E7]; [|reflexivity].
  apply mtc_seq_inv in E as (s8 & g8 & E8 & E). apply mtc_plain in E8 as [-> E8]; [|reflexivity].
  apply mtc_seq_inv in E as (s9 & g9 & E9 & E). apply mtc_plain in E9 as [-> E9]; [|reflexivity].
  apply mtc_seq_inv in E as (s10 & g10 & E10 & E).
  apply mtc_seq_inv in E as (s11 & g11 & E11 & E). apply mtc_plain in E11 as [-> E11]; [|reflexivity].
  apply mtc_plain in E as [-> E]; [|reflexivity].
  apply mtc_group_inv in E2 as (w1 & h1 & -> & Ew1 & E2). apply mtc_plain in E2 as [-> E2]; [|reflexivity].
  apply mtc_group_inv in E5 as (w2 & h2 & -> & Ew2 & E5). apply mtc_plain in E5 as [-> E5]; [|reflexivity].
  apply mtc_group_inv in E10 as (w3 & h3 & -> & Ew3 & E10). apply mtc_plain in E10 as [-> E10]; [|reflexivity].
  cbn [group Nat.eqb] in H. injection H as <- <- <-.
  apply mt_star_chr in E1 as (b1 & F1 & B1).
  apply mt_plus_chr in E2 as (v1 & F2 & B2 & N2). rewrite Ew1 in F2. apply mt_app_cancel in F2. subst v1.
  apply mt_star_chr in E3 as (b2 & F3 & B3). apply mt_lit_inv in E4.
  apply mt_plus_chr in E5 as (v2 & F5 & B5 & N5). rewrite Ew2 in F5. apply mt_app_cancel in F5. subst v2.
  apply mt_lit_inv in E6. apply mt_star_chr in E7 as (b3 & F7 & B7). apply mt_lit_inv in E8.
  apply mt_star_chr in E9 as (b4 & F9 & B9).
  apply mt_plus_chr in E10 as (v3 & F10 & B10 & N10). rewrite Ew3 in F10. apply mt_app_cancel in F10. subst v3.
  apply mt_star_chr in E11 as (b5 & F11 & B11).
  apply mt_end_inv in E as [-> E].
  exists b1, b2, b3, b4, (b5 ++ s11). split.
  { rewrite F1, Ew1, F3, E4, Ew2, E6, F7, E8, F9, Ew3, F11. reflexivity. }
  unfold blanks. repeat split; auto.
  - rewrite forallb_app, B11. destruct E as [->| ->]; reflexivity.
  - intros Hin. rewrite forallb_forall in B5. apply B5 in Hin.
    rewrite Ascii.eqb_refl in Hin. discriminate.
Qed.

Lemma parse_line_complete : forall b1 algo b2 name b3 b4 sum b5,
  blanks b1 -> blanks b2 -> blanks b3 -> blanks b4 -> blanks b5 ->
  algo <> [] -> forallb is_algo_char algo = true ->
  name <> [] -> no_newline name ->
  sum <> [] -> forallb is_sum_char sum = true ->
  exists r, parse_manifest_line
    (b1 ++ algo ++ b2 ++ L "(" ++ name ++ L ")" ++ b3 ++ L "=" ++ b4 ++ sum ++ b5) = Some r.
Proof.
  intros b1 algo b2 name b3 b4 sum b5 B1 B2 B3 B4 B5 Ha0 Ha Hn0 Hn Hs0 Hs.
  set (line := b1 ++ _).
  assert (M : re_test re_manifest line = true).
  { apply re_test_spec. exists []. unfold re_manifest, line.
    repeat (apply mt_seq_inv; eexists; split).
    - apply mt_star_chr. eexists. split; [reflexivity|exact B1].
    - apply mt_group_inv, mt_plus_chr. eexists. split; [reflexivity|]. auto.
    - apply mt_star_chr. eexists. split; [reflexivity|exact B2].
    - apply mt_lit_inv. reflexivity.
    - apply mt_group_inv, mt_plus_chr. eexists. split; [reflexivity|].
      split; [now apply no_newline_forallb|exact Hn0].
    - apply mt_lit_inv. reflexivity.
    - apply mt_star_chr. eexists. split; [reflexivity|exact B3].
    - apply mt_lit_inv. reflexivity.
    - apply mt_star_chr. eexists. split; [reflexivity|exact B4].
    - apply mt_group_inv, mt_plus_chr. eexists. split; [reflexivity|]. auto.
    - apply mt_star_chr. exists b5. split; [symmetry; apply app_nil_r|exact B5].
    - constructor. }
  unfold re_test in M. unfold parse_manifest_line.
  destruct (re_match re_manifest line) as [g|] eqn:E; [|discriminate].
  apply re_match_mtc in E as [t E]. unfold re_manifest in E.
  apply mtc_seq_inv in E as (s1 & g1 & E1 & E). apply mtc_plain in E1 as [-> E1]; [|reflexivity].
  apply mtc_seq_inv in E as (s2 & g2 & E2 & E).
  apply mtc_seq_inv in E as (s3 & g3 & E3 & E). apply mtc_plain in E3 as [-> E3]; [|reflexivity].
  apply mtc_seq_inv in E as (s4 & g4 & E4 & E). apply mtc_plain in E4 as [-> E4]; [|reflexivity].
  apply mtc_seq_inv in E as (s5 & g5 & E5 & E).
  apply mtc_seq_inv in E as (s6 & g6 & E6 & E). apply mtc_plain in E6 as [-> E6]; [|reflexivity].
  apply mtc_seq_inv in E as (s7 & g7 & E7 & E). apply mtc_plain in E7 as [-> E7]; [|reflexivity].
  apply mtc_seq_inv in E as (s8 & g8 & E8 & E). apply mtc_plain in E8 as [-> E8]; [|reflexivity].
  apply mtc_seq_inv in E as (s9 & g9 & E9 & E). apply mtc_plain in E9 as [-> E9]; [|reflexivity].
  apply mtc_seq_inv in E as (s10 & g10 & E10 & E).
  apply mtc_seq_inv in E as (s11 & g11 & E11 & E). apply mtc_plain in E11 as [-> E11]; [|reflexivity].
  apply mtc_plain in E as [-> E]; [|reflexivity].
  apply mtc_group_inv in E2 as (w1 & h1 & -> & Ew1 & E2). apply mtc_plain in E2 as [-> E2]; [|reflexivity].
  apply mtc_group_inv in E5 as (w2 & h2 & -> & Ew2 & E5). apply mtc_plain in E5 as [-> E5]; [|reflexivity].
  apply mtc_group_inv in E10 as (w3 & h3 & -> & Ew3 & E10). apply mtc_plain in E10 as [-> E10]; [|reflexivity].
  cbn [group Nat.eqb]. eauto.
Qed.

(** ** Whole manifests *)

(** One entry to be written. *)
Definition line_of (algo : str) (e : str * str) : str :=
  algo ++ L "(" ++ fst e ++ L ")= " ++ snd e.

Lemma manifest_line_eq : forall algo e, manifest_line algo (fst e) (snd e) = line_of algo e ++ [NL].
Proof.
  intros algo e. unfold manifest_line, line_of. now rewrite <- !app_assoc.
Qed.

Lemma manifest_files_text : forall algo refs elems text,
  manifest_files algo elems refs = Ok text ->
  exists sums, length sums = length elems /\
    (forall i h, nth_error elems i = Some h -> dget str_eqb h refs = nth_error sums i) /\
    text = concat (map (fun e => line_of algo e ++ [NL]) (combine elems sums)).
Proof.
  intros algo refs. induction elems as [|h elems IH]; intros text H; cbn in H.
  - injection H as <-. exists []. repeat split. intros [|i] h; discriminate.
  - destruct (dget str_eqb h refs) as [sum|] eqn:E; [|discriminate].
    destruct (manifest_files algo elems refs) as [tail|] eqn:Et; [|discriminate].
    cbn in H. injection H as <-. destruct (IH tail eq_refl) as (sums & Hl & Hg & ->).
    exists (sum :: sums). cbn. split; [now rewrite Hl|]. split.
    + intros [|i] h' Hi; cbn in *; [now injection Hi as <-|]. now apply Hg.
    + f_equal. apply (manifest_line_eq algo (h, sum)).
Qed.

Lemma manifest_files_ok : forall algo refs elems,
  (forall h, In h elems -> dget str_eqb h refs <> None) ->
  exists text, manifest_files algo elems refs = Ok text.
Proof.
  intros algo refs. induction elems as [|h elems IH]; intros H; cbn.
  - eauto.
  - destruct (dget str_eqb h refs) as [sum|] eqn:E; [|exfalso; apply (H h); [now left|exact E]].
    destruct IH as [text ->]; [intros; apply H; now right|]. cbn. eauto.
Qed.

Definition good_entry (e : str * str) : Prop :=
  fst e <> [] /\ no_newline (fst e) /\ snd e <> [] /\ forallb is_sum_char (snd e) = true.

Lemma line_no_newline : forall algo e, forallb is_algo_char algo = true -> good_entry e ->
  forallb (fun c => negb (Ascii.eqb c NL)) (line_of algo e) = true.
Proof.
  intros algo e Ha (_ & Hn & _ & Hs). unfold line_of.
  rewrite !forallb_app, !andb_true_iff. repeat split.
  - eapply forallb_impl; [|exact Ha]. intros c Hc. apply negb_true_iff, Ascii.eqb_neq.
    intros ->. discriminate Hc.
  - now apply no_newline_forallb.
  - eapply forallb_impl; [|exact Hs]. intros c Hc. apply negb_true_iff, Ascii.eqb_neq.
    now apply sum_not_special.
Qed.

Lemma split_lines : forall algo es, forallb is_algo_char algo = true -> Forall good_entry es ->
  split_on NL (concat (map (fun e => line_of algo e ++ [NL]) es)) = map (line_of algo) es ++ [[]].
Proof.
  intros algo es Ha He. induction He as [|e es Hg He IH]; [reflexivity|].
  cbn [map concat app]. rewrite <- app_assoc. cbn [app]. unfold split_on at 1.
  rewrite split_on_aux_app by now apply line_no_newline.
  cbn [rev app]. now rewrite IH.
Qed.

Lemma parse_entries : forall algo es acc,
  algo <> [] -> forallb is_algo_char algo = true -> Forall good_entry es ->
  fold_left (fun result line =>
    match line with
    | [] => result
    | _ => match parse_manifest_line line with
           | Some (name, v) => dset str_eqb name v result
           | None => result
           end
    end) (map (line_of algo) es ++ [[]]) acc =
  fold_left (fun d e => dset str_eqb (fst e) (algo, snd e) d) es acc.
Proof.
  intros algo es acc Ha0 Ha He. revert acc. induction He as [|e es Hg He IH]; intros acc; [reflexivity|].
  destruct Hg as (H1 & H2 & H3 & H4).
  cbn [map app fold_left].
  assert (E : line_of algo e <> []).
  { unfold line_of. destruct algo; [contradiction|]. discriminate. }
  destruct (line_of algo e) as [|c l] eqn:El; [contradiction|].
  assert (P : parse_manifest_line (c :: l) = Some (fst e, (algo, snd e)))
    by (rewrite <- El; apply parse_line; assumption).
  rewrite P. apply IH.
Qed.

Lemma fold_dset_fresh : forall (V : Type) (f : str * str -> V) es acc,
  NoDup (map fst acc ++ map fst es) ->
  fold_left (fun d e => dset str_eqb (fst e) (f e) d) es acc =
  acc ++ map (fun e => (fst e, f e)) es.
Proof.
  intros V f es. induction es as [|e es IH]; intros acc H; cbn.
  - now rewrite app_nil_r.
  - rewrite dset_fresh.
    + rewrite IH; [now rewrite <- app_assoc|].
      rewrite map_app. cbn. now rewrite <- app_assoc.
    + apply str_eqb_eq.
    + apply NoDup_remove_2 in H. intros Hin. apply H. apply in_or_app. now left.
Qed.

Lemma hex_digest_class : forall s, hex_digest s -> s <> [] /\ forallb is_sum_char s = true.
Proof.
  intros s [H1 H2]. split; [exact H1|]. apply forallb_forall. intros c Hc.
  apply H2 in Hc. cbn in Hc. intuition (subst; reflexivity).
Qed.

Lemma algorithm_class : forall a, algorithm_name a -> a <> [] /\ forallb is_algo_char a = true.
Proof. intros a [->| ->]; split; try discriminate; reflexivity. Qed.

Lemma entries_good : forall refs elems sums,
  length sums = length elems ->
  (forall i h, nth_error elems i = Some h -> dget str_eqb h refs = nth_error sums i) ->
  (forall h, In h elems -> file_name_ok h /\ exists s, dget str_eqb h refs = Some s /\ hex_digest s) ->
  Forall good_entry (combine elems sums).
Proof.
  intros refs. induction elems as [|h elems IH]; intros [|s sums] Hl Hg Hok; cbn in *;
    try discriminate; try constructor.
  - destruct (Hok h (or_introl eq_refl)) as ([H1 H2] & s' & Hs' & Hd).
    specialize (Hg 0 h eq_refl). cbn in Hg. rewrite Hs' in Hg. injection Hg as ->.
    apply hex_digest_class in Hd as [H3 H4]. repeat split; auto.
  - apply IH.
    + now injection Hl.
    + intros i h' Hi. now apply (Hg (S i)).
    + intros h' Hin. apply Hok. now right.
Qed.

Lemma combine_map_fst : forall (A B : Type) (l : list A) (l' : list B),
  length l' = length l -> map fst (combine l l') = l.
Proof.
  induction l as [|x l IH]; intros [|y l'] H; cbn in *; try discriminate; [reflexivity|].
  f_equal. apply IH. now injection H.
Qed.

Lemma generate_ok : forall algo ovf_name ovf_sum elems refs,
  algorithm_name algo ->
  file_name_ok ovf_name -> hex_digest ovf_sum ->
  (forall h, In h elems -> file_name_ok h /\ exists s, dget str_eqb h refs = Some s /\ hex_digest s) ->
  exists text sums, generate_manifest algo ovf_name ovf_sum elems refs = Ok text /\
    length sums = length elems /\
    (forall i h, nth_error elems i = Some h -> dget str_eqb h refs = nth_error sums i) /\
    parse_manifest text =
    fold_left (fun d e => dset str_eqb (fst e) (algo, snd e) d)
      ((ovf_name, ovf_sum) :: combine elems sums) [].
Proof.
  intros algo n s elems refs Ha [Hn1 Hn2] Hs He.
  apply algorithm_class in Ha as [Ha0 Ha]. apply hex_digest_class in Hs as [Hs0 Hs].
  destruct (manifest_files_ok algo refs elems) as [tail Ht].
  { intros h Hh E. destruct (He h Hh) as (_ & s' & Hs' & _). congruence. }
  destruct (manifest_files_text _ _ _ _ Ht) as (sums & Hl & Hg & Etail).
  exists (manifest_line algo n s ++ tail), sums.
  unfold generate_manifest. rewrite Ht. cbn [rbind]. split; [reflexivity|].
  split; [exact Hl|]. split; [exact Hg|].
  assert (Hgood : Forall good_entry ((n, s) :: combine elems sums)).
  { constructor; [now repeat split|]. now apply (entries_good refs). }
  unfold parse_manifest.
  replace (manifest_line algo n s ++ tail) with
    (concat (map (fun e => line_of algo e ++ [NL]) ((n, s) :: combine elems sums))).
  2:{ cbn [map concat]. rewrite Etail. f_equal. symmetry. apply (manifest_line_eq algo (n, s)). }
  rewrite split_lines by assumption. now apply parse_entries.
Qed.

Lemma combine_sums : forall refs elems sums algo,
  length sums = length elems ->
  (forall i h, nth_error elems i = Some h -> dget str_eqb h refs = nth_error sums i) ->
  map (fun e : str * str => (fst e, (algo : str, snd e))) (combine elems sums) =
  map (fun h => (h, (algo, match dget str_eqb h refs with Some s => s | None => [] end))) elems.
Proof.
  intros refs. induction elems as [|h elems IH]; intros [|s sums] algo Hl Hg; cbn in *;
    try discriminate; [reflexivity|].
  pose proof (Hg 0 h eq_refl) as E. cbn in E. rewrite E. f_equal. apply IH.
  - now injection Hl.
  - intros i h' Hi. now apply (Hg (S i)).
Qed.

Lemma manifest_round_trip : forall algo ovf_name ovf_sum elems refs,
  algorithm_name algo ->
  file_name_ok ovf_name -> hex_digest ovf_sum ->
  (forall h, In h elems -> file_name_ok h /\ exists s, dget str_eqb h refs = Some s /\ hex_digest s) ->
  NoDup (ovf_name :: elems) ->
  exists text, generate_manifest algo ovf_name ovf_sum elems refs = Ok text /\
    parse_manifest text =
      (ovf_name, (algo, ovf_sum)) ::
      map (fun h => (h, (algo, match dget str_eqb h refs with Some s => s | None => [] end))) elems.
Proof.
  intros algo n s elems refs Ha Hn Hs He Hnd.
  destruct (generate_ok algo n s elems refs Ha Hn Hs He) as (text & sums & Ht & Hl & Hg & Hp).
  exists text. split; [exact Ht|]. rewrite Hp.
  rewrite (fold_dset_fresh _ (fun e => (algo, snd e))).
  - cbn. f_equal. now apply combine_sums.
  - cbn. now rewrite combine_map_fst.
Qed.

Lemma fold_dset_lookup : forall (V : Type) (f : str * str -> V) es acc k,
  dget str_eqb k (fold_left (fun d e => dset str_eqb (fst e) (f e) d) es acc) =
  match find (fun e => str_eqb k (fst e)) (rev es) with
  | Some e => Some (f e)
  | None => dget str_eqb k acc
  end.
Proof.
  intros V f es. induction es as [|e es IH]; intros acc k; [reflexivity|].
  cbn [fold_left rev]. rewrite IH.
  assert (F : forall l, find (fun e0 : str * str => str_eqb k (fst e0)) (l ++ [e]) =
     match find (fun e0 : str * str => str_eqb k (fst e0)) l with Some x => Some x
     | None => if str_eqb k (fst e) then Some e else None end).
  { induction l as [|x l IHl]; [reflexivity|]. cbn. destruct (str_eqb k (fst x)); auto. }
  rewrite F. destruct (find _ (rev es)); [reflexivity|].
  destruct (str_eqb k (fst e)) eqn:E.
  - apply str_eqb_eq in E. subst. rewrite dget_dset_same; [reflexivity|apply str_eqb_eq].
  - rewrite dget_dset_other; [reflexivity|apply str_eqb_eq|]. now apply str_eqb_neq.
Qed.

Lemma combine_in_dget : forall (refs : list (str * str)) (elems sums : list str),
  length sums = length elems ->
  (forall i h, nth_error elems i = Some h -> dget str_eqb h refs = nth_error sums i) ->
  forall e : str * str, In e (combine elems sums) -> dget str_eqb (fst e) refs = Some (snd e) /\ In (fst e) elems.
Proof.
  intros refs. induction elems as [|h elems IH]; intros [|s sums] Hl Hg e Hin; cbn in *;
    try discriminate; try contradiction.
  destruct Hin as [<-|Hin].
  - split; [exact (Hg 0 h eq_refl)|now left].
  - destruct (IH sums (eq_add_S _ _ Hl) (fun i h' Hi => Hg (S i) h' Hi) e Hin). auto.
Qed.

Lemma manifest_lookup : forall algo ovf_name ovf_sum elems refs,
  algorithm_name algo ->
  file_name_ok ovf_name -> hex_digest ovf_sum ->
  (forall h, In h elems -> file_name_ok h /\ exists s, dget str_eqb h refs = Some s /\ hex_digest s) ->
  exists text, generate_manifest algo ovf_name ovf_sum elems refs = Ok text /\
    forall name, dget str_eqb name (parse_manifest text) =
      expected_entry algo ovf_name ovf_sum elems refs name.
Proof.
  intros algo n s elems refs Ha Hn Hs He.
  destruct (generate_ok algo n s elems refs Ha Hn Hs He) as (text & sums & Ht & Hl & Hg & Hp).
  exists text. split; [exact Ht|]. intros name. rewrite Hp.
  rewrite (fold_dset_lookup _ (fun e => (algo, snd e))). cbn [rev].
  assert (F : forall l (e:str*str), find (fun e0 : str * str => str_eqb name (fst e0)) (l ++ [e]) =
     match find (fun e0 : str * str => str_eqb name (fst e0)) l with Some x => Some x
     | None => if str_eqb name (fst e) then Some e else None end).
  { induction l as [|x l IHl]; intros e; [reflexivity|]. cbn. destruct (str_eqb name (fst x)); auto. }
  rewrite F. unfold expected_entry.
  destruct (find (fun e0 => str_eqb name (fst e0)) (rev (combine elems sums))) as [e|] eqn:Ef.
  - apply find_some in Ef as [Hin E]. apply str_eqb_eq in E. subst name.
    apply in_rev in Hin. destruct (combine_in_dget refs elems sums Hl Hg e Hin) as [H1 H2].
    apply mem_str_In in H2. rewrite H2, H1. reflexivity.
  - assert (Hm : mem_str name elems = false).
    { apply mem_str_false. intros Hin.
      rewrite <- (combine_map_fst _ _ elems sums Hl) in Hin.
      apply in_map_iff in Hin as (e & <- & Hin).
      apply in_rev in Hin. apply (find_none _ _ Ef) in Hin.
      rewrite str_eqb_refl in Hin. discriminate. }
    rewrite Hm. cbn [fst]. destruct (str_eqb name n); reflexivity.
Qed.

Lemma newline_name_lost :
  exists name sum text,
    generate_manifest (L "SHA1") name sum [] [] = Ok text /\
    name <> [] /\ hex_digest sum /\ parse_manifest text = [].
Proof.
  exists (L "a" ++ [NL] ++ L "b"), (L "0f"). eexists. split; [reflexivity|].
  split; [discriminate|]. split; [|vm_compute; reflexivity].
  split; [discriminate|]. cbn. intuition (subst; auto 20).
Qed.
