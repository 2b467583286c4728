From Coq Require Import Lia.
From Verif Require Import PyBase PyBaseProofs PyRegex PyRegexProofs PyDict PyDictProofs
  ValidationSpec ValidationProofs PropArgProofs SerialModel SerialSpec.

Lemma lower_letter_iff : forall c, lower_letter c = true <-> lowercase [c].
Proof.
  intros c. unfold lower_letter, lowercase. rewrite in_range_iff. unfold code. split.
  - intros H d [<-|[]]. exact H.
  - intros H. apply H. now left.
Qed.
Lemma lowercase_forallb : forall s, lowercase s <-> forallb lower_letter s = true.
Proof.
  intros s. rewrite forallb_forall. unfold lowercase. split; intros H c Hc.
  - apply lower_letter_iff. intros d [<-|[]]. now apply H.
  - specialize (H c Hc). apply lower_letter_iff in H. apply H. now left.
Qed.
Lemma value_char_iff : forall c, value_char c = false <-> separator c.
Proof.
  intros c. unfold value_char, separator. rewrite negb_false_iff, !orb_true_iff, !Ascii.eqb_eq.
  change (ascii_of_nat 9) with TAB. tauto.
Qed.
Lemma value_chars : forall s, (forall c, In c s -> ~ separator c) <-> forallb value_char s = true.
Proof.
  intros s. rewrite forallb_forall. split; intros H c Hc.
  - destruct (value_char c) eqn:E; [reflexivity|]. apply value_char_iff in E. now elim (H c Hc).
  - intros X. apply value_char_iff in X. rewrite H in X; [discriminate|exact Hc].
Qed.

(** ** The part from the value on *)
Definition re_rest : re :=
  RSeq (RGroup 2 (RPlus (RChr value_char)))
 (RSeq (ROpt (RLit ","%char))
 (RSeq (RGroup 3 (RStar RDot)) REnd)).

Definition sep_tail (t : str) : Prop := forall c u, t = c :: u -> value_char c = false.

Lemma tail_means_sep : forall t o, tail_means t o -> sep_tail t.
Proof.
  intros t o H c u E. destruct H as [|o|d o Hd _]; [discriminate| |]; injection E as <- _.
  - reflexivity.
  - now apply value_char_iff.
Qed.

Lemma tail_means_exists : forall t, sep_tail t -> exists o, tail_means t o.
Proof.
  intros [|c t] H; [exists []; constructor|]. specialize (H c t eq_refl). apply value_char_iff in H.
  destruct (Ascii.ascii_dec c ","%char) as [->|Hc]; [exists t; constructor|].
  exists (c :: t). now constructor.
Qed.

Lemma rest_fails : forall B (k : st -> list B) (t : str) g, sep_tail t -> flat_map k (run re_rest (mkst t g)) = [].
Proof.
  intros B k t g Ht. apply no_mt_fails. intros [u H]. cbn [rest] in H.
  apply mt_seq_inv in H as (s1 & H & _). apply mt_group_inv, mt_plus_chr in H as (w & -> & Hp & Hw).
  destruct w as [|c w]; [now apply Hw|]. cbn in Hp. apply andb_true_iff in Hp as [Hp _].
  rewrite (Ht c (w ++ s1) eq_refl) in Hp. discriminate.
Qed.

Lemma dots : forall s : str, ~ In NL s -> forallb (fun c => negb (Ascii.eqb c NL)) s = true.
Proof.
  intros s H. apply forallb_forall. intros c Hc. destruct (Ascii.eqb_spec c NL) as [->|]; [now elim H|reflexivity].
Qed.

Lemma wins_dots_end : forall B n (k : st -> list B) (o : str) g y, ~ In NL o ->
  (exists ys, k (mkst [] ((n, o) :: g)) = y :: ys) ->
  wins (RSeq (RGroup n (RStar RDot)) REnd) k (mkst o g) y.
Proof.
  intros B n k o g y Ho Hk. apply wins_seq. replace (mkst o g) with (mkst (o ++ []) g) by now rewrite app_nil_r.
  apply wins_group_star_munch; [now apply dots|discriminate|]. now apply wins_end0.
Qed.

Lemma wins_rest : forall B (k : st -> list B) (v t o : str) g y,
  v <> [] -> forallb value_char v = true -> tail_means t o -> ~ In NL t ->
  (exists ys, k (mkst [] ((3, o) :: (2, v) :: g)) = y :: ys) ->
  wins re_rest k (mkst (v ++ t) g) y.
Proof.
  intros B k v t o g y Hn Hv Ht HN Hk. apply wins_seq.
  apply wins_group_plus_munch; [exact Hv|apply (tail_means_sep t o Ht)|exact Hn|].
  destruct Ht as [|o|c o Hs Hc].
  - apply (wins_seq _ (ROpt (RLit ","%char))). apply wins_altr.
    + apply no_mt_fails. intros [u H]. inversion H.
    + destruct (wins_dots_end B 3 k [] ((2, v) :: g) y) as [ys X]; [easy|exact Hk|]. now apply wins_eps with ys.
  - apply (wins_seq _ (ROpt (RLit ","%char))). apply wins_altl, wins_lit.
    apply wins_dots_end; [|exact Hk]. intros X. apply HN. now right.
  - apply (wins_seq _ (ROpt (RLit ","%char))). apply wins_altr.
    + apply no_mt_fails. intros [u H]. cbn [rest] in H. apply mt_lit_inv in H. now injection H as ->.
    + destruct (wins_dots_end B 3 k (c :: o) ((2, v) :: g) y HN Hk) as [ys X]. now apply wins_eps with ys.
Qed.

Lemma head_first : forall head kind value, head_means head kind value -> (forall c, In c head -> ~ separator c) ->
  value <> [] /\ forallb value_char value = true.
Proof.
  intros head kind value H Hs. apply value_chars in Hs. destruct H as [kind value Hk Hv|kind c value Hk Hc Hv|kind c Hk Hc].
  - split; [exact Hv|]. rewrite forallb_app in Hs. apply andb_true_iff in Hs as [_ Hs]. now apply andb_true_iff in Hs as [_ Hs].
  - split; [discriminate|]. rewrite forallb_app in Hs. now apply andb_true_iff in Hs as [_ Hs].
  - split; [discriminate|]. rewrite forallb_app in Hs. now apply andb_true_iff in Hs as [_ Hs].
Qed.

Lemma opt_no : forall B (k : st -> list B) c (s : str) g y, (forall t, s <> c :: t) ->
  (exists ys, k (mkst s g) = y :: ys) -> wins (ROpt (RLit c)) k (mkst s g) y.
Proof.
  intros B k c s g y Hs [ys Hk]. apply wins_altr.
  - apply no_mt_fails. intros [t H]. cbn [rest] in H. apply mt_lit_inv in H. now apply (Hs t).
  - now apply wins_eps with ys.
Qed.

(** [:?] and the rest, when they begin after the kind *)
Lemma match_serial : forall s kind value opts, reads s kind value opts ->
  re_match re_serial s = Some [(3, opts); (2, value); (1, kind)].
Proof.
  intros s kind value opts (head & tail & -> & Hh & Ht & HN & Hm).
  destruct (head_first _ _ _ Hm Hh) as [Hvn Hvc].
  apply (wins_match _ _ []). apply wins_seq.
  assert (Hsep := tail_means_sep _ _ Ht).
  assert (WR : forall g, exists ys, flat_map (fun x => [x]) (run re_rest (mkst (value ++ tail) g)) =
                mkst [] ((3, opts) :: (2, value) :: g) :: ys).
  { intros g. apply (wins_rest st (fun x => [x]) value tail opts g); auto. exists []. reflexivity. }
  destruct Hm as [kind value Hk Hv|kind c value Hk Hc Hv|kind c Hk Hc].
  - rewrite <- app_assoc. apply lowercase_forallb in Hk.
    apply wins_group_star_munch; [exact Hk| |].
    + intros c u E. injection E as <- _. reflexivity.
    + apply (wins_seq _ (ROpt (RLit ":"%char))). apply wins_altl. cbn [app]. apply wins_lit. apply WR.
  - rewrite <- app_assoc. apply lowercase_forallb in Hk.
    apply wins_group_star_munch; [exact Hk| |].
    + intros d u E. injection E as <- _. destruct (lower_letter c) eqn:X; [|reflexivity].
      now apply lower_letter_iff in X.
    + apply (wins_seq _ (ROpt (RLit ":"%char))).
      destruct (Ascii.ascii_dec c ":"%char) as [->|Hne].
      * rewrite (Hv eq_refl) in *. apply wins_altr.
        -- unfold fails. cbn [app run RLit rest Ascii.eqb Bool.eqb]. cbn [flat_map]. rewrite app_nil_r.
           now apply rest_fails.
        -- destruct (WR [(1, kind)]) as [ys X]. now apply wins_eps with ys.
      * apply opt_no; [|apply WR]. intros t E. injection E as -> _. now apply Hne.
  - rewrite <- app_assoc. apply lowercase_forallb in Hk. apply lower_letter_iff in Hc.
    replace (kind ++ [c] ++ tail) with ((kind ++ [c]) ++ tail) by now rewrite <- app_assoc.
    apply (wins_group_star _ _ _ _ _ _ _ (length kind)).
    + rewrite forallb_app, Hk. cbn. now rewrite Hc.
    + intros d u E. apply Hsep in E. apply value_char_iff in E.
      destruct E as [-> |[-> | ->]]; reflexivity.
    + rewrite app_length. cbn. lia.
    + intros i Hi. rewrite app_length in Hi. cbn in Hi. assert (i = length kind + 1) as -> by lia.
      rewrite skipn_all2 by (rewrite app_length; cbn; lia). cbn [app].
      match goal with |- flat_map ?k (run ?r ?s) = [] => apply (no_mt_fails _ r k s) end.
      intros [u H]. cbn [rest] in H. apply mt_seq_inv in H as (s1 & H1 & H2).
      assert (E : s1 = tail).
      { apply mt_alt_inv in H1 as [H1|H1]; [|inversion H1; auto].
        apply mt_lit_inv in H1. exfalso. specialize (Hsep _ _ H1). discriminate. }
      subst s1. apply mt_seq_inv in H2 as (s2 & H2 & _).
      apply mt_group_inv, mt_plus_chr in H2 as (w & E & Hp & Hw).
      destruct w as [|d w]; [now apply Hw|]. cbn in Hp. apply andb_true_iff in Hp as [Hp _].
      rewrite (Hsep d (w ++ s2) E) in Hp. discriminate.
    + rewrite skipn_app, skipn_all, Nat.sub_diag, firstn_app, firstn_all, Nat.sub_diag. cbn [skipn firstn app].
      rewrite app_nil_r.
      apply (wins_seq _ (ROpt (RLit ":"%char))). apply opt_no; [|apply (WR [(1, kind)])].
      intros t E. injection E as -> _. discriminate.
Qed.

(** ** Nothing else matches *)
Lemma head_means_exists : forall head, head <> [] -> exists k v, head_means head k v.
Proof.
  intros head Hn. destruct (span lower_letter head) as [l r] eqn:E.
  apply span_spec in E as (-> & Hl & Hr). apply lowercase_forallb in Hl.
  destruct r as [|c r].
  - rewrite app_nil_r in *. destruct (exists_last Hn) as (k & c & ->).
    exists k, [c]. apply hm_letters.
    + intros d Hd. apply Hl, in_or_app. now left.
    + intros d [<-|[]]. apply Hl, in_elt.
  - specialize (Hr c r eq_refl). assert (~ lowercase [c]) by (intros X; apply lower_letter_iff in X; congruence).
    destruct (Ascii.ascii_dec c ":"%char) as [->|Hc].
    + destruct r as [|d r].
      * exists l, [":"%char]. now apply hm_plain.
      * exists l, (d :: r). now apply hm_colon.
    + exists l, (c :: r). apply hm_plain; auto. intros X. now elim Hc.
Qed.

Lemma match_reads : forall s g, re_match re_serial s = Some g ->
  (forall c t, s = t ++ [c] -> is_space c = false) -> exists k v o, reads s k v o.
Proof.
  intros s g H Hs. assert (X : re_test re_serial s = true) by (unfold re_test; now rewrite H).
  apply re_test_spec in X as [t X].
  apply mt_seq_inv in X as (s1 & X1 & X). apply mt_group_inv, mt_star_chr in X1 as (l & -> & Hl).
  apply mt_seq_inv in X as (s2 & X2 & X). apply mt_seq_inv in X as (s3 & X3 & X).
  apply mt_group_inv, mt_plus_chr in X3 as (v & -> & Hv & Hvn).
  apply mt_seq_inv in X as (s4 & X4 & X). apply mt_seq_inv in X as (s5 & X5 & X6).
  apply mt_group_inv, mt_star_chr in X5 as (o & -> & Ho).
  assert (E2 : exists c1, s1 = c1 ++ v ++ s3 /\ forallb value_char c1 = true).
  { apply mt_alt_inv in X2 as [X2|X2].
    - apply mt_lit_inv in X2 as ->. now exists [":"%char].
    - inversion X2; subst. now exists []. }
  assert (E4 : exists c2, s3 = c2 ++ o ++ s5 /\ ~ In NL c2).
  { apply mt_alt_inv in X4 as [X4|X4].
    - apply mt_lit_inv in X4 as ->. exists [","%char]. split; [reflexivity|]. now intros [X|[]].
    - inversion X4; subst. now exists []. }
  destruct E2 as (c1 & -> & Hc1), E4 as (c2 & -> & Hc2).
  assert (s5 = []).
  { inversion X6; subst; [reflexivity|]. exfalso.
    assert (X := Hs NL (l ++ c1 ++ v ++ c2 ++ o)). rewrite <- !app_assoc in X. specialize (X eq_refl). discriminate. }
  subst s5. rewrite app_nil_r in *.
  assert (No : ~ In NL o).
  { intros Hi. rewrite forallb_forall in Ho. apply Ho in Hi. now rewrite Ascii.eqb_refl in Hi. }
  assert (Hlv : forallb value_char l = true).
  { apply (forallb_impl _ lower_letter); [|exact Hl]. intros c Hc. apply lower_letter_iff in Hc.
    destruct (value_char c) eqn:E; [reflexivity|]. apply value_char_iff in E.
    specialize (Hc c (or_introl eq_refl)). destruct E as [-> |[-> | ->]]; cbn in Hc; lia. }
  destruct (span value_char (c2 ++ o)) as [a b] eqn:E. apply span_spec in E as (Eco & Ha & Hb).
  destruct (tail_means_exists b Hb) as [opts Hopts].
  destruct (head_means_exists (l ++ c1 ++ v ++ a)) as (k & w & Hkw).
  { destruct l, c1; try discriminate. destruct v; [now elim Hvn|discriminate]. }
  exists k, w, opts, (l ++ c1 ++ v ++ a), b.
  split; [rewrite Eco, <- !app_assoc; reflexivity|].
  split; [apply value_chars; rewrite !forallb_app, Hlv, Hc1, Hv, Ha; reflexivity|].
  split; [exact Hopts|]. split; [|exact Hkw].
  intros HN. change NLc with NL in HN. assert (In NL (c2 ++ o)) by (rewrite Eco; apply in_or_app; now right).
  apply in_app_or in H0 as [Y|Y]; auto.
Qed.

Lemma reads_unique : forall s k1 v1 o1 k2 v2 o2, reads s k1 v1 o1 -> reads s k2 v2 o2 ->
  k1 = k2 /\ v1 = v2 /\ o1 = o2.
Proof.
  intros s k1 v1 o1 k2 v2 o2 H1 H2. apply match_serial in H1, H2. rewrite H1 in H2. now injection H2.
Qed.

(** ** The address of tcp and telnet connections *)
Lemma digit_iff : forall c, is_digit c = true <-> (48 <= N_of_ascii c <= 57)%N.
Proof. intros c. apply in_range_iff. Qed.
Lemma number_iff : forall s, number s <-> s <> [] /\ forallb is_digit s = true.
Proof.
  intros s. unfold number. rewrite forallb_forall. split; intros [H1 H2]; (split; [exact H1|]);
    intros c Hc; apply digit_iff; auto.
Qed.
Lemma number_single : forall c, number [c] <-> is_digit c = true.
Proof.
  intros c. rewrite number_iff. cbn. rewrite andb_true_r. split; [tauto|]. now split.
Qed.

Definition re_hostport : re := RSeq (RStar RDot) (RSeq (RLit ":"%char) (RPlus (RChr is_digit))).

Lemma port_fails : forall B (k : st -> list B) (s : str) g, ~ port_at s ->
  flat_map k (run (RSeq (RLit ":"%char) (RPlus (RChr is_digit))) (mkst s g)) = [].
Proof.
  intros B k s g H. apply no_mt_fails. intros [t X]. cbn [rest] in X.
  apply mt_seq_inv in X as (s1 & X1 & X2). apply mt_lit_inv in X1 as ->.
  apply mt_plus_chr in X2 as (w & -> & Hd & Hw). destruct w as [|d w]; [now apply Hw|].
  cbn in Hd. apply andb_true_iff in Hd as [Hd _]. apply H. exists d, (w ++ t). split; [reflexivity|].
  now apply digit_iff.
Qed.

Lemma no_port_later : forall (port rest' more : str) i, forallb is_digit port = true ->
  (forall x y, rest' = x ++ y -> ~ port_at y) -> (more = [] \/ exists t, more = NL :: t) ->
  ~ port_at (skipn i (port ++ rest') ++ more).
Proof.
  intros port r more i Hp Hr Hm (d & t & E & Hd).
  assert (Hsp : exists y, (skipn i (port ++ r) = y) /\ ((exists x, r = x ++ y) \/ exists c y', y = c :: y' /\ In c port)).
  { exists (skipn i (port ++ r)). split; [reflexivity|]. rewrite skipn_app.
    destruct (skipn i port) as [|c p] eqn:Es.
    - left. exists (firstn (i - length port) r). cbn. now rewrite firstn_skipn.
    - right. exists c, (p ++ skipn (i - length port) r). split; [reflexivity|].
      rewrite <- (firstn_skipn i port), Es. apply in_elt. }
  destruct Hsp as (y & Ey & Hy). rewrite Ey in E. clear Ey. destruct Hy as [[x ->]|(c & y' & -> & Hc)].
  - destruct y as [|a [|b y]].
    + cbn in E. destruct Hm as [->|[u ->]]; discriminate.
    + cbn in E. injection E as -> E. destruct Hm as [->|[u ->]]; [discriminate|].
      injection E as <- _. cbn in Hd. lia.
    + cbn in E. injection E as -> -> _. apply (Hr x (":"%char :: d :: y) eq_refl).
      now exists d, y.
  - cbn in E. injection E as -> _. rewrite forallb_forall in Hp. apply Hp in Hc. discriminate.
Qed.

Lemma wins_hostport : forall (host port r more : str) g (k : st -> list st) y,
  number port -> ~ In NL (host ++ ":"%char :: port ++ r) -> (more = [] \/ exists t, more = NL :: t) ->
  (forall c t, r = c :: t -> ~ number [c]) -> (forall x y, r = x ++ y -> ~ port_at y) ->
  (exists ys, k (mkst (r ++ more) ((1, host ++ ":"%char :: port) :: g)) = y :: ys) ->
  wins (RGroup 1 re_hostport) k (mkst ((host ++ ":"%char :: port) ++ r ++ more) g) y.
Proof.
  intros host port r more g k y Hp HN Hm Hc Hr Hk. apply number_iff in Hp as [Hpn Hp].
  apply wins_group. apply wins_seq.
  set (line := host ++ ":"%char :: port ++ r).
  assert (E : (host ++ ":"%char :: port) ++ r ++ more = line ++ more).
  { unfold line. rewrite <- !app_assoc. cbn. now rewrite <- app_assoc. }
  rewrite E. cbn [rest caps].
  destruct Hk as [ys Hk].
  assert (W : wins (RPlus (RChr is_digit)) (fun x : st => k (mkst (rest x)
       ((1, firstn (length (line ++ more) - length (rest x)) (line ++ more)) :: caps x)))
       (mkst (port ++ r ++ more) g) y).
  { destruct port as [|d port]; [now elim Hpn|]. cbn in Hp. apply andb_true_iff in Hp as [Hd Hp].
    apply (wins_seq _ (RChr is_digit)). cbn [app]. apply wins_chr; [exact Hd|].
    apply wins_star_munch; [exact Hp| |].
    - intros c t Ec. destruct r as [|e r].
      + cbn in Ec. destruct Hm as [->|[u ->]]; [discriminate|]. now injection Ec as <- _.
      + injection Ec as <- _. specialize (Hc e r eq_refl). destruct (is_digit e) eqn:X; [|reflexivity].
        elim Hc. now apply number_single.
    - cbn [rest caps]. exists ys. rewrite <- Hk. f_equal. f_equal. f_equal. f_equal.
      rewrite <- E. rewrite app_length.
      match goal with |- firstn (?a + ?b - ?b) _ = _ => replace (a + b - b) with a by lia end.
      now rewrite firstn_app, firstn_all, Nat.sub_diag, app_nil_r. }
  assert (W2 : wins (RSeq (RLit ":"%char) (RPlus (RChr is_digit)))
     (fun x : st => k (mkst (rest x)
     ((1, firstn (length (line ++ more) - length (rest x)) (line ++ more)) :: caps x)))
     (mkst (":"%char :: port ++ r ++ more) g) y).
  { apply wins_seq, wins_lit. exact W. }
  destruct W2 as [zs W2].
  apply (star_first _ _ line more g _ (length host) y zs).
  - now apply dots.
  - intros c t Ec. destruct Hm as [->|[u ->]]; [discriminate|]. injection Ec as <- _. now rewrite Ascii.eqb_refl.
  - unfold line. rewrite app_length. lia.
  - intros i Hi.
    assert (Es : skipn i line = skipn (i - length host - 1) (port ++ r)).
    { unfold line. rewrite skipn_app. rewrite skipn_all2 by lia. cbn [app].
      destruct (i - length host) as [|j] eqn:Ej; [lia|]. cbn [skipn]. f_equal. lia. }
    rewrite Es. apply port_fails. now apply no_port_later.
  - assert (Es : skipn (length host) line = ":"%char :: port ++ r).
    { unfold line. rewrite skipn_app, skipn_all, Nat.sub_diag. reflexivity. }
    rewrite Es. cbn [app]. rewrite <- app_assoc. exact W2.
Qed.

Lemma slash_step : forall (s : str) g k y, (exists ys, k (mkst s g) = y :: ys) ->
  wins (ROpt (RLit "/"%char)) k (mkst ("/"%char :: s) g) (y : st).
Proof. intros. apply wins_altl, wins_lit. assumption. Qed.

Lemma match_address : forall v a, address v a -> re_match re_address v = Some [(1, a)].
Proof.
  intros v a (sl & host & port & r & more & -> & -> & Hsl & Hmax & Hp & HN & Hm & Hc & Hr).
  apply (wins_match _ _ (r ++ more)). apply wins_seq.
  set (t := (host ++ ":"%char :: port) ++ r ++ more) in *.
  assert (W : wins (RGroup 1 re_hostport) (fun x => [x]) (mkst t []) (mkst (r ++ more) [(1, host ++ ":"%char :: port)])).
  { apply wins_hostport; auto. exists []. reflexivity. }
  destruct Hsl as [->|[->| ->]]; cbn [L list_ascii_of_string app] in *.
  - assert (Hs : forall u, t <> "/"%char :: u) by (apply (Hmax ltac:(cbn; lia))).
    apply opt_no; [exact Hs|]. apply (wins_seq _ (ROpt (RLit "/"%char))). apply opt_no; [exact Hs|]. exact W.
  - assert (Hs : forall u, t <> "/"%char :: u) by (apply (Hmax ltac:(cbn; lia))).
    apply slash_step. apply (wins_seq _ (ROpt (RLit "/"%char))). apply opt_no; [exact Hs|]. exact W.
  - apply slash_step. apply (wins_seq _ (ROpt (RLit "/"%char))). apply slash_step. exact W.
Qed.

(** the last number after a colon *)
Lemma last_port : forall s : str,
  (exists host port r, s = host ++ ":"%char :: port ++ r /\ number port /\     (forall c t, r = c :: t -> ~ number [c]) /\ (forall x y, r = x ++ y -> ~ port_at y)) \/
  (forall x y, s = x ++ y -> ~ port_at y).
Proof.
  induction s as [|c s IH].
  - right. intros x y E (d & t & -> & _). destruct x; discriminate.
  - destruct IH as [(host & port & r & -> & H)|IH].
    + left. exists (c :: host), port, r. now split.
    + destruct (span is_digit s) as [p r] eqn:E. apply span_spec in E as (-> & Hp & Hr).
      destruct (Ascii.ascii_dec c ":"%char) as [->|Hc].
      * destruct p as [|d p].
        -- right. intros [|x0 x] y E (e & t & -> & He); cbn in E.
           ++ injection E as E. specialize (Hr _ _ E). apply digit_iff in He. congruence.
           ++ injection E as _ E. apply (IH x _ E). now exists e, t.
        -- left. exists [], (d :: p), r. split; [reflexivity|]. split; [apply number_iff; split; [discriminate|exact Hp]|].
           split.
           ++ intros e t Er X. apply number_single in X. rewrite (Hr e t Er) in X. discriminate.
           ++ intros x y -> . apply (IH ((d :: p) ++ x) y). now rewrite <- app_assoc.
      * right. intros [|x0 x] y E (e & t & -> & He); cbn in E.
        -- injection E as E _. now elim Hc.
        -- injection E as _ E. apply (IH x _ E). now exists e, t.
Qed.

Lemma slashes_max : forall v : str, exists sl t, v = sl ++ t /\  (sl = [] \/ sl = L "/" \/ sl = L "//") /\ (length sl < 2 -> forall u, t <> "/"%char :: u).
Proof.
  intros v. destruct v as [|c v].
  - exists [], []. split; [reflexivity|]. split; [auto|]. discriminate.
  - destruct (Ascii.ascii_dec c "/"%char) as [->|Hc].
    + destruct v as [|d v].
      * exists (L "/"), []. split; [reflexivity|]. split; [auto|]. discriminate.
      * destruct (Ascii.ascii_dec d "/"%char) as [->|Hd].
        -- exists (L "//"), v. split; [reflexivity|]. split; [auto|]. cbn. lia.
        -- exists (L "/"), (d :: v). split; [reflexivity|]. split; [auto|]. intros _ u E. now injection E as ->.
    + exists [], (c :: v). split; [reflexivity|]. split; [auto|]. intros _ u E. now injection E as ->.
Qed.

Lemma mt_address : forall v t, mt re_address v t -> exists x d y, v = x ++ ":"%char :: d :: y /\  is_digit d = true /\ ~ In NL x.
Proof.
  intros v t H. apply mt_seq_inv in H as (s1 & H1 & H). apply mt_seq_inv in H as (s2 & H2 & H).
  apply mt_group_inv, mt_seq_inv in H as (s3 & H3 & H).
  apply mt_star_chr in H3 as (w & -> & Hw).
  apply mt_seq_inv in H as (s4 & H4 & H5). apply mt_lit_inv in H4 as ->.
  apply mt_plus_chr in H5 as (p & -> & Hp & Hn). destruct p as [|d p]; [now elim Hn|].
  cbn in Hp. apply andb_true_iff in Hp as [Hd _].
  assert (O : forall s u, mt (ROpt (RLit "/"%char)) s u -> exists z, s = z ++ u /\ ~ In NL z).
  { intros s u X. apply mt_alt_inv in X as [X|X].
    - apply mt_lit_inv in X as ->. exists ["/"%char]. split; [reflexivity|]. now intros [X|[]].
    - inversion X; subst. now exists []. }
  apply O in H1 as (z1 & -> & Z1). apply O in H2 as (z2 & -> & Z2).
  exists (z1 ++ z2 ++ w), d, (p ++ t). split; [now rewrite <- !app_assoc|]. split; [exact Hd|].
  intros HN. apply in_app_or in HN as [HN|HN]; [auto|]. apply in_app_or in HN as [HN|HN]; [auto|].
  rewrite forallb_forall in Hw. apply Hw in HN. now rewrite Ascii.eqb_refl in HN.
Qed.

Lemma address_exists : forall v t, mt re_address v t -> exists a, address v a.
Proof.
  intros v t H. apply mt_address in H as (x & d & y & E & Hd & HN).
  destruct (slashes_max v) as (sl & u & Ev & Hsl & Hmax).
  destruct (span (fun c => negb (Ascii.eqb c NL)) u) as [line more] eqn:Es.
  apply span_spec in Es as (-> & Hline & Hmore).
  assert (NLline : ~ In NL line).
  { intros X. rewrite forallb_forall in Hline. apply Hline in X. now rewrite Ascii.eqb_refl in X. }
  assert (Hm : more = [] \/ exists t, more = NL :: t).
  { destruct more as [|c more]; [auto|]. right. exists more. specialize (Hmore c more eq_refl).
    apply negb_false_iff, Ascii.eqb_eq in Hmore. now subst. }
  destruct (last_port line) as [(host & port & r & -> & Hp & Hc & Hr)|Hno].
  - exists (host ++ ":"%char :: port). exists sl, host, port, r, more.
    split; [rewrite Ev, <- !app_assoc; cbn; now rewrite <- !app_assoc|].
    split; [reflexivity|]. split; [exact Hsl|]. split; [|auto 10].
    intros Hl. rewrite Ev, skipn_app, skipn_all, Nat.sub_diag. cbn. now apply Hmax.
  - exfalso. rewrite Ev in E.
    (* the colon lies in the line *)
    assert (Hx : exists x', x = sl ++ x').
    { clear -E Hsl Hd. destruct Hsl as [->|[->| ->]]; cbn in E.
      - now exists x.
      - destruct x as [|a x]; [discriminate|]. injection E as <- _. now exists x.
      - destruct x as [|a [|b x]]; [discriminate|discriminate|]. injection E as <- <- _. now exists x. }
    destruct Hx as [x' ->]. rewrite <- app_assoc in E. apply app_inv_head in E.
    assert (NX : ~ In NL x') by (intros X; apply HN, in_or_app; now right).
    assert (Hin : exists z, line = x' ++ ":"%char :: d :: z).
    { assert (S1 : forall (q : str), forallb (fun c => negb (Ascii.eqb c NL)) q = true ->
                forall w, line ++ more = q ++ w -> exists z, line = q ++ z).
      { clear -Hm NLline. intros q. revert line NLline. induction q as [|a q IH]; intros line NLline Hq w E.
        - now exists line.
        - cbn in Hq. apply andb_true_iff in Hq as [Ha Hq]. destruct line as [|b line].
          + cbn in E. destruct Hm as [->|[u ->]]; [discriminate|]. injection E as <- _. now rewrite Ascii.eqb_refl in Ha.
          + injection E as -> E. destruct (IH line) with (w := w) as [z ->]; auto.
            * intros X. apply NLline. now right.
            * now exists z. }
      destruct (S1 (x' ++ ":"%char :: [d])) with (w := y) as [z ->].
      - apply dots. intros X. apply in_app_or in X as [X|[X|[X|[]]]]; [auto|discriminate|].
        rewrite X in Hd. discriminate.
      - rewrite <- app_assoc. exact E.
      - exists z. now rewrite <- app_assoc. }
    destruct Hin as [z ->]. apply (Hno x' (":"%char :: d :: z) eq_refl). exists d, z. split; [reflexivity|].
    now apply digit_iff.
Qed.

Lemma address_spec : forall v,
  (exists a, address v a /\ re_match re_address v = Some [(1, a)]) \/
  (re_match re_address v = None /\ forall a, ~ address v a).
Proof.
  intros v. destruct (re_match re_address v) as [g|] eqn:E.
  - left. assert (X : re_test re_address v = true) by (unfold re_test; now rewrite E).
    apply re_test_spec in X as [t X]. destruct (address_exists _ _ X) as [a Ha].
    exists a. split; [exact Ha|]. rewrite <- E. now apply match_address.
  - right. split; [reflexivity|]. intros a Ha. apply match_address in Ha. congruence.
Qed.

Lemma kind_spec : forall k, lowercase k ->
  (exists kind, kind_means k kind /\ validate_kind k = Ok kind) \/
  (validate_kind k = Err EValueUnsupported /\ forall kind, ~ kind_means k kind).
Proof.
  intros k Hk. assert (El : lower k = k).
  { unfold lower. rewrite <- (map_id k) at 2. apply map_ext_in. intros c Hc. specialize (Hk c Hc).
    unfold lower_char. destruct (in_range 65 90 c) eqn:E; [|reflexivity].
    rewrite in_range_iff in E. unfold code in E. lia. }
  unfold validate_kind. rewrite El. destruct (str_eqb k []) eqn:E0.
  - apply str_eqb_eq in E0 as ->. left. exists (L "device"). split; [now left|reflexivity].
  - apply str_eqb_neq in E0. destruct (mem_str k valid_kinds) eqn:Em.
    + apply mem_str_In in Em. left. exists k. split; [now right|reflexivity].
    + apply mem_str_false in Em. right. split; [reflexivity|]. intros kind [[-> _]|[-> H]]; [now elim E0|contradiction].
Qed.

Lemma value_spec : forall k kind v, kind_means k kind ->
  (exists value, value_means kind v value /\ validate_value kind v = Ok value) \/
  (validate_value kind v = Err EInvalidInput /\ forall value, ~ value_means kind v value).
Proof.
  intros k kind v Hk. assert (Hi : In kind valid_kinds).
  { destruct Hk as [[_ ->]|[_ H]]; [now left|exact H]. }
  unfold validate_value, value_means.
  destruct Hi as [<-|[<-|[<-|[<-|[<-|[]]]]]]; cbn [str_eqb L list_ascii_of_string];
    try (left; exists v; split; reflexivity);
    (destruct (address_spec v) as [(a & Ha & E)|[E Hno]]; [left; exists a; split; [exact Ha|]|right; split; [|exact Hno]]);
    change (L "tcp") with (list_ascii_of_string "tcp") in *; cbn; rewrite E; reflexivity.
Qed.

(** ** Options *)
Lemma entry_exists : forall e : str, (exists k v, entry_means e k v) \/
  ((forall k v, ~ entry_means e k v) /\ (e = [] \/ exists t, e = "="%char :: t)).
Proof.
  intros e. destruct (span (fun c => negb (Ascii.eqb c "="%char)) e) as [k r] eqn:E.
  apply span_spec in E as (-> & Hk & Hr).
  assert (Ne : ~ In "="%char k).
  { intros X. rewrite forallb_forall in Hk. apply Hk in X. discriminate. }
  destruct k as [|c k].
  - right. cbn [app]. split.
    + intros k v (Hn & Hne & H). destruct k as [|c k]; [now elim Hn|].
      assert (exists u, r = c :: u) as [u ->].
      { destruct H as [[-> _]|[[-> _]|(t & _ & -> & _)]]; cbn; eauto. }
      specialize (Hr c u eq_refl). apply negb_false_iff, Ascii.eqb_eq in Hr. subst. apply Hne. now left.
    + destruct r as [|c r]; [auto|]. right. specialize (Hr c r eq_refl). apply negb_false_iff, Ascii.eqb_eq in Hr.
      subst. eauto.
  - left. destruct r as [|d r].
    + exists (c :: k), OTrue. rewrite app_nil_r. split; [discriminate|]. auto.
    + specialize (Hr d r eq_refl). apply negb_false_iff, Ascii.eqb_eq in Hr. subst d.
      destruct r as [|d r].
      * exists (c :: k), OTrue. split; [discriminate|]. auto.
      * exists (c :: k), (OText (d :: r)). split; [discriminate|]. split; [exact Ne|]. right. right.
        exists (d :: r). split; [discriminate|]. auto.
Qed.

Lemma not_eq_chars : forall k : str, ~ In "="%char k -> forallb (fun c => negb (Ascii.eqb c "="%char)) k = true.
Proof.
  intros k H. apply forallb_forall. intros c Hc. destruct (Ascii.eqb_spec c "="%char) as [->|]; [now elim H|reflexivity].
Qed.

Lemma entry_ok : forall o e k v, ~ In NL e -> entry_means e k v -> option_entry o e = dset str_eqb k v o.
Proof.
  intros o e k v HN (Hn & Hne & H). unfold option_entry.
  assert (X : exists t, re_match re_option e = Some [(2, t); (1, k)] /\
              v = match t with [] => OTrue | _ => OText t end).
  { assert (Hk := not_eq_chars k Hne).
    destruct H as [[-> ->]|[[-> ->]|(t & Ht & -> & ->)]].
    - exists []. split; [|reflexivity]. apply (wins_match _ _ []).
      rewrite <- (app_nil_r k) at 1. apply wins_seq, wins_group_plus_munch; [exact Hk|discriminate|exact Hn|].
      apply (wins_seq _ (ROpt (RLit "="%char))). apply opt_no; [discriminate|].
      apply (wins_group_star_munch _ _ _ [] []); [reflexivity|discriminate|]. exists []. reflexivity.
    - exists []. split; [|reflexivity]. apply (wins_match _ _ []).
      apply wins_seq, wins_group_plus_munch; [exact Hk| |exact Hn|].
      + intros c u E. injection E as <- _. reflexivity.
      + apply (wins_seq _ (ROpt (RLit "="%char))). apply wins_altl, wins_lit.
        apply (wins_group_star_munch _ _ _ [] []); [reflexivity|discriminate|]. exists []. reflexivity.
    - exists t. split; [|destruct t; [now elim Ht|reflexivity]]. apply (wins_match _ _ []).
      apply wins_seq, wins_group_plus_munch; [exact Hk| |exact Hn|].
      + intros c u E. injection E as <- _. reflexivity.
      + apply (wins_seq _ (ROpt (RLit "="%char))). apply wins_altl, wins_lit.
        assert (W : wins (RGroup 2 (RStar RDot)) (fun x => [x]) (mkst (t ++ []) [(1, k)]) (mkst [] [(2, t); (1, k)])).
        { apply wins_group_star_munch; [|discriminate|exists []; reflexivity].
          apply dots. intros X. apply HN, in_or_app. right. now right. }
        rewrite app_nil_r in W. exact W. }
  destruct X as (t & E & ->).
  destruct e as [|c e].
  { destruct k; [now elim Hn|]. destruct H as [[H _]|[[H _]|(u & _ & H & _)]]; discriminate. }
  rewrite E. cbn. now destruct t.
Qed.

Lemma entry_none : forall o e, (e = [] \/ exists t, e = "="%char :: t) -> option_entry o e = o.
Proof.
  intros o e [->|[t ->]]; [reflexivity|]. unfold option_entry.
  replace (re_match re_option ("="%char :: t)) with (@None groups); [reflexivity|].
  symmetry. apply re_match_none. intros [u H]. apply mt_seq_inv in H as (s1 & H & _).
  apply mt_group_inv, mt_plus_chr in H as (w & E & Hp & Hw). destruct w as [|c w]; [now apply Hw|].
  injection E as <- _. discriminate.
Qed.

Lemma entry_unique : forall e k1 v1 k2 v2, entry_means e k1 v1 -> entry_means e k2 v2 -> k1 = k2 /\ v1 = v2.
Proof.
  intros e k1 v1 k2 v2 (N1 & E1 & H1) (N2 & E2 & H2).
  apply not_eq_chars in E1, E2.
  assert (A : forall k v, (e = k /\ v = OTrue) \/ (e = k ++ L "=" /\ v = OTrue) \/
     (exists t, t <> [] /\ e = k ++ "="%char :: t /\ v = OText t) ->
     exists r, e = k ++ r /\ (forall c t, r = c :: t -> negb (Ascii.eqb c "="%char) = false) /\
       v = match r with _ :: c :: t => OText (c :: t) | _ => OTrue end).
  { intros k v [[-> ->]|[[-> ->]|(t & Ht & -> & ->)]].
    - exists []. rewrite app_nil_r. split; [reflexivity|]. now split.
    - exists (L "="). split; [reflexivity|]. split; [|reflexivity]. intros c t E. now injection E as <- _.
    - exists ("="%char :: t). split; [reflexivity|]. split.
      + intros c u E. now injection E as <- _.
      + destruct t; [now elim Ht|reflexivity]. }
  apply A in H1 as (r1 & -> & Hr1 & ->). apply A in H2 as (r2 & E & Hr2 & ->).
  apply (span_unique _ (fun c => negb (Ascii.eqb c "="%char))) in E as [-> ->]; auto.
Qed.

Lemma fold_options : forall es o key w, (forall e, In e es -> ~ In NL e) -> NoDup (map fst o) ->
  NoDup (map fst (fold_left option_entry es o)) /\
  (dget str_eqb key (fold_left option_entry es o) = Some w <->
   (exists before e after, es = before ++ e :: after /\ entry_means e key w /\
     forall e' v', In e' after -> ~ entry_means e' key v') \/
   ((forall e v, In e es -> ~ entry_means e key v) /\ dget str_eqb key o = Some w)).
Proof.
  induction es as [|e es IH] using rev_ind; intros o key w HN Hd.
  - split; [exact Hd|]. cbn. split.
    + intros H. right. split; [auto|exact H].
    + intros [(b & e & a & E & _)|[_ H]]; [destruct b; discriminate|exact H].
  - rewrite fold_left_app. cbn [fold_left].
    destruct (IH o key w) as [Hd' Hg]; [intros x Hx; apply HN, in_or_app; now left|exact Hd|].
    destruct (entry_exists e) as [(k & v & Hkv)|[Hno He]].
    + rewrite (entry_ok _ e k v) by (try apply HN, in_elt; exact Hkv).
      split; [now apply dset_NoDup, Hd'; intros; apply str_eqb_eq|].
      destruct (str_eqb key k) eqn:Ek.
      * apply str_eqb_eq in Ek as <-. rewrite dget_dset_same by apply str_eqb_eq. split.
        -- intros [= <-]. left. exists es, e, []. now split.
        -- intros [(b & e' & a & E & He' & Ha)|[Hno _]].
           ++ destruct a as [|x a] using rev_ind.
              ** apply app_inj_tail in E as [_ <-]. destruct (entry_unique _ _ _ _ _ Hkv He') as [_ ->]. reflexivity.
              ** clear IHa. rewrite app_comm_cons, app_assoc in E. apply app_inj_tail in E as [_ <-].
                 now elim (Ha e v (in_elt _ _ _)).
           ++ now elim (Hno e v (in_elt _ _ _)).
      * apply str_eqb_neq in Ek. rewrite dget_dset_other by (apply str_eqb_eq || assumption). rewrite Hg. split.
        -- intros [(b & e' & a & -> & He' & Ha)|[Hno Ho]].
           ++ left. exists b, e', (a ++ [e]). split; [now rewrite <- app_assoc|]. split; [exact He'|].
              intros x v' Hx. apply in_app_or in Hx as [Hx|[<-|[]]]; [now apply Ha|].
              intros X. destruct (entry_unique _ _ _ _ _ Hkv X) as [X' _]. now apply Ek.
           ++ right. split; [|exact Ho]. intros x v' Hx. apply in_app_or in Hx as [Hx|[<-|[]]]; [now apply Hno|].
              intros X. destruct (entry_unique _ _ _ _ _ Hkv X) as [X' _]. now apply Ek.
        -- intros [(b & e' & a & E & He' & Ha)|[Hno Ho]].
           ++ left. destruct a as [|x a] using rev_ind.
              ** apply app_inj_tail in E as [_ <-]. destruct (entry_unique _ _ _ _ _ Hkv He') as [X _]. now elim Ek.
              ** clear IHa. rewrite app_comm_cons, app_assoc in E. apply app_inj_tail in E as [-> <-].
                 exists b, e', a. split; [reflexivity|]. split; [exact He'|]. intros x v' Hx. apply Ha, in_or_app. now left.
           ++ right. split; [|exact Ho]. intros x v' Hx. apply Hno, in_or_app. now left.
    + rewrite (entry_none _ e) by exact He. split; [exact Hd'|]. rewrite Hg. split.
      * intros [(b & e' & a & -> & He' & Ha)|[H Ho]].
        -- left. exists b, e', (a ++ [e]). split; [now rewrite <- app_assoc|]. split; [exact He'|].
           intros x v' Hx. apply in_app_or in Hx as [Hx|[<-|[]]]; [now apply Ha|apply Hno].
        -- right. split; [|exact Ho]. intros x v' Hx. apply in_app_or in Hx as [Hx|[<-|[]]]; [now apply H|apply Hno].
      * intros [(b & e' & a & E & He' & Ha)|[H Ho]].
        -- left. destruct a as [|x a] using rev_ind.
           ++ apply app_inj_tail in E as [_ <-]. now elim (Hno key w).
           ++ clear IHa. rewrite app_comm_cons, app_assoc in E. apply app_inj_tail in E as [-> <-].
              exists b, e', a. split; [reflexivity|]. split; [exact He'|]. intros x v' Hx. apply Ha, in_or_app. now left.
        -- right. split; [|exact Ho]. intros x v' Hx. apply H, in_or_app. now left.
Qed.

Lemma comma_chars : forall e : str, (~ In ","%char e) <-> forallb (fun c => negb (Ascii.eqb c ","%char)) e = true.
Proof.
  intros e. rewrite forallb_forall. split.
  - intros H c Hc. destruct (Ascii.eqb_spec c ","%char) as [->|]; [now elim H|reflexivity].
  - intros H X. apply H in X. discriminate.
Qed.

Lemma entries_split : forall text es, entries_of text es <-> es = split_on ","%char text.
Proof.
  intros text es. split.
  - intros (Hn & -> & H). symmetry. apply (split_on_join ","%char); [exact Hn|].
    intros w Hw. apply comma_chars. now apply H.
  - intros ->. destruct (split_on_aux_spec ","%char text [] eq_refl) as (H1 & H2 & H3).
    split; [exact H3|]. split; [symmetry; exact H2|]. intros e He. apply comma_chars. now apply H1.
Qed.

Lemma join_In : forall (sep : str) (l : list str) w c, In w l -> In c w -> In c (join sep l).
Proof.
  intros sep l w c. induction l as [|x l IH]; intros Hw Hc; [contradiction|].
  destruct l as [|y l].
  - destruct Hw as [->|[]]. exact Hc.
  - cbn [join]. destruct Hw as [->|Hw]; [apply in_or_app; now left|].
    apply in_or_app. right. apply in_or_app. right. now apply IH.
Qed.

Lemma parse_options_spec : forall text, ~ In NL text ->
  NoDup (map fst (parse_options text)) /\
  forall key w, dget str_eqb key (parse_options text) = Some w <-> option_given text key w.
Proof.
  intros text HN. unfold parse_options.
  assert (He : entries_of text (split_on ","%char text)) by now apply entries_split.
  assert (HN' : forall e, In e (split_on ","%char text) -> ~ In NL e).
  { intros e Hi X. apply HN. destruct He as (_ & E & _). rewrite E. now apply (join_In _ _ e). }
  split; [now apply (fold_options _ [] [] OTrue HN'); constructor|].
  intros key w. destruct (fold_options (split_on ","%char text) [] key w HN') as [_ ->]; [constructor|].
  split.
  - intros [(b & e & a & E & H)|[_ H]]; [|discriminate]. exists b, e, a. split; [now apply entries_split|exact H].
  - intros (b & e & a & E & H). apply entries_split in E. left. exists b, e, a. now split.
Qed.

(** ** The whole *)
Lemma reads_nonempty : forall s k v o, reads s k v o -> s <> [].
Proof.
  intros s k v o (h & t & -> & _ & _ & _ & Hm) E. apply app_eq_nil in E as [-> _].
  inversion Hm; destruct kind; discriminate.
Qed.

Lemma reads_kind : forall s k v o, reads s k v o -> lowercase k.
Proof. intros s k v o (h & t & _ & _ & _ & _ & Hm). destruct Hm; assumption. Qed.

Lemma reads_opts : forall s k v o, reads s k v o -> ~ In NL o.
Proof.
  intros s k v o (h & t & _ & _ & Ht & HN & _). destruct Ht; auto. intros X. apply HN. now right.
Qed.

Lemma from_cli_reads : forall s k v o, reads (strip s) k v o ->
  from_cli_string s = (do c <- serial_init k v (parse_options o); Ok (Some c)).
Proof.
  intros s k v o H. assert (Hn := reads_nonempty _ _ _ _ H). apply match_serial in H.
  unfold from_cli_string. rewrite H. cbn [group Nat.eqb]. destruct (strip s); [now elim Hn|reflexivity].
Qed.

Lemma from_cli_cases : forall s,
  (strip s = [] /\ from_cli_string s = Ok None) \/
  (strip s <> [] /\ (forall k v o, ~ reads (strip s) k v o) /\ from_cli_string s = Err EInvalidInput) \/
  (exists k v o, reads (strip s) k v o).
Proof.
  intros s. destruct (re_match re_serial (strip s)) as [g|] eqn:E.
  - right. right. apply (match_reads _ g E). apply strip_trimmed.
  - unfold from_cli_string. destruct (strip s) as [|c t] eqn:Es.
    + left. auto.
    + right. left. split; [discriminate|]. split.
      * intros k v o H. apply match_serial in H. congruence.
      * now rewrite E.
Qed.

Lemma datastore_mem : forall o, ~ In NL o ->
  (dmem str_eqb (L "datastore") (parse_options o) = true <-> exists w, option_given o (L "datastore") w).
Proof.
  intros o HN. destruct (parse_options_spec o HN) as [_ H]. unfold dmem.
  destruct (dget str_eqb (L "datastore") (parse_options o)) as [w|] eqn:E.
  - apply H in E. split; eauto.
  - split; [discriminate|]. intros [w Hw]. apply H in Hw. congruence.
Qed.

(** what a readable string leads to *)
Lemma serial_outcome : forall s k v o, reads (strip s) k v o ->
  (exists kind value, kind_means k kind /\ value_means kind v value /\
     (kind = L "file" -> exists w, option_given o (L "datastore") w) /\
     from_cli_string s = Ok (Some (mkconn kind value (parse_options o)))) \/
  ((forall kind, ~ kind_means k kind) /\ from_cli_string s = Err EValueUnsupported) \/
  ((exists kind, kind_means k kind /\
     ((forall value, ~ value_means kind v value) \/
      (kind = L "file" /\ ~ exists w, option_given o (L "datastore") w))) /\
   from_cli_string s = Err EInvalidInput).
Proof.
  intros s k v o H. rewrite (from_cli_reads s k v o H). unfold serial_init.
  assert (HN := reads_opts _ _ _ _ H).
  destruct (kind_spec k (reads_kind _ _ _ _ H)) as [(kind & Hk & ->)|[-> Hno]]; cbn [rbind]; [|auto].
  destruct (value_spec k kind v Hk) as [(value & Hv & ->)|[-> Hno]]; cbn [rbind]; [|eauto 10].
  unfold validate_options. destruct (str_eqb kind (L "file")) eqn:Ef.
  - apply str_eqb_eq in Ef. assert (D := datastore_mem o HN).
    destruct (dmem str_eqb (L "datastore") (parse_options o)); cbn [rbind].
    + left. exists kind, value. split; [exact Hk|]. split; [exact Hv|]. split; [|reflexivity]. intros _. now apply D.
    + right. right. split; [|reflexivity]. exists kind. split; [exact Hk|]. right. split; [exact Ef|].
      intros X. apply D in X. discriminate.
  - cbn [rbind]. left. exists kind, value. split; [exact Hk|]. split; [exact Hv|]. split; [|reflexivity].
    intros ->. rewrite str_eqb_refl in Ef. discriminate.
Qed.

Lemma kind_unique : forall k a b, kind_means k a -> kind_means k b -> a = b.
Proof.
  intros k a b [[-> ->]|[-> Ha]] [[E ->]|[E Hb]]; auto.
  - subst b. cbn in Hb. intuition discriminate.
  - subst a. cbn in Ha. intuition discriminate.
Qed.

Lemma value_unique : forall kind v a b, value_means kind v a -> value_means kind v b -> a = b.
Proof.
  unfold value_means. intros kind v a b. destruct (str_eqb kind (L "tcp") || str_eqb kind (L "telnet")).
  - intros Ha Hb. apply match_address in Ha, Hb. rewrite Ha in Hb. now injection Hb.
  - congruence.
Qed.

Lemma dget_in : forall (o : options) k w, NoDup (map fst o) -> (dget str_eqb k o = Some w <-> In (k, w) o).
Proof. intros o k w H. split; [apply dget_In, str_eqb_eq|]. intros X. now apply dget_Some_In; [apply str_eqb_eq| |]. Qed.

Lemma serial_sound : forall s c, from_cli_string s = Ok (Some c) -> denotes s c.
Proof.
  intros s c H. destruct (from_cli_cases s) as [[_ E]|[(_ & _ & E)|(k & v & o & Hr)]]; try congruence.
  assert (HN := reads_opts _ _ _ _ Hr).
  destruct (serial_outcome s k v o Hr) as [(kind & value & Hk & Hv & Hf & E)|[[_ E]|[_ E]]]; try congruence.
  rewrite E in H. injection H as <-. destruct (parse_options_spec o HN) as [Hd Ho].
  exists (strip s), k, v, o. split; [apply strip_trimmed_of|]. split; [exact Hr|]. cbn [c_kind c_value c_options].
  split; [exact Hk|]. split; [exact Hv|]. split; [|auto].
  intros key w. rewrite <- Ho. symmetry. now apply dget_in.
Qed.

Lemma serial_complete : forall s c, denotes s c -> exists c',
  from_cli_string s = Ok (Some c') /\ c_kind c' = c_kind c /\ c_value c' = c_value c /\
  forall key w, In (key, w) (c_options c') <-> In (key, w) (c_options c).
Proof.
  intros s c (t & k & v & o & Ht & Hr & Hk & Hv & Ho & Hd & Hf).
  assert (Hr' : reads (strip s) k v o).
  { rewrite (trimmed_of_strip s t); [exact Hr| |exact Ht]. apply (reads_nonempty _ _ _ _ Hr). }
  assert (HN := reads_opts _ _ _ _ Hr).
  destruct (serial_outcome s k v o Hr') as [(kind & value & Hk' & Hv' & Hf' & E)|[[Hno _]|[(kind & Hk' & Hno) _]]].
  - eexists. split; [exact E|]. cbn [c_kind c_value c_options].
    assert (kind = c_kind c) as -> by exact (kind_unique _ _ _ Hk' Hk).
    split; [reflexivity|]. split; [exact (value_unique _ _ _ _ Hv' Hv)|].
    intros key w. rewrite Ho. destruct (parse_options_spec o HN) as [Hd' <-]. symmetry. now apply dget_in.
  - now elim (Hno (c_kind c)).
  - assert (kind = c_kind c) as -> by exact (kind_unique _ _ _ Hk' Hk).
    destruct Hno as [Hno|[Ef Hno]]; [now elim (Hno (c_value c))|]. now elim (Hno (Hf Ef)).
Qed.

Lemma serial_none : forall s, from_cli_string s = Ok None <-> forall c, In c s -> is_space c = true.
Proof.
  intros s. destruct (strip_spec s) as (a & b & E & Ha & Hb & _).
  split.
  - intros H. destruct (from_cli_cases s) as [[X _]|[(_ & _ & X)|(k & v & o & Hr)]]; [|congruence|].
    + rewrite X in E. cbn in E. intros c Hc. rewrite E in Hc. rewrite forallb_forall in Ha, Hb.
      apply in_app_or in Hc as [Hc|Hc]; auto.
    + destruct (serial_outcome s k v o Hr) as [(? & ? & _ & _ & _ & X)|[[_ X]|[_ X]]]; congruence.
  - intros H. destruct (from_cli_cases s) as [[_ X]|Hx]; [exact X|exfalso].
    assert (strip s = []).
    { destruct (strip s) as [|c t] eqn:Es; [reflexivity|]. exfalso.
      destruct (strip_trimmed s) as [X _]. specialize (X c t Es). rewrite H in X; [discriminate|].
      rewrite E. apply in_or_app. right. now left. }
    destruct Hx as [(X & _)|(k & v & o & Hr)]; [contradiction|].
    now apply reads_nonempty in Hr.
Qed.

Lemma serial_refused : forall s, (forall c, from_cli_string s <> Ok (Some c)) -> (exists c, In c s /\ is_space c = false) ->
  from_cli_string s = Err EValueUnsupported \/ from_cli_string s = Err EInvalidInput.
Proof.
  intros s Hno (c & Hc & Hs). destruct (from_cli_cases s) as [[_ E]|[(_ & _ & E)|(k & v & o & Hr)]]; [|auto|].
  - exfalso. rewrite (proj1 (serial_none s) E c Hc) in Hs. discriminate.
  - destruct (serial_outcome s k v o Hr) as [(? & ? & _ & _ & _ & X)|[[_ X]|[_ X]]]; auto. now elim (Hno _ X).
Qed.

Lemma serial_unsupported : forall s, from_cli_string s = Err EValueUnsupported <->
  exists t k v o, trimmed_of s t /\ reads t k v o /\ forall kind, ~ kind_means k kind.
Proof.
  intros s. split.
  - intros H. destruct (from_cli_cases s) as [[_ E]|[(_ & _ & E)|(k & v & o & Hr)]]; try congruence.
    destruct (serial_outcome s k v o Hr) as [(? & ? & _ & _ & _ & X)|[[Y X]|[_ X]]]; try congruence.
    exists (strip s), k, v, o. split; [apply strip_trimmed_of|auto].
  - intros (t & k & v & o & Ht & Hr & Hno).
    rewrite <- (trimmed_of_strip s t) in Hr; [|apply (reads_nonempty _ _ _ _ Hr)|exact Ht].
    destruct (serial_outcome s k v o Hr) as [(kind & ? & X & _)|[[_ X]|[(kind & X & _) _]]]; auto; now elim (Hno kind).
Qed.

(** ** Canonical strings *)
Lemma canonical_reads : forall kind v o, lowercase kind -> plain_value v -> ~ In NLc o ->
  (forall c t, o = t ++ [c] -> is_space c = false) ->
  strip (kind ++ ":"%char :: v ++ ","%char :: o) = kind ++ ":"%char :: v ++ ","%char :: o /\
  reads (kind ++ ":"%char :: v ++ ","%char :: o) kind v o.
Proof.
  intros kind v o Hk [Hn Hv] HN Ho. split.
  - apply strip_of_trimmed. split.
    + intros c t E. destruct kind as [|d kind]; injection E as <- _; [reflexivity|].
      specialize (Hk d (or_introl eq_refl)). destruct (is_space d) eqn:X; [|reflexivity].
      unfold is_space in X. rewrite !orb_true_iff, !in_range_iff, !N.eqb_eq in X. unfold code in X. lia.
    + intros c t E. destruct o as [|x o] using rev_ind.
      * assert (Y : kind ++ ":"%char :: v ++ [","%char] = (kind ++ ":"%char :: v) ++ [","%char]) by now rewrite <- app_assoc.
        rewrite Y in E. apply app_inj_tail in E as [_ <-]. reflexivity.
      * clear IHo. assert (Y : kind ++ ":"%char :: v ++ ","%char :: o ++ [x] = (kind ++ ":"%char :: v ++ ","%char :: o) ++ [x]).
        { rewrite <- app_assoc. cbn. now rewrite <- app_assoc. }
        rewrite Y in E. apply app_inj_tail in E as [_ <-]. now apply (Ho x o).
  - exists (kind ++ ":"%char :: v), (","%char :: o). split; [now rewrite <- app_assoc|].
    split.
    + intros c Hc. apply in_app_or in Hc as [Hc|[<-|Hc]].
      * specialize (Hk c Hc). intros [-> |[-> | ->]]; cbn in Hk; lia.
      * intros [X|[X|X]]; discriminate.
      * now apply Hv.
    + split; [constructor|]. split; [|now constructor]. intros [X|X]; [discriminate|auto].
Qed.

Lemma last_entry : forall key l e w, In e l -> entry_means e key w ->
  exists b e' a w', l = b ++ e' :: a /\ entry_means e' key w' /\
    forall x y, In x a -> ~ entry_means x key y.
Proof.
  intros key. induction l as [|z l IH]; [contradiction|]. intros e w Hi H.
  assert (D : (exists x y, In x l /\ entry_means x key y) \/ forall x y, In x l -> ~ entry_means x key y).
  { clear. induction l as [|x l IH]; [right; auto|].
    destruct IH as [(x' & y' & Hi & H)|IH]; [left; exists x', y'; split; [now right|exact H]|].
    destruct (entry_exists x) as [(k & v & H)|[H _]].
    - destruct (str_eqb k key) eqn:E.
      + apply str_eqb_eq in E as ->. left. exists x, v. split; [now left|exact H].
      + apply str_eqb_neq in E. right. intros x' y' [<-|Hi] Y; [|now apply (IH x' y')].
        destruct (entry_unique _ _ _ _ _ H Y) as [Z _]. now apply E.
    - right. intros x' y' [<-|Hi] Y; [now apply (H _ _ Y)|now apply (IH x' y')]. }
  destruct D as [(x & y & Hi' & H')|D].
  - destruct (IH x y Hi' H') as (b & e' & a & w' & -> & Y). exists (z :: b), e', a, w'. now split.
  - destruct Hi as [->|Hi]; [|now elim (D e w Hi)]. exists [], e, l, w. now split.
Qed.

Lemma serial_roundtrip : forall kind v o es,
  In kind [L "device"; L "file"; L "pipe"; L "tcp"; L "telnet"] -> plain_value v -> value_means kind v v ->
  entries_of o es -> ~ In NLc o -> (forall c t, o = t ++ [c] -> is_space c = false) ->
  (kind = L "file" -> exists e w, In e es /\ entry_means e (L "datastore") w) ->
  exists opts, from_cli_string (kind ++ ":"%char :: v ++ ","%char :: o) = Ok (Some (mkconn kind v opts)) /\
    forall key w, In (key, w) opts <-> option_given o key w.
Proof.
  intros kind v o es Hk Hv Hvv He HN Ho Hf.
  assert (Lk : lowercase kind).
  { apply lowercase_forallb. cbn in Hk. destruct Hk as [<-|[<-|[<-|[<-|[<-|[]]]]]]; reflexivity. }
  assert (Kn : kind <> []) by (intros ->; cbn in Hk; intuition discriminate).
  destruct (canonical_reads kind v o Lk Hv HN Ho) as [Es Hr].
  set (s := kind ++ ":"%char :: v ++ ","%char :: o) in *.
  assert (Hr' : reads (strip s) kind v o) by now rewrite Es.
  assert (Km : kind_means kind kind) by (right; auto).
  destruct (parse_options_spec o HN) as [Hd Hopt].
  destruct (serial_outcome s kind v o Hr') as [(kind' & value & Hk' & Hv' & Hf' & E)|[[Hno _]|[(kind' & Hk' & Hno) _]]].
  - assert (kind' = kind) as -> by exact (kind_unique _ _ _ Hk' Km).
    assert (value = v) as -> by exact (value_unique _ _ _ _ Hv' Hvv).
    exists (parse_options o). split; [exact E|]. intros key w. rewrite <- Hopt. symmetry. now apply dget_in.
  - now elim (Hno kind).
  - exfalso. assert (kind' = kind) as -> by exact (kind_unique _ _ _ Hk' Km).
    destruct Hno as [Hno|[Ef Hno]]; [now elim (Hno v)|]. apply Hno.
    destruct (Hf Ef) as (e & w & Hi & Hm).
    (* the last such entry *)
    apply entries_split in He. subst es.
    destruct (last_entry (L "datastore") _ e w Hi Hm) as (b & e' & a & w' & E & Hm' & Hlast).
    exists w', b, e', a.
    split; [now apply entries_split|]. now split.
Qed.

(** ** Setters *)
Lemma add_connections_spec : forall value acc,
  (exists l, Forall2 (fun s r => from_cli_string s = Ok r) value l /\
     add_connections acc value = (acc ++ flat_map (fun r => match r with Some c => [c] | None => [] end) l, Ok tt)) \/
  (exists before s after l e, value = before ++ s :: after /\ Forall2 (fun s r => from_cli_string s = Ok r) before l /\
     from_cli_string s = Err e /\
     add_connections acc value = (acc ++ flat_map (fun r => match r with Some c => [c] | None => [] end) l, Err e)).
Proof.
  induction value as [|s value IH]; intros acc.
  - left. exists []. split; [constructor|]. cbn. now rewrite app_nil_r.
  - cbn [add_connections]. destruct (from_cli_string s) as [r|e] eqn:E.
    + assert (X : exists acc', acc' = acc ++ (match r with Some c => [c] | None => [] end) /\
         match r with None => add_connections acc value | Some c => add_connections (acc ++ [c]) value end = add_connections acc' value).
      { eexists. split; [reflexivity|]. destruct r; [reflexivity|]. now rewrite app_nil_r. }
      destruct X as (acc' & -> & X).
      replace (match r with Some c => add_connections (acc ++ [c]) value | None => add_connections acc value end)
        with (add_connections (acc ++ match r with Some c => [c] | None => [] end) value) by (now rewrite <- X; destruct r).
      destruct (IH (acc ++ match r with Some c => [c] | None => [] end)) as [(l & Hl & ->)|(b & s' & a & l & e & -> & Hl & He & ->)].
      * left. exists (r :: l). split; [now constructor|]. cbn [flat_map]. now rewrite app_assoc.
      * right. exists (s :: b), s', a, (r :: l), e. split; [reflexivity|]. split; [now constructor|]. split; [exact He|].
        cbn [flat_map]. now rewrite app_assoc.
    + right. exists [], s, value, [], e. split; [reflexivity|]. split; [constructor|]. split; [exact E|].
      cbn. now rewrite app_nil_r.
Qed.

Lemma split_eq_spec : forall s,
  match split_eq s with
  | Some (k, v) => s = k ++ "="%char :: v /\ ~ In "="%char k
  | None => ~ In "="%char s
  end.
Proof.
  induction s as [|c s IH]; [easy|]. cbn. destruct (Ascii.eqb_spec c "="%char) as [->|Hc].
  - split; [reflexivity|easy].
  - destruct (split_eq s) as [[k v]|].
    + destruct IH as [-> H]. split; [reflexivity|]. intros [X|X]; auto.
    + intros [X|X]; auto.
Qed.

Lemma map_ok_spec : forall s, map_ok s = true <-> mapping s.
Proof.
  intros s. unfold map_ok, mapping. assert (H := split_eq_spec s). destruct (split_eq s) as [[k v]|].
  - destruct H as [-> Hk]. rewrite negb_true_iff, orb_false_iff, !str_eqb_neq. split.
    + intros [H1 H2]. exists k, v. auto.
    + intros (k' & v' & E & H1 & H2 & H3). apply not_eq_chars in Hk, H3.
      apply (span_unique _ (fun c => negb (Ascii.eqb c "="%char))) in E as [-> E]; auto.
      * injection E as ->. auto.
      * intros c t X. now injection X as <- _.
      * intros c t X. now injection X as <- _.
  - split; [discriminate|]. intros (k & v & -> & _). elim H. apply in_elt.
Qed.
