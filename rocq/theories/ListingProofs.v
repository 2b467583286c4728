(** Proofs about the outputs of the disk programs. *)
From Coq Require Import Lia.
From Verif Require Import PyBase PyBaseProofs PyRegex PyRegexProofs SelectProofs ImageModel ListingSpec.
Local Open Scope nat_scope.

(** ** The first place *)

Lemma first_place : forall (Q : str -> bool) (out : str), (exists a t, out = a ++ t /\ Q t = true) ->
  exists a t, out = a ++ t /\ Q t = true /\ forall a' t', out = a' ++ t' -> Q t' = true -> length a <= length a'.
Proof.
  intros Q out. induction out as [|c s IH]; intros (a & t & E & H).
  - exists [], []. destruct a, t; try discriminate. split; [reflexivity|]. split; [exact H|]. cbn. lia.
  - destruct (Q (c :: s)) eqn:Q0; [exists [], (c :: s); split; [reflexivity|]; split; [exact Q0|cbn; lia]|].
    destruct a as [|x a]; [cbn in E; congruence|]. injection E as <- ->.
    destruct IH as (a1 & t1 & E1 & H1 & F1); [eauto|]. exists (c :: a1), t1. split; [cbn; now rewrite <- E1|]. split; [exact H1|].
    intros a' t' E' H'. destruct a' as [|y a']; [cbn in E'; congruence|]. injection E' as <- E'. apply le_n_S. now apply (F1 a' t').
Qed.

(** ** The capacity *)

Lemma match_bytes : forall n b, is_number n -> re_match re_bytes (n ++ L " bytes" ++ b) = Some [(1, n)].
Proof.
  intros n b [N D]. apply wins_match with b. unfold re_bytes. apply wins_seq. apply wins_group_plus_munch.
  - apply forallb_forall. exact D.
  - intros c t E. injection E as <- _. reflexivity.
  - exact N.
  - apply (wins_str st (L " bytes")). eexists. reflexivity.
Qed.
Lemma match_bytes_some : forall t, re_match re_bytes t <> None -> exists w c u, t = w ++ c :: L " bytes" ++ u /\ (forall x, In x (w ++ [c]) -> is_digit x = true).
Proof.
  intros t H.
  assert (M : (exists w c u, t = w ++ c :: L " bytes" ++ u /\ (forall x, In x (w ++ [c]) -> is_digit x = true)) \/
    ~ (exists w c u, t = w ++ c :: L " bytes" ++ u /\ (forall x, In x (w ++ [c]) -> is_digit x = true))).
  { destruct (re_match re_bytes t) as [g|] eqn:E; [|congruence]. left. apply re_match_mtc in E as (u & E). apply mtc_mt in E. unfold re_bytes in E.
    apply mt_seq_inv in E as (v & E1 & E2). apply mt_group_inv in E1. apply mt_plus_chr in E1. apply mt_str_inv in E2. subst v.
    destruct E1 as (w & E1 & E3 & E2). destruct (exists_last E2) as (w0 & c & ->). exists w0, c, u. rewrite E1, <- app_assoc. split; [reflexivity|].
    now apply forallb_forall. }
  destruct M as [M|M]; [exact M|]. exfalso. apply H. apply re_match_none. intros (u & E). apply M. unfold re_bytes in E.
  apply mt_seq_inv in E as (v & E1 & E2). apply mt_group_inv in E1. apply mt_plus_chr in E1. apply mt_str_inv in E2. subst v.
  destruct E1 as (w & E1 & E3 & E2). destruct (exists_last E2) as (w0 & c & ->). exists w0, c, u. rewrite E1, <- app_assoc. split; [reflexivity|].
  now apply forallb_forall.
Qed.

Lemma app_cut : forall (A : Type) (a b c d : list A), a ++ b = c ++ d -> length a <= length c -> exists m, c = a ++ m /\ b = m ++ d.
Proof.
  intros A a. induction a as [|x a IH]; intros b c d E H; [exists c; auto|]. destruct c as [|y c]; [cbn in H; lia|]. injection E as <- E.
  destruct (IH b c d E) as (m & -> & ->); [cbn in H; lia|]. exists m. auto.
Qed.

Theorem capacity_found : forall out n, byte_count out n -> capacity_in out = Ok n.
Proof.
  intros out n (a & b & E & N & NA & F). unfold capacity_in.
  assert (S : re_search re_bytes out = Some [(1, n)]).
  { apply re_search_at. exists a, (n ++ L " bytes" ++ b). split; [exact E|]. split; [now apply match_bytes|].
    intros a' t' E' Hl. destruct (re_match re_bytes t') as [g|] eqn:M; [|reflexivity]. exfalso.
    destruct (match_bytes_some t') as (w & c & u & -> & D); [congruence|].
    assert (Dc : is_digit c = true) by (apply D; apply in_or_app; right; now left).
    pose proof (F (a' ++ w) c u) as K. rewrite <- app_assoc in K. specialize (K E' Dc). rewrite E in E'.
    destruct (app_cut _ _ _ _ _ (eq_sym E')) as (m & -> & Em); [lia|].
    assert (Nm : m <> []) by (intros ->; rewrite app_nil_r in Hl; lia). destruct (exists_last Nm) as (m0 & z & ->).
    assert (Dz : is_digit z = false) by (apply (NA (a' ++ m0) z); now rewrite app_assoc).
    assert (Iz : In z (w ++ [c])).
    { change (w ++ c :: L " bytes" ++ u) with (w ++ [c] ++ L " bytes" ++ u) in Em. rewrite app_assoc in Em. symmetry in Em.
      destruct (app_cut _ _ _ _ _ Em) as (k & Ek & _).
      - rewrite !app_length in *. cbn [length] in *. lia.
      - rewrite Ek. apply in_or_app. left. apply in_or_app. right. now left. }
    rewrite (D z Iz) in Dz. discriminate. }
  rewrite S. reflexivity.
Qed.

Lemma digit_run : forall s : str, exists a n, s = a ++ n /\ (forall c, In c n -> is_digit c = true) /\ forall x c, a = x ++ [c] -> is_digit c = false.
Proof.
  intros s. induction s as [|c s IH] using rev_ind; [exists [], []; split; [reflexivity|]; split; [intros c []|intros [|] ? F; discriminate F]|].
  destruct (is_digit c) eqn:D.
  - destruct IH as (a & n & -> & Hn & Ha). exists a, (n ++ [c]). split; [now rewrite app_assoc|]. split; [|exact Ha].
    intros x Hx. apply in_app_iff in Hx as [Hx|[<-|[]]]; auto.
  - exists (s ++ [c]), []. split; [now rewrite app_nil_r|]. split; [intros x []|]. intros x y E. apply app_inj_tail in E as [_ <-]. exact D.
Qed.
Theorem byte_count_exists : forall out, (exists a c b, out = a ++ c :: L " bytes" ++ b /\ is_digit c = true) -> exists n, byte_count out n.
Proof.
  intros out (a & c & b & E & D).
  destruct (first_place (fun t => match t with x :: t' => is_digit x && starts_with (L " bytes") t' | [] => false end) out) as (a1 & t1 & E1 & H1 & F1).
  { exists a, (c :: L " bytes" ++ b). split; [exact E|]. rewrite D. cbn [andb]. apply starts_with_app. }
  destruct t1 as [|x t1]; [discriminate|]. apply andb_true_iff in H1 as [D1 H1]. apply starts_with_spec in H1 as (b1 & ->).
  destruct (digit_run (a1 ++ [x])) as (a2 & n & E2 & Hn & Ha). exists n, a2, b1.
  assert (Nn : n <> []).
  { intros ->. rewrite app_nil_r in E2. specialize (Ha a1 x (eq_sym E2)). congruence. }
  split; [|split; [split; [exact Nn|exact Hn]|split; [exact Ha|]]].
  - rewrite E1. change (a1 ++ x :: L " bytes" ++ b1) with (a1 ++ [x] ++ L " bytes" ++ b1). now rewrite app_assoc, E2, <- app_assoc.
  - intros a' c' b' E' D'. rewrite <- E2, !app_length. cbn [length]. specialize (F1 a' (c' :: L " bytes" ++ b') E'). cbv beta iota in F1. rewrite D', starts_with_app in F1. specialize (F1 eq_refl). lia.
Qed.
Theorem capacity_spec : forall out n, capacity_in out = Ok n <-> byte_count out n.
Proof.
  intros out n. split; [|apply capacity_found]. intros H.
  destruct (byte_count_exists out) as (m & M).
  - unfold capacity_in in H. destruct (re_search re_bytes out) as [g|] eqn:E; [|discriminate]. apply re_search_at in E as (a & t & -> & M & _).
    destruct (match_bytes_some t) as (w & c & u & -> & D); [congruence|]. exists (a ++ w), c, u. rewrite <- app_assoc. split; [reflexivity|].
    apply D. apply in_or_app. right. now left.
  - pose proof (capacity_found out m M) as K. rewrite H in K. injection K as ->. exact M.
Qed.
Theorem capacity_none : forall out, (forall n, ~ byte_count out n) -> capacity_in out = Err ERuntimeError.
Proof.
  intros out H. destruct (capacity_in out) as [n|e] eqn:E; [apply capacity_spec in E; destruct (H n E)|].
  unfold capacity_in in E. destruct (re_search re_bytes out) as [g|]; [destruct (group 1 g); [discriminate|]|]; injection E as <-; reflexivity.
Qed.

(** ** The header of a VMDK *)

Theorem header_found : forall content sub, declares (filter (fun c => (N_of_ascii c <? 128)%N) (firstn 1000 content)) sub -> header_subformat content = Ok sub.
Proof.
  intros content sub H. unfold header_subformat. set (h := filter _ _) in *. clearbody h. destruct H as (a & b & c & E & L1 & L2 & NQ & C & F).
  assert (S : re_search re_create_type h = Some [(1, sub)]).
  { apply re_search_at. exists a, (L "createType=""" ++ sub ++ L """" ++ b ++ c). split; [exact E|]. split.
    - apply wins_match with (b ++ c). unfold re_create_type. apply wins_seq, wins_str.
      assert (EA : sub ++ L """" ++ b ++ c = (sub ++ L """" ++ b) ++ c) by now rewrite <- !app_assoc. apply wins_seq.
      change (list ascii) with str in *. rewrite EA.
      apply (wins_group_star st 1 _ (sub ++ L """" ++ b) c [] _ (length sub)).
      + apply forallb_forall. intros x Hx. destruct (Ascii.eqb_spec x "010") as [->|]; [exfalso|reflexivity].
        apply in_app_iff in Hx as [Hx|[Hx|Hx]]; [now apply L1|discriminate Hx|now apply L2].
      + intros x t ->. destruct C as [C|[t' C]]; [discriminate|]. injection C as -> _. reflexivity.
      + rewrite app_length. lia.
      + intros i [I1 I2]. assert (EI : exists i', i = length sub + S i') by (exists (i - length sub - 1); lia). destruct EI as [i' ->].
        rewrite skipn_app, skipn_all2 by lia. replace (length sub + S i' - length sub) with (S i') by lia. change (L """" ++ b) with (["""" % char] ++ b). cbn [skipn app].
        apply no_mt_fails. intros (t & M). apply mt_str_inv in M. cbn [rest] in M.
        destruct (skipn i' b) as [|y r] eqn:EB.
        * cbn [app] in M. destruct C as [->|[t' ->]]; discriminate M.
        * cbn [app L] in M. injection M as -> _. apply NQ. rewrite <- (firstn_skipn i' b), EB. apply in_or_app. right. now left.
      + rewrite skipn_app, skipn_all, Nat.sub_diag, firstn_app, firstn_all, Nat.sub_diag. cbn [skipn firstn]. rewrite app_nil_r. cbn [app].
        apply (wins_str st (L """")). eexists. reflexivity.
    - intros a' t' E' Hl. apply re_match_none. intros (t & M). apply mt_seq_inv in M as (t1 & M & _). apply mt_str_inv in M. subst t'.
      specialize (F a' t1 E'). lia. }
  rewrite S. reflexivity.
Qed.
Theorem header_none : forall content, (forall a t, filter (fun c => (N_of_ascii c <? 128)%N) (firstn 1000 content) <> a ++ L "createType=""" ++ t) ->
  header_subformat content = Err ERuntimeError.
Proof.
  intros content H. unfold header_subformat. set (h := filter _ _) in *. clearbody h.
  destruct (re_search re_create_type h) as [g|] eqn:E; [|reflexivity]. exfalso. apply re_search_at in E as (a & t & -> & M & _).
  apply re_match_mtc in M as (u & M). apply mtc_mt in M. apply mt_seq_inv in M as (t1 & M & _). apply mt_str_inv in M. subst t. now apply (H a t1).
Qed.

(** ** Words *)

Lemma words_blank : forall s t, blank s -> words_from [] (s ++ t) = words_from [] t.
Proof. induction s as [|c s IH]; intros t B; [reflexivity|]. cbn [app words_from]. rewrite (B c (or_introl eq_refl)). apply IH. intros x X. apply B. now right. Qed.
Lemma words_word : forall w cur t, (forall c, In c w -> is_space c = false) -> words_from cur (w ++ t) = words_from (rev w ++ cur) t.
Proof.
  induction w as [|c w IH]; intros cur t H; [reflexivity|]. cbn [app words_from]. rewrite (H c (or_introl eq_refl)), IH by (intros x X; apply H; now right).
  cbn [rev]. now rewrite <- app_assoc.
Qed.
Lemma words_end : forall w s t, is_word w -> blank s -> (s <> [] \/ t = []) -> words_from (rev w) (s ++ t) = w :: words_from [] t.
Proof.
  intros w s t [N _] B K. assert (NR : rev w <> []) by (intros F; apply N; rewrite <- (rev_involutive w), F; reflexivity).
  destruct s as [|c s].
  - destruct K as [K| ->]; [congruence|]. cbn [app words_from]. destruct (rev w) eqn:E; [congruence|]. rewrite <- E, rev_involutive. reflexivity.
  - cbn [app words_from]. rewrite (B c (or_introl eq_refl)). destruct (rev w) eqn:E; [congruence|]. rewrite <- E, rev_involutive. f_equal.
    apply words_blank. intros x X. apply B. now right.
Qed.
Theorem split_spread : forall ws line, spread ws line -> py_split line = ws.
Proof.
  intros ws line H. unfold py_split. induction H as [s B|s w s' B W B'|s w s' ws t B W B' N H IH].
  - rewrite <- (app_nil_r s), words_blank by exact B. reflexivity.
  - rewrite words_blank by exact B. rewrite words_word by apply W. rewrite app_nil_r, <- (app_nil_r s'). rewrite words_end; auto.
  - rewrite words_blank by exact B. rewrite words_word by apply W. rewrite app_nil_r. rewrite words_end; auto. now rewrite IH.
Qed.

(** ** Listings *)

Lemma one_line_forallb : forall s, one_line s -> forallb (fun c => negb (Ascii.eqb c "010")) s = true.
Proof. intros s H. apply forallb_forall. intros c C. destruct (Ascii.eqb_spec c "010") as [->|]; [contradiction|reflexivity]. Qed.
Lemma listing_lines : forall (entry : str -> str -> Prop) (remark : str -> Prop) f names lines,
  (forall n l, entry n l -> one_line l /\ f l = [n]) -> (forall l, remark l -> one_line l /\ f l = []) -> f [] = [] ->
  listing entry remark names lines -> flat_map f (split_on "010"%char (text_of lines)) = names.
Proof.
  intros entry remark f names lines HE HR H0 H.
  assert (OL : forall w, In w lines -> forallb (fun c => negb (Ascii.eqb c "010")) w = true).
  { induction H as [|n l ns ls E H IH|l ns ls E H IH]; intros w []; subst; auto; apply one_line_forallb; [now apply (HE n)|now apply HR]. }
  destruct lines as [|l0 lines']; [inversion H; subst; cbn; now rewrite H0|]. unfold text_of. rewrite split_on_join; [|discriminate|exact OL]. clear OL.
  induction H as [|n l ns ls E H IH|l ns ls E H IH]; [reflexivity| |]; cbn [flat_map].
  - rewrite (proj2 (HE n l E)), IH. reflexivity.
  - rewrite (proj2 (HR l E)), IH. reflexivity.
Qed.

Lemma starts_none : forall p s, (forall t, s <> p ++ t) -> starts_with p s = false.
Proof. intros p s H. destruct (starts_with p s) eqn:E; [|reflexivity]. apply starts_with_spec in E as (t & ->). now destruct (H t). Qed.

Theorem raw_listing : forall names lines, listing fat_entry fat_remark names lines -> raw_files (text_of lines) = names.
Proof.
  intros names lines H. apply (listing_lines fat_entry fat_remark raw_line); [| |reflexivity|exact H].
  - intros n l (O & NL & a & b & c & d & e & S). split; [exact O|]. unfold raw_line. rewrite (starts_none _ _ NL). now rewrite (split_spread _ _ S).
  - intros l (O & [(t & ->)|B]); (split; [exact O|]); unfold raw_line; [now rewrite starts_with_app|].
    destruct (starts_with (L "Listed") l); [reflexivity|]. rewrite (split_spread [] l); [reflexivity|now constructor].
Qed.
Theorem iso_listing_rock : forall names lines, listing iso_entry iso_remark names lines -> iso_files true (text_of lines) = names.
Proof.
  intros names lines H. apply (listing_lines iso_entry iso_remark (iso_line true)); [| |reflexivity|exact H].
  - intros n l (O & ->). split; [exact O|]. reflexivity.
  - intros l (O & N). split; [exact O|]. destruct l as [|c l]; [reflexivity|]. unfold iso_line. destruct (Ascii.eqb_spec c "/") as [->|NE]; [now destruct (N l)|].
    destruct c as [[] [] [] [] [] [] [] []]; try reflexivity. now destruct NE.
Qed.

Theorem iso_listing_plain : forall names lines, listing iso_plain iso_remark names lines -> iso_files false (text_of lines) = names.
Proof.
  intros names lines H. apply (listing_lines iso_plain iso_remark (iso_line false)); [| |reflexivity|exact H].
  - intros n l (shown & O & -> & ->). split; [exact O|]. unfold iso_line. change (L "/" ++ shown ++ L ";1") with ("/"%char :: shown ++ L ";1").
    cbn [negb andb]. assert (contains (L ";1") ("/"%char :: shown ++ L ";1") = true) as ->.
    { apply contains_spec. exists ("/"%char :: shown), []. reflexivity. }
    change ("/"%char :: shown ++ L ";1") with (("/"%char :: shown) ++ L ";1"). rewrite lower_app, app_length.
    change (length (lower (L ";1"))) with 2. rewrite Nat.add_sub, firstn_app, firstn_all, Nat.sub_diag. cbn [firstn]. rewrite app_nil_r. reflexivity.
  - intros l (O & N). split; [exact O|]. destruct l as [|c l]; [reflexivity|]. unfold iso_line. destruct (Ascii.eqb_spec c "/") as [->|NE]; [now destruct (N l)|].
    destruct c as [[] [] [] [] [] [] [] []]; try reflexivity. now destruct NE.
Qed.

Lemma search_none : forall r a t, re_search r (a ++ t) = None -> re_match r t = None.
Proof.
  intros r a t. induction a as [|x a IH]; cbn [app].
  - intros E. destruct t; cbn [re_search] in E; destruct (re_match r _); congruence.
  - cbn [re_search]. destruct (re_match r (x :: a ++ t)); [discriminate|exact IH].
Qed.
Theorem rock_ridge_spec : forall out, has_rock_ridge out = true <-> exists a b c, out = a ++ L "Rock Ridge" ++ b ++ L "found" ++ c /\ one_line b.
Proof.
  intros out. unfold has_rock_ridge. split.
  - destruct (re_search re_rock out) as [g|] eqn:E; [|discriminate]. intros _. apply re_search_at in E as (a & t & -> & M & _).
    apply re_match_mtc in M as (u & M). apply mtc_mt in M. unfold re_rock in M. apply mt_seq_inv in M as (t1 & M & M2). apply mt_str_inv in M. subst t.
    apply mt_seq_inv in M2 as (t2 & M2 & M3). apply mt_str_inv in M3. subst t2. apply mt_star_chr in M2 as (b & -> & B). exists a, b, u. split; [reflexivity|].
    intros F. rewrite forallb_forall in B. specialize (B _ F). discriminate B.
  - intros (a & b & c & -> & O). destruct (re_search re_rock (a ++ L "Rock Ridge" ++ b ++ L "found" ++ c)) as [g|] eqn:E; [reflexivity|]. exfalso.
    assert (M : re_match re_rock (L "Rock Ridge" ++ b ++ L "found" ++ c) = None).
    { now apply search_none in E. }
    apply re_match_none in M. apply M. exists c. unfold re_rock. apply mt_seq_inv. exists (b ++ L "found" ++ c). split; [now apply mt_str_inv|].
    apply mt_seq_inv. exists (L "found" ++ c). split; [|now apply mt_str_inv]. apply mt_star_chr. exists b. split; [reflexivity|]. now apply one_line_forallb.
Qed.
