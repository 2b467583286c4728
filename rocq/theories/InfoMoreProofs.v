(** Proofs about the other parts of the output of [cot info]. *)
From Coq Require Import List Ascii ZArith Bool Lia.
Import ListNotations.
From Verif Require Import PyBase PyBaseProofs PyDict NamesModel XmlModel XmlSpec XmlProofs ItemModel ItemSpec HardwareModel HardwareSpec HardwareIdProofs HardwareProofs
  FindSpec FindProofs ValidateHwModel ValidateHwProofs NetworkModel DriveModel EnvPropModel EditPropModel EditHwModel ProductModel PlatformModel WrapModel WrapSpec WrapProofs
  InfoModel InfoSpec InfoProfileProofs InfoMoreSpec.
Local Open Scope nat_scope.

Lemma wrap_wrapped : forall width ini sub text lines, wrap width ini sub text = Ok lines -> wrapped width ini sub text lines.
Proof.
  intros width ini sub text lines H. destruct (Z_lt_le_dec 0 width) as [P | P].
  - destruct (wrap_spec width ini sub text P) as (bodies & W & A & B & C). rewrite W in H. injection H as <-.
    exists bodies. repeat split; assumption.
  - unfold wrap in H. apply Z.leb_le in P. rewrite P in H. discriminate.
Qed.
Lemma wrap_ok : forall width ini sub text, (0 < width)%Z -> exists lines, wrap width ini sub text = Ok lines.
Proof. intros width ini sub text P. destruct (wrap_spec width ini sub text P) as (b & W & _). eauto. Qed.

Lemma wrap_each_spec : forall width ini sub l lines, wrap_each width ini sub l = Ok lines ->
  exists blocks, lines = concat blocks /\ Forall2 (wrapped_line width ini sub) l blocks.
Proof.
  intros width ini sub l. induction l as [ | s l IH]; intros lines H; cbn [wrap_each] in H.
  - apply ok_inj in H. subst. exists []. split; [reflexivity | constructor].
  - destruct s as [ | c s].
    + step H r Hr. apply ok_inj in H. subst. destruct (IH _ Hr) as (b & -> & F). exists ([[]] :: b). split; [reflexivity | ].
      constructor; [now left | exact F].
    + step H a Ha. step H r Hr. apply ok_inj in H. subst. destruct (IH _ Hr) as (b & -> & F). exists (a :: b). split; [reflexivity | ].
      constructor; [ | exact F]. right. split; [discriminate | ]. now apply wrap_wrapped.
Qed.
Lemma wrap_each_ok : forall width ini sub l, (0 < width)%Z -> exists lines, wrap_each width ini sub l = Ok lines.
Proof.
  intros width ini sub l P. induction l as [ | s l [r IH]]; [now exists [] | ]. destruct s as [ | c s]; cbn [wrap_each].
  - rewrite IH. eexists. reflexivity.
  - destruct (wrap_ok width ini sub (c :: s) P) as [a ->]. rewrite IH. eexists. reflexivity.
Qed.

(** ** Lines *)
Lemma line_end_iff : forall c, line_end c = true <-> ends_line c.
Proof.
  intros c. unfold line_end, ends_line, in_range. cbn [In]. rewrite !orb_true_iff, !andb_true_iff, !N.leb_le, N.eqb_eq. lia.
Qed.
Lemma splitlines_from_spec : forall n s cur, length s < n -> (forall c, In c cur -> ~ ends_line c) ->
  (cur = [] \/ cur <> []) -> lines_of (rev cur ++ s) (splitlines_from cur s).
Proof.
  induction n as [ | n IH]; intros s cur Hn Hc _; [lia | ].
  assert (Hr : forall c, In c (rev cur) -> ~ ends_line c) by (intros c Hi; apply Hc; now apply in_rev).
  destruct s as [ | c s]; cbn [splitlines_from].
  - rewrite app_nil_r. destruct cur as [ | x cur]; [constructor | ]. apply Last_line; [ | exact Hr].
    intros X. apply (f_equal (@length ascii)) in X. rewrite rev_length in X. discriminate.
  - cbn [length] in Hn. destruct (N.eqb_spec (code c) 13) as [E | E].
    + assert (EC : ends_line c) by (unfold ends_line; rewrite E; cbn [In]; auto).
      destruct s as [ | d s].
      * apply A_line; [exact Hr | exact EC | discriminate | constructor].
      * destruct (N.eqb_spec (code d) 10) as [D | D].
        -- apply A_line_crlf; [exact Hr | exact E | exact D | ]. cbn [length] in Hn.
           apply (IH s []); [lia | intros x [] | now left].
        -- apply A_line; [exact Hr | exact EC | | ].
           ++ intros _ d' r' X. injection X as <- <-. exact D.
           ++ apply (IH (d :: s) []); [lia | intros x [] | now left].
    + destruct (line_end c) eqn:LE.
      * apply A_line; [exact Hr | now apply line_end_iff | congruence | ]. apply (IH s []); [lia | intros x [] | now left].
      * replace (rev cur ++ c :: s) with (rev (c :: cur) ++ s) by (cbn [rev]; rewrite <- app_assoc; reflexivity).
        apply IH; [lia | | now right]. intros x [<- | Hx]; [ | now apply Hc]. intros X. apply line_end_iff in X. congruence.
Qed.
Lemma splitlines_spec : forall s, lines_of s (splitlines s).
Proof. intros s. exact (splitlines_from_spec (S (length s)) s [] (le_n _) (fun c H => match H with end) (or_introl eq_refl)). Qed.

(** ** Children *)
Lemma find_child_only : forall e tag attrib req o, find_child e tag attrib req = Ok o -> only_child tag attrib e o.
Proof.
  intros e tag attrib req o H. pose proof (find_child_spec e tag attrib req) as S. rewrite H in S.
  destruct o as [s | ]; [exact S | exact (proj2 S)].
Qed.
Lemma only_child_find : forall e tag attrib o, only_child tag attrib e o -> find_child e tag attrib false = Ok o.
Proof.
  intros e tag attrib o H. unfold find_child. rewrite find_all_one. destruct o as [s | ].
  - destruct H as (A & B & Hc & Ha & Hn). replace (filter (child_match tag attrib) (echildren e)) with [s]; [reflexivity | ].
    symmetry. apply filter_one. exists A, B. split; [exact Hc | ]. split; [now apply child_match_spec | ].
    intros x Hx. destruct (child_match tag attrib x) eqn:M; [ | reflexivity]. apply child_match_spec in M. now destruct (Hn x Hx).
  - replace (filter (child_match tag attrib) (echildren e)) with (@nil elem); [reflexivity | ]. symmetry. apply filter_nil.
    intros x Hx. destruct (child_match tag attrib x) eqn:M; [ | reflexivity]. apply child_match_spec in M. now destruct (H x Hx).
Qed.
Lemma findtext_first : forall tag e, findtext_opt tag e = first_text tag (Some e).
Proof. reflexivity. Qed.
Lemma some_text_iff : forall o, some_text o = true <-> says_something o.
Proof.
  intros [[ | c s] | ]; cbn; split; try discriminate; try reflexivity.
  - intros (t & X & Y). injection X as <-. now destruct Y.
  - intros _. exists (c :: s). split; [reflexivity | discriminate].
  - intros (t & X & _). discriminate.
Qed.
Lemma text_of_first : forall tag e, text_of (first_child tag e) =
  match first_text tag (Some e) with Some (c :: s) => Some (c :: s) | _ => None end.
Proof.
  intros tag e. unfold text_of, first_child, first_text. rewrite findall_below. destruct (below tag e) as [ | x l]; [reflexivity | ].
  destruct (etext x) as [[ | c s] | ]; reflexivity.
Qed.

(** ** Product *)
Section Parts.
Variables (E : env) (m : info_vm).
Let v := e_ver E.

Lemma table_rows : forall brief sec, product_rows E brief sec =
  map (fun r : str * str * str => let '(label, tag, without) := r in (label, first_text tag sec, without)) (product_table v brief).
Proof. intros [] [s | ]; reflexivity. Qed.

Lemma product_none : forall verb sec,
  let text tag := match sec with Some s => findtext_opt tag s | None => None end in
  negb (existsb some_text [text (PRODUCT v); text (VENDOR v); text (VERSION v)])
     && (is_brief verb || negb (existsb some_text [text (PRODUCT_URL v); text (VENDOR_URL v); text (FULL_VERSION v)])) = true <->
  forall r, In r (product_table v (is_brief verb)) -> ~ says_something (first_text (snd (fst r)) sec).
Proof.
  intros verb sec text. assert (T : forall tag, text tag = first_text tag sec) by (intros tag; destruct sec; reflexivity).
  cbn [existsb]. rewrite !T. clear T text.
  rewrite andb_true_iff, orb_true_iff, !negb_true_iff, !orb_false_iff.
  assert (N : forall o, some_text o = false <-> ~ says_something o).
  { intros o. rewrite <- some_text_iff. destruct (some_text o); split; congruence. }
  rewrite !N. unfold product_table. split.
  - intros ((A & B & C & _) & D) r. destruct (is_brief verb); rewrite !in_app_iff; cbn [In app].
    + intros H. destruct H as [[<- | []] | [[] | [[<- | []] | [[] | [[<- | []] | []]]]]]; cbn [fst snd]; assumption.
    + destruct D as [D | (D & F & G & _)]; [discriminate | ].
      intros H. destruct H as [[<- | []] | [[<- | []] | [[<- | []] | [[<- | []] | [[<- | []] | [<- | []]]]]]]; cbn [fst snd]; assumption.
  - intros H. assert (H' : forall l tag w, In (l, tag, w) (product_table v (is_brief verb)) -> ~ says_something (first_text tag sec)).
    { intros l tag w Hi. exact (H (l, tag, w) Hi). }
    unfold product_table in H'. repeat split.
    + eapply H'. cbn [app]. left. reflexivity.
    + destruct (is_brief verb); eapply H'; cbn [app]; [right; left | right; right; left]; reflexivity.
    + destruct (is_brief verb); eapply H'; cbn [app]; [right; right; left | do 4 right; left]; reflexivity.
    + destruct (is_brief verb); [now left | right]. repeat split; eapply H'; cbn [app].
      * right; left; reflexivity.
      * do 3 right; left; reflexivity.
      * do 5 right; left; reflexivity.
Qed.

Theorem product_spec : forall verb width out, info_product E m verb width = Ok out ->
  exists sec, only_child (PRODUCT_SECTION v) (PRODUCT_SECTION_ATTRIB v) (iv_vs m) sec /\
  let rows := product_table v (is_brief verb) in
  match out with
  | None => forall r, In r rows -> ~ says_something (first_text (snd (fst r)) sec)
  | Some text => (exists r, In r rows /\ says_something (first_text (snd (fst r)) sec)) /\
      exists blocks, text = join [NL] (concat blocks) /\ Forall2 (product_row_shown width sec) rows blocks
  end.
Proof.
  intros verb width out H. unfold info_product in H. step H sec Hs. exists sec. split; [exact (find_child_only _ _ _ _ _ Hs) | ].
  cbn zeta. pose proof (product_none verb sec) as N. cbn zeta in N.
  match type of H with (if ?b then _ else _) = _ => destruct b eqn:B end.
  - apply ok_inj in H. subst out. now apply N.
  - step H lines Hl. apply ok_inj in H. subst out. split.
    + assert (X : existsb (fun r : str * str * str => some_text (first_text (snd (fst r)) sec)) (product_table v (is_brief verb)) = true).
      { match goal with |- ?x = true => destruct x eqn:X end; [reflexivity | ]. exfalso. assert (Y : false = true); [ | discriminate]. rewrite <- B. apply N.
        intros r Hr S. apply some_text_iff in S.
        assert (X' : existsb (fun r : str * str * str => some_text (first_text (snd (fst r)) sec)) (product_table v (is_brief verb)) = true)
          by (apply existsb_exists; now exists r). rewrite X' in X. discriminate X. }
      apply existsb_exists in X as (r & Hr & S). exists r. split; [exact Hr | now apply some_text_iff].
    + apply each_spec in Hl as (blocks & -> & F). exists blocks. split; [reflexivity | ]. rewrite table_rows in F.
      clear N. remember (product_table v (is_brief verb)) as rows eqn:Er. clear Er.
      revert blocks F. induction rows as [ | r rows IH]; intros blocks F; cbn [map] in F; inversion F; subst; constructor.
      * destruct r as [[l t] w]. cbn [product_row_shown]. apply wrap_wrapped. assumption.
      * now apply IH.
Qed.
Theorem product_ok : forall verb width sec, (0 < width)%Z -> only_child (PRODUCT_SECTION v) (PRODUCT_SECTION_ATTRIB v) (iv_vs m) sec ->
  exists out, info_product E m verb width = Ok out.
Proof.
  intros verb width sec P O. unfold info_product, product_section. fold v. rewrite (only_child_find _ _ _ _ O). cbn [rbind].
  match goal with |- context [if ?b then _ else _] => destruct b end; [eexists; reflexivity | ].
  destruct (each_ok _ (fun r : str * option str * str =>
                           let '(label, value, default) := r in
                           wrap width [] (blanks 10) (label ++ match value with Some s => s | None => default end))
                        (product_rows E (is_brief verb) sec)) as [lines Hl].
  - intros [[l t] w] _. now apply wrap_ok.
  - rewrite Hl. eexists. reflexivity.
Qed.

(** ** Annotation *)
Theorem annotation_spec : forall width out, info_annotation E m width = Ok out ->
  exists sec, only_child (ANNOTATION_SECTION v) (ANNOTATION_SECTION_ATTRIB v) (iv_vs m) sec /\
  match out with
  | None => ~ says_something (first_text (ANNOTATION v) sec)
  | Some text => exists t lines blocks, first_text (ANNOTATION v) sec = Some t /\ t <> [] /\ lines_of t lines
      /\ text = join [NL] (concat blocks)
      /\ match lines, blocks with
         | l :: ls, b :: bs => wrapped_line width (L "Annotation: ") (spaces 12) l b /\ Forall2 (wrapped_line width (spaces 12) (spaces 12)) ls bs
         | _, _ => False
         end
  end.
Proof.
  intros width out H. unfold info_annotation in H. step H sec Hs. exists sec. split; [exact (find_child_only _ _ _ _ _ Hs) | ].
  destruct sec as [sec | ].
  2: { apply ok_inj in H. subst out. intros (t & X & _). discriminate. }
  rewrite text_of_first in H. fold v in H. destruct (first_text (ANNOTATION v) (Some sec)) as [[ | c s] | ] eqn:T.
  - apply ok_inj in H. subst out. intros (t & X & Y). injection X as <-. now apply Y.
  - pose proof (splitlines_spec (c :: s)) as LS. destruct (splitlines (c :: s)) as [ | line others] eqn:SL.
    + exfalso. inversion LS; try discriminate.
    + step H a Ha. step H r Hr. apply ok_inj in H. subst out. apply wrap_each_spec in Ha as (ba & -> & Fa), Hr as (br & -> & Fr).
      inversion Fa as [ | x1 y1 x2 y2 Wa Fn Q1 Q2]; subst. inversion Fn; subst.
      exists (c :: s), (line :: others), (y1 :: br). split; [reflexivity | ]. split; [discriminate | ]. split; [exact LS | ].
      split; [now cbn [concat]; rewrite app_nil_r | ]. split; assumption.
  - apply ok_inj in H. subst out. intros (t & X & _). discriminate.
Qed.
Theorem annotation_ok : forall width sec, (0 < width)%Z -> only_child (ANNOTATION_SECTION v) (ANNOTATION_SECTION_ATTRIB v) (iv_vs m) sec ->
  exists out, info_annotation E m width = Ok out.
Proof.
  intros width sec P O. unfold info_annotation. fold v. rewrite (only_child_find _ _ _ _ O). cbn [rbind]. destruct sec as [sec | ]; [ | eauto].
  destruct (text_of _) as [t | ]; [ | eauto]. destruct (splitlines t) as [ | l ls]; [eauto | ].
  destruct (wrap_each_ok width (L "Annotation: ") (blanks 12) [l] P) as [a ->]. destruct (wrap_each_ok width (blanks 12) (blanks 12) ls P) as [b ->].
  eexists. reflexivity.
Qed.

(** ** Licenses *)
Lemma one_eula_spec : forall verb width e block, info_one_eula E verb width e = Ok block -> eula_shown v width (is_verbose verb) e block.
Proof.
  intros verb width e block H. unfold info_one_eula in H. fold v in H. rewrite !text_of_first in H.
  destruct (first_text (EULA_LICENSE v) (Some e)) as [[ | c s] | ] eqn:T.
  - apply ok_inj in H. subst block. left. split; [ | reflexivity]. rewrite T. intros (t & X & Y). injection X as <-. now apply Y.
  - right. step H a Ha. step H r Hr. apply ok_inj in H. subst block. exists (c :: s), a, r.
    split; [exact T | ]. split; [discriminate | ]. split; [reflexivity | ].
    split.
    { intros i Ei Ni. rewrite Ei in Ha. destruct i as [ | x i]; [now destruct Ni | ]. now apply wrap_wrapped. }
    split.
    { intros N. destruct (first_text (INFO v) (Some e)) as [[ | x i] | ]; [ | | ]; try (apply ok_inj in Ha; now subst).
      exfalso. apply N. exists (x :: i). split; [reflexivity | discriminate]. }
    split.
    { intros V. rewrite V in Hr. apply ok_inj in Hr. now subst. }
    { intros V. rewrite V in Hr. apply wrap_each_spec in Hr as (blocks & -> & F). exists (splitlines (c :: s)), blocks.
      split; [apply splitlines_spec | ]. now split. }
  - apply ok_inj in H. subst block. left. split; [ | reflexivity]. rewrite T. intros (t & X & _). discriminate.
Qed.
Lemma has_license_iff : forall e, has_license E e = true <-> says_something (first_text (EULA_LICENSE v) (Some e)).
Proof.
  intros e. unfold has_license. fold v. rewrite text_of_first. destruct (first_text (EULA_LICENSE v) (Some e)) as [[ | c s] | ]; split; try discriminate; try reflexivity.
  - intros (t & X & Y). injection X as <-. now destruct Y.
  - intros _. exists (c :: s). split; [reflexivity | discriminate].
  - intros (t & X & _). discriminate.
Qed.
Theorem eula_spec : forall verb width out, info_eula E m verb width = Ok out ->
  exists eulas blocks,
    eulas = filter (child_match (EULA_SECTION v) (EULA_SECTION_ATTRIB v)) (echildren (iv_vs m))
    /\ Forall2 (eula_shown v width (is_verbose verb)) eulas blocks
    /\ ((forall e, In e eulas -> ~ says_something (first_text (EULA_LICENSE v) (Some e))) -> out = [])
    /\ ((exists e, In e eulas /\ says_something (first_text (EULA_LICENSE v) (Some e))) ->
        out = join [NL] (L "End User License Agreement(s):" :: concat blocks)).
Proof.
  intros verb width out H. unfold info_eula in H. fold v in H. rewrite find_all_one in H.
  set (eulas := filter (child_match (EULA_SECTION v) (EULA_SECTION_ATTRIB v)) (echildren (iv_vs m))) in *.
  step H lines Hl. apply each_spec in Hl as (blocks & -> & F).
  assert (F' : Forall2 (eula_shown v width (is_verbose verb)) eulas blocks).
  { clear H. induction F as [ | e b es bs Hb F IH]; constructor; [now apply one_eula_spec | exact IH]. }
  exists eulas, blocks. split; [reflexivity | ]. split; [exact F' | ]. apply ok_inj in H. subst out. split.
  - intros N. assert (X : existsb (has_license E) eulas = false).
    { destruct (existsb (has_license E) eulas) eqn:X; [ | reflexivity]. apply existsb_exists in X as (e & He & S).
      apply has_license_iff in S. now destruct (N e He). }
    rewrite X. cbn [app]. assert (Z : concat blocks = []); [ | now rewrite Z].
    clear -F' N. induction F' as [ | e b es bs Hb F IH]; [reflexivity | ]. cbn [concat].
    destruct Hb as [[_ ->] | (t & a & b' & T & Nt & _)].
    + cbn [app]. apply IH. intros e' He'. apply N. now right.
    + exfalso. apply (N e (or_introl eq_refl)). now exists t.
  - intros (e & He & S). assert (X : existsb (has_license E) eulas = true) by (apply existsb_exists; exists e; split; [exact He | now apply has_license_iff]).
    now rewrite X.
Qed.
Theorem eula_ok : forall verb width, (0 < width)%Z -> exists out, info_eula E m verb width = Ok out.
Proof.
  intros verb width P. unfold info_eula. destruct (each_ok _ (info_one_eula E verb width) (find_all_children (iv_vs m) [EULA_SECTION (e_ver E)] (EULA_SECTION_ATTRIB (e_ver E)))) as [l ->];
    [ | eexists; reflexivity].
  intros e _. unfold info_one_eula. destruct (text_of _) as [t | ]; [ | eauto]. destruct (text_of _) as [i | ].
  - destruct (wrap_ok width (blanks 2) (blanks 2) i P) as [a ->]. cbn [rbind]. destruct (is_verbose verb); [ | eexists; reflexivity].
    destruct (wrap_each_ok width (blanks 4) (blanks 4) (splitlines t) P) as [b ->]. eexists; reflexivity.
  - cbn [rbind]. destruct (is_verbose verb); [ | eexists; reflexivity].
    destruct (wrap_each_ok width (blanks 4) (blanks 4) (splitlines t) P) as [b ->]. eexists; reflexivity.
Qed.
End Parts.
