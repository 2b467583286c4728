(** Proofs for edit-product. *)
From Verif Require Import PyBase PyBaseProofs PyDict PyDictProofs XmlModel XmlSpec XmlProofs NamesModel ProfileModel ProfileSpec NetworkModel SectionProofs EnvPropModel EnvPropSpec EnvPropProofs PlatformModel ProductModel ProductSpec.

Notation smatch v := (child_match (PRODUCT_SECTION v) (PRODUCT_SECTION_ATTRIB v)).

Lemma sbc_refl : forall a, same_but_children a a.
Proof. now split. Qed.
Lemma sbc_children : forall l a, same_but_children a (set_children l a).
Proof. intros l []. now split. Qed.
Lemma section_found : forall v vs A s B, echildren vs = A ++ s :: B -> is_section v s -> (forall x, In x (A ++ B) -> ~ is_section v x) ->
  product_section v vs = Ok (Some s).
Proof.
  intros v vs A s B H S N. unfold product_section, find_child. rewrite find_all_one.
  pose proof (sections_one v vs A s B H S N) as F. rewrite F. reflexivity.
Qed.
Lemma section_none : forall v vs, (forall x, In x (echildren vs) -> ~ is_section v x) -> product_section v vs = Ok None.
Proof.
  intros v vs N. unfold product_section, find_child. rewrite find_all_one.
  pose proof (sections_none v vs N) as F. rewrite F. reflexivity.
Qed.
Lemma section_cases : forall v vs o, product_section v vs = Ok o ->
  match o with
  | Some s => exists A B, echildren vs = A ++ s :: B /\ is_section v s /\ (forall x, In x (A ++ B) -> ~ is_section v x)
  | None => forall x, In x (echildren vs) -> ~ is_section v x
  end.
Proof.
  intros v vs o H. unfold product_section in H. pose proof (find_child_spec vs (PRODUCT_SECTION v) (PRODUCT_SECTION_ATTRIB v) false) as S.
  rewrite H in S. destruct o as [s|]; [exact S|exact (proj2 S)].
Qed.

(** The section that is changed *)
Lemma ensure_cases : forall v vs vs1 sec, ensure_product v vs = Ok (vs1, sec) -> forall sec', is_section v sec' ->
  section_replaced v vs (put_section v vs1 sec') sec sec'.
Proof.
  intros v vs vs1 sec H sec' S'. apply ensure_section_spec in H as (A & B & H1 & H2 & H3 & H4 & H5); [|apply product_NoDup].
  assert (C : echildren (put_section v vs1 sec') = A ++ sec' :: B).
  { unfold put_section. destruct vs1 as [t a x l cs]. cbn [set_children echildren] in *. rewrite H1.
    apply (update_first_split (smatch v) (fun _ => sec') A sec B).
    - now apply child_match_spec.
    - intros x0 I. apply not_answers_match. apply H3, in_or_app. now left. }
  split; [|split; [exact H2|split; [exact S'|]]].
  - apply (sbc_trans _ vs1); [exact H4|apply sbc_children].
  - exists A, B. split; [exact C|]. split; [exact H3|]. destruct H5 as [->|(H5 & _ & _ & ->)]; [now left|]. right. now split.
Qed.
Lemma replaced_found : forall v vs vs' s s', section_replaced v vs vs' s s' -> product_section v vs' = Ok (Some s').
Proof. intros v vs vs' s s' (_ & _ & S & A & B & H & N & _). exact (section_found v vs' A s' B H S N). Qed.
Lemma replaced_ensure : forall v vs vs' s s', section_replaced v vs vs' s s' -> ensure_product v vs' = Ok (vs', s').
Proof.
  intros v vs vs' s s' R. unfold ensure_product, ensure_section. pose proof (replaced_found _ _ _ _ _ R) as F. unfold product_section in F. now rewrite F.
Qed.
Lemma replaced_before : forall v vs vs' s s', section_replaced v vs vs' s s' ->
  product_section v vs = Ok (Some s) \/ (product_section v vs = Ok None /\ s = fresh_section v).
Proof.
  intros v vs vs' s s' (_ & S & S' & A & B & H & N & [E|[E F]]).
  - left. exact (section_found v vs A s B E S N).
  - right. split; [|exact F]. apply section_none. rewrite E. exact N.
Qed.
Lemma replaced_again : forall v vs vs1 s s1 s2, section_replaced v vs vs1 s s1 -> is_section v s2 ->
  section_replaced v vs (put_section v vs1 s2) s s2.
Proof.
  intros v vs vs1 s s1 s2 (H1 & H2 & H3 & A & B & H4 & H5 & H6) S2. split; [|split; [exact H2|split; [exact S2|]]].
  - apply (sbc_trans _ vs1); [exact H1|apply sbc_children].
  - exists A, B. split; [|now split]. unfold put_section. destruct vs1 as [t a x l cs]. cbn [set_children echildren] in *. rewrite H4.
    apply (update_first_split (smatch v) (fun _ => s2) A s1 B).
    + now apply child_match_spec.
    + intros x0 I. apply not_answers_match. apply H5, in_or_app. now left.
Qed.
Lemma replaced_self : forall v vs s, product_section v vs = Ok (Some s) -> section_replaced v vs vs s s.
Proof.
  intros v vs s H. apply section_cases in H as (A & B & H & S & N). split; [apply sbc_refl|]. split; [exact S|]. split; [exact S|].
  exists A, B. split; [exact H|]. split; [exact N|now left].
Qed.

(** ** The section itself *)
Record edited (v : version) (c : option str) (l : list (str * option str)) (sec sec' : elem) : Prop := {
  e_class : get_attr sec' (PRODUCT_CLASS v) = match c with Some x => Some x | None => get_attr sec (PRODUCT_CLASS v) end;
  e_attrs : forall k, k <> PRODUCT_CLASS v -> get_attr sec' k = get_attr sec k;
  e_set : forall tag t, In (tag, Some t) l -> exists e, with_tag tag sec' = [e] /\ etext e = Some t;
  e_rest : forall keep : str -> bool, (forall tag t, In (tag, Some t) l -> keep tag = false) ->
    filter (fun x => keep (etag x)) (echildren sec') = filter (fun x => keep (etag x)) (echildren sec) }.
Lemma edited_refl : forall v sec l, (forall tag t, ~ In (tag, Some t) l) -> edited v None l sec sec.
Proof. intros v sec l N. constructor; [reflexivity|reflexivity|intros tag t H; now contradict H; apply N|reflexivity]. Qed.

Lemma text_set : forall sec tag t r, set_or_make_child sec tag (Some t) [] [] = Ok r ->
  same_but_children sec (fst r) /\ (exists e, with_tag tag (fst r) = [e] /\ etext e = Some t) /\
  (forall keep : str -> bool, keep tag = false ->
     filter (fun x => keep (etag x)) (echildren (fst r)) = filter (fun x => keep (etag x)) (echildren sec)).
Proof.
  intros sec tag t [s c] H. pose proof (set_note_spec sec tag (Some t) s) as N. unfold set_note in N. rewrite H in N. cbn [rbind fst] in N.
  destruct (N eq_refl) as (N1 & N2 & _). split; [exact N1|]. split; [exact N2|]. intros keep K. cbn [fst].
  pose proof (set_or_make_child_spec sec tag (Some t) [] [] (NoDup_nil _)) as S. rewrite H in S.
  destruct S as (_ & [Tc _] & _ & _ & _ & [(pre & old & post & E1 & E2 & [To _] & _)|(pre & post & E1 & E2 & _)]).
  - rewrite E1, E2, !filter_app. cbn [filter]. rewrite Tc, To, K. reflexivity.
  - rewrite E1, E2, !filter_app. cbn [filter]. rewrite Tc, K. reflexivity.
Qed.
Lemma edited_text : forall v c l sec s1 tag t r, edited v c l sec s1 -> (forall x, ~ In (tag, x) l) ->
  set_or_make_child s1 tag (Some t) [] [] = Ok r -> edited v c (l ++ [(tag, Some t)]) sec (fst r).
Proof.
  intros v c l sec s1 tag t r [E1 E2 E3 E4] N H. apply text_set in H as ((T1 & T2 & T3 & T4) & He & Hr).
  assert (GA : forall k, get_attr (fst r) k = get_attr s1 k) by (intros k; unfold get_attr; now rewrite T2).
  constructor.
  - now rewrite GA.
  - intros k K. rewrite GA. now apply E2.
  - intros tag' t' I. apply in_app_or in I as [I|[I|[]]].
    + destruct (E3 _ _ I) as (e & W & X). exists e. split; [|exact X]. rewrite <- W. unfold with_tag.
      apply (Hr (fun x => str_eqb x tag')). apply str_eqb_neq. intros K. rewrite K in N. now apply (N (Some t')).
    + injection I as <- <-. exact He.
  - intros keep K. rewrite (Hr keep), (E4 keep); [reflexivity| |].
    + intros tag' t' I. apply (K tag' t'). apply in_or_app. now left.
    + apply (K tag t). apply in_or_app. right. now left.
Qed.
Lemma edited_none : forall v c l sec s1 tag, edited v c l sec s1 -> edited v c (l ++ [(tag, None)]) sec s1.
Proof.
  intros v c l sec s1 tag [E1 E2 E3 E4]. constructor; [exact E1|exact E2| |].
  - intros tag' t' I. apply in_app_or in I as [I|[I|[]]]; [now apply E3|discriminate].
  - intros keep K. apply E4. intros tag' t' I. apply (K tag' t'). apply in_or_app. now left.
Qed.

Lemma class_not_xsi : forall v k x, In (k, x) (PRODUCT_SECTION_ATTRIB v) -> k <> PRODUCT_CLASS v.
Proof. intros v k x H. destruct v; cbn in H; [|contradiction|contradiction]. destruct H as [H|[]]. injection H as <- _. discriminate. Qed.
Lemma section_class : forall v s c, is_section v s -> is_section v (set_attr (PRODUCT_CLASS v) c s).
Proof.
  intros v s c [T H]. split; [destruct s; exact T|]. intros k x I. rewrite attr_other; [now apply H|]. exact (class_not_xsi _ _ _ I).
Qed.
Lemma section_same : forall v a b, same_but_children a b -> is_section v a -> is_section v b.
Proof. exact product_same. Qed.

(** ** The state *)
Lemma open_inv : forall v vs m, open_product v vs = Ok m ->
  exists o, product_section v vs = Ok o /\ m = mkPvm vs (read_class v o) (for_product_string (read_class v o)).
Proof. intros v vs m H. unfold open_product in H. destruct (product_section v vs) as [o|] eqn:E; [|discriminate]. injection H as <-. now exists o. Qed.
Lemma open_class : forall v m, open_product v (pv_vs m) = Ok m ->
  exists o, product_section v (pv_vs m) = Ok o /\ product_class v m = Ok (read_class v o) /\ pv_class m = read_class v o /\
    pv_platform m = for_product_string (read_class v o).
Proof.
  intros v m H. apply open_inv in H as (o & Ho & Em). exists o. split; [exact Ho|]. rewrite Em. cbn [pv_class pv_platform].
  split; [|now split]. unfold product_class. cbn [pv_class]. destruct (read_class v o) as [c|] eqn:Ec; [reflexivity|].
  cbn [pv_vs]. rewrite Ho. cbn [rbind]. now rewrite Ec.
Qed.
(** Reached from [vs] with the class [c] and the texts [l] asked for so far *)
Definition reached (v : version) (vs : elem) (c : option str) (l : list (str * option str)) (m : pvm) : Prop :=
  open_product v (pv_vs m) = Ok m /\
  ((pv_vs m = vs /\ c = None /\ forall tag t, ~ In (tag, Some t) l) \/
   exists sec sec', section_replaced v vs (pv_vs m) sec sec' /\ edited v c l sec sec').

Lemma reached_class : forall v vs m c m', open_product v vs = Ok m -> when v c set_product_class m = Ok m' -> reached v vs c [] m'.
Proof.
  intros v vs m c m' O H. pose proof O as O2. apply open_inv in O2 as (o & Ho & Em).
  assert (Vm : pv_vs m = vs) by now rewrite Em.
  destruct c as [c|]; cbn [when] in H.
  2:{ injection H as <-. split; [now rewrite Vm|]. left. split; [exact Vm|]. split; [reflexivity|]. intros tag t []. }
  unfold set_product_class in H. assert (O' : open_product v (pv_vs m) = Ok m) by now rewrite Vm.
  destruct (open_class v m O') as (o' & Ho' & Hc & _ & _). rewrite Vm, Ho in Ho'. injection Ho' as <-. rewrite Hc in H. cbn [rbind] in H.
  destruct (opt_str_eqb (Some c) (read_class v o)) eqn:E.
  - injection H as <-. split; [exact O'|]. right. destruct o as [s|]; [|discriminate]. cbn [read_class] in E.
    destruct (get_attr s (PRODUCT_CLASS v)) as [d|] eqn:Es; [|discriminate]. cbn [opt_str_eqb] in E. apply str_eqb_eq in E as ->.
    exists s, s. rewrite Vm. split; [exact (replaced_self v vs s Ho)|].
    constructor; [exact Es|reflexivity|intros tag t []|reflexivity].
  - destruct (ensure_product v (pv_vs m)) as [[vs1 sec]|] eqn:En; [|discriminate]. cbn [rbind] in H. injection H as <-. rewrite Vm in En.
    assert (S : is_section v sec).
    { apply ensure_section_spec in En as (A & B & _ & S & _); [exact S|apply product_NoDup]. }
    pose proof (ensure_cases v vs vs1 sec En _ (section_class v sec c S)) as R. split.
    + cbn [pv_vs]. unfold open_product. rewrite (replaced_found _ _ _ _ _ R). cbn [rbind read_class]. now rewrite attr_same.
    + right. exists sec, (set_attr (PRODUCT_CLASS v) c sec). split; [exact R|]. constructor.
      * apply attr_same.
      * intros k K. now apply attr_other.
      * intros tag t [].
      * intros keep _. now destruct sec.
Qed.

Lemma fresh_class : forall v, get_attr (fresh_section v) (PRODUCT_CLASS v) = None.
Proof. intros v. destruct v; reflexivity. Qed.
Lemma reached_text : forall v vs c l tag t m m', reached v vs c l m -> (forall x, ~ In (tag, x) l) ->
  set_product_text v m tag t = Ok m' -> reached v vs c (l ++ [(tag, Some t)]) m'.
Proof.
  intros v vs c l tag t m m' [O R] N H. unfold set_product_text in H.
  destruct (ensure_product v (pv_vs m)) as [[vs1 sec]|] eqn:En; [|discriminate]. cbn [rbind] in H.
  destruct (set_or_make_child sec tag (Some t) [] []) as [r|] eqn:Es; [|discriminate]. cbn [rbind] in H. injection H as <-.
  assert (S : is_section v sec).
  { apply ensure_section_spec in En as (A & B & _ & S & _); [exact S|apply product_NoDup]. }
  pose proof (text_set _ _ _ _ Es) as (TS & _ & _). pose proof (section_same v _ _ TS S) as S'.
  assert (GA : forall k, get_attr (fst r) k = get_attr sec k).
  { intros k. unfold get_attr. destruct TS as (_ & T2 & _). now rewrite T2. }
  assert (Q : exists s, section_replaced v vs (put_section v vs1 (fst r)) s (fst r) /\ edited v c (l ++ [(tag, Some t)]) s (fst r) /\
    get_attr sec (PRODUCT_CLASS v) = pv_class m).
  { destruct (open_class v m O) as (o & Ho & _ & Hc & _). destruct R as [(Vm & -> & Nl)|(s & s' & R & E)].
    - exists sec. rewrite Vm in En. pose proof (ensure_cases v vs vs1 sec En _ S') as R. split; [exact R|]. split.
      + apply (edited_text v None l sec sec tag t r); [now apply edited_refl|exact N|exact Es].
      + rewrite Hc. destruct (replaced_before _ _ _ _ _ R) as [F|[F Ff]]; rewrite Vm, F in Ho; injection Ho as <-; [reflexivity|].
        rewrite Ff. apply fresh_class.
    - rewrite (replaced_ensure _ _ _ _ _ R) in En. injection En as <- <-. exists s. split; [exact (replaced_again _ _ _ _ _ _ R S')|]. split.
      + exact (edited_text v c l s s' tag t r E N Es).
      + rewrite (replaced_found _ _ _ _ _ R) in Ho. injection Ho as <-. now rewrite Hc. }
  destruct Q as (s & R' & E' & G). split.
  - cbn [pv_vs]. unfold open_product. rewrite (replaced_found _ _ _ _ _ R'). cbn [rbind read_class]. rewrite GA, G.
    destruct (open_class v m O) as (o & _ & _ & Hc & Hp). rewrite Hp, <- Hc. reflexivity.
  - right. now exists s, (fst r).
Qed.
Lemma reached_when : forall v vs c l tag x m m', reached v vs c l m -> (forall y, ~ In (tag, y) l) ->
  when v x (fun v m => set_product_text v m tag) m = Ok m' -> reached v vs c (l ++ [(tag, x)]) m'.
Proof.
  intros v vs c l tag [t|] m m' R N H; cbn [when] in H.
  - exact (reached_text v vs c l tag t m m' R N H).
  - injection H as <-. destruct R as [O [(V & C & L)|(s & s' & R & E)]]; split; try exact O.
    + left. split; [exact V|]. split; [exact C|]. intros tag' t' I. apply in_app_or in I as [I|[I|[]]]; [now apply (L tag' t')|discriminate].
    + right. exists s, s'. split; [exact R|now apply edited_none].
Qed.

Ltac step H x E := match type of H with rbind ?e _ = Ok _ => destruct e as [x|] eqn:E; [cbn [rbind] in H|discriminate H] end.
Ltac apart v := let y := fresh in let I := fresh in intros y I; cbn in I;
  repeat (destruct I as [I|I]; [injection I as I _; destruct v; discriminate I|]); destruct I.

Lemma ready_spec : forall o, product_ready o = false <-> nothing_given o.
Proof.
  assert (S : forall x, some_text x = false <-> x = None \/ x = Some []).
  { intros [[|a t]|]; cbn; split; auto; try discriminate. intros [F|F]; discriminate. }
  intros o. unfold product_ready, nothing_given. rewrite !orb_false_iff, !S. cbn [texts map snd]. split.
  - intros [[[[[[[H1 H2] H3] H4] H5] H6] H7] H8] x [<-|[<-|[<-|[<-|[<-|[<-|[<-|[<-|[]]]]]]]]]; assumption.
  - intros H. repeat split; apply H; cbn [In]; tauto.
Qed.

Theorem edit_reached : forall v vs m o m', open_product v vs = Ok m -> edit_product v o m = Ok m' ->
  product_ready o = true /\ reached v vs (o_class o) (texts v o) m'.
Proof.
  intros v vs m o m' O H. unfold edit_product in H. destruct (product_ready o) eqn:R; [|discriminate]. cbn [negb] in H. split; [reflexivity|].
  step H m1 E1. step H m2 E2. step H m3 E3. step H m4 E4. step H m5 E5. step H m6 E6. step H m7 E7.
  pose proof (reached_class _ _ _ _ _ O E1) as Q.
  apply (fun Q N => reached_when _ _ _ _ _ _ _ _ Q N E2) in Q; [|apart v]. cbn [app] in Q.
  apply (fun Q N => reached_when _ _ _ _ _ _ _ _ Q N E3) in Q; [|apart v]. cbn [app] in Q.
  apply (fun Q N => reached_when _ _ _ _ _ _ _ _ Q N E4) in Q; [|apart v]. cbn [app] in Q.
  apply (fun Q N => reached_when _ _ _ _ _ _ _ _ Q N E5) in Q; [|apart v]. cbn [app] in Q.
  apply (fun Q N => reached_when _ _ _ _ _ _ _ _ Q N E6) in Q; [|apart v]. cbn [app] in Q.
  apply (fun Q N => reached_when _ _ _ _ _ _ _ _ Q N E7) in Q; [|apart v]. cbn [app] in Q.
  apply (fun Q N => reached_when _ _ _ _ _ _ _ _ Q N H) in Q; [|apart v]. exact Q.
Qed.

Theorem edit_spec : forall v vs m o m', open_product v vs = Ok m -> edit_product v o m = Ok m' ->
  open_product v (pv_vs m') = Ok m' /\
  exists sec sec', section_replaced v vs (pv_vs m') sec sec' /\ section_edited v o sec sec'.
Proof.
  intros v vs m o m' O H. destruct (edit_reached v vs m o m' O H) as [Rd [O' R]]. split; [exact O'|].
  destruct R as [(_ & C & N)|(s & s' & R & [E1 E2 E3 E4])].
  - exfalso. assert (F : product_ready o = false).
    { apply ready_spec. intros x I. destruct I as [<-|I]; [now left|]. left.
      assert (J : exists tag, In (tag, x) (texts v o)).
      { cbn [texts map snd] in I. repeat (destruct I as [<-|I]; [eexists; cbn [texts In]; eauto 10|]). destruct I. }
      destruct J as [tag J]. destruct x as [t|]; [now contradict J; apply N|reflexivity]. }
    rewrite F in Rd. discriminate.
  - exists s, s'. split; [exact R|]. now constructor.
Qed.

(** What is read afterwards *)
Lemma texts_unique : forall v o tag x y, In (tag, x) (texts v o) -> In (tag, y) (texts v o) -> x = y.
Proof.
  intros v o tag x y. assert (ND : NoDup (map fst (texts v o))).
  { cbn [texts map fst]. repeat (constructor; [cbn [In]; intros F; repeat (destruct F as [F|F]; [destruct v; discriminate F|]); destruct F|]). constructor. }
  intros I J. pose proof (dget_Some_In _ str_eqb_eq _ _ _ ND I) as A. pose proof (dget_Some_In _ str_eqb_eq _ _ _ ND J) as B. congruence.
Qed.

Theorem edit_reads : forall v vs m o m' tag x, open_product v vs = Ok m -> edit_product v o m = Ok m' -> In (tag, x) (texts v o) ->
  product_text v m' tag = match x with Some t => Ok (Some t) | None => product_text v m tag end.
Proof.
  intros v vs m o m' tag x O H I. destruct (edit_spec v vs m o m' O H) as (_ & s & s' & R & [_ _ S K]).
  apply open_inv in O as (sec & Ho & Em). assert (Vm : pv_vs m = vs) by now rewrite Em.
  unfold product_text. rewrite (replaced_found _ _ _ _ _ R). cbn [rbind]. destruct x as [t|].
  - destruct (S tag t I) as (e & W & T). unfold findtext_opt. change (findall tag s') with (with_tag tag s'). rewrite W, T. reflexivity.
  - rewrite Vm. assert (W : with_tag tag s' = with_tag tag s).
    { apply (K (fun y => str_eqb y tag)). intros tag' t' I'. apply str_eqb_neq. intros ->. now pose proof (texts_unique _ _ _ _ _ I I'). }
    assert (F : findtext_opt tag s' = findtext_opt tag s).
    { unfold findtext_opt. change (findall tag s') with (with_tag tag s'). change (findall tag s) with (with_tag tag s). now rewrite W. }
    rewrite F. destruct (replaced_before _ _ _ _ _ R) as [B|[B Fr]]; rewrite B; cbn [rbind]; [reflexivity|].
    rewrite Fr. f_equal. unfold findtext_opt. cbn [texts In] in I.
    repeat (destruct I as [I|I]; [injection I as <- _; destruct v; reflexivity|]). destruct I.
Qed.
Theorem edit_class : forall v vs m o m', open_product v vs = Ok m -> edit_product v o m = Ok m' ->
  exists c, product_class v m' = Ok c /\ pv_platform m' = for_product_string c /\
    match o_class o with Some x => c = Some x | None => product_class v m = Ok c end.
Proof.
  intros v vs m o m' O H. destruct (edit_spec v vs m o m' O H) as (O' & s & s' & R & [C _ _ _]).
  destruct (open_class v m' O') as (sec & Ho & Hc & _ & Hp). rewrite (replaced_found _ _ _ _ _ R) in Ho. injection Ho as <-.
  exists (read_class v (Some s')). split; [exact Hc|]. split; [exact Hp|]. cbn [read_class]. rewrite C.
  destruct (o_class o) as [c|]; [reflexivity|].
  assert (Vm : pv_vs m = vs) by (apply open_inv in O as (sec & _ & ->); reflexivity).
  assert (O2 : open_product v (pv_vs m) = Ok m) by now rewrite Vm.
  destruct (open_class v m O2) as (sec & Ho & Hc2 & _ & _). rewrite Hc2. rewrite Vm in Ho.
  destruct (replaced_before _ _ _ _ _ R) as [B|[B Fr]]; rewrite B in Ho; injection Ho as <-; cbn [read_class]; [reflexivity|].
  now rewrite Fr, fresh_class.
Qed.

(** ** Failures *)
Lemma two_of : forall (p : elem -> bool) l x y r, filter p l = x :: y :: r ->
  exists A B C, l = A ++ x :: B ++ y :: C /\ p x = true /\ p y = true.
Proof.
  intros p l x y r H. assert (G : forall l x r, filter p l = x :: r -> exists A B, l = A ++ x :: B /\ p x = true /\ filter p B = r).
  { clear. induction l as [|a l IH]; intros x r H; [discriminate|]. cbn [filter] in H. destruct (p a) eqn:E.
    - injection H as -> <-. now exists [], l.
    - destruct (IH x r H) as (A & B & -> & E2 & E3). now exists (a :: A), B. }
  destruct (G l x (y :: r) H) as (A & B & -> & Px & F). destruct (G B y r F) as (A2 & B2 & -> & Py & _). now exists A, A2, B2.
Qed.
Lemma text_fails : forall v vs c l tag t m e, reached v vs c l m -> (forall x, ~ In (tag, x) l) -> tag <> INFO v ->
  set_product_text v m tag t = Err e -> e = ELookupError /\
  exists sec A x B y C, In sec (echildren vs) /\ is_section v sec /\ echildren sec = A ++ x :: B ++ y :: C /\ etag x = tag /\ etag y = tag.
Proof.
  intros v vs c l tag t m e [O R] N NI H. destruct (open_class v m O) as (o & Ho & _).
  unfold set_product_text in H. destruct (ensure_product v (pv_vs m)) as [[vs1 sec]|e1] eqn:En; cbn [rbind] in H.
  2:{ unfold ensure_product, ensure_section in En. unfold product_section in Ho. rewrite Ho in En. destruct o; [discriminate|].
      destruct v; discriminate. }
  destruct (set_or_make_child sec tag (Some t) [] []) as [r|e1] eqn:Es; cbn [rbind] in H; [discriminate|]. injection H as <-.
  unfold set_or_make_child in Es. destruct (find_child sec tag [] false) as [[]|e2] eqn:Ef; try discriminate. injection Es as <-.
  unfold find_child in Ef. rewrite find_all_one in Ef.
  assert (EQ : filter (child_match tag []) (echildren sec) = with_tag tag sec).
  { unfold with_tag. apply filter_ext. intros a. unfold child_match. cbn. now rewrite andb_true_r. }
  rewrite EQ in Ef. destruct (with_tag tag sec) as [|x [|y r]] eqn:W; try discriminate. injection Ef as <-. split; [reflexivity|].
  assert (Q : exists s, (In s (echildren vs) /\ is_section v s \/ s = fresh_section v) /\ with_tag tag s = x :: y :: r).
  { destruct R as [(Vm & _ & _)|(s & s' & R & E)].
    - exists sec. split; [|exact W]. rewrite Vm in En. pose proof En as En2. apply ensure_section_spec in En2 as (A & B & E1 & E2 & _ & _ & [->|(_ & _ & _ & ->)]); [|now right|apply product_NoDup].
      left. split; [|exact E2]. rewrite E1. apply in_elt.
    - rewrite (replaced_ensure _ _ _ _ _ R) in En. injection En as <- <-. exists s. split.
      + destruct R as (_ & S & _ & A & B & _ & _ & [E1|[_ E1]]); [left|now right]. split; [|exact S]. rewrite E1. apply in_elt.
      + rewrite <- W. symmetry. apply (e_rest _ _ _ _ _ E (fun z => str_eqb z tag)). intros tag' t' I. apply str_eqb_neq. intros ->. now apply (N (Some t')). }
  destruct Q as (s & [[Q1 Q2]|Q1] & Q3).
  - apply two_of in Q3 as (A & B & C & E1 & P1 & P2). apply str_eqb_eq in P1, P2. exists s, A, x, B, y, C. now split.
  - rewrite Q1 in Q3. unfold with_tag in Q3. cbn [fresh_section echildren filter] in Q3. destruct (str_eqb _ tag) in Q3; discriminate.
Qed.
Lemma class_works : forall v vs m c e, open_product v vs = Ok m -> when v c set_product_class m <> Err e.
Proof.
  intros v vs m [c|] e O H; [|discriminate]. cbn [when] in H. unfold set_product_class in H.
  assert (Vm : pv_vs m = vs) by (apply open_inv in O as (sec & _ & ->); reflexivity).
  assert (O2 : open_product v (pv_vs m) = Ok m) by now rewrite Vm.
  destruct (open_class v m O2) as (o & Ho & Hc & _). rewrite Hc in H. cbn [rbind] in H. destruct (opt_str_eqb _ _); [discriminate|].
  destruct (ensure_product v (pv_vs m)) as [[vs1 sec]|e1] eqn:En; cbn [rbind] in H; [discriminate|].
  unfold ensure_product, ensure_section in En. unfold product_section in Ho. rewrite Ho in En. destruct o; [discriminate|]. destruct v; discriminate.
Qed.
Lemma when_fails : forall v vs c l tag x m e, reached v vs c l m -> (forall y, ~ In (tag, y) l) -> tag <> INFO v ->
  when v x (fun v m => set_product_text v m tag) m = Err e -> e = ELookupError /\
  exists t sec A x' B y C, x = Some t /\ In sec (echildren vs) /\ is_section v sec /\ echildren sec = A ++ x' :: B ++ y :: C /\ etag x' = tag /\ etag y = tag.
Proof.
  intros v vs c l tag [t|] m e R N NI H; cbn [when] in H; [|discriminate].
  destruct (text_fails v vs c l tag t m e R N NI H) as (E & sec & A & x & B & y & C & Q). split; [exact E|]. exists t, sec, A, x, B, y, C. now split.
Qed.
Ltac fails v E Q :=
  lazymatch type of Q with reached ?v' ?vs ?c ?l ?m => lazymatch type of E with when _ ?x _ _ = Err ?e =>
    let N := fresh "N" in let t := fresh "t" in
    lazymatch goal with |- context [texts v ?o] =>
      lazymatch eval unfold texts in (texts v o) with context [(?tag, x)] =>
        assert (N : forall y, ~ In (tag, y) l) by (apart v);
        destruct (when_fails v' vs c l tag x m e Q N ltac:(destruct v; discriminate) E) as (-> & t & sec & A & x' & B & y & C & Ht & H1 & H2 & H3 & H4 & H5);
        right; split; [reflexivity|]; exists sec, tag, t, A, x', B, y, C;
        split; [exact H1|]; split; [exact H2|]; split; [rewrite <- Ht; cbn [texts In]; tauto|]; now split
      end end end end.
Ltac failed v H Q :=
  match type of H with rbind ?e _ = Err _ =>
    let m := fresh "m" in let E := fresh "E" in destruct e as [m|] eqn:E; cbn [rbind] in H;
    [apply (fun Q N => reached_when _ _ _ _ _ _ _ _ Q N E) in Q; [|apart v]; cbn [app] in Q
    |injection H as <-; fails v E Q] end.
Theorem edit_fails : forall v vs m o e, open_product v vs = Ok m -> edit_product v o m = Err e ->
  (e = EInvalidInput /\ nothing_given o) \/ (e = ELookupError /\ doubled v o vs).
Proof.
  intros v vs m o e O H. unfold edit_product in H. destruct (product_ready o) eqn:R; cbn [negb] in H.
  2:{ injection H as <-. left. split; [reflexivity|now apply ready_spec]. }
  destruct (when v (o_class o) set_product_class m) as [m1|e1] eqn:E1; cbn [rbind] in H.
  2:{ now destruct (class_works v vs m (o_class o) e1 O). }
  pose proof (reached_class _ _ _ _ _ O E1) as Q. unfold doubled.
  failed v H Q. failed v H Q. failed v H Q. failed v H Q. failed v H Q. failed v H Q.
  fails v H Q.
Qed.

(** ** Again *)
Lemma update_same : forall (p : elem -> bool) f l, (forall x, In x l -> p x = true -> f x = x) -> update_first p f l = l.
Proof.
  intros p f l. induction l as [|a l IH]; intros H; [reflexivity|]. cbn [update_first]. destruct (p a) eqn:E.
  - now rewrite (H a (or_introl eq_refl) E).
  - rewrite IH; [reflexivity|]. intros x I. apply H. now right.
Qed.
Lemma put_same : forall v vs s, product_section v vs = Ok (Some s) -> put_section v vs s = vs.
Proof.
  intros v vs s H. apply section_cases in H as (A & B & E & S & N). unfold put_section. rewrite update_same.
  - now destruct vs.
  - intros x I P. apply child_match_spec in P. rewrite E in I. apply in_app_or in I as [I|[I|I]]; [|now symmetry|].
    + exfalso. apply (N x); [apply in_or_app; now left|exact P].
    + exfalso. apply (N x); [apply in_or_app; now right|exact P].
Qed.
Lemma make_same : forall sec tag e t, with_tag tag sec = [e] -> etext e = Some t -> set_or_make_child sec tag (Some t) [] [] = Ok (sec, e).
Proof.
  intros sec tag e t W T. unfold set_or_make_child, find_child. rewrite find_all_one.
  assert (EQ : forall l, filter (child_match tag []) l = filter (fun c => str_eqb (etag c) tag) l).
  { intros l. apply filter_ext. intros a. unfold child_match. cbn. now rewrite andb_true_r. }
  rewrite EQ. unfold with_tag in W. rewrite W. assert (U : update_element (Some t) [] e = e).
  { unfold update_element. cbn [fold_left]. destruct e. cbn in *. now rewrite T. }
  rewrite U. f_equal. f_equal. rewrite update_same.
  - now destruct sec.
  - intros x I P. assert (J : In x [e]).
    { rewrite <- W, <- EQ. apply filter_In. now split. }
    destruct J as [<-|[]]. exact U.
Qed.
Lemma ensure_same : forall v vs s, product_section v vs = Ok (Some s) -> ensure_product v vs = Ok (vs, s).
Proof. intros v vs s H. unfold ensure_product, ensure_section. unfold product_section in H. now rewrite H. Qed.
Lemma again_text : forall v m s tag t e, product_section v (pv_vs m) = Ok (Some s) -> with_tag tag s = [e] -> etext e = Some t ->
  set_product_text v m tag t = Ok m.
Proof.
  intros v m s tag t e H W T. unfold set_product_text. rewrite (ensure_same v _ s H). cbn [rbind].
  rewrite (make_same s tag e t W T). cbn [rbind fst]. rewrite (put_same v _ s H). now destruct m.
Qed.
Theorem edit_again : forall v vs m o m', open_product v vs = Ok m -> edit_product v o m = Ok m' -> edit_product v o m' = Ok m'.
Proof.
  intros v vs m o m' O H. destruct (edit_reached v vs m o m' O H) as [Rd _].
  destruct (edit_spec v vs m o m' O H) as (O' & s & s' & R & [C _ S _]). pose proof (replaced_found _ _ _ _ _ R) as F.
  unfold edit_product. rewrite Rd. cbn [negb].
  assert (E1 : when v (o_class o) set_product_class m' = Ok m').
  { destruct (o_class o) as [c|]; [|reflexivity]. cbn [when]. unfold set_product_class.
    destruct (open_class v m' O') as (sec & Ho & Hc & _). rewrite F in Ho. injection Ho as <-. rewrite Hc. cbn [rbind read_class]. rewrite C.
    cbn [opt_str_eqb]. now rewrite str_eqb_refl. }
  rewrite E1. cbn [rbind].
  assert (ET : forall tag x, In (tag, x) (texts v o) -> when v x (fun v m => set_product_text v m tag) m' = Ok m').
  { intros tag [t|] I; [|reflexivity]. cbn [when]. destruct (S tag t I) as (e & W & T). exact (again_text v m' s' tag t e F W T). }
  assert (Q : forall tag x (k : pvm -> result pvm), In (tag, x) (texts v o) ->
    rbind (match x with None => Ok m' | Some t => set_product_text v m' tag t end) k = k m').
  { intros tag x k I. specialize (ET tag x I). unfold when in ET. now rewrite ET. }
  unfold when.
  rewrite (Q (PRODUCT v)); [|cbn [texts In]; tauto]. rewrite (Q (VENDOR v)); [|cbn [texts In]; tauto].
  rewrite (Q (VERSION v)); [|cbn [texts In]; tauto]. rewrite (Q (FULL_VERSION v)); [|cbn [texts In]; tauto].
  rewrite (Q (PRODUCT_URL v)); [|cbn [texts In]; tauto]. rewrite (Q (VENDOR_URL v)); [|cbn [texts In]; tauto].
  apply (ET (APPLICATION_URL v) (o_app_url o)). cbn [texts In]. tauto.
Qed.

(** ** Environment properties *)
Theorem edit_properties : forall v vs m o m', open_product v vs = Ok m -> edit_product v o m = Ok m' ->
  properties v (pv_vs m') = properties v vs /\ outside_product v (pv_vs m') = outside_product v vs.
Proof.
  intros v vs m o m' O H. destruct (edit_spec v vs m o m' O H) as (_ & s & s' & (SB & S & S' & A & B & E1 & E2 & E3) & [_ _ _ K]).
  assert (W : with_tag (PROPERTY v) s' = with_tag (PROPERTY v) s).
  { apply (K (fun y => str_eqb y (PROPERTY v))). intros tag t I. cbn [texts In] in I.
    repeat (destruct I as [I|I]; [injection I as <- _; destruct v; reflexivity|]). destruct I. }
  split.
  - rewrite (properties_one v _ A s' B E1 S' E2), W. destruct E3 as [E3|[E3 F]].
    + now rewrite (properties_one v vs A s B E3 S E2).
    + unfold properties. rewrite (sections_none v vs) by (rewrite E3; exact E2). rewrite F. destruct v; reflexivity.
  - rewrite (outside_one v _ A s' B E1 S'). destruct E3 as [E3|[E3 F]].
    + rewrite (outside_one v vs A s B E3 S). unfold outside_product. destruct vs, (pv_vs m'); reflexivity.
    + unfold outside_product. rewrite E3. destruct (pv_vs m'); reflexivity.
Qed.

Theorem text_read : forall v vs m tag, open_product v vs = Ok m ->
  ((forall x, In x (echildren vs) -> ~ is_section v x) -> product_text v m tag = Ok None) /\
  (forall sec, In sec (echildren vs) -> is_section v sec ->
     (with_tag tag sec = [] -> product_text v m tag = Ok None) /\
     (forall e r, with_tag tag sec = e :: r -> product_text v m tag = Ok (Some (match etext e with Some t => t | None => [] end)))).
Proof.
  intros v vs m tag O. apply open_inv in O as (o & Ho & ->). unfold product_text. cbn [pv_vs]. rewrite Ho. cbn [rbind].
  apply section_cases in Ho. split.
  - intros N. destruct o as [s|]; [|reflexivity]. destruct Ho as (A & B & E & S & _). exfalso. apply (N s); [rewrite E; apply in_elt|exact S].
  - intros sec I S. destruct o as [s|]; [|now destruct (Ho sec I)]. destruct Ho as (A & B & E & S' & N).
    assert (Es : s = sec).
    { rewrite E in I. apply in_app_or in I as [I|[I|I]]; [|exact I|]; exfalso; apply (N sec); try exact S; apply in_or_app; [now left|now right]. }
    subst s. unfold findtext_opt. change (findall tag sec) with (with_tag tag sec). split; [now intros ->|]. intros e r ->. reflexivity.
Qed.
