(** Proofs about choices made by the user. *)
From Coq Require Import Lia.
From Verif Require Import PyBase PyBaseProofs ValidationSpec ValidationProofs ChooseModel ChooseSpec.

Lemma filter_none : forall (A : Type) (f : A -> bool) l, filter f l = [] -> forall x, In x l -> f x = false.
Proof.
  intros A f l H x Hi. destruct (f x) eqn:E; [|reflexivity]. exfalso.
  assert (In x (filter f l)) as F by (apply filter_In; auto). rewrite H in F. destruct F.
Qed.
Lemma filter_none_iff : forall (A : Type) (f : A -> bool) l, (forall x, In x l -> f x = false) -> filter f l = [].
Proof.
  induction l as [|x l IH]; intros H; [reflexivity|]. cbn. rewrite (H x (or_introl eq_refl)). apply IH. intros y Hy. apply H. now right.
Qed.
Lemma filter_one : forall (A : Type) (f : A -> bool) l o, filter f l = [o] <->
  exists a b, l = a ++ o :: b /\ f o = true /\ (forall x, In x a -> f x = false) /\ (forall x, In x b -> f x = false).
Proof.
  intros A f l o. split.
  - induction l as [|x l IH]; [discriminate|]. cbn. destruct (f x) eqn:E.
    + intros H. injection H as -> H. exists [], l. split; [reflexivity|]. split; [exact E|]. split; [intros y []|].
      now apply filter_none.
    + intros H. destruct (IH H) as (a & b & -> & Ho & Ha & Hb). exists (x :: a), b. split; [reflexivity|]. split; [exact Ho|]. split; [|exact Hb].
      intros y [<- |Hy]; auto.
  - intros (a & b & -> & Ho & Ha & Hb). rewrite filter_app. cbn. rewrite Ho, (filter_none_iff _ f a Ha), (filter_none_iff _ f b Hb). reflexivity.
Qed.

Lemma has_prefix_dec : forall p o, starts_with p o = true <-> has_prefix p o.
Proof. exact starts_with_spec. Qed.
Lemma has_prefix_false : forall p o, starts_with p o = false <-> ~ has_prefix p o.
Proof. intros p o. rewrite <- has_prefix_dec. destruct (starts_with p o); intuition congruence. Qed.

Lemma only_filter : forall (p : str) options o, filter (starts_with p) options = [o] <-> only_with_prefix p options o.
Proof.
  intros p options o. rewrite filter_one. unfold only_with_prefix.
  split; intros (a & b & E & Ho & Ha & Hb); exists a, b; (split; [exact E|]); (split; [now apply has_prefix_dec|]); split; intros x Hx; apply has_prefix_false; auto.
Qed.

Lemma nth_error_split_iff : forall (A : Type) (l : list A) n o,
  nth_error l n = Some o <-> exists a b, l = a ++ o :: b /\ length a = n.
Proof.
  intros A l n o. split; [apply nth_error_split|]. intros (a & b & -> & <-).
  rewrite nth_error_app2 by lia. now rewrite Nat.sub_diag.
Qed.

Lemma py_index_spec : forall options k o, py_index options (k - 1) = Some o <-> option_number options k o.
Proof.
  intros options k o. unfold py_index, option_number. destruct (Z.leb_spec 0 (k - 1)).
  - rewrite nth_error_split_iff. split; intros (a & b & E & H1); exists a, b; (split; [exact E|]); subst.
    + left. lia.
    + destruct H1 as [-> | ->]; [lia|]. exfalso. lia.
  - destruct (Z.leb_spec 0 (Z.of_nat (length options) + (k - 1))).
    + rewrite nth_error_split_iff. split; intros (a & b & E & H1); exists a, b; (split; [exact E|]); subst; rewrite app_length in *; cbn [length] in *.
      * right. lia.
      * destruct H1 as [-> | ->]; lia.
    + split; [discriminate|]. intros (a & b & E & H1). subst. rewrite app_length in *; cbn [length] in *. lia.
Qed.

Theorem choose_once_spec : forall options default input r,
  choose_once options default input = Some r <-> selects options default input r.
Proof.
  intros options default input r. unfold choose_once.
  destruct (str_eqb input default || mem_str input options) eqn:E.
  - apply orb_true_iff in E. rewrite str_eqb_eq, mem_str_In in E. split.
    + intros H. injection H as <-. now constructor.
    + intros H. destruct H; [reflexivity|tauto..].
  - apply orb_false_iff in E as [E1 E2].
    assert (input <> default) as N1 by (intros ->; now rewrite str_eqb_refl in E1).
    assert (~ In input options) as N2 by (rewrite <- mem_str_In; congruence).
    assert (forall o, filter (starts_with input) options = [o] -> Some o = Some r <-> selects options default input r) as One.
    { intros o F. split.
      - intros H. injection H as <-. apply sel_prefix; auto. now apply only_filter.
      - intros H. destruct H as [H| o' _ _ H|k o' _ _ H _ _]; [tauto| |].
        + apply only_filter in H. rewrite F in H. now injection H as <-.
        + exfalso. apply (H o). now apply only_filter. }
    assert ((forall o, filter (starts_with input) options <> [o]) ->
      (match py_int input with Some index => py_index options (index - 1) | None => None end = Some r
       <-> selects options default input r)) as Num.
    { intros F. split.
      - destruct (py_int input) as [k|] eqn:Ek; [|discriminate]. intros H. apply sel_number with k; auto.
        + intros o Ho. apply (F o). now apply only_filter.
        + now apply py_int_spec.
        + now apply py_index_spec.
      - intros H. destruct H as [H| o' _ _ H|k o' _ _ H Hk Ho]; [tauto| |].
        + exfalso. apply (F o'). now apply only_filter.
        + apply py_int_spec in Hk. rewrite Hk. now apply py_index_spec. }
    destruct (filter (starts_with input) options) as [|o [|o2 l]] eqn:F.
    + apply Num. discriminate.
    + now apply One.
    + apply Num. discriminate.
Qed.

Lemma get_input_entered : forall default typed input,
  get_input false default typed = input <-> entered default typed input.
Proof.
  intros default [|c t] input; cbn; unfold entered; split; try (intros <-).
  - now left.
  - intros [[_ ->]|[F _]]; [reflexivity|contradiction].
  - right. split; [discriminate|reflexivity].
  - intros [[F _]|[_ ->]]; [discriminate|reflexivity].
Qed.

Theorem choose_spec : forall options default typed r,
  choose_from_list false options default typed = Some r <->
  exists before t input after, typed = before ++ t :: after /\
    entered default t input /\ selects options default input r /\
    forall t' input' r', In t' before -> entered default t' input' -> ~ selects options default input' r'.
Proof.
  intros options default typed r. induction typed as [|t typed IH]; cbn [choose_from_list].
  - split; [discriminate|]. intros (before & t & input & after & E & _). destruct before; discriminate.
  - destruct (choose_once options default (get_input false default t)) as [r'|] eqn:E.
    + split.
      * intros H. injection H as ->. exists [], t, (get_input false default t), typed.
        split; [reflexivity|]. split; [now apply get_input_entered|]. split; [now apply choose_once_spec|]. intros t' i' r' [].
      * intros (before & t1 & input & after & E1 & Ht & Hs & Hb). destruct before as [|b before]; cbn [app] in E1; [injection E1 as <- <-|injection E1 as <- ->].
        -- apply get_input_entered in Ht as <-. apply choose_once_spec in Hs. congruence.
        -- exfalso. apply (Hb t (get_input false default t) r' (or_introl eq_refl)); [now apply get_input_entered|now apply choose_once_spec].
    + rewrite IH. split.
      * intros (before & t1 & input & after & -> & Ht & Hs & Hb). exists (t :: before), t1, input, after.
        split; [reflexivity|]. split; [exact Ht|]. split; [exact Hs|]. intros t' i' r' [<- |Hi] He Hsel.
        -- apply get_input_entered in He as <-. apply choose_once_spec in Hsel. congruence.
        -- exact (Hb t' i' r' Hi He Hsel).
      * intros (before & t1 & input & after & E1 & Ht & Hs & Hb). destruct before as [|b before]; cbn [app] in E1; [injection E1 as <- <-|injection E1 as <- ->].
        -- apply get_input_entered in Ht as <-. apply choose_once_spec in Hs. congruence.
        -- exists before, t1, input, after. split; [reflexivity|]. split; [exact Ht|]. split; [exact Hs|].
           intros t' i' r' Hi. apply Hb. now right.
Qed.

Lemma selects_range : forall options default input r, selects options default input r -> r = default \/ In r options.
Proof.
  intros options default input r H. destruct H as [[-> |H]|o _ _ (a & b & -> & _)|k o _ _ _ _ (a & b & -> & _)]; auto; right; apply in_elt.
Qed.

Theorem choose_range : forall force options default typed r,
  choose_from_list force options default typed = Some r -> r = default \/ In r options.
Proof.
  intros force options default typed r. induction typed as [|t typed IH]; cbn [choose_from_list]; [discriminate|].
  destruct (choose_once options default (get_input force default t)) as [r'|] eqn:E; [|exact IH].
  intros H. injection H as ->. apply choose_once_spec in E. now apply selects_range in E.
Qed.

Theorem choose_force : forall options default t typed,
  choose_from_list true options default (t :: typed) = Some default.
Proof. intros. cbn. unfold choose_once. now rewrite str_eqb_refl. Qed.

Theorem choose_waits : forall options default typed,
  choose_from_list false options default typed = None <->
  forall t input r, In t typed -> entered default t input -> ~ selects options default input r.
Proof.
  intros options default typed. induction typed as [|t typed IH]; cbn [choose_from_list].
  - split; [intros _ t i r []|reflexivity].
  - destruct (choose_once options default (get_input false default t)) as [r'|] eqn:E.
    + split; [discriminate|]. intros H. exfalso.
      apply (H t (get_input false default t) r' (or_introl eq_refl)); [now apply get_input_entered|now apply choose_once_spec].
    + rewrite IH. split.
      * intros H t' i r [<- |Hi] He Hs; [|exact (H t' i r Hi He Hs)].
        apply get_input_entered in He as <-. apply choose_once_spec in Hs. congruence.
      * intros H t' i r Hi. apply H. now right.
Qed.

(** ** The numbers shown *)

Lemma numbered_nth : forall infos i k inf, nth_error infos k = Some inf ->
  nth_error (numbered i infos) k = Some (pad2 (dec (i + N.of_nat k)) ++ L ") " ++ strip inf).
Proof.
  induction infos as [|x infos IH]; intros i k inf H; [destruct k; discriminate|].
  destruct k as [|k]; cbn [nth_error numbered] in *.
  - injection H as ->. now rewrite N.add_0_r.
  - replace (i + N.of_nat (S k))%N with (i + 1 + N.of_nat k)%N by lia. exact (IH (i + 1)%N k inf H).
Qed.

Lemma numbered_length : forall infos i, length (numbered i infos) = length infos.
Proof. induction infos as [|x infos IH]; intros i; cbn; auto. Qed.

Theorem number_shown : forall options default a o b header footer,
  let number := dec (N.of_nat (length a) + 1) in
  options = a ++ o :: b ->
  nth_error (choose_prompt header footer options []) (length a + 1) = Some (pad2 number ++ L ") " ++ strip o) /\
  ((forall x, In x (default :: options) -> ~ has_prefix number x) -> selects options default number o).
Proof.
  intros options default a o b header footer number E. split.
  - unfold choose_prompt. rewrite Nat.add_1_r. cbn [nth_error]. rewrite nth_error_app1.
    + rewrite (numbered_nth options 1 (length a) o).
      * unfold number. now rewrite N.add_comm.
      * apply nth_error_split_iff. eauto.
    + rewrite numbered_length. subst. rewrite app_length. cbn. lia.
  - intros H. apply sel_number with (Z.of_nat (length a) + 1)%Z.
    + intros F. apply (H default (or_introl eq_refl)). exists []. now rewrite app_nil_r.
    + intros F. apply (H number (or_intror F)). exists []. now rewrite app_nil_r.
    + intros o' (a' & b' & -> & F & _). apply (H o'); [|exact F]. right. apply in_elt.
    + apply py_int_spec. unfold number. rewrite py_int_dec. f_equal. lia.
    + exists a, b. split; [exact E|]. left. lia.
Qed.

(** ** Yes or no *)

Lemma confirm_once_spec : forall typed b, confirm_once typed = Some b <->
  means (if b then [[]; L "y"; L "Y"] else [L "n"; L "N"]) typed.
Proof.
  intros typed b.
  assert (forall c, (c = [] \/ exists x, is_space x = false /\ c = [x]) ->
    (strip typed = c <-> exists u v, typed = u ++ c ++ v /\ blanks u /\ blanks v)) as S.
  { intros c Hc. split.
    - intros <-. destruct (strip_spec typed) as (u & v & E & Hu & Hv & _). exists u, v.
      split; [exact E|]. rewrite forallb_forall in Hu, Hv. split; assumption.
    - intros (u & v & -> & Hu & Hv). apply forallb_forall in Hu. apply forallb_forall in Hv. destruct Hc as [-> |(x & Hx & ->)].
      + cbn [app]. unfold strip. rewrite lstrip_app_space by exact Hu. rewrite <- (app_nil_r v).
        rewrite lstrip_app_space by exact Hv. reflexivity.
      + apply strip_unique; auto; [|discriminate]. split.
        * intros c0 t E. now injection E as <- _.
        * intros c0 t E. destruct t as [|y t]; [now injection E as <-|]. destruct t; discriminate. }
  assert (forall c, In c [[]; L "y"; L "Y"; L "n"; L "N"] -> (c = [] \/ exists x, is_space x = false /\ c = [x])) as Known.
  { intros c [<- |[<- |[<- |[<- |[<- |[]]]]]]; [now left|right; eexists; (split; [|reflexivity]); reflexivity..]. }
  assert (forall answers, (forall c, In c answers -> In c [[]; L "y"; L "Y"; L "n"; L "N"]) ->
    (In (strip typed) answers <-> means answers typed)) as M.
  { intros answers Hk. unfold means. split.
    - intros Hi. destruct (proj1 (S _ (Known _ (Hk _ Hi))) eq_refl) as (u & v & E & Hu & Hv). exists u, (strip typed), v. auto.
    - intros (u & c & v & E & Hu & Hv & Hi). rewrite (proj2 (S c (Known _ (Hk _ Hi)))); [exact Hi|]. exists u, v. auto. }
  unfold confirm_once. set (ans := strip typed) in *.
  assert (str_eqb ans [] || str_eqb ans (L "y") || str_eqb ans (L "Y") = true <-> In ans [[]; L "y"; L "Y"]) as Y.
  { rewrite !orb_true_iff, !str_eqb_eq. cbn [In].
    split; [intros [[H|H]|H]; symmetry in H; tauto|intros [H|[H|[H|[]]]]; symmetry in H; tauto]. }
  assert (str_eqb ans (L "n") || str_eqb ans (L "N") = true <-> In ans [L "n"; L "N"]) as No.
  { rewrite !orb_true_iff, !str_eqb_eq. cbn [In].
    split; [intros [H|H]; symmetry in H; tauto|intros [H|[H|[]]]; symmetry in H; tauto]. }
  rewrite <- M by (destruct b; cbn [In]; tauto).
  destruct (_ || _ || _) in Y |- *.
  - pose proof (proj1 Y eq_refl) as I. destruct b; [tauto|]. split; [discriminate|]. intros I'.
    exfalso. cbn [In] in I, I'. destruct I as [I|[I|[I|[]]]]; rewrite <- I in I'; destruct I' as [I'|[I'|[]]]; discriminate.
  - destruct (_ || _) in No |- *.
    + pose proof (proj1 No eq_refl) as I. destruct b; [|tauto]. split; [discriminate|]. intros I'.
      exfalso. cbn [In] in I, I'. destruct I' as [I'|[I'|[I'|[]]]]; rewrite <- I' in I; destruct I as [I|[I|[]]]; discriminate.
    + split; [discriminate|]. destruct b; intros I; [apply Y in I|apply No in I]; discriminate.
Qed.

Theorem confirm_spec : forall typed b, cli_confirm false typed = Some b <->
  exists before t after, typed = before ++ t :: after /\
    means (if b then [[]; L "y"; L "Y"] else [L "n"; L "N"]) t /\
    forall t', In t' before -> ~ means [[]; L "y"; L "Y"; L "n"; L "N"] t'.
Proof.
  assert (forall t, means [[]; L "y"; L "Y"; L "n"; L "N"] t <-> exists b, confirm_once t = Some b) as A.
  { intros t. split.
    - intros (u & c & v & E & Hu & Hv & Hi).
      assert (In c [[]; L "y"; L "Y"] \/ In c [L "n"; L "N"]) as [I|I] by (cbn [In] in *; tauto);
        [exists true|exists false]; apply confirm_once_spec; exists u, c, v; auto.
    - intros (b & H). apply confirm_once_spec in H as (u & c & v & E & Hu & Hv & Hi). exists u, c, v.
      do 3 (split; [assumption|]). destruct b; cbn [In] in *; tauto. }
  intros typed b. change (cli_confirm false typed) with (confirm_loop typed).
  induction typed as [|t typed IH]; cbn [confirm_loop].
  - split; [discriminate|]. intros (before & t & after & E & _). destruct before; discriminate.
  - destruct (confirm_once t) as [b'|] eqn:E.
    + split.
      * intros H. injection H as ->. exists [], t, typed. split; [reflexivity|]. split; [now apply confirm_once_spec|intros t' []].
      * intros (before & t1 & after & E1 & Ht & Hb). destruct before as [|x before]; cbn [app] in E1; [injection E1 as <- <-|injection E1 as <- ->].
        -- apply confirm_once_spec in Ht. congruence.
        -- exfalso. apply (Hb t (or_introl eq_refl)). apply A. eauto.
    + rewrite IH. split.
      * intros (before & t1 & after & -> & Ht & Hb). exists (t :: before), t1, after. split; [reflexivity|]. split; [exact Ht|].
        intros t' [<- |Hi]; [|now apply Hb]. intros F. apply A in F as (b' & F). congruence.
      * intros (before & t1 & after & E1 & Ht & Hb). destruct before as [|x before]; cbn [app] in E1; [injection E1 as <- <-|injection E1 as <- ->].
        -- apply confirm_once_spec in Ht. congruence.
        -- exists before, t1, after. split; [reflexivity|]. split; [exact Ht|]. intros t' Hi. apply Hb. now right.
Qed.
