(** Whole runs of edit-product and edit-properties: what the edits leave of the virtual system. *)
From Coq Require Import List Ascii Bool ZArith.
Import ListNotations.
From Verif Require Import PyBase PyBaseProofs PyDict PyDictProofs XmlModel XmlSpec XmlProofs NamesModel ItemModel HardwareModel ProfileModel ProfileSpec NetworkModel EnvPropModel EnvPropSpec EnvPropProofs PropArgModel ChooseModel EditPropModel InfoModel PlatformModel
  ProductModel ProductSpec ProductProofs.

(** ** Replacing the product section *)
Lemma replaced_filter : forall v vs vs' s s' (f : elem -> bool), section_replaced v vs vs' s s' -> (forall x, is_section v x -> f x = false) ->
  filter f (echildren vs') = filter f (echildren vs).
Proof.
  intros v vs vs' s s' f (_ & S & S' & A & B & H & _ & [E|[E _]]) F; rewrite H, E, !filter_app; cbn [filter]; rewrite (F s' S'); [|reflexivity]. now rewrite (F s S).
Qed.
Lemma replaced_trans : forall v a b c s s1 s1' s2, section_replaced v a b s s1 -> section_replaced v b c s1' s2 -> section_replaced v a c s s2 /\ s1' = s1.
Proof.
  intros v a b c s s1 s1' s2 R1 R2. pose proof (replaced_found _ _ _ _ _ R1) as F1. destruct (replaced_before _ _ _ _ _ R2) as [F2|[F2 _]]; rewrite F1 in F2; [|discriminate F2].
  injection F2 as <-. split; [|reflexivity]. destruct R1 as (P1 & S & S1 & A & B & H1 & N1 & C1). destruct R2 as (P2 & _ & S2 & A' & B' & H2 & N2 & C2).
  split; [exact (sbc_trans _ _ _ P1 P2)|]. split; [exact S|]. split; [exact S2|]. exists A, B. split; [|now split].
  assert (C : echildren b = A' ++ s1 :: B').
  { destruct C2 as [C2|[C2 _]]; [exact C2|]. exfalso. apply (N2 s1); [|exact S1]. rewrite <- C2, H1. apply in_or_app. right. now left. }
  rewrite H1 in C. assert (Q : A = A' /\ B = B').
  { clear -C N1 N2 S1. revert A' N2 C. induction A as [|x A IH]; intros [|y A'] N2 C; cbn [app] in C.
    - now injection C.
    - injection C as -> C. exfalso. exact (N2 _ (or_introl eq_refl) S1).
    - injection C as -> C. exfalso. exact (N1 _ (or_introl eq_refl) S1).
    - injection C as <- C. destruct (IH (fun z Hz => N1 z (or_intror Hz)) A' (fun z Hz => N2 z (or_intror Hz)) C) as [-> ->]. now split. }
  destruct Q as [-> ->]. exact H2.
Qed.

Definition kept0 (v : version) (vs vs' : elem) : Prop :=
  vs' = vs \/ exists s s', section_replaced v vs vs' s s' /\ same_but_children s s'.
Lemma put_property_kept0 : forall v vs vs1 sec key old prop, ensure_product v vs = Ok (vs1, sec) -> kept0 v vs (put_property v vs1 sec key old prop).
Proof.
  intros v vs vs1 sec key old prop En. right.
  set (sec' := match old with Some _ => set_children (update_first (child_match (PROPERTY v) [(PROP_KEY v, key)]) (fun _ => prop) (echildren sec)) sec
               | None => set_children (echildren sec ++ [prop]) sec end).
  assert (P : same_but_children sec sec') by (unfold sec'; destruct old; apply sbc_children).
  assert (S : is_section v sec).
  { apply SectionProofs.ensure_section_spec in En as (A & B & _ & S & _); [exact S|apply product_NoDup]. }
  exists sec, sec'. split; [|exact P]. exact (ensure_cases v vs vs1 sec En sec' (section_same v _ _ P S)).
Qed.
Lemma ensure_kept0 : forall v vs vs1 sec, ensure_product v vs = Ok (vs1, sec) -> kept0 v vs vs1.
Proof.
  intros v vs vs1 sec En.
  assert (S : is_section v sec /\ exists A B, echildren vs1 = A ++ sec :: B).
  { apply SectionProofs.ensure_section_spec in En as (A & B & H & S & _); [|apply product_NoDup]. split; [exact S|now exists A, B]. }
  destruct S as [S _]. pose proof (ensure_cases v vs vs1 sec En sec S) as R. right. exists sec, sec. split; [|apply sbc_refl].
  assert (Q : put_section v vs1 sec = vs1); [|now rewrite Q in R].
  apply SectionProofs.ensure_section_spec in En as (A & B & H & _ & N & _); [|apply product_NoDup].
  unfold put_section. rewrite update_same; [now destruct vs1|]. intros x Hx M. apply child_match_spec in M. rewrite H in Hx. apply in_app_or in Hx as [Hx|[Hx|Hx]].
  - exfalso. apply (N x); [apply in_or_app; now left|exact M].
  - now symmetry.
  - exfalso. apply (N x); [apply in_or_app; now right|exact M].
Qed.
Lemma set_property_kept0 : forall v vs key value uc ty label desc vs' r, set_property v vs key value uc ty label desc = (vs', r) -> kept0 v vs vs'.
Proof.
  intros v vs key value uc ty label desc vs' r H. unfold set_property in H.
  destruct v; [injection H as <- _; now left| |];
    (change (ensure_section ?v vs (PRODUCT_SECTION ?v) (L "Product Information") (PRODUCT_SECTION_ATTRIB ?v)) with (ensure_product v vs) in H;
     destruct (ensure_product _ vs) as [[vs1 sec]|] eqn:En; [|injection H as <- _; now left];
     destruct (find_child sec _ _ false) as [old|]; [|injection H as <- _; exact (ensure_kept0 _ _ _ _ En)];
     cbv zeta in H;
     match type of H with match ?x with _ => _ end = _ => destruct x end; [|injection H as <- _; now apply put_property_kept0];
     match type of H with match ?x with _ => _ end = _ => destruct x end; [|injection H as <- _; now apply put_property_kept0];
     match type of H with match ?x with _ => _ end = _ => destruct x end; injection H as <- _; now apply put_property_kept0).
Qed.
(** Nothing was changed but in the product section, whose attributes and other content are as before; the section may be new. *)
Definition kept (v : version) (vs vs' : elem) : Prop :=
  vs' = vs \/ exists s s', section_replaced v vs vs' s s' /\ same_but_children s s' /\
    (product_section v vs = Ok (Some s) -> other_product_content v vs' = other_product_content v vs).
Lemma kept_trans : forall v a b c, kept v a b -> kept v b c -> kept v a c.
Proof.
  intros v a b c [->|(s & s1 & R1 & P1 & O1)] [->|(s1' & s2 & R2 & P2 & O2)]; [now left| | |].
  - right. now exists s1', s2.
  - right. now exists s, s1.
  - right. destruct (replaced_trans _ _ _ _ _ _ _ _ R1 R2) as [R ->]. exists s, s2. split; [exact R|]. split; [exact (sbc_trans _ _ _ P1 P2)|].
    intros H. rewrite (O2 (replaced_found _ _ _ _ _ R1)). exact (O1 H).
Qed.
Lemma set_property_kept : forall v vs key value uc ty label desc vs' r, set_property v vs key value uc ty label desc = (vs', r) -> kept v vs vs'.
Proof.
  intros v vs key value uc ty label desc vs' r H. destruct (set_property_kept0 _ _ _ _ _ _ _ _ _ _ H) as [->|(s & s' & R & P)]; [now left|].
  assert (NV : v = V0 \/ v <> V0) by (destruct v; [now left|now right|now right]). destruct NV as [->|NV]; [injection H as <- _; now left|].
  right. exists s, s'. split; [exact R|]. split; [exact P|]. intros F.
  destruct (set_property_cases _ _ _ _ _ _ _ _ _ _ NV H) as [[-> _]|(nw & p & p' & _ & _ & _ & _ & _ & [Q|[Q _]] & _)]; [reflexivity|exact Q|].
  exfalso. destruct (section_cases _ _ _ F) as (A & B & Ec & S & _). apply (Q s); [rewrite Ec; apply in_or_app; right; now left|exact S].
Qed.
Lemma import_kept : forall v l uc lines num vs vs' r, import_lines v vs l uc num lines = (vs', r) -> kept v vs vs'.
Proof.
  intros v l uc. induction lines as [|x lines IH]; intros num vs vs' r H; cbn [import_lines] in H; [injection H as <- _; now left|].
  destruct (skipped (strip x)); [exact (IH _ _ _ _ H)|].
  destruct (set_property v vs _ _ _ _ _ _) as [vs1 [y|e]] eqn:SP; [|injection H as <- _; exact (set_property_kept _ _ _ _ _ _ _ _ _ _ SP)].
  exact (kept_trans _ _ _ _ (set_property_kept _ _ _ _ _ _ _ _ _ _ SP) (IH _ _ _ _ H)).
Qed.
Lemma set_each_kept : forall force v uc labels descs todo vs typed i, kept v vs (o_doc (set_each force v uc labels descs vs typed i todo)).
Proof.
  intros force v uc labels descs. induction todo as [|[[key value] ty] todo IH]; intros vs typed i; cbn [set_each]; [now left|].
  destruct (note_at labels i); [|now left]. destruct (note_at descs i); [|now left]. destruct (get_property_value v vs key) as [c|]; [|now left].
  assert (G : forall ty' asked lab des, kept v vs (o_doc (match set_property v vs key value uc ty lab des with
    | (vs', Err e) => mkOut vs' asked ty' (Err e)
    | (vs', Ok _) => let o := set_each force v uc labels descs vs' ty' (S i) todo in mkOut (o_doc o) (asked ++ o_asked o) (o_left o) (o_result o) end))).
  { intros ty' asked lab des. destruct (set_property v vs key value uc ty lab des) as [vs1 [y|e]] eqn:SP; [|exact (set_property_kept _ _ _ _ _ _ _ _ _ _ SP)].
    cbv zeta. cbn [o_doc]. exact (kept_trans _ _ _ _ (set_property_kept _ _ _ _ _ _ _ _ _ _ SP) (IH _ _ _)). }
  destruct c as [c|]; [apply G|]. destruct (confirm force typed) as [[[|] t]|]; [apply G|now left|now left].
Qed.
Lemma dialogue_kept : forall v uc typed vs proparray at_, kept v vs (fst (dialogue v uc vs proparray at_ typed)).
Proof.
  intros v uc. induction typed as [|t typed IH]; intros vs pa at_.
  - destruct at_; cbn [dialogue]; [destruct (key_list pa); now left|now left].
  - destruct at_ as [|p]; cbn [dialogue].
    + destruct (key_list pa) as [keys|]; [|now left]. destruct (choose_once keys (L "q") (get_input false (L "q") t)) as [k|]; [|apply IH].
      destruct (str_eqb k (L "q") || str_eqb k (L "Q")); [now left|]. destruct (find (key_is k) pa); [apply IH|now left].
    + destruct (same_value _ (pi_value p)); [apply IH|]. cbv zeta.
      destruct (set_property v vs _ _ uc None None None) as [vs1 [y|e]] eqn:SP.
      * destruct (environment_properties v vs1) as [pa'|]; [|exact (set_property_kept _ _ _ _ _ _ _ _ _ _ SP)].
        exact (kept_trans _ _ _ _ (set_property_kept _ _ _ _ _ _ _ _ _ _ SP) (IH _ _ _)).
      * destruct (is_value_unsupported e); [|exact (set_property_kept _ _ _ _ _ _ _ _ _ _ SP)].
        exact (kept_trans _ _ _ _ (set_property_kept _ _ _ _ _ _ _ _ _ _ SP) (IH _ _ _)).
Qed.
Lemma interactive_kept : forall force v uc vs typed, kept v vs (fst (edit_properties_interactive force v uc vs typed)).
Proof.
  intros force v uc vs typed. unfold edit_properties_interactive. destruct (environment_properties v vs); [|now left].
  destruct force; [destruct (key_list _); now left|apply dialogue_kept].
Qed.

(** The transports *)
Definition transported (v : version) (ts : list str) (vs : elem) : elem :=
  match ts with
  | [] => vs
  | _ => set_children (update_first (child_match (VIRTUAL_HW_SECTION v) (VIRTUAL_HW_SECTION_ATTRIB v)) (set_attr (ENVIRONMENT_TRANSPORT v) (join (L " ") ts)) (echildren vs)) vs
  end.
Lemma run_kept : forall force ready v literal vs typed a, o_result (run force ready v literal vs typed a) = Ok tt ->
  exists vs2, kept v vs vs2 /\ o_doc (run force ready v literal vs typed a) = transported v (ep_transports (a_edit a)) vs2 /\ (ep_transports (a_edit a) <> [] -> v <> V0).
Proof.
  intros force ready v literal vs typed a H. unfold run in *. destruct (negb (ready_to_run ready (a_edit a))); [discriminate H|].
  set (c := match a_config a with Some text => config_file_to_properties v vs literal (a_user a) text | None => (vs, Ok tt) end) in *.
  assert (KC : kept v vs (fst c)).
  { unfold c. destruct (a_config a); [|now left]. unfold config_file_to_properties. destruct literal as [l|]; [|now left].
    destruct (import_lines v vs l (a_user a) 0%N (file_lines s)) as [x y] eqn:I. exact (import_kept _ _ _ _ _ _ _ _ I). }
  destruct c as [vs1 [u|x]]; [|discriminate H]. cbn [fst] in KC. cbv zeta in *.
  set (o := set_each force v (a_user a) (ep_labels (a_edit a)) (ep_descriptions (a_edit a)) vs1 typed 0 (ep_properties (a_edit a))) in *.
  assert (KO : kept v vs (o_doc o)) by exact (kept_trans _ _ _ _ KC (set_each_kept _ _ _ _ _ _ _ _ _)).
  destruct (o_result o) as [[]|x] eqn:RO; [|rewrite RO in H; discriminate H].
  destruct (ep_transports (a_edit a)) as [|t ts] eqn:TS.
  - destruct (a_config a); [exists (o_doc o); split; [exact KO|split; [reflexivity|intros F; now elim F]]|].
    destruct (ep_properties (a_edit a)); [|exists (o_doc o); split; [exact KO|split; [reflexivity|intros F; now elim F]]].
    destruct (edit_properties_interactive force v (a_user a) (o_doc o) (o_left o)) as [vs3 r3] eqn:EI. cbn [o_doc]. exists vs3.
    split; [|split; [reflexivity|intros F; now elim F]]. apply (kept_trans _ _ _ _ KO). pose proof (interactive_kept force v (a_user a) (o_doc o) (o_left o)) as Q. now rewrite EI in Q.
  - destruct (set_environment_transports v (o_doc o) (t :: ts)) as [vs2 [u'|x]] eqn:SE; [|discriminate H].
    exists (o_doc o). split; [exact KO|]. unfold set_environment_transports in SE.
    assert (VS : vs2 = transported v (t :: ts) (o_doc o) /\ v <> V0).
    { destruct v; [discriminate SE| |]; (destruct (virtual_hw_section _ (o_doc o)) as [[s|]|]; [|discriminate SE|discriminate SE]; injection SE as <-; split; [reflexivity|discriminate]). }
    destruct VS as [-> NV]. split; [|intros _; exact NV]. destruct (a_config a), (ep_properties (a_edit a)); reflexivity.
Qed.
