(** Facts about sections of the descriptor used by several modules. *)
From Coq Require Import Lia.
From Verif Require Import PyBase PyBaseProofs PyDict PyDictProofs XmlModel XmlSpec XmlProofs NamesModel
  ProfileModel ProfileSpec ProfileDocProofs.

Lemma answers_dec : forall tag attrib e, answers tag attrib e \/ ~ answers tag attrib e.
Proof.
  intros tag attrib e. destruct (child_match tag attrib e) eqn:E.
  - left. now apply child_match_spec.
  - right. intros H. apply child_match_spec in H. congruence.
Qed.

Lemma not_answers_match : forall tag attrib e, ~ answers tag attrib e -> child_match tag attrib e = false.
Proof.
  intros tag attrib e H. destruct (child_match tag attrib e) eqn:E; [|reflexivity].
  now apply child_match_spec in E.
Qed.

(** [_ensure_section] finds the one section or puts a new one before the VirtualSystem. *)
Lemma ensure_section_spec : forall v p tag info attrib p' sec, NoDup (map fst attrib) ->
  ensure_section v p tag info attrib = Ok (p', sec) ->
  exists A B, echildren p' = A ++ sec :: B /\ answers tag attrib sec /\
    (forall x, In x (A ++ B) -> ~ answers tag attrib x) /\ same_but_children p p' /\
    ((p' = p) \/
     (echildren p = A ++ B /\
      (forall x, In x A -> etag x <> VIRTUAL_SYSTEM v) /\
      (forall x r, B = x :: r -> etag x = VIRTUAL_SYSTEM v) /\
      sec = Elem tag attrib None None [Elem (INFO v) [] (Some info) None []])).
Proof.
  intros v p tag info attrib p' sec Hnd H. unfold ensure_section in H.
  pose proof (find_child_spec p tag attrib false) as Hf.
  destruct (find_child p tag attrib false) as [[s|]|]; [| |discriminate].
  - injection H as <- <-. destruct Hf as (A & B & HAB & Ha & Hno). exists A, B.
    split; [exact HAB|]. split; [exact Ha|]. split; [exact Hno|]. split; [repeat split|]. now left.
  - destruct Hf as [_ Hno]. change (set_or_make_child (Elem tag attrib None None []) (INFO v) (Some info) [] [])
      with (Ok (Elem tag attrib None None [Elem (INFO v) [] (Some info) None []],
                Elem (INFO v) [] (Some info) None [])) in H.
    cbn [rbind fst] in H. injection H as <- <-.
    set (sec := Elem tag attrib None None [Elem (INFO v) [] (Some info) None []]).
    destruct (insert_before_split (VIRTUAL_SYSTEM v) sec (echildren p)) as (A & B & HAB & Hins & HA & HB).
    exists A, B. rewrite set_children_children. split; [exact Hins|].
    split.
    { split; [reflexivity|]. intros k w Hk. unfold get_attr, sec. cbn [eattrib].
      clear - Hnd Hk. induction attrib as [|[k' w'] l IH]; [contradiction|]. cbn [map fst] in Hnd.
      inversion Hnd as [|? ? Hni Hnd']; subst. cbn [dget]. destruct Hk as [E|Hk].
      - injection E as -> ->. now rewrite str_eqb_refl.
      - destruct (str_eqb k k') eqn:Ek; [|now apply IH]. apply str_eqb_eq in Ek. subst k'.
        exfalso. apply Hni. apply in_map_iff. now exists (k, w). }
    split; [intros x Hx; apply Hno; now rewrite HAB|].
    split; [apply set_children_same|]. right. now repeat split.
Qed.

Lemma ensure_section_error : forall v p tag info attrib e,
  ensure_section v p tag info attrib = Err e -> e = ELookupError /\
  exists A x M y B, echildren p = A ++ x :: M ++ y :: B /\ answers tag attrib x /\ answers tag attrib y.
Proof.
  intros v p tag info attrib e H. unfold ensure_section in H.
  pose proof (find_child_spec p tag attrib false) as Hf.
  destruct (find_child p tag attrib false) as [[s|]|er]; [discriminate| |].
  - change (set_or_make_child (Elem tag attrib None None []) (INFO v) (Some info) [] [])
      with (Ok (Elem tag attrib None None [Elem (INFO v) [] (Some info) None []],
                Elem (INFO v) [] (Some info) None [])) in H. discriminate.
  - injection H as <-. destruct er; try contradiction; [destruct Hf; discriminate|]. now split.
Qed.

Lemma find_split : forall (p : elem -> bool) pre e post, p e = true ->
  (forall x, In x pre -> p x = false) -> find p (pre ++ e :: post) = Some e.
Proof.
  intros p pre e post He. induction pre as [|c pre IH]; intros H; cbn.
  - now rewrite He.
  - rewrite (H c (or_introl eq_refl)). apply IH. intros x Hx. apply H. now right.
Qed.

Lemma find_none_all : forall (p : elem -> bool) l, (forall x, In x l -> p x = false) -> find p l = None.
Proof.
  intros p. induction l as [|c l IH]; intros H; [reflexivity|]. cbn.
  rewrite (H c (or_introl eq_refl)). apply IH. intros x Hx. apply H. now right.
Qed.
