(** What users rely on when COT edits XML, in terms of element trees only. *)
From Verif Require Import PyBase PyDict XmlModel.

(** [a] comes strictly before [b] in the ordering; a tag that is not listed comes
    after all listed ones. *)
Definition earlier (ordering : list str) (a b : str) : Prop :=
  exists p q, ordering = p ++ a :: q /\ ~ In b (p ++ [a]).

(** No child comes after one that the ordering puts later. *)
Definition in_order (ordering : list str) (cs : list elem) : Prop :=
  forall pre x mid y post, cs = pre ++ x :: mid ++ y :: post ->
  ~ earlier ordering (etag y) (etag x).

(** The same element apart from its children. *)
Definition same_but_children (a b : elem) : Prop :=
  etag a = etag b /\ eattrib a = eattrib b /\ etext a = etext b /\ etail a = etail b.
(** The same element apart from its text. *)
Definition same_but_text (a b : elem) : Prop :=
  etag a = etag b /\ eattrib a = eattrib b /\ etail a = etail b /\
  echildren a = echildren b.

(** The element has this tag and at least these attribute values. *)
Definition answers (tag : str) (attrib : list (str * str)) (e : elem) : Prop :=
  etag e = tag /\ forall k v, In (k, v) attrib -> get_attr e k = Some v.

(** Same document up to the text of elements with children and all tails. *)
Inductive same_content : elem -> elem -> Prop :=
| Same : forall t a x x' l l' cs cs',
    Forall2 same_content cs cs' -> (cs = [] -> x = x') ->
    same_content (Elem t a x l cs) (Elem t a x' l' cs').

(** The text of each element with children and the tails of the children break
    the line and indent by two more than the element, except that the last tail
    indents like the element itself. *)
Inductive laid_out : nat -> elem -> Prop :=
| LaidLeaf : forall d t a x l, laid_out d (Elem t a x l [])
| LaidNode : forall d t a l cs c,
    Forall (fun e => etail e = Some (newline_indent (d + 2))) cs ->
    etail c = Some (newline_indent d) ->
    Forall (laid_out (d + 2)) (cs ++ [c]) ->
    laid_out d (Elem t a (Some (newline_indent (d + 2))) l (cs ++ [c])).
