(** C20-C22, C42: editing XML. *)
From Verif Require Import PyBase XmlModel XmlSpec XmlProofs.

(** The new element is put into the list of children, nothing else changes; the
    place respects the ordering. *)
Theorem C20_add_child : forall parent new ord,
  same_but_children parent (add_child parent new ord) /\
  exists pre post,
    echildren parent = pre ++ post /\
    echildren (add_child parent new ord) = pre ++ new :: post /\
    (In (etag new) ord ->
       (forall c, In c pre -> In (etag c) ord /\ ~ earlier ord (etag new) (etag c)) /\
       (forall c r, post = c :: r -> earlier ord (etag new) (etag c))) /\
    (~ In (etag new) ord -> post = []) /\
    (in_order ord (echildren parent) ->
     in_order ord (echildren (add_child parent new ord))).
Proof. exact add_child_spec. Qed.
Print Assumptions C20_add_child.

Definition leaf (t : string) : elem := Elem (L t) [] None None [].

Example C20_example :
  let p := Elem (L "P") [] None None [leaf "a"; leaf "b"; leaf "d"; leaf "x"] in
  let ord := [L "a"; L "b"; L "c"; L "d"] in
  in_order ord (echildren p) /\
  map etag (echildren (add_child p (leaf "b") ord)) =
    [L "a"; L "b"; L "b"; L "d"; L "x"] /\
  map etag (echildren (add_child p (leaf "c") ord)) =
    [L "a"; L "b"; L "c"; L "d"; L "x"] /\
  map etag (echildren (add_child p (leaf "y") ord)) =
    [L "a"; L "b"; L "d"; L "x"; L "y"].
Proof.
  split; [|now repeat split]. cbn.
  repeat (apply in_order_cons; split;
    [|repeat constructor; intros H; apply earlier_index in H as (i & Hi & Hj); cbn in Hi;
      try discriminate; injection Hi as <-; cbn in Hj;
      specialize (Hj _ eq_refl); inversion Hj;
      repeat match goal with H : S _ <= _ |- _ => inversion H; clear H end]).
  apply in_order_nil.
Qed.

(** A unique child is updated or a missing one created; afterwards it is found,
    and repeating the call changes nothing.  Two candidates are an error. *)
Theorem C21_set_or_make_child : forall p tag text attrib ord,
  NoDup (map fst attrib) ->
  match set_or_make_child p tag text attrib ord with
  | Ok (p', c) =>
      same_but_children p p' /\ answers tag attrib c /\
      (forall x, text = Some x -> etext c = Some x) /\
      find_child p' tag attrib true = Ok (Some c) /\
      set_or_make_child p' tag text attrib ord = Ok (p', c) /\
      ((exists pre old post, echildren p = pre ++ old :: post /\
          echildren p' = pre ++ c :: post /\ answers tag attrib old /\
          same_but_text old c /\ (text = None -> c = old)) \/
       (exists pre post, echildren p = pre ++ post /\ echildren p' = pre ++ c :: post /\
          (forall x, In x (pre ++ post) -> ~ answers tag attrib x) /\
          p' = add_child p c ord /\
          c = Elem tag attrib text None []))
  | Err e => e = ELookupError /\ exists pre x mid y post,
      echildren p = pre ++ x :: mid ++ y :: post /\
      answers tag attrib x /\ answers tag attrib y
  end.
Proof. exact set_or_make_child_spec. Qed.
Print Assumptions C21_set_or_make_child.

(** Looking up a child finds the only one that answers to tag and attributes. *)
Theorem C21_find_child : forall p tag attrib req,
  match find_child p tag attrib req with
  | Ok (Some e) => exists pre post, echildren p = pre ++ e :: post /\
      answers tag attrib e /\ forall x, In x (pre ++ post) -> ~ answers tag attrib x
  | Ok None => req = false /\ forall x, In x (echildren p) -> ~ answers tag attrib x
  | Err EKeyError => req = true /\ forall x, In x (echildren p) -> ~ answers tag attrib x
  | Err ELookupError => exists pre x mid y post,
      echildren p = pre ++ x :: mid ++ y :: post /\
      answers tag attrib x /\ answers tag attrib y
  | Err _ => False
  end.
Proof. exact find_child_spec. Qed.
Print Assumptions C21_find_child.

Example C21_example :
  let p := Elem (L "P") [] None None
             [Elem (L "a") [(L "k", L "1")] (Some (L "x")) None [];
              Elem (L "a") [(L "k", L "2")] None None []; leaf "b"] in
  set_or_make_child p (L "a") (Some (L "new")) [(L "k", L "2")] [] =
    Ok (Elem (L "P") [] None None
          [Elem (L "a") [(L "k", L "1")] (Some (L "x")) None [];
           Elem (L "a") [(L "k", L "2")] (Some (L "new")) None []; leaf "b"],
        Elem (L "a") [(L "k", L "2")] (Some (L "new")) None []) /\
  set_or_make_child p (L "a") None [] [] = Err ELookupError /\
  NoDup (map fst [(L "k", L "2")]).
Proof. repeat split. constructor; [intros []|constructor]. Qed.

(** Indentation keeps all content but the text of elements with children. *)
Theorem C22_reindent_content : forall e depth, same_content e (xml_reindent e depth).
Proof. intros. apply reindent_same. Qed.
Print Assumptions C22_reindent_content.

(** The result is indented by depth. *)
Theorem C22_reindent_layout : forall e depth, laid_out depth (xml_reindent e depth).
Proof. intros. apply reindent_laid_out. Qed.
Print Assumptions C22_reindent_layout.

Theorem C22_reindent_idempotent : forall e depth,
  xml_reindent (xml_reindent e depth) depth = xml_reindent e depth.
Proof. exact xml_reindent_idem. Qed.
Print Assumptions C22_reindent_idempotent.

(** "No text is ever lost" is false of elements with both text and children. *)
Theorem C22_mixed_text_lost_refuted : exists e,
  etext e = Some (L "text") /\ etext (xml_reindent e 0) = Some (newline_indent 2).
Proof. exists (Elem (L "a") [] (Some (L "text")) None [leaf "b"]). now split. Qed.
Print Assumptions C22_mixed_text_lost_refuted.

Example C22_example :
  let e := Elem (L "a") [] None None
             [Elem (L "b") [] None None [Elem (L "c") [] (Some (L "t")) None []]; leaf "d"] in
  xml_reindent e 0 =
  Elem (L "a") [] (Some (newline_indent 2)) (Some [NL])
    [Elem (L "b") [] (Some (newline_indent 4)) (Some (newline_indent 2))
       [Elem (L "c") [] (Some (L "t")) (Some (newline_indent 2)) []];
     Elem (L "d") [] None (Some (newline_indent 0)) []].
Proof. reflexivity. Qed.

(** A qualified name splits into its namespace and its bare name. *)
Theorem C42_qualified_name : forall ns name, ~ In NL (ns ++ name) -> ~ In "}"%char name ->
  get_ns ("{"%char :: ns ++ "}"%char :: name) = ns /\
  strip_ns ("{"%char :: ns ++ "}"%char :: name) = name.
Proof. exact qualified_name. Qed.
Print Assumptions C42_qualified_name.

(** A name without a namespace is its own bare name. *)
Theorem C42_unqualified_name : forall text, (forall t, text <> "{"%char :: t) ->
  get_ns text = [] /\ strip_ns text = text.
Proof. exact unqualified_name. Qed.
Print Assumptions C42_unqualified_name.

Example C42_example :
  get_ns (L "{http://schemas.dmtf.org/ovf/envelope/1}Item") =
    L "http://schemas.dmtf.org/ovf/envelope/1" /\
  strip_ns (L "{http://schemas.dmtf.org/ovf/envelope/1}Item") = L "Item" /\
  strip_ns (L "Item") = L "Item".
Proof. repeat split. Qed.
