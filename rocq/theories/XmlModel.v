(** XML element trees and the editing primitives of COT/xml_file.py.

    An [elem] is an [xml.etree.ElementTree.Element]: tag, attribute dictionary,
    text, tail and children.  Elements are mutable in Python; here every editing
    function returns the edited parent. *)
From Verif Require Import PyBase PyDict PyRegex.

Inductive elem : Type :=
| Elem (tag : str) (attrib : list (str * str)) (text tail : option str)
       (children : list elem).

Definition etag (e : elem) : str := match e with Elem t _ _ _ _ => t end.
Definition eattrib (e : elem) : list (str * str) :=
  match e with Elem _ a _ _ _ => a end.
Definition etext (e : elem) : option str := match e with Elem _ _ x _ _ => x end.
Definition etail (e : elem) : option str := match e with Elem _ _ _ l _ => l end.
Definition echildren (e : elem) : list elem := match e with Elem _ _ _ _ c => c end.

Definition set_text (x : option str) (e : elem) : elem :=
  match e with Elem t a _ l c => Elem t a x l c end.
Definition set_children (c : list elem) (e : elem) : elem :=
  match e with Elem t a x l _ => Elem t a x l c end.
Definition set_attribs (a : list (str * str)) (e : elem) : elem :=
  match e with Elem t _ x l c => Elem t a x l c end.

(** COT/xml_file.py:40 the pattern [\{(.* )\}] *)
Definition re_get_ns : re :=
  RSeq (RLit "{"%char) (RSeq (RGroup 1 (RStar RDot)) (RLit "}"%char)).
(** COT/xml_file.py:29-44 XML.get_ns (without the log message) *)
Definition get_ns (text : str) : str :=
  match re_match re_get_ns text with
  | Some g => match group 1 g with Some w => w | None => [] end
  | None => []
  end.
(** COT/xml_file.py:56 the pattern [\{.*\}(.* )] *)
Definition re_strip_ns : re :=
  RSeq (RLit "{"%char) (RSeq (RStar RDot) (RSeq (RLit "}"%char) (RGroup 1 (RStar RDot)))).
(** COT/xml_file.py:46-61 XML.strip_ns *)
Definition strip_ns (text : str) : str :=
  match re_match re_strip_ns text with
  | Some g => match group 1 g with Some w => w | None => [] end
  | None => text
  end.

(** [element.get(key)] *)
Definition get_attr (e : elem) (k : str) : option str := dget str_eqb k (eattrib e).
(** [element.set(key, value)] *)
Definition set_attr (k v : str) (e : elem) : elem :=
  set_attribs (dset str_eqb k v (eattrib e)) e.

(** COT/xml_file.py:196-210, the test on one element.  [findall(tag)] selects
    the direct children with that tag; the path syntax of ElementTree ("*", "/",
    "[...]") is never used by COT and not modelled. *)
Definition attrib_match (attrib : list (str * str)) (e : elem) : bool :=
  forallb (fun kv => match get_attr e (fst kv) with
                     | Some v => str_eqb v (snd kv) | None => false end) attrib.
Definition child_match (tag : str) (attrib : list (str * str)) (e : elem) : bool :=
  str_eqb (etag e) tag && attrib_match attrib e.

(** COT/xml_file.py:166-212 XML.find_all_children; [tags] is the list of tags, a
    single tag being a one-element list. *)
Definition find_all_children (parent : elem) (tags : list str)
    (attrib : list (str * str)) : list elem :=
  flat_map (fun t => filter (child_match t attrib) (echildren parent)) tags.

(** COT/xml_file.py:131-164 XML.find_child for one tag; [Ok None] is the result
    None. *)
Definition find_child (parent : elem) (tag : str) (attrib : list (str * str))
    (required : bool) : result (option elem) :=
  match find_all_children parent [tag] attrib with
  | [] => if required then Err EKeyError else Ok None
  | [e] => Ok (Some e)
  | _ => Err ELookupError
  end.

(** [ordering.index(tag)]; [None] is ValueError. *)
Fixpoint index_of (t : str) (l : list str) : option nat :=
  match l with
  | [] => None
  | x :: l' => if str_eqb x t then Some 0
               else match index_of t l' with Some n => Some (S n) | None => None end
  end.

(** COT/xml_file.py:250-278, the loop over the existing children. *)
Fixpoint insert_child (ordering : list str) (new_index : nat) (new : elem)
    (cs : list elem) : list elem :=
  match cs with
  | [] => [new]
  | c :: cs' =>
      match index_of (etag c) ordering with
      | Some i => if new_index <? i then new :: cs
                  else c :: insert_child ordering new_index new cs'
      | None => new :: cs
      end
  end.

(** COT/xml_file.py:214-278 XML.add_child.  [ordering = []] is None or an empty
    list.  [known_namespaces] only selects log messages and is left out. *)
Definition add_child (parent new : elem) (ordering : list str) : elem :=
  match index_of (etag new) ordering with
  | None => set_children (echildren parent ++ [new]) parent
  | Some i => set_children (insert_child ordering i new (echildren parent)) parent
  end.

(** COT/xml_file.py:306-309, update of the element found or created. *)
Definition update_element (text : option str) (attrib : list (str * str)) (e : elem)
    : elem :=
  fold_left (fun e kv => set_attr (fst kv) (snd kv) e) attrib
    (match text with Some x => set_text (Some x) e | None => e end).

(** Apply [f] to the first child satisfying [p]. *)
Fixpoint update_first (p : elem -> bool) (f : elem -> elem) (cs : list elem)
    : list elem :=
  match cs with
  | [] => []
  | c :: cs' => if p c then f c :: cs' else c :: update_first p f cs'
  end.

(** COT/xml_file.py:280-310 XML.set_or_make_child; returns the edited parent and
    the child.  A new child is created empty, put in place and then filled in;
    filling it in first gives the same tree because only its tag decides on the
    place. *)
Definition set_or_make_child (parent : elem) (tag : str) (text : option str)
    (attrib : list (str * str)) (ordering : list str) : result (elem * elem) :=
  match find_child parent tag attrib false with
  | Err e => Err e
  | Ok None =>
      let new := update_element text attrib (Elem tag [] None None []) in
      Ok (add_child parent new ordering, new)
  | Ok (Some e) =>
      Ok (set_children (update_first (child_match tag attrib)
                          (update_element text attrib) (echildren parent)) parent,
          update_element text attrib e)
  end.

(** ["\n" + " " * depth] *)
Definition newline_indent (depth : nat) : str := NL :: repeat " "%char depth.

(** Give the last element of a list another tail. *)
Definition set_tail (tl : option str) (e : elem) : elem :=
  match e with Elem t a x _ c => Elem t a x tl c end.
Fixpoint set_last_tail (tl : option str) (cs : list elem) : list elem :=
  match cs with
  | [] => []
  | [c] => [set_tail tl c]
  | c :: cs' => c :: set_last_tail tl cs'
  end.

(** COT/xml_file.py:104-129 XML.xml_reindent; [tl] is the tail that the caller
    assigned to [e] just before the call. *)
Fixpoint reindent_as (tl : option str) (depth : nat) (e : elem) : elem :=
  match e with
  | Elem t a x _ cs =>
      let d := depth + 2 in
      let cs' := map (reindent_as (Some (newline_indent d)) d) cs in
      match cs' with
      | [] => Elem t a x (if d =? 0 then Some [NL] else tl) []
      | _ => let d' := d - 2 in
             Elem t a (Some (newline_indent d))
               (if d' =? 0 then Some [NL] else tl)
               (set_last_tail (Some (newline_indent d')) cs')
      end
  end.
Definition xml_reindent (e : elem) (depth : nat) : elem :=
  reindent_as (etail e) depth e.
