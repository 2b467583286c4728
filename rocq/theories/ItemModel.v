(** Hardware items: COT/vm_description/ovf/item.py. *)
From Verif Require Import PyBase PyDict PyRegex ValidationModel XmlModel NamesModel.

(** ** Values and sets of profiles *)

(** A property value is a string, or a tuple of strings for ResourceSubType. *)
Inductive value : Type :=
| VStr (s : str)
| VTuple (l : list str).

Fixpoint strs_eqb (a b : list str) : bool :=
  match a, b with
  | [], [] => true
  | x :: a', y :: b' => str_eqb x y && strs_eqb a' b'
  | _, _ => false
  end.
Definition value_eqb (a b : value) : bool :=
  match a, b with
  | VStr x, VStr y => str_eqb x y
  | VTuple x, VTuple y => strs_eqb x y
  | _, _ => false
  end.

(** Truth value of a stored value. *)
Definition truthy (v : value) : bool :=
  match v with VStr [] => false | VTuple [] => false | _ => true end.

(** A profile name; [None] is the default profile. *)
Definition profile := option str.
Definition profile_eqb (a b : profile) : bool :=
  match a, b with
  | None, None => true
  | Some x, Some y => str_eqb x y
  | _, _ => false
  end.

(** Python sets of profiles, as lists without repetition.  The order of the list
    stands for the iteration order of the set, which Python leaves open; it only
    reaches an output through [natural_sort] of names that differ but compare
    equal (such as "a1" and "a01"). *)
Definition pset := list profile.
Definition pmem (p : profile) (s : pset) : bool := existsb (profile_eqb p) s.
Definition padd (s : pset) (p : profile) : pset := if pmem p s then s else s ++ [p].
Definition punion (a b : pset) : pset := fold_left padd b a.
Definition pdiff (a b : pset) : pset := filter (fun p => negb (pmem p b)) a.
Definition pinter (a b : pset) : pset := filter (fun p => pmem p b) a.
Definition psubset (a b : pset) : bool := forallb (fun p => pmem p b) a.
Definition pset_eqb (a b : pset) : bool := psubset a b && psubset b a.
(** [set(l)] *)
Definition pset_of (l : list profile) : pset := punion [] l.
Definition is_nil {A} (l : list A) : bool := match l with [] => true | _ => false end.

(** [self.properties[name]]: value -> set of profiles, in insertion order *)
Definition vdict := list (value * pset).
Definition vget (v : value) (d : vdict) : option pset := dget value_eqb v d.
Definition vset (v : value) (s : pset) (d : vdict) : vdict := dset value_eqb v s d.
Definition vdel (v : value) (d : vdict) : vdict := ddel value_eqb v d.
Definition props := list (str * vdict).
Definition prget (n : str) (ps : props) : option vdict := dget str_eqb n ps.
Definition prset (n : str) (d : vdict) (ps : props) : props := dset str_eqb n d ps.
Definition prdel (n : str) (ps : props) : props := ddel str_eqb n ps.

(** An OVFItem (item.py:80-113).  [i_frozen] is the list of configuration
    profiles of the private OVF copy that [copy.deepcopy] gives to a cloned item
    (hardware.py:213); [None] for items that share the live OVF object. *)
Record item : Type := mkItem {
  i_props : props;
  i_ns : str;
  i_modified : bool;
  i_frozen : option (list str) }.

Definition with_props (ps : props) (i : item) : item :=
  mkItem ps (i_ns i) (i_modified i) (i_frozen i).
Definition with_modified (b : bool) (i : item) : item :=
  mkItem (i_props i) (i_ns i) b (i_frozen i).
Definition with_ns (ns : str) (i : item) : item :=
  mkItem (i_props i) ns (i_modified i) (i_frozen i).

(** What the item code gets from its surroundings: the OVF version, the
    configuration profiles of the live OVF object, [re.sub] for patterns or
    replacements that are not plain text, [str] of a tuple, and the ElementTree
    serialiser and parser. *)
Record env : Type := mkEnv {
  e_ver : version;
  e_profiles : list str;
  e_re_sub : str -> str -> str -> result str;
  e_seq_repr : list str -> str;
  e_tostring : elem -> str;
  e_fromstring : str -> result elem }.

(** [self.ovf.config_profiles] as seen by an item *)
Definition config_of (E : env) (i : item) : list str :=
  match i_frozen i with Some l => l | None => e_profiles E end.

(** ** [re.sub] *)

(** Characters with a meaning in regular expressions. *)
Definition is_meta (c : ascii) : bool := existsb (Ascii.eqb c) (L ".^$*+?{}[]\|()").
Definition plain_pattern (p : str) : bool := negb (is_nil p) && forallb (fun c => negb (is_meta c)) p.
Definition plain_repl (r : str) : bool := forallb (fun c => negb (Ascii.eqb c "\"%char)) r.

(** All non-overlapping occurrences from the left are replaced; [skip] counts the
    characters of the current occurrence still to be dropped. *)
Fixpoint replace_from (skip : nat) (pat repl s : str) : str :=
  match s with
  | [] => []
  | c :: s' =>
      match skip with
      | S k => replace_from k pat repl s'
      | O => if starts_with pat s then repl ++ replace_from (length pat - 1) pat repl s'
             else c :: replace_from 0 pat repl s'
      end
  end.
Definition replace_all (pat repl s : str) : str := replace_from 0 pat repl s.

(** [re.sub(pat, repl, s)]: literal replacement when neither argument has special
    characters, otherwise left to the environment. *)
Definition re_sub (E : env) (pat repl s : str) : result str :=
  if plain_pattern pat && plain_repl repl then Ok (replace_all pat repl s)
  else e_re_sub E pat repl s.

(** ** Lookup *)

(** item.py:192-205 all_profiles; [None] when there are no values *)
Definition all_profiles_of (d : vdict) : option pset :=
  match d with
  | [] => None
  | (_, s) :: d' => Some (fold_left (fun a vs => punion a (snd vs)) d' s)
  end.
Definition all_profiles (ps : props) (name : str) : option pset :=
  match prget name ps with None => None | Some d => all_profiles_of d end.

(** item.py:611-621, the loop of _get_value for given profiles *)
Fixpoint raw_loop (d : vdict) (profiles : pset) (default : option value) : option value :=
  match d with
  | [] => default
  | (v, s) :: d' =>
      if psubset profiles s then Some v
      else if pmem None s then raw_loop d' profiles (Some v)
      else if is_nil (pinter s profiles) then raw_loop d' profiles default
      else None
  end.

(** item.py:583-621 OVFItem._get_value *)
Definition get_raw (ps : props) (tag : str) (profiles : option pset) : option value :=
  let d := match prget tag ps with Some d => d | None => [] end in
  match profiles with
  | None => match d with [(v, _)] => Some v | _ => None end
  | Some p => raw_loop d p None
  end.

(** [str(v)] *)
Definition vtext (E : env) (v : value) : str :=
  match v with VStr s => s | VTuple l => e_seq_repr E l end.
(** ResourceSubType tuples are joined with "/" (item.py:310-311, 343-344) *)
Definition slashed (v : value) : str :=
  match v with VStr s => s | VTuple l => join (L "/") l end.

(** Is this the name of a text that may contain wildcards? *)
Definition is_desc (name : str) : bool := str_eqb name ITEM_DESCRIPTION.
Definition is_text (E : env) (name : str) : bool :=
  str_eqb name (ELEMENT_NAME (e_ver E)) || is_desc name.

(** One substitution of a wildcard, skipped if there is no value to put in. *)
Definition sub_opt (E : env) (pat : str) (repl : option str) (v : result value)
    : result value :=
  match repl with
  | None => v
  | Some r => do x <- v; do t <- re_sub E pat r (vtext E x); Ok (VStr t)
  end.

(** item.py:320-353 value_replace_wildcards *)
Definition replace_wildcards (E : env) (ps : props) (name : str) (v : option value)
    (profiles : option pset) : result (option value) :=
  match v with
  | None => Ok None
  | Some x =>
      if negb (truthy x) then Ok (Some x) else
      let r0 :=
        if is_desc name
        then sub_opt E (L "_EN_")
               (option_map (vtext E) (get_raw ps (ELEMENT_NAME (e_ver E)) profiles)) (Ok x)
        else Ok x in
      let r1 :=
        if is_text E name then
          let a := sub_opt E (L "_RST_")
                     (option_map slashed (get_raw ps RESOURCE_SUB_TYPE profiles)) r0 in
          let b := sub_opt E (L "_VQ_")
                     (option_map (vtext E) (get_raw ps VIRTUAL_QUANTITY profiles)) a in
          sub_opt E (L "_CONN_")
            (option_map (vtext E) (get_raw ps CONNECTION profiles)) b
        else r0 in
      do y <- r1; Ok (Some y)
  end.

(** item.py:642 the search for left-over wildcards *)
Definition has_wildcard (s : str) : bool :=
  contains (L "_RST_") s || contains (L "_VQ_") s || contains (L "_CONN_") s
  || contains (L "_EN_") s.

(** item.py:623-648 OVFItem.get_value *)
Definition get_value (E : env) (ps : props) (tag : str) (profiles : option pset)
    : result (option value) :=
  do v <- replace_wildcards E ps tag (get_raw ps tag profiles) profiles;
  match v with
  | Some x => if is_text E tag && has_wildcard (vtext E x) then Err EOVFItemData
              else Ok v
  | None => Ok None
  end.

(** item.py:280-318 value_add_wildcards.  The first argument of [re.sub] is the
    value of the other property. *)
Definition sub_value (E : env) (ps : props) (tag : str) (text : value -> str)
    (mark : str) (profiles : pset) (v : value) : result value :=
  do o <- get_value E ps tag (Some profiles);
  match o with
  | None => Ok v
  | Some x => do t <- re_sub E (text x) mark (vtext E v); Ok (VStr t)
  end.
Definition add_wildcards (E : env) (ps : props) (name : str) (v : value)
    (profiles : pset) : result value :=
  do v0 <- (if is_desc name
            then sub_value E ps (ELEMENT_NAME (e_ver E)) (vtext E) (L "_EN_") profiles v
            else Ok v);
  if is_text E name then
    do v1 <- sub_value E ps VIRTUAL_QUANTITY (vtext E) (L "_VQ_") profiles v0;
    do v2 <- sub_value E ps RESOURCE_SUB_TYPE slashed (L "_RST_") profiles v1;
    sub_value E ps CONNECTION (vtext E) (L "_CONN_") profiles v2
  else Ok v0.

(** ** Validation *)

(** item.py:682-697, one property *)
Fixpoint validate_sets (so_far : pset) (d : vdict) : result vdict :=
  match d with
  | [] => Ok []
  | (v, s) :: d' =>
      let s' := if pmem None s && (1 <? length s) then [None] else s in
      if negb (is_nil (pinter so_far s')) then Err ERuntimeError
      else do r <- validate_sets (punion so_far s') d'; Ok ((v, s') :: r)
  end.
Fixpoint validate_props (ps : props) : result props :=
  match ps with
  | [] => Ok []
  | (n, d) :: ps' =>
      do d' <- validate_sets [] d; do r <- validate_props ps'; Ok ((n, d') :: r)
  end.

(** item.py:675-681: at most one value *)
Definition single_valued (ps : props) (name : str) : bool :=
  match prget name ps with Some (_ :: _ :: _) => false | _ => true end.

(** item.py:664-697 OVFItem.validate *)
Definition validate (E : env) (i : item) : result item :=
  if single_valued (i_props i) (INSTANCE_ID (e_ver E))
     && single_valued (i_props i) RESOURCE_TYPE
  then do ps <- validate_props (i_props i); Ok (with_props ps i)
  else Err ERuntimeError.

(** ** Setting properties *)

(** What a caller passes as a value. *)
Inductive inval : Type :=
| INone
| IStr (s : str)
| ISeq (l : list str).         (* a list or tuple *)

(** item.py:446-459, conversion of the value *)
Definition to_value (E : env) (name : str) (x : inval) : value :=
  if str_eqb name RESOURCE_SUB_TYPE then
    match x with
    | INone => VTuple []
    | IStr [] => VTuple []
    | IStr s => VTuple (split_on " "%char s)
    | ISeq l => VTuple l
    end
  else
    match x with
    | INone => VStr (L "None")
    | IStr s => VStr s
    | ISeq l => VStr (e_seq_repr E l)
    end.

(** item.py:389-418, the loop over the known values; the state is the current
    dictionary and the flag [modified] *)
Fixpoint existing_loop (overwrite : bool) (v : value) (profiles : pset)
    (snapshot cur : vdict) (m : bool) : result (vdict * bool) :=
  match snapshot with
  | [] => Ok (cur, m)
  | (known, s) :: rest =>
      if negb overwrite && negb (is_nil (pinter s profiles)) then Err EOVFItemData
      else
        let new := if negb (value_eqb known v) then pdiff s profiles
                   else if pmem None s then s
                   else punion s profiles in
        if pset_eqb new s then existing_loop overwrite v profiles rest cur m
        else if is_nil new
             then existing_loop overwrite v profiles rest (vdel known cur) true
             else existing_loop overwrite v profiles rest (vset known new cur) true
  end.

(** item.py:374-427 _set_existing_property *)
Definition set_existing (overwrite : bool) (name : str) (v : value) (profiles : pset)
    (d : vdict) (i : item) : result item :=
  do dm <- existing_loop overwrite v profiles d d (i_modified i);
  let (d1, m1) := (dm : vdict * bool) in
  if truthy v && negb (dmem value_eqb v d1) then
    Ok (with_modified true (with_props (prset name (vset v profiles d1) (i_props i)) i))
  else if is_nil d1 then
    Ok (with_modified true (with_props (prdel name (i_props i)) i))
  else Ok (with_modified m1 (with_props (prset name d1 (i_props i)) i)).

(** item.py:355-372 _set_new_property *)
Definition set_new (name : str) (v : value) (profiles : pset) (i : item) : item :=
  if truthy v then
    with_modified true
      (with_props (prset name [(v, if pmem None profiles then [None] else profiles)]
                     (i_props i)) i)
  else i.

(** item.py:429-482 OVFItem.set_property; [profiles = []] is "not specified" *)
Definition set_property (E : env) (i : item) (name : str) (x : inval)
    (profiles : list profile) (overwrite : bool) : result item :=
  let v0 := to_value E name x in
  let i := if str_eqb name RESOURCE_TYPE
           then with_ns (namespace_for_resource_type (e_ver E) (vtext E v0)) i else i in
  let profs := pset_of (match profiles with
                        | [] => match all_profiles (i_props i) name with
                                | Some s => s | None => [None] end
                        | _ => profiles
                        end) in
  do v <- add_wildcards E (i_props i) name v0 profs;
  do i' <- (match prget name (i_props i) with
            | None => Ok (set_new name v profs i)
            | Some d => set_existing overwrite name v profs d i
            end);
  if i_modified i' then validate E i' else Ok i'.

(** Shortest form of a stored value as an argument. *)
Definition as_arg (v : value) : inval :=
  match v with VStr s => IStr s | VTuple l => ISeq l end.

(** ** Reading XML *)

(** item.py:234-252: the first child with a given bare tag is moved to the end *)
Definition has_bare_tag (t : str) (e : elem) : bool := str_eqb (strip_ns (etag e)) t.
Fixpoint take_first (t : str) (l : list elem) : option (elem * list elem) :=
  match l with
  | [] => None
  | c :: l' => if has_bare_tag t c then Some (c, l')
               else match take_first t l' with
                    | Some (x, r) => Some (x, c :: r) | None => None end
  end.
Definition move_to_end (t : str) (l : list elem) : list elem :=
  match take_first t l with Some (c, r) => r ++ [c] | None => l end.
(** Both candidates are chosen before anything is moved; as the two tags differ,
    choosing the second one after the first move gives the same element. *)
Definition reading_order (v : version) (l : list elem) : list elem :=
  move_to_end ITEM_DESCRIPTION (move_to_end (ELEMENT_NAME v) l).

(** item.py:93-94 magic strings *)
Definition ATTRIB_KEY_SUFFIX : str := L " {Item attribute}".
Definition ELEMENT_KEY_SUFFIX : str := L " {custom element}".

Fixpoint fold_result {A B} (f : B -> A -> result B) (l : list A) (b : B) : result B :=
  match l with
  | [] => Ok b
  | x :: l' => do b' <- f b x; fold_result f l' b'
  end.

(** item.py:254-273, one child *)
Definition add_child_property (E : env) (profiles : list profile) (i : item) (c : elem)
    : result item :=
  let tag := strip_ns (etag c) in
  if mem_str tag (ITEM_CHILDREN (e_ver E)) then
    do i1 <- set_property E i tag (match etext c with Some t => IStr t | None => INone end)
               profiles false;
    fold_result (fun i kv => set_property E i (tag ++ L "_attrib_" ++ fst kv)
                               (IStr (snd kv)) profiles false)
      (eattrib c) i1
  else
    set_property E i (strip (e_tostring E c) ++ ELEMENT_KEY_SUFFIX)
      (IStr (e_tostring E c)) profiles false.

(** item.py:207-278 OVFItem.add_item *)
Definition add_item (E : env) (i : item) (x : elem) : result item :=
  match namespace_for_item_tag (e_ver E) (etag x) with
  | None => Err EValueUnsupported
  | Some ns =>
      let i := with_ns ns i in
      let profiles := map Some (match get_attr x (ITEM_CONFIG (e_ver E)) with
                                | Some c => words c | None => [] end) in
      do i1 <- fold_result (fun i kv =>
                 if str_eqb (fst kv) (ITEM_CONFIG (e_ver E)) then Ok i
                 else set_property E i (fst kv ++ ATTRIB_KEY_SUFFIX) (IStr (snd kv))
                        profiles false) (eattrib x) i;
      do i2 <- fold_result (add_child_property E profiles)
                 (reading_order (e_ver E) (echildren x)) i1;
      validate E (with_modified true i2)
  end.

(** item.py:96-113 OVFItem.__init__ without an element *)
Definition new_ovfitem (E : env) : item := mkItem [] (RASD (e_ver E)) false None.

(** ** Profiles *)

(** item.py:699-715 OVFItem.has_profile *)
Definition has_profile (E : env) (i : item) (p : profile) : bool :=
  match all_profiles (i_props i) (INSTANCE_ID (e_ver E)) with
  | None => false
  | Some s =>
      if pmem p s then true
      else pmem None s &&
           match p with Some x => mem_str x (config_of E i) | None => false end
  end.

(** item.py:514-520: the value that a new profile gets *)
Fixpoint inherited (d all : vdict) : option value :=
  match d with
  | [] => None
  | (v, s) :: d' => if pmem None s || (length all =? 1) then Some v else inherited d' all
  end.

(** item.py:507-525, one property.  [from] is the source item, [None] the item
    itself. *)
Definition add_profile_step (E : env) (from : option props) (p : profile) (i : item)
    (name : str) : result item :=
  match prget name (match from with Some ps => ps | None => i_props i end) with
  | None => Err EKeyError
  | Some [] => Ok i
  | Some d => match inherited d d with
              | Some v => set_property E i name (as_arg v) [p] true
              | None => Err ERuntimeError
              end
  end.

(** item.py:484-528 OVFItem.add_profile *)
Definition add_profile (E : env) (i : item) (p : profile) (from : option item)
    : result item :=
  if has_profile E i p then Ok i
  else
    let src := match from with Some f => i_props f | None => i_props i end in
    match prget (INSTANCE_ID (e_ver E)) src with
    | None => Err EKeyError
    | Some _ =>
        do i1 <- fold_result (add_profile_step E (option_map i_props from) p)
                   (map fst src) i;
        validate E (with_modified true i1)
    end.

(** item.py:548-568, one property; [cur] is the dictionary being edited *)
Fixpoint remove_loop (cfg : list str) (split : bool) (p : profile)
    (snapshot cur : vdict) : vdict :=
  match snapshot with
  | [] => cur
  | (v, s) :: rest =>
      let s1 := pdiff s [p] in
      let s2 :=
        if pmem None s1 && split then
          let all := pdiff (punion s1 (map Some cfg)) [None; p] in
          fold_left (fun a vs => if value_eqb (fst vs) v then a else pdiff a (snd vs))
            cur all
        else s1 in
      remove_loop cfg split p rest (if is_nil s2 then vdel v cur else vset v s2 cur)
  end.

(** item.py:530-570 OVFItem.remove_profile *)
Definition remove_profile (E : env) (i : item) (p : profile) (split_default : bool)
    : result item :=
  if has_profile E i p then
    let ps := map (fun nd : str * vdict =>
                (fst nd, remove_loop (config_of E i) split_default p (snd nd) (snd nd)))
                (i_props i) in
    validate E (with_modified true (with_props ps i))
  else Ok i.

(** item.py:50-73 list_union *)
Definition list_union (ls : list (list str)) : list str :=
  fold_left (fun r l => r ++ filter (fun x => negb (mem_str x r)) l) ls [].

(** item.py:650-662 OVFItem.get_all_values, for ResourceSubType and for the rest *)
Definition get_all_subtypes (ps : props) : list str :=
  match prget RESOURCE_SUB_TYPE ps with
  | None => []
  | Some d => list_union (map (fun vs => match fst vs with
                                         | VTuple l => l
                                         | VStr s => map (fun c => [c]) s end) d)
  end.
Definition get_all_values (ps : props) (tag : str) : list value :=
  match prget tag ps with None => [] | Some d => map fst d end.

(** ** Writing XML *)

(** item.py:729-743, one existing set against the new one *)
Fixpoint repartition (new : pset) (set_list : list pset) : list pset * pset :=
  match set_list with
  | [] => ([], new)
  | s :: rest =>
      if pset_eqb new s || is_nil (pinter new s) then
        let (r, n) := repartition new rest in (s :: r, n)
      else
        let (r, n) := repartition (pdiff new s) rest in
        (pdiff s new :: pinter s new :: r, n)
  end.

(** item.py:744-746: [set(...)] and removal of empty sets *)
Definition add_distinct (l : list pset) (s : pset) : list pset :=
  if is_nil s || existsb (pset_eqb s) l then l else l ++ [s].
Definition partition_step (set_list : list pset) (new : pset) : list pset :=
  let (r, n) := repartition new set_list in fold_left add_distinct (r ++ [n]) [].

(** item.py:723-746, over all values of all properties *)
Definition partition (ps : props) : list pset :=
  fold_left partition_step (flat_map (fun nd => map snd (snd nd)) ps) [].

(** item.py:751-755; profile names of a set without the default *)
Definition names_of (s : pset) : list str :=
  flat_map (fun p => match p with Some x => [x] | None => [] end) s.
Definition set_string (s : pset) : result str :=
  if pmem None s then Ok []
  else do l <- natural_sort (names_of s); Ok (join (L " ") l).

(** item.py:717-759 get_nonintersecting_set_list *)
Definition get_nonintersecting_set_list (ps : props) : result (list str) :=
  do l <- rmap set_string (partition ps); natural_sort l.

(** [sorted] of distinct strings *)
Fixpoint insert_str (x : str) (l : list str) : list str :=
  match l with
  | [] => [x]
  | y :: l' => if str_ltb y x then y :: insert_str x l' else x :: l
  end.
Definition sorted_strs (l : list str) : list str := fold_right insert_str [] l.

(** item.py:800-804: classification of property names *)
Definition re_attrib : re := RSeq (RGroup 1 (RStar RDot)) (RStr ATTRIB_KEY_SUFFIX).
Definition re_child_attrib : re :=
  RSeq (RGroup 1 (RStar RDot)) (RSeq (RStr (L "_attrib_")) (RGroup 2 (RStar RDot))).
Definition re_custom : re := RSeq (RGroup 1 (RStar RDot)) (RStr ELEMENT_KEY_SUFFIX).

Definition the_group (n : nat) (g : groups) : str :=
  match group n g with Some w => w | None => [] end.

(** item.py:788-819, one property of one generated element *)
Definition emit_property (E : env) (ns : str) (ordering : list str) (name : str)
    (v : value) (x : elem) : result elem :=
  let val := if str_eqb name RESOURCE_SUB_TYPE
             then match v with
                  | VTuple l => join (L " ") l
                  | VStr s => join (L " ") (map (fun c => [c]) s) end
             else vtext E v in
  match re_match re_attrib name with
  | Some g => Ok (set_attr (the_group 1 g) val x)
  | None =>
      match re_match re_child_attrib name with
      | Some g =>
          do pc <- set_or_make_child x (the_group 1 g) None [] ordering;
          Ok (set_children (update_first (child_match (the_group 1 g) [])
                              (set_attr (the_group 2 g) val) (echildren (fst pc)))
                (fst pc))
      | None =>
          match re_match re_custom name with
          | Some _ =>
              do c <- e_fromstring E val; Ok (set_children (echildren x ++ [c]) x)
          | None =>
              do pc <- set_or_make_child x (ns ++ name) (Some val) [] ordering;
              Ok (fst pc)
          end
      end
  end.

(** item.py:774-821, one generated element *)
Definition generate_one (E : env) (i : item) (tag : str) (ss : str) : result elem :=
  let v := e_ver E in
  let ordering := map (fun c => i_ns i ++ c) (ITEM_CHILDREN v) in
  let x := Elem tag (if is_nil ss then [] else [(ITEM_CONFIG v, ss)]) None None [] in
  let final := if is_nil ss then [None] else pset_of (map Some (words ss)) in
  fold_result (fun x name =>
      do o <- get_value E (i_props i) name (Some final);
      match o with
      | None => Ok x
      | Some w => if truthy w then emit_property E (i_ns i) ordering name w x else Ok x
      end) (sorted_strs (map fst (i_props i))) x.

(** item.py:761-823 OVFItem.generate_items *)
Definition generate_items (E : env) (i : item) : result (list elem) :=
  do l <- get_nonintersecting_set_list (i_props i);
  do tag <- item_tag_for_namespace (e_ver E) (i_ns i);
  rmap (generate_one E i tag) l.
