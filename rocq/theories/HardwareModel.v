(** The hardware of a virtual machine: COT/vm_description/ovf/hardware.py, and the
    part of COT/vm_description/ovf/ovf.py that deletes a configuration profile.

    References to OVFItem objects are modelled by the keys of [item_dict]; an
    operation that fails returns the exception only. *)
From Verif Require Import PyBase PyDict ValidationModel XmlModel NamesModel ItemModel.

(** hardware.py:64 [self.item_dict], by instance ID *)
Definition hw := list (str * item).
Definition hget (k : str) (h : hw) : option item := dget str_eqb k h.
Definition hset (k : str) (i : item) (h : hw) : hw := dset str_eqb k i h.
Definition hdel (k : str) (h : hw) : hw := ddel str_eqb k h.
(** [self.item_dict[k]] *)
Definition hitem (k : str) (h : hw) : result item :=
  match hget k h with Some i => Ok i | None => Err EKeyError end.

(** hardware.py:67-94, one child of the hardware section.  An empty InstanceID
    element has the text None (never the empty string), which becomes a key of the
    dictionary on which every later [natural_sort] raises TypeError; here this error
    comes at once. *)
Definition read_item (E : env) (h : hw) (x : elem) : result hw :=
  match namespace_for_item_tag (e_ver E) (etag x) with
  | None => Ok h
  | Some ns =>
      match filter (fun c => str_eqb (etag c) (ns ++ INSTANCE_ID (e_ver E))) (echildren x) with
      | [] => Err EAttributeError
      | c :: _ =>
          match etext c with
          | None | Some [] => Err ETypeError
          | Some k =>
              let names := match get_attr x (ITEM_CONFIG (e_ver E)) with
                           | Some s => words s | None => [] end in
              if negb (forallb (fun p => mem_str p (e_profiles E)) names)
              then Err EOVFHardwareData
              else match hget k h with
                   | None => do i <- add_item E (new_ovfitem E) x; Ok (hset k i h)
                   | Some i =>
                       match add_item E i x with
                       | Ok i' => Ok (hset k i' h)
                       | Err EOVFItemData => Err EOVFHardwareData
                       | Err e => Err e
                       end
                   end
          end
      end
  end.

(** hardware.py:54-100 OVFHardware.__init__; [section] is the hardware section *)
Definition read_hardware (E : env) (section : elem) : result hw :=
  do h <- fold_result (read_item E) (echildren section) [];
  Ok (map (fun ki => (fst ki, with_modified false (snd ki))) h).

(** hardware.py:110-111 the set of item tags *)
Definition item_tags (v : version) : list str :=
  match v with
  | V2 => [ITEM v; STORAGE_ITEM v; ETHERNET_PORT_ITEM v]
  | _ => [ITEM v]
  end.
Definition is_item_elem (v : version) (x : elem) : bool := mem_str (etag x) (item_tags v).

(** hardware.py:102-144 OVFHardware.update_xml; returns the new section *)
Definition update_xml (E : env) (h : hw) (section : elem) : result elem :=
  let v := e_ver E in
  if (length h =? length (find_all_children section (item_tags v) []))%nat
     && negb (existsb (fun ki : str * item => i_modified (snd ki)) h)
  then Ok section
  else
    let cleared := set_children (filter (fun c => negb (is_item_elem v c)) (echildren section))
                     section in
    do keys <- natural_sort (map fst h);
    fold_result (fun sec k =>
        do i <- hitem k h;
        do xs <- generate_items E i;
        Ok (fold_left (fun sec x => add_child sec x [INFO v; SYSTEM v; ITEM v]) xs sec))
      keys cleared.

(** hardware.py:156-157 the search loop of find_unused_instance_id *)
Fixpoint unused_from (fuel : nat) (h : hw) (n : Z) : result str :=
  match fuel with
  | O => Err EOutOfFuel
  | S f => if dmem str_eqb (zdec n) h then unused_from f h (n + 1)%Z else Ok (zdec n)
  end.
(** hardware.py:146-159 find_unused_instance_id, for an integer *)
Definition find_unused_instance_id (h : hw) (start : Z) : result str :=
  unused_from (S (length h)) h start.

(** [RES_MAP[rt]] *)
Definition res_map (rt : str) : result str :=
  match dget str_eqb rt RES_MAP with Some v => Ok v | None => Err EKeyError end.

(** hardware.py:161-187 OVFHardware.new_item; [P = []] is no profile list *)
Definition new_item (E : env) (h : hw) (rt : str) (P : list profile) : result (str * hw) :=
  do k <- find_unused_instance_id h 1;
  do i1 <- set_property E (new_ovfitem E) (INSTANCE_ID (e_ver E)) (IStr k) P true;
  do v <- res_map rt;
  do i2 <- set_property E i1 RESOURCE_TYPE (IStr v) P true;
  do i3 <- set_property E i2 (ELEMENT_NAME (e_ver E)) (IStr rt) P true;
  Ok (k, hset k (with_modified true i3) h).

(** hardware.py:189-198 OVFHardware.delete_item, for the item with key [k] *)
Definition delete_item (E : env) (h : hw) (k : str) : result hw :=
  do i <- hitem k h;
  do o <- get_value E (i_props i) (INSTANCE_ID (e_ver E)) None;
  match o with
  | Some (VStr s) => if str_eqb s k then Ok (hdel k h)
                     else do _ <- hitem s h; Ok h
  | _ => Err EKeyError
  end.

(** hardware.py:200-227 OVFHardware.clone_item, for the parent with key [k] *)
Definition clone_item (E : env) (h : hw) (k : str) (P : list profile) : result (str * hw) :=
  do parent <- hitem k h;
  do o <- get_value E (i_props parent) (INSTANCE_ID (e_ver E)) None;
  match o with
  | Some (VStr s) =>
      match py_int s with
      | None => Err EValueError
      | Some start =>
          do id <- find_unused_instance_id h start;
          let copy := mkItem (i_props parent) (i_ns parent) (i_modified parent)
                        (Some (config_of E parent)) in
          do i1 <- fold_result (fun i p =>
                     if has_profile E i (Some p) && negb (pmem (Some p) P)
                     then remove_profile E i (Some p) true else Ok i) (e_profiles E) copy;
          do i2 <- set_property E i1 (INSTANCE_ID (e_ver E)) (IStr id) P true;
          Ok (id, hset id (with_modified true i2) h)
      end
  | _ => Err ETypeError
  end.

(** [a != b] for values that may be missing *)
Definition opt_value_eqb (a b : option value) : bool :=
  match a, b with
  | None, None => true
  | Some x, Some y => value_eqb x y
  | _, _ => false
  end.

(** hardware.py:229-251 OVFHardware.item_match.  [rt = None] is no resource type,
    [P = []] no profiles. *)
Fixpoint props_match (E : env) (i : item) (l : list (str * option value)) : result bool :=
  match l with
  | [] => Ok true
  | (n, v) :: l' => do o <- get_value E (i_props i) n None;
                    if opt_value_eqb o v then props_match E i l' else Ok false
  end.
Definition type_match (E : env) (i : item) (rt : option str) : result bool :=
  match rt with
  | None => Ok true
  | Some t => do v <- res_map t;
              do o <- get_value E (i_props i) RESOURCE_TYPE None;
              Ok (opt_value_eqb (Some (VStr v)) o)
  end.
Definition item_match (E : env) (i : item) (rt : option str) (l : list (str * option value))
    (P : list profile) : result bool :=
  do t <- type_match E i rt;
  if negb t then Ok false
  else if forallb (has_profile E i) P then props_match E i l else Ok false.

(** hardware.py:253-276 OVFHardware.find_all_items; returns keys *)
Fixpoint rfilter {A} (f : A -> result bool) (l : list A) : result (list A) :=
  match l with
  | [] => Ok []
  | x :: l' => do b <- f x; do r <- rfilter f l'; Ok (if b : bool then x :: r else r)
  end.
Definition find_all_items (E : env) (h : hw) (rt : option str)
    (l : list (str * option value)) (P : list profile) : result (list str) :=
  do keys <- natural_sort (map fst h);
  rfilter (fun k => do i <- hitem k h; item_match E i rt l P) keys.

(** hardware.py:278-300 OVFHardware.find_item *)
Definition find_item (E : env) (h : hw) (rt : option str) (l : list (str * option value))
    (p : profile) : result (option str) :=
  do ks <- find_all_items E h rt l [p];
  match ks with
  | [] => Ok None
  | [k] => Ok (Some k)
  | _ => Err ELookupError
  end.

(** hardware.py:333-335 and 474-476: all profiles, the default last *)
Definition all_or (E : env) (P : list profile) : list profile :=
  match P with [] => map Some (e_profiles E) ++ [None] | _ => P end.

(** Dictionaries from profiles to numbers. *)
Definition counts := list (profile * Z).
Definition cget (c : counts) (p : profile) : Z :=
  match dget profile_eqb p c with Some n => n | None => 0%Z end.
Definition cset (c : counts) (p : profile) (n : Z) : counts := dset profile_eqb p n c.
Definition cincr (c : counts) (p : profile) : counts := cset c p (cget c p + 1)%Z.
(** [dict.fromkeys(l, 0)] *)
Definition zeros (l : list profile) : counts := fold_left (fun c p => cset c p 0%Z) l [].

(** hardware.py:317-345 get_item_count_per_profile *)
Definition count_item (E : env) (P : list profile) (c : counts) (i : item) : counts :=
  fold_left (fun c p => if has_profile E i p then cincr c p else c) P c.
Definition item_counts (E : env) (h : hw) (rt : option str) (P : list profile) : result counts :=
  let P := all_or E P in
  do ks <- find_all_items E h rt [] [];
  fold_result (fun c k => do i <- hitem k h; Ok (count_item E P c i)) ks (zeros P).
(** hardware.py:302-315 get_item_count *)
Definition get_item_count (E : env) (h : hw) (rt : option str) (p : profile) : result Z :=
  do c <- item_counts E h rt [p]; Ok (cget c p).

(** hardware.py:375-386, one profile of one item; the state is the item, count_dict
    and items_seen *)
Definition update_step (E : env) (count : Z) (s : item * counts * counts) (p : profile)
    : result (item * counts * counts) :=
  let '(i, cd, seen) := s in
  if has_profile E i p then
    if (count <=? cget seen p)%Z
    then do i' <- remove_profile E i p true; Ok (i', cd, seen)
    else Ok (i, cd, cincr seen p)
  else if (cget cd p <? count)%Z
       then do i' <- add_profile E i p None; Ok (i', cincr cd p, cincr seen p)
       else Ok s.
(** hardware.py:373-386, one item *)
Definition update_item (E : env) (count : Z) (P : list profile)
    (s : hw * counts * counts) (k : str) : result (hw * counts * counts) :=
  let '(h, cd, seen) := s in
  do i <- hitem k h;
  do r <- fold_result (update_step E count) P (i, cd, seen);
  let '(i', cd', seen') := r in Ok (hset k i' h, cd', seen').

(** hardware.py:389-393 how many new items are needed *)
Definition items_to_add (count : Z) (P : list profile) (seen : counts) : Z :=
  fold_left (fun m p => Z.max m (count - cget seen p)) P 0%Z.

(** hardware.py:347-395 _update_existing_item_profiles *)
Definition update_existing (E : env) (h : hw) (rt : str) (count : Z) (P : list profile)
    : result (hw * counts * Z * option str) :=
  do cd <- item_counts E h (Some rt) P;
  do ks <- find_all_items E h (Some rt) [] [];
  do r <- fold_result (update_item E count P) ks (h, cd, zeros P);
  let '(h', cd', seen) := r in
  Ok (h', cd', items_to_add count P seen, last (map Some ks) None).

(** hardware.py:397-454 _update_cloned_item; [nic] is platform.guess_nic_name *)
Definition update_cloned (E : env) (nic : Z -> str) (i : item) (P : list profile) (n : Z)
    : result item :=
  do rt <- get_value E (i_props i) RESOURCE_TYPE None;
  if match prget ADDRESS (i_props i) with Some (_ :: _) => true | _ => false end
  then Err ENotImplemented
  else
    do i1 <- (match get_all_values (i_props i) ADDRESS_ON_PARENT with
              | [] => Ok i
              | [VStr a] => match py_int a with
                            | Some z => set_property E i ADDRESS_ON_PARENT (IStr (zdec (z + 1))) P true
                            | None => Err ENotImplemented
                            end
              | _ => Err ENotImplemented
              end);
    match rt with
    | Some (VStr t) => if str_eqb t (L "10")
                       then set_property E i1 (ELEMENT_NAME (e_ver E)) (IStr (nic n)) P true
                       else Ok i1
    | _ => Ok i1
    end.

(** hardware.py:485-489: the profiles a new item is for *)
Definition wanting (count : Z) (P : list profile) (cd : counts) : list profile * counts :=
  fold_left (fun (s : list profile * counts) p =>
      if (cget (snd s) p <? count)%Z then (fst s ++ [p], cincr (snd s) p) else s) P ([], cd).

(** hardware.py:483-503 the loop that creates new items *)
Fixpoint add_items (E : env) (nic : Z -> str) (n : nat) (h : hw) (rt : str) (count : Z)
    (P : list profile) (cd : counts) (last_item : option str) : result hw :=
  match n with
  | O => Ok h
  | S n' =>
      let (Q, cd') := wanting count P cd in
      do kh <- (match last_item with
                | None => new_item E h rt Q
                | Some k => clone_item E h k Q
                end);
      let (k, h1) := (kh : str * hw) in
      do i <- hitem k h1;
      match Q with
      | [] => Err EIndexError
      | q :: _ =>
          do i' <- update_cloned E nic i Q (cget cd' q);
          add_items E nic n' (hset k i' h1) rt count P cd' (Some k)
      end
  end.

(** hardware.py:456-503 set_item_count_per_profile *)
Definition set_item_count (E : env) (nic : Z -> str) (h : hw) (rt : str) (count : Z)
    (P : list profile) : result hw :=
  let P := all_or E P in
  do r <- update_existing E h rt count P;
  let '(h1, cd, n, last_item) := r in
  add_items E nic (Z.to_nat n) h1 rt count P cd last_item.

(** hardware.py:505-536 set_value_for_all_items *)
Definition set_on_keys (E : env) (n : str) (x : inval) (P : list profile) (h : hw) (k : str)
    : result hw :=
  do i <- hitem k h; do i' <- set_property E i n x P true; Ok (hset k i' h).
Definition set_value_for_all_items (E : env) (h : hw) (rt n : str) (x : inval)
    (P : list profile) (create_new : bool) : result hw :=
  do ks <- find_all_items E h (Some rt) [] [];
  match ks with
  | [] => if create_new then
            do kh <- new_item E h rt P; set_on_keys E n x P (snd kh) (fst kh)
          else Ok h
  | _ => fold_result (set_on_keys E n x P) ks h
  end.

(** hardware.py:538-567 set_item_values_per_profile.  [P = None] is all profiles. *)
Definition set_profiles (E : env) (n : str) (x : inval) (P : list profile) (i : item)
    : result item :=
  fold_result (fun i p => if has_profile E i p then set_property E i n x [p] true else Ok i) P i.
Fixpoint set_values (E : env) (n : str) (vals : list inval) (default : inval)
    (P : list profile) (h : hw) (ks : list str) : result hw :=
  match ks with
  | [] => Ok h
  | k :: ks' =>
      do i <- hitem k h;
      do i' <- set_profiles E n (match vals with x :: _ => x | [] => default end) P i;
      set_values E n (tl vals) default P (hset k i' h) ks'
  end.
Definition set_item_values_per_profile (E : env) (h : hw) (rt n : str) (vals : list inval)
    (P : option (list profile)) (default : inval) : result hw :=
  let P := match P with None => map Some (e_profiles E) ++ [None] | Some l => l end in
  do ks <- find_all_items E h (Some rt) [] [];
  set_values E n vals default P h ks.

(** ovf.py:1581-1585, the hardware part of delete_configuration_profile *)
Definition drop_profile (E : env) (h : hw) (p : str) : result hw :=
  do ks <- find_all_items E h None [] [Some p];
  fold_result (fun h k => do i <- hitem k h; do i' <- remove_profile E i (Some p) false;
                          Ok (hset k i' h)) ks h.
