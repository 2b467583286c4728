(** Python dictionaries as association lists in insertion order
    (the iteration order of dict since Python 3.7). *)
From Verif Require Import PyBase.

Section Dict.
  Context {K V : Type} (eqb : K -> K -> bool).

  (** [d.get(k)] *)
  Fixpoint dget (k : K) (d : list (K * V)) : option V :=
    match d with
    | [] => None
    | (k', v) :: d' => if eqb k k' then Some v else dget k d'
    end.

  (** [k in d] *)
  Definition dmem (k : K) (d : list (K * V)) : bool :=
    match dget k d with Some _ => true | None => false end.

  (** [d[k] = v]: replaces in place, otherwise appends *)
  Fixpoint dset (k : K) (v : V) (d : list (K * V)) : list (K * V) :=
    match d with
    | [] => [(k, v)]
    | (k', v') :: d' => if eqb k k' then (k', v) :: d' else (k', v') :: dset k v d'
    end.

  (** [del d[k]] (the caller checks that the key is there) *)
  Fixpoint ddel (k : K) (d : list (K * V)) : list (K * V) :=
    match d with
    | [] => []
    | (k', v') :: d' => if eqb k k' then d' else (k', v') :: ddel k d'
    end.
End Dict.
