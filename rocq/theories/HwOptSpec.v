(** Independent vocabulary for the quantity options of edit-hardware. *)
From Verif Require Import PyBase ValidationModel ValidationSpec PlatformModel PlatformSpec HwOptModel.
Local Open Scope Z_scope.

Definition blanks (s : str) : Prop := forall c, In c s -> is_space c = true.
Definition one_of (l : list str) (s : str) : Prop := In s l.

(** What may follow the number: nothing or one of the usual ways to write bytes,
    mebibytes or gibibytes. *)
Inductive mem_unit : Type := Unspecified | Mega | Giga.
Inductive unit_text : mem_unit -> str -> Prop :=
| unit_none i b : one_of [L ""; L "i"] i -> one_of [L ""; L "b"; L "B"] b -> unit_text Unspecified (i ++ b)
| unit_mega m i b : one_of [L "m"; L "M"] m -> one_of [L ""; L "i"] i -> one_of [L ""; L "b"; L "B"] b ->
    unit_text Mega (m ++ i ++ b)
| unit_giga g i b : one_of [L "g"; L "G"] g -> one_of [L ""; L "i"] i -> one_of [L ""; L "b"; L "B"] b ->
    unit_text Giga (g ++ i ++ b).

(** A number of MiB: GiB are 1024 MiB; without unit up to 64 is in GiB. *)
Definition in_mib (n : Z) (u : mem_unit) : Z :=
  match u with
  | Mega => n
  | Giga => n * 1024
  | Unspecified => if n <=? 64 then n * 1024 else n
  end.

(** [memory_text s v]: [s] is a positive number with an optional unit, blanks
    allowed around both, and means [v] MiB. *)
Definition memory_text (s : str) (v : Z) : Prop :=
  exists w1 d w2 t w3 u,
    s = w1 ++ d ++ w2 ++ t ++ w3 /\ blanks w1 /\ blanks w2 /\ blanks w3 /\
    all_digits d /\ d <> [] /\ unit_text u t /\
    0 < Z.of_N (digits_val d) /\ v = in_mib (Z.of_N (digits_val d)) u.

(** The quantity an option text stands for. *)
Definition wanted (h : hardware) (text : str) (v : Z) : Prop :=
  match h with
  | HMemory => memory_text text v
  | HCpus => int_text text v /\ 1 <= v
  | HNics | HSerials => int_text text v /\ 0 <= v
  end.

(** Acceptable to the platform without asking. *)
Definition supported (p : platform) (h : hardware) (v : Z) : Prop :=
  ~ too_low p h v /\ ~ too_high p h v /\ ~ bad_cpu_count p h v.

Definition stored (o : hw_options) (h : hardware) : option Z :=
  match h with HCpus => o_cpus o | HMemory => o_memory o | HNics => o_nics o | HSerials => o_serials o end.

(** A history of assignments, oldest first: option, text and the answer the user
    gives if asked. *)
Definition assignment := (hardware * str * bool)%type.
Fixpoint after_options (p : platform) (o : hw_options) (l : list assignment) : hw_options :=
  match l with
  | [] => o
  | (h, text, answer) :: l' => after_options p (snd (set_option p o h text answer)) l'
  end.

(** The value was given before for this option. *)
Definition tried (l : list assignment) (h : hardware) (v : Z) : Prop :=
  exists text answer, In (h, text, answer) l /\ wanted h text v.
