(** Independent vocabulary for the selection of helpers and disk formats. *)
From Verif Require Import PyBase SelectModel.

(** ** Helpers *)
Section Helpers.
Variables (System Version : Type).
Variable installed : System -> str -> bool.
Variable installable : System -> str -> bool.
Variable version : System -> str -> result Version.
Variable at_least : Version -> Version -> bool.
Variable install : System -> str -> result unit * System.

(** The helper's version satisfies the choice, or definitely does not. *)
Definition recent (s : System) (c : str * option Version) : Prop :=
  match snd c with
  | None => True
  | Some m => exists v, version s (fst c) = Ok v /\ at_least v m = true
  end.
Definition too_old (s : System) (c : str * option Version) : Prop :=
  exists m v, snd c = Some m /\ version s (fst c) = Ok v /\ at_least v m = false.

Definition usable (s : System) (c : str * option Version) : Prop :=
  installed s (fst c) = true /\ recent s c.
Definition unusable (s : System) (c : str * option Version) : Prop :=
  installed s (fst c) = false \/ too_old s c.

(** [install_until s l name s']: going through [l] in order, choices that cannot be
    installed are skipped, choices whose installed version is too old are left
    installed, and [name] is the first that is recent enough after installation. *)
Inductive install_until : System -> list (str * option Version) -> str -> System -> Prop :=
| iu_skip s c l name s' : installable s (fst c) = false -> install_until s l name s' ->
    install_until s (c :: l) name s'
| iu_old s c l s1 name s' : installable s (fst c) = true -> install s (fst c) = (Ok tt, s1) -> too_old s1 c ->
    install_until s1 l name s' -> install_until s (c :: l) name s'
| iu_found s c l s1 : installable s (fst c) = true -> install s (fst c) = (Ok tt, s1) -> recent s1 c ->
    install_until s (c :: l) (fst c) s1.
End Helpers.

(** ** Disk formats *)

(** The format named by the output of "qemu-img info": the word after the first
    "file format: ". *)
Definition reports (out format : str) : Prop :=
  exists a b, out = a ++ L "file format: " ++ format ++ b /\
    (forall c, In c format -> is_space c = false) /\
    (forall c t, b = c :: t -> is_space c = true) /\
    (forall a' t, out = a' ++ L "file format: " ++ t -> length a <= length a').

(** Whether the file is an ISO image: by isoinfo if that is installed, otherwise by
    the mark "CD001" at one of three places. *)
Definition is_iso (w : world) (path : str) (b : bool) : Prop :=
  match w_isoinfo w with
  | Some run => if b then exists out, run path = Ok out else run path = Err EHelperError
  | None =>
      b = true <-> exists p t, w_content w path = p ++ L "CD001" ++ t /\
        In (N.of_nat (length p)) [32769; 34817; 36865]%N
  end.

(** The remembered outputs are what the programs would still say. *)
Definition fresh (w : world) (c : caches) : Prop :=
  (forall path out, lookup path (c_qemu c) = Some out -> w_qemu w path = Ok out) /\
  (forall path out run, w_isoinfo w = Some run -> lookup path (c_iso c) = Some out -> run path = Ok out).

(** What a file is taken for, if it is (or is not) an ISO image and qemu-img names
    that format. *)
Definition taken_for (iso : bool) (f : str) : result disk_class :=
  if iso then Ok ISO
  else if str_eqb f (L "qcow2") then Ok QCOW2
  else if str_eqb f (L "raw") then Ok RAW
  else if str_eqb f (L "vmdk") then Ok VMDK
  else Err ENotImplemented.
