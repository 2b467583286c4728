(** Independent vocabulary for checksums and file references. *)
From Verif Require Import PyBase FileRefModel.

(** A hash can be computed piece by piece. *)
Definition streaming (H : hasher) : Prop :=
  (forall s, hupdate H s [] = s) /\
  (forall s a b, hupdate H s (a ++ b) = hupdate H (hupdate H s a) b).
Definition digest_of (H : hasher) (content : str) : str := hdigest H (hupdate H (hinit H) content).

(** Which operations look at the size and at the checksum. *)
Definition looks_at_size (o : fop) : Prop := o = OSize \/ o = ORefresh.
Definition looks_at_checksum (o : fop) : Prop := o = OChecksum \/ o = ORefresh.

(** [first_seen looks h c]: [c] is the content of the file when an operation first
    looked at it successfully. *)
Definition first_seen (looks : fop -> Prop) (h : history) (c : str) : Prop :=
  exists a o b, h = a ++ (Some c, o) :: b /\ looks o /\
    forall c' o', In (Some c', o') a -> ~ looks o'.
Definition never_seen (looks : fop -> Prop) (h : history) : Prop :=
  forall c o, In (Some c, o) h -> ~ looks o.

(** A refresh has taken place: one with the file present, or one that had a known
    size and checksum to compare with. *)
Definition refreshed (has_algorithm : bool) (h : history) : Prop :=
  exists a now b, h = a ++ (now, ORefresh) :: b /\
    (now <> None \/
     (exists c, first_seen looks_at_size a c) /\
     (has_algorithm = true -> exists c, first_seen looks_at_checksum a c)).

(** The content a refresh compares with: what was first seen, or, if nothing was, what
    is there now. *)
Definition baseline (looks : fop -> Prop) (h : history) (now c : str) : Prop :=
  first_seen looks h c \/ (never_seen looks h /\ c = now).

(** The size and checksum as they are now. *)
Definition size_now (now : file_now) : fanswer :=
  match now with Some c => ASize (Z.of_nat (length c)) | None => AError EEnvironment end.
Definition checksum_now (digest : str -> str) (now : file_now) : fanswer :=
  match now with Some c => AChecksum (Some (digest c)) | None => AError EEnvironment end.
