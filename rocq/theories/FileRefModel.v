(** Model of COT/data_validation.py:321-361 (file_checksum) and
    COT/file_reference.py:74-203 (FileReference, for files on disk: 206-231). *)
From Verif Require Import PyBase.
Local Open Scope Z_scope.

(** ** file_checksum *)

(** A hash object of hashlib: its state, [update] and [hexdigest]. *)
Record hasher : Type := mkhasher {
  hstate : Type;
  hinit : hstate;
  hupdate : hstate -> str -> hstate;
  hdigest : hstate -> str
}.

(** The loop of data_validation.py:351-356.  [read(blocksize)] returns the next
    bytes, at most [blocksize]; how many is left open ([reads] gives the lengths of
    the successive results; a file that is not at its end returns at least one). *)
Fixpoint hash_loop (H : hasher) (fuel : nat) (blocksize : nat) (reads : nat -> nat) (k : nat)
                   (content : str) (h : hstate H) : result str :=
  match fuel with
  | O => Err EOutOfFuel
  | S fuel' =>
      let n := Nat.min blocksize (Nat.max 1 (reads k)) in
      let buf := firstn n content in
      match buf with
      | [] => Ok (hdigest H h)
      | _ => hash_loop H fuel' blocksize reads (S k) (skipn n content) (hupdate H h buf)
      end
  end.

(** file_checksum, data_validation.py:321-361 *)
Definition file_checksum (algorithm : str -> option hasher) (checksum_type : str)
                         (reads : nat -> nat) (content : str) : result str :=
  match algorithm checksum_type with
  | None => Err ENotImplemented
  | Some H => hash_loop H (S (length content)) (N.to_nat 65536) reads 0 content (hinit H)
  end.

(** The supported algorithms, data_validation.py:331-340 *)
Definition algorithms (md5 sha1 sha256 : hasher) (checksum_type : str) : option hasher :=
  if str_eqb checksum_type (L "md5") then Some md5
  else if str_eqb checksum_type (L "sha1") then Some sha1
  else if str_eqb checksum_type (L "sha256") then Some sha256
  else None.

(** ** FileReference *)

Section References.
(** The digest of a content by the reference's algorithm. *)
Variable digest : str -> str.

(** What a reference remembers: whether it has a checksum algorithm, the cached
    checksum and size, and [force_refresh]. *)
Record fref : Type := mkfref {
  f_algorithm : bool;
  f_checksum : option str;
  f_size : option Z;
  f_force : bool
}.

(** The file at some moment: its content, or [None] if it does not exist. *)
Definition file_now := option str.

(** FileOnDisk.size, file_reference.py:221-226 *)
Definition get_size (now : file_now) (f : fref) : result Z * fref :=
  match f_size f, f_force f with
  | Some z, false => (Ok z, f)
  | _, _ =>
      match now with
      | None => (Err EEnvironment, f)
      | Some c =>
          let z := Z.of_nat (length c) in
          (Ok z, mkfref (f_algorithm f) (f_checksum f) (Some z) (f_force f))
      end
  end.

(** FileReference.checksum, file_reference.py:131-140 *)
Definition get_checksum (now : file_now) (f : fref) : result (option str) * fref :=
  if negb (f_algorithm f) then (Ok None, f) else
  match f_checksum f, f_force f with
  | Some d, false => (Ok (Some d), f)
  | _, _ =>
      match now with
      | None => (Err EEnvironment, f)
      | Some c =>
          let d := digest c in
          (Ok (Some d), mkfref (f_algorithm f) (Some d) (f_size f) (f_force f))
      end
  end.

(** FileReference.refresh, file_reference.py:171-203.  The file does not change
    while it runs. *)
Definition refresh (now : file_now) (f : fref) : result bool * fref :=
  match get_size now f with
  | (Err e, f1) => (Err e, f1)
  | (Ok exp_size, f1) =>
      match get_checksum now f1 with
      | (Err e, f2) => (Err e, f2)
      | (Ok exp_checksum, f2) =>
          let f3 := mkfref (f_algorithm f2) (f_checksum f2) (f_size f2) true in
          match now with
          | None => (Ok false, f3)
          | Some _ =>
              match get_size now f3 with
              | (Err e, f4) => (Err e, f4)
              | (Ok size, f4) =>
                  match get_checksum now f4 with
                  | (Err e, f5) => (Err e, f5)
                  | (Ok checksum, f5) =>
                      let changed :=
                        match exp_checksum with
                        | None => false
                        | Some d => match checksum with
                                    | Some d' => negb (str_eqb d' d) | None => true end
                        end in
                      (Ok ((size =? exp_size) && negb changed), f5)
                  end
              end
          end
      end
  end.

(** A new reference, file_reference.py:74-129.  The constructor also reads the
    checksum and the size if it is told what to expect; these are further
    operations ([OChecksum], [OSize]).  Log messages are not modelled. *)
Definition new_reference (has_algorithm : bool) (now : file_now) : result fref :=
  match now with
  | None => Err EEnvironment
  | Some _ => Ok (mkfref has_algorithm None None false)
  end.

(** The operations of a reference and what they answer. *)
Inductive fop : Type := OSize | OChecksum | ORefresh.
Inductive fanswer : Type :=
| ASize (z : Z) | AChecksum (d : option str) | ARefresh (b : bool) | AError (e : exn).

Definition do_op (now : file_now) (o : fop) (f : fref) : fanswer * fref :=
  match o with
  | OSize => match get_size now f with (Ok z, f') => (ASize z, f') | (Err e, f') => (AError e, f') end
  | OChecksum => match get_checksum now f with (Ok d, f') => (AChecksum d, f') | (Err e, f') => (AError e, f') end
  | ORefresh => match refresh now f with (Ok b, f') => (ARefresh b, f') | (Err e, f') => (AError e, f') end
  end.

(** A history: the file and the operation at each step, oldest first. *)
Definition history := list (file_now * fop).
Definition after (f : fref) (h : history) : fref :=
  fold_left (fun f e => snd (do_op (fst e) (snd e) f)) h f.
End References.
