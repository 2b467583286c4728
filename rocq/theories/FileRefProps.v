(** Property theorems C29: checksums and file references. *)
From Coq Require Import Lia.
From Verif Require Import PyBase PyBaseProofs FileRefModel FileRefSpec FileRefProofs.

(** The checksum of a file is the digest of its whole content, however many bytes
    each read returns. *)
Theorem C29_checksum : forall algorithm type reads content H,
  algorithm type = Some H -> streaming H ->
  file_checksum algorithm type reads content = Ok (digest_of H content).
Proof. exact file_checksum_spec. Qed.
Print Assumptions C29_checksum.

Theorem C29_unsupported : forall md5 sha1 sha256 type reads content,
  ~ In type [L "md5"; L "sha1"; L "sha256"] ->
  file_checksum (algorithms md5 sha1 sha256) type reads content = Err ENotImplemented.
Proof. exact file_checksum_unsupported. Qed.
Print Assumptions C29_unsupported.

(** Over any history of operations and of changes to the file: until the first
    refresh a reference keeps reporting the size it saw first, afterwards it reports
    the size of the file as it is. *)
Theorem C29_size : forall digest alg h now,
  let answer := fst (do_op digest now OSize (after digest (start alg) h)) in
  (refreshed alg h -> answer = size_now now) /\
  (~ refreshed alg h -> never_seen looks_at_size h -> answer = size_now now) /\
  (forall c, ~ refreshed alg h -> first_seen looks_at_size h c -> answer = ASize (Z.of_nat (length c))).
Proof. exact size_answer. Qed.
Print Assumptions C29_size.

Theorem C29_reference_checksum : forall digest alg, alg = true -> forall h now,
  let answer := fst (do_op digest now OChecksum (after digest (start alg) h)) in
  (refreshed alg h -> answer = checksum_now digest now) /\
  (~ refreshed alg h -> never_seen looks_at_checksum h -> answer = checksum_now digest now) /\
  (forall c, ~ refreshed alg h -> first_seen looks_at_checksum h c -> answer = AChecksum (Some (digest c))).
Proof. exact checksum_answer. Qed.
Print Assumptions C29_reference_checksum.

(** The first refresh answers True exactly if size and checksum are what they were
    when they were first seen. *)
Theorem C29_refresh : forall digest alg h c cs cd, ~ refreshed alg h ->
  baseline looks_at_size h c cs -> baseline looks_at_checksum h c cd ->
  exists b, fst (do_op digest (Some c) ORefresh (after digest (start alg) h)) = ARefresh b /\
    (b = true <-> length c = length cs /\ (alg = true -> digest c = digest cd)).
Proof. exact refresh_first. Qed.
Print Assumptions C29_refresh.

Theorem C29_refresh_missing : forall digest alg h, ~ refreshed alg h ->
  let answer := fst (do_op digest None ORefresh (after digest (start alg) h)) in
  ((exists c, first_seen looks_at_size h c) -> (alg = true -> exists c, first_seen looks_at_checksum h c) -> answer = ARefresh false) /\
  (never_seen looks_at_size h \/ (alg = true /\ never_seen looks_at_checksum h) -> answer = AError EEnvironment).
Proof. exact refresh_missing. Qed.
Print Assumptions C29_refresh_missing.

(** Every later refresh answers True for any existing file, and fails for a missing
    one: the second and later refreshes detect no change. *)
Theorem C29_refresh_again : forall digest alg h now, refreshed alg h ->
  fst (do_op digest now ORefresh (after digest (start alg) h)) =
  match now with Some _ => ARefresh true | None => AError EEnvironment end.
Proof. exact refresh_again. Qed.
Print Assumptions C29_refresh_again.

Theorem C29_every_refresh_refuted : exists digest h old new,
  h = [(Some old, OSize); (Some old, OChecksum); (Some old, ORefresh)] /\
  length old <> length new /\ digest old <> digest new /\
  fst (do_op digest (Some new) ORefresh (after digest (start true) h)) = ARefresh true.
Proof.
  exists (fun c => c). eexists. exists (L "a"), (L "bb"). split; [reflexivity|].
  split; [discriminate|]. split; [discriminate|]. reflexivity.
Qed.
Print Assumptions C29_every_refresh_refuted.

(** A reference can be made exactly if the file exists, and is then in the state from which the
    histories above start: it has seen nothing yet and keeps what it sees first. *)
Theorem C29_new : forall alg now,
  match new_reference alg now with
  | Ok f => now <> None /\ forall digest h now',
      (never_seen looks_at_size h -> ~ refreshed alg h -> fst (do_op digest now' OSize (after digest f h)) = size_now now') /\
      (forall c, ~ refreshed alg h -> first_seen looks_at_size h c -> fst (do_op digest now' OSize (after digest f h)) = ASize (Z.of_nat (length c))) /\
      (alg = true -> forall c, ~ refreshed alg h -> first_seen looks_at_checksum h c -> fst (do_op digest now' OChecksum (after digest f h)) = AChecksum (Some (digest c))) /\
      (alg = false -> fst (do_op digest now' OChecksum f) = AChecksum None)
  | Err e => e = EEnvironment /\ now = None
  end.
Proof.
  intros alg [c0|]; cbn [new_reference]; [|now split]. split; [discriminate|]. intros digest h now'. change (mkfref alg None None false) with (start alg).
  split; [intros N R; now apply (proj1 (proj2 (C29_size digest alg h now')))|].
  split; [intros c R F; now apply (proj2 (proj2 (C29_size digest alg h now')))|].
  split; [intros Ha c R F; now apply (proj2 (proj2 (C29_reference_checksum digest alg Ha h now')))|]. intros ->. reflexivity.
Qed.
Print Assumptions C29_new.

(** Non-vacuity: a running sum is a streaming hash; a reference whose file is changed. *)
Definition sum_hash : hasher :=
  mkhasher N 0%N (fun n s => fold_left (fun n c => (n + N_of_ascii c)%N) s n) dec.
Example C29_checksum_case : streaming sum_hash /\ digest_of sum_hash (L "abc") = L "294" /\
  file_checksum (algorithms sum_hash sum_hash sum_hash) (L "sha1") (fun k => k) (L "abc") = Ok (L "294").
Proof. split; [split; [reflexivity|intros; apply fold_left_app]|]. vm_compute. auto. Qed.
Example C29_refresh_case :
  let h := [(Some (L "abc"), OSize); (Some (L "abX"), OChecksum); (None, OSize)] in
  ~ refreshed true h /\ first_seen looks_at_size h (L "abc") /\ first_seen looks_at_checksum h (L "abX") /\
  fst (do_op (fun c => c) (Some (L "abc")) ORefresh (after (fun c => c) (start true) h)) = ARefresh false /\
  fst (do_op (fun c => c) (Some (L "abX")) ORefresh (after (fun c => c) (start true) h)) = ARefresh true.
Proof.
  intros h. split; [|split; [|split; [|split; reflexivity]]].
  - intros (a & now & b & E & _). do 3 (destruct a as [|? a]; [discriminate|injection E as <- E]). destruct a; discriminate.
  - exists [], OSize, (tl h). split; [reflexivity|]. split; [now left|intros c' o' []].
  - exists [(Some (L "abc"), OSize)], OChecksum, (tl (tl h)). split; [reflexivity|]. split; [now left|].
    intros c' o' [E|[]]. injection E as <- <-. intros [F|F]; discriminate.
Qed.
