(** Proofs about the lookup of names. *)
From Coq Require Import List Ascii String Bool QArith Lia.
Import ListNotations.
From Verif Require Import PyBase PyBaseProofs PyDict PyDictProofs NamesModel XmlModel ItemModel HardwareModel UnitsModel NetworkModel DriveModel NameHelperModel NameHelperSpec.
From Verif Require RefreshOkProofs.
Local Open Scope list_scope.

(** What a lookup finds without the cache *)
Definition whole (v : version) (t : tag) : option str :=
  match dget str_eqb (namespace_name t) (item_children v), dget str_eqb (lower (namespace_name t)) (NSM v) with
  | None, Some u => Some (braced u ++ the_tag t)
  | _, _ => None
  end.
Definition plain (v : version) (n : str) : option str :=
  match dget str_eqb n (item_children v) with
  | Some s => Some s
  | None =>
      match dget str_eqb (lower n) (NSM v) with
      | Some u => Some (braced u)
      | None =>
          if str_eqb n (L "EPASD") || str_eqb n (L "SASD") then Some (RASD v)
          else match dget str_eqb n (raw v) with None => None | Some t => whole v t end
      end
  end.

Definition sound (v : version) (c : cache) : Prop := forall n s, dget str_eqb n c = Some s -> plain v n = Some s.

Lemma sound_nil : forall v, sound v [].
Proof. intros v n s H. discriminate H. Qed.

Lemma sound_set : forall v c n s, sound v c -> plain v n = Some s -> sound v (dset str_eqb n s c).
Proof.
  intros v c n s S P k x H. destruct (str_eqb k n) eqn:E.
  - apply str_eqb_eq in E as ->. rewrite (dget_dset_same str_eqb str_eqb_eq) in H. injection H as <-. exact P.
  - rewrite (dget_dset_other str_eqb str_eqb_eq) in H; [now apply S|]. intros ->. rewrite str_eqb_refl in E. discriminate.
Qed.

Lemma get_space : forall f v c n u, sound v c -> dget str_eqb n (item_children v) = None ->
  dget str_eqb (lower n) (NSM v) = Some u ->
  exists c', getattr (S f) v c n = (Ok (braced u), c') /\ sound v c'.
Proof.
  intros f v c n u S I N. assert (P : plain v n = Some (braced u)) by (unfold plain; now rewrite I, N).
  cbn [getattr]. rewrite I. destruct (dget str_eqb n c) as [s|] eqn:E.
  - pose proof (S _ _ E) as Q. rewrite P in Q. injection Q as <-. eauto.
  - rewrite N. eexists. split; [reflexivity|]. now apply sound_set.
Qed.

Lemma raw_whole : forall v n t, dget str_eqb n (raw v) = Some t ->
  dget str_eqb (namespace_name t) (item_children v) = None /\
  exists u, dget str_eqb (lower (namespace_name t)) (NSM v) = Some u.
Proof.
  intros v n t H. apply (dget_In str_eqb str_eqb_eq) in H.
  assert (F : forallb (fun p => match dget str_eqb (namespace_name (snd p)) (item_children v), dget str_eqb (lower (namespace_name (snd p))) (NSM v) with
     | None, Some _ => true | _, _ => false end) (raw v) = true) by (destruct v; vm_compute; reflexivity).
  rewrite forallb_forall in F. specialize (F _ H). cbn [snd] in F.
  destruct (dget str_eqb (namespace_name t) (item_children v)); [discriminate|].
  destruct (dget str_eqb (lower (namespace_name t)) (NSM v)); [eauto|discriminate].
Qed.

Lemma rasd_space : forall v, dget str_eqb (L "RASD") (item_children v) = None /\
  exists u, dget str_eqb (lower (L "RASD")) (NSM v) = Some u /\ braced u = RASD v.
Proof. intros v. split; destruct v; try (vm_compute; reflexivity); eexists; split; vm_compute; reflexivity. Qed.

Lemma getattr_plain : forall f v c n, sound v c ->
  exists c', getattr (S (S f)) v c n = (match plain v n with Some s => Ok s | None => Err EAttributeError end, c') /\ sound v c'.
Proof.
  intros f v c n S. remember (Datatypes.S f) as f1 eqn:E1. cbn [getattr]. 
  destruct (dget str_eqb n (item_children v)) as [s|] eqn:I.
  { unfold plain. rewrite I. eauto. }
  destruct (dget str_eqb n c) as [s|] eqn:C.
  { rewrite (S _ _ C). eauto. }
  destruct (dget str_eqb (lower n) (NSM v)) as [u|] eqn:N.
  { assert (P : plain v n = Some (braced u)) by (unfold plain; now rewrite I, N). rewrite P. eexists. split; [reflexivity|]. now apply sound_set. }
  destruct (str_eqb n (L "EPASD") || str_eqb n (L "SASD")) eqn:B.
  { assert (P : plain v n = Some (RASD v)) by (unfold plain; now rewrite I, N, B).
    destruct (rasd_space v) as (R1 & u & R2 & R3). destruct (get_space f v c _ u S R1 R2) as (c' & G & S').
    rewrite E1, G, P, R3. eexists. split; [reflexivity|]. now apply sound_set. }
  destruct (dget str_eqb n (raw v)) as [t|] eqn:R.
  - destruct (raw_whole _ _ _ R) as (R1 & u & R2). destruct (get_space f v c _ u S R1 R2) as (c' & G & S').
    assert (P : plain v n = Some (braced u ++ the_tag t)) by (unfold plain, whole; now rewrite I, N, B, R, R1, R2).
    rewrite E1, G, P. eexists. split; [reflexivity|]. now apply sound_set.
  - assert (P : plain v n = None) by (unfold plain; now rewrite I, N, B, R). rewrite P. eauto.
Qed.

(** ** The table *)

Definition child_b (v : version) (p : str * str) : bool :=
  existsb (fun q => str_eqb (fst p) (L (fst q)) && str_eqb (snd p) (L (snd q))) same_children ||
  existsb (fun q => str_eqb (fst p) (L (fst q)) && str_eqb (snd p) (L match v with V0 => fst (snd q) | _ => snd (snd q) end)) other_children ||
  match v with V0 => str_eqb (fst p) (L "BUS_NUMBER") && str_eqb (snd p) (L "BusNumber") | _ => false end.
Lemma child_names_of : forall v p, child_b v p = true -> names v (fst p) (snd p).
Proof.
  intros v (n, s) H. unfold child_b in H. cbn [fst snd] in *. apply orb_true_iff in H as [H|H].
  - apply orb_true_iff in H as [H|H]; apply existsb_exists in H as (q & I & H); apply andb_true_iff in H as [A B];
      apply str_eqb_eq in A as ->; apply str_eqb_eq in B as ->.
    + destruct q as [a b]. cbn [fst snd]. now apply n_child.
    + destruct q as [a [b0 b1]]. cbn [fst snd] in *. exact (n_other_child v _ _ _ I).
  - destruct v; try discriminate. apply andb_true_iff in H as [A B].
      apply str_eqb_eq in A as ->; apply str_eqb_eq in B as ->. now apply n_bus.
Qed.

Definition raw_b (v : version) (n s : str) : bool :=
  existsb (fun q => str_eqb n (L (fst q)) && str_eqb s (in_ns (ovf_uri v) (L (snd q)))) same_names ||
  existsb (fun q => str_eqb n (L (fst q)) &&
    str_eqb s (in_ns (ovf_uri v) (L match v with V0 => fst (fst (snd q)) | V1 => snd (fst (snd q)) | V2 => snd (snd q) end))) other_names ||
  (str_eqb n (L "VIRTUAL_SYSTEM_TYPE") && str_eqb s (in_ns vssd_uri (L "VirtualSystemType"))).
Lemma raw_names_of : forall v n s, raw_b v n s = true -> names v n s.
Proof.
  intros v n s H. unfold raw_b in H. apply orb_true_iff in H as [H|H].
  - apply orb_true_iff in H as [H|H]; apply existsb_exists in H as (q & I & H); apply andb_true_iff in H as [A B];
      apply str_eqb_eq in A as ->; apply str_eqb_eq in B as ->.
    + destruct q as [a b]. cbn [fst snd]. now apply n_same.
    + destruct q as [a [[b0 b1] b2]]. cbn [fst snd] in *. exact (n_other v _ _ _ _ I).
  - apply andb_true_iff in H as [A B]. apply str_eqb_eq in A as ->; apply str_eqb_eq in B as ->. apply n_system_type.
Qed.

Definition space_b (v : version) (p : str * str) : bool :=
  existsb (fun q => str_eqb (fst p) (L (fst q)) && str_eqb (snd p) (snd q))
    [("xsi", xsi_uri); ("cim", cim_uri); ("rasd", rasd_uri); ("vssd", vssd_uri); ("ovf", ovf_uri v)]%string ||
  match v with
  | V2 => existsb (fun q => str_eqb (fst p) (L (fst q)) && str_eqb (snd p) (snd q)) [("sasd", sasd_uri); ("epasd", epasd_uri)]%string
  | _ => false
  end.
Lemma space_names_of : forall v n p u, lower n = p -> space_b v (p, u) = true -> names v n (in_ns u []).
Proof.
  intros v n p u E H. unfold space_b in H. apply orb_true_iff in H as [H|H].
  - apply existsb_exists in H as ((a, b) & I & H). apply andb_true_iff in H as [A B]. cbn [fst snd] in *.
    apply str_eqb_eq in A; apply str_eqb_eq in B. subst. exact (n_space v n a b A I).
  - destruct v; try discriminate. apply existsb_exists in H as ((a, b) & I & H). apply andb_true_iff in H as [A B]. cbn [fst snd] in *.
    apply str_eqb_eq in A; apply str_eqb_eq in B. subst. exact (n_space2 V2 n a b eq_refl A I).
Qed.

Lemma plain_names : forall v n s, plain v n = Some s -> names v n s.
Proof.
  intros v n s H. unfold plain in H.
  destruct (dget str_eqb n (item_children v)) as [x|] eqn:I.
  { injection H as ->. apply (dget_In str_eqb str_eqb_eq) in I.
    assert (F : forallb (child_b v) (item_children v) = true) by (destruct v; vm_compute; reflexivity).
    rewrite forallb_forall in F. exact (child_names_of v _ (F _ I)). }
  destruct (dget str_eqb (lower n) (NSM v)) as [u|] eqn:N.
  { injection H as <-. change (braced u) with (in_ns u []). apply (dget_In str_eqb str_eqb_eq) in N.
    assert (F : forallb (space_b v) (NSM v) = true) by (destruct v; vm_compute; reflexivity).
    rewrite forallb_forall in F. exact (space_names_of v n _ _ eq_refl (F _ N)). }
  destruct (str_eqb n (L "EPASD") || str_eqb n (L "SASD")) eqn:B.
  { injection H as <-. assert (M : n = L "SASD" \/ n = L "EPASD").
    { apply orb_true_iff in B as [B|B]; apply str_eqb_eq in B; auto. }
    destruct v.
    - apply n_rasd; [discriminate|exact M].
    - apply n_rasd; [discriminate|exact M].
    - destruct M as [-> | ->]; vm_compute in N; discriminate. }
  destruct (dget str_eqb n (raw v)) as [t|] eqn:R; [|discriminate].
  apply (dget_In str_eqb str_eqb_eq) in R.
  assert (F : forallb (fun p => match whole v (snd p) with Some s => raw_b v (fst p) s | None => false end) (raw v) = true) by (destruct v; vm_compute; reflexivity).
  rewrite forallb_forall in F. specialize (F _ R). cbn [fst snd] in F. rewrite H in F. exact (raw_names_of _ _ _ F).
Qed.

Definition opt_b (a : option str) (s : str) : bool := match a with Some x => str_eqb x s | None => false end.
Lemma opt_b_eq : forall a s, opt_b a s = true -> a = Some s.
Proof. intros [x|] s H; [|discriminate]. cbn in H. apply str_eqb_eq in H. now subst. Qed.

Lemma space_plain : forall v n u, dget str_eqb (lower n) (NSM v) = Some u -> plain v n = Some (braced u).
Proof.
  intros v n u N. unfold plain. destruct (dget str_eqb n (item_children v)) as [s|] eqn:I; [|now rewrite N].
  exfalso. apply (dget_In str_eqb str_eqb_eq) in I.
  assert (F : forallb (fun p => match dget str_eqb (lower (fst p)) (NSM v) with Some _ => false | None => true end) (item_children v) = true) by (destruct v; vm_compute; reflexivity).
  rewrite forallb_forall in F. specialize (F _ I). cbn [fst] in F. rewrite N in F. discriminate.
Qed.

Lemma names_plain : forall v n s, names v n s -> plain v n = Some s.
Proof.
  intros v n s H. destruct H as [n s I|n s0 s1 s2 I| |n s I|n s0 s1 I|E|n p u E I|n p u V E I|n V E].
  - assert (F : forallb (fun q => opt_b (plain v (L (fst q))) (in_ns (ovf_uri v) (L (snd q)))) same_names = true) by (destruct v; vm_compute; reflexivity).
    rewrite forallb_forall in F. exact (opt_b_eq _ _ (F _ I)).
  - assert (F : forallb (fun q => opt_b (plain v (L (fst q)))
      (in_ns (ovf_uri v) (L match v with V0 => fst (fst (snd q)) | V1 => snd (fst (snd q)) | V2 => snd (snd q) end))) other_names = true) by (destruct v; vm_compute; reflexivity).
    rewrite forallb_forall in F. exact (opt_b_eq _ _ (F _ I)).
  - apply opt_b_eq. destruct v; vm_compute; reflexivity.
  - assert (F : forallb (fun q => opt_b (plain v (L (fst q))) (L (snd q))) same_children = true) by (destruct v; vm_compute; reflexivity).
    rewrite forallb_forall in F. exact (opt_b_eq _ _ (F _ I)).
  - assert (F : forallb (fun q => opt_b (plain v (L (fst q))) (L match v with V0 => fst (snd q) | _ => snd (snd q) end)) other_children = true) by (destruct v; vm_compute; reflexivity).
    rewrite forallb_forall in F. exact (opt_b_eq _ _ (F _ I)).
  - subst v. vm_compute. reflexivity.
  - change (in_ns u []) with (braced u). apply space_plain. rewrite E. cbn [In] in I.
    repeat (destruct I as [I|I]; [injection I as <- <-; destruct v; vm_compute; reflexivity|]). contradiction.
  - change (in_ns u []) with (braced u). apply space_plain. rewrite E. subst v. cbn [In] in I.
    repeat (destruct I as [I|I]; [injection I as <- <-; vm_compute; reflexivity|]). contradiction.
  - apply opt_b_eq. destruct E as [-> | ->]; destruct v; try (now elim V); vm_compute; reflexivity.
Qed.

Lemma names_iff : forall v n s, plain v n = Some s <-> names v n s.
Proof. intros v n s. split; [apply plain_names|apply names_plain]. Qed.

Lemma names_det : forall v n s s', names v n s -> names v n s' -> s = s'.
Proof. intros v n s s' A B. apply names_plain in A, B. rewrite A in B. now injection B. Qed.

(** ** Histories *)

Definition answer (v : version) (n : str) : result str :=
  match plain v n with Some s => Ok s | None => Err EAttributeError end.

Definition good (s : caches) : Prop := forall v, sound v (cache_of v s).

Lemma starts_one : forall a, starts_with (L "__") [a] = false.
Proof. intros a. unfold starts_with. cbn. now rewrite ?andb_false_r; try (destruct (Ascii.eqb _ _)). Qed.
Lemma starts_two : forall a b n, starts_with (L "__") (a :: b :: n) = true -> a = "_"%char /\ b = "_"%char.
Proof.
  intros a b n H. change (L "__") with ["_"%char; "_"%char] in H. cbn [starts_with] in H.
  apply andb_true_iff in H as [A H]. apply andb_true_iff in H as [B _]. now apply Ascii.eqb_eq in A, B.
Qed.
Lemma magic_plain : forall v n, starts_with (L "__") n = true -> plain v n = None.
Proof.
  intros v n H. destruct (plain v n) as [s|] eqn:P; [|reflexivity]. exfalso. unfold plain in P.
  assert (K : forall A (l : list (str * A)) k, (forall p, In p l -> starts_with (L "__") (fst p) = false) -> starts_with (L "__") k = true -> dget str_eqb k l = None).
  { intros A l k F B. destruct (dget str_eqb k l) as [x|] eqn:G; [|reflexivity]. apply (dget_In str_eqb str_eqb_eq) in G. specialize (F _ G). cbn [fst] in F. rewrite F in B. discriminate. }
  assert (K' : forall A (l : list (str * A)) k, forallb (fun p => negb (starts_with (L "__") (fst p))) l = true -> starts_with (L "__") k = true -> dget str_eqb k l = None).
  { intros A l k F B. apply K; [|exact B]. intros p I. rewrite forallb_forall in F. now apply negb_true_iff, F. }
  assert (Lw : starts_with (L "__") (lower n) = true).
  { destruct n as [|a [|b n]]; [discriminate H|now rewrite starts_one in H|]. destruct (starts_two _ _ _ H) as [-> ->]. reflexivity. }
  rewrite K' in P; [|destruct v; vm_compute; reflexivity|exact H]. rewrite K' in P; [|destruct v; vm_compute; reflexivity|exact Lw].
  destruct (str_eqb n (L "EPASD") || str_eqb n (L "SASD")) eqn:B.
  - apply orb_true_iff in B as [B|B]; apply str_eqb_eq in B; subst n; vm_compute in H; discriminate.
  - rewrite K' in P; [discriminate P|destruct v; vm_compute; reflexivity|exact H].
Qed.

Lemma vm_answer : forall f v s n, good s -> exists s', vm_getattr (S (S f)) v s n = (answer v n, s') /\ good s'.
Proof.
  intros f v s n G. unfold vm_getattr. destruct (starts_with (L "__") n) eqn:M.
  { unfold answer. rewrite magic_plain by exact M. eauto. }
  unfold lookup. destruct (getattr_plain f v (cache_of v s) n (G v)) as (c & E & S). rewrite E. eexists. split; [reflexivity|].
  intros w. destruct v, w; cbn; try exact S; try exact (G V0); try exact (G V1); exact (G V2).
Qed.

Lemma good_none : good no_caches.
Proof. intros v. destruct v; apply sound_nil. Qed.

Lemma lookups_answer : forall f l s, good s -> fst (lookups (S (S f)) s l) = map (fun p => answer (fst p) (snd p)) l /\ good (snd (lookups (S (S f)) s l)).
Proof.
  intros f. induction l as [|[v n] l IH]; intros s G; [now split|].
  cbn [lookups map fst snd]. destruct (vm_answer f v s n G) as (s' & E & G'). rewrite E.
  destruct (IH s' G') as (A & B). destruct (lookups (S (S f)) s' l) as [rs s2]. cbn [fst snd] in *. now rewrite A.
Qed.

Lemma answer_spec : forall v n, match answer v n with Ok s => names v n s | Err e => e = EAttributeError /\ forall s, ~ names v n s end.
Proof.
  intros v n. unfold answer. destruct (plain v n) as [s|] eqn:P; [now apply plain_names|]. split; [reflexivity|].
  intros s H. apply names_plain in H. rewrite P in H. discriminate.
Qed.

(** ** A new Disk *)

Lemma cap_attrs : forall fuel v c l, capacity_attrs fuel v c = Ok l -> exists a b, l = [(DISK_CAPACITY v, a)] \/ l = [(DISK_CAPACITY v, a); (DISK_CAP_UNITS v, b)].
Proof.
  intros fuel v c l H. unfold capacity_attrs in H. destruct v.
  - injection H as <-. exists (zdec c), []. now left.
  - destruct (int_bytes_to_programmatic_units fuel c) as [(a, b)|e]; [|discriminate H]. injection H as <-. exists a, b. now right.
  - destruct (int_bytes_to_programmatic_units fuel c) as [(a, b)|e]; [|discriminate H]. injection H as <-. exists a, b. now right.
Qed.

Lemma disk_attrs : forall fuel v c l id f, capacity_attrs fuel v c = Ok l ->
  etag (disk_elem v l id f) = in_ns (ovf_uri v) (L "Disk") /\
  get_attr (disk_elem v l id f) (in_ns (ovf_uri v) (L "fileRef")) = Some f /\
  get_attr (disk_elem v l id f) (in_ns (ovf_uri v) (L "format")) = Some (L "http://www.vmware.com/interfaces/specifications/vmdk.html#streamOptimized") /\
  get_attr (disk_elem v l id f) (in_ns (ovf_uri v) (L "diskId")) = id.
Proof.
  intros fuel v c l id f H. apply cap_attrs in H as (a & b & [-> | ->]); destruct id as [i|]; destruct v; repeat split; vm_compute; reflexivity.
Qed.

Lemma section_facts : forall v, names v (L "DISK_SECTION") (etag (new_disk_section v)) /\ eattrib (new_disk_section v) = section_type v "DiskSection".
Proof.
  intros v. split; [|destruct v; vm_compute; reflexivity]. apply plain_names, opt_b_eq. destruct v; vm_compute; reflexivity.
Qed.

Lemma new_disk : forall fuel v m im file_id disk m' d, add_disk fuel v m im file_id (L "harddisk") disk = Ok (m', d) ->
  exists sec j e, m_disks m' = Some sec /\ d = Some j /\ nth_error (echildren sec) j = Some e /\
    etag e = in_ns (ovf_uri v) (L "Disk") /\
    get_attr e (in_ns (ovf_uri v) (L "fileRef")) = Some file_id /\
    get_attr e (in_ns (ovf_uri v) (L "format")) = Some (L "http://www.vmware.com/interfaces/specifications/vmdk.html#streamOptimized") /\
    (disk = None -> get_attr e (in_ns (ovf_uri v) (L "diskId")) = Some file_id) /\
    (m_disks m = None -> disk = None -> exists info rest, names v (L "DISK_SECTION") (etag sec) /\ eattrib sec = section_type v "DiskSection" /\
      echildren sec = info :: rest /\ etag info = in_ns (ovf_uri v) (L "Info") /\ etext info = Some (L "Virtual disk information")).
Proof.
  intros fuel v m im f disk m' d H. unfold add_disk in H. change (negb (str_eqb (L "harddisk") (L "harddisk"))) with false in H. cbv iota in H.
  set (sec := match m_disks m with Some s => s | None => new_disk_section v end) in *.
  destruct (capacity_attrs fuel v (im_capacity im)) as [cap|e] eqn:C; [|discriminate H]. cbn [rbind] in H.
  destruct disk as [j|].
  - unfold attr_at, child_at in H. destruct (nth_error (echildren sec) j) as [x|] eqn:N; [|discriminate H]. cbn [rbind] in H. injection H as <- <-.
    destruct (disk_attrs _ _ _ _ (get_attr x (DISK_ID v)) f C) as (A1 & A2 & A3 & A4).
    exists (set_children (update_at j (fun _ => disk_elem v cap (get_attr x (DISK_ID v)) f) (echildren sec)) sec), j, (disk_elem v cap (get_attr x (DISK_ID v)) f).
    repeat split; try assumption; try discriminate.
    assert (Q : echildren (set_children (update_at j (fun _ => disk_elem v cap (get_attr x (DISK_ID v)) f) (echildren sec)) sec) = update_at j (fun _ => disk_elem v cap (get_attr x (DISK_ID v)) f) (echildren sec)) by (destruct sec; reflexivity).
    rewrite Q. exact (RefreshOkProofs.update_nth _ _ _ _ _ N).
  - injection H as <- <-. destruct (disk_attrs _ _ _ _ (Some f) f C) as (A1 & A2 & A3 & A4).
    assert (Q : forall l, echildren (set_children l sec) = l /\ etag (set_children l sec) = etag sec /\ eattrib (set_children l sec) = eattrib sec) by (intros l; destruct sec; now repeat split).
    exists (set_children (echildren sec ++ [disk_elem v cap (Some f) f]) sec), (length (echildren sec)), (disk_elem v cap (Some f) f).
    destruct (Q (echildren sec ++ [disk_elem v cap (Some f) f])) as (Q1 & Q2 & Q3). rewrite Q1, Q2, Q3.
    split; [reflexivity|]. split; [reflexivity|]. split. { rewrite nth_error_app2, Nat.sub_diag by apply Nat.le_refl. reflexivity. }
    split; [exact A1|]. split; [exact A2|]. split; [exact A3|]. split; [intros _; exact A4|].
    intros M _. subst sec. rewrite M. destruct (section_facts v) as (S1 & S2).
    eexists. eexists. split; [exact S1|]. split; [exact S2|]. split; [reflexivity|]. split; [destruct v; reflexivity|vm_compute; reflexivity].
Qed.
