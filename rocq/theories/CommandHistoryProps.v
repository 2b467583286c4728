(** add-file, add-disk, remove-file, inject-config, edit-product and edit-properties run one after
    another, any number of times, each on the package that the last one left (C74). *)
From Coq Require Import List Ascii Bool ZArith String.
Import ListNotations.
From Verif Require Import PyBase PyBaseProofs PyDict ValidationModel XmlModel XmlSpec XmlProps NamesModel ItemModel ItemSpec ItemProps GenerateSpec HardwareModel HardwareSpec HardwareProps EnvPropModel EditPropModel HardwareModel CountSpec RereadSpec
  ProfileModel ProfileSpec ProfileProps NetworkModel NetworkSpec DriveModel DriveSpec DriveProps InfoModel PlatformModel RefreshModel RefreshSpec ManifestSpec RawModel PathModel PathSpec TarModel TarSpec TarProps
  OvfWriteModel OvfWriteSpec OvfWriteProps OpenModel OpenSpec OpenProps SaveModel SaveSpec SaveProps CommandModel CommandSpec CommandProps CommandFileModel CommandFileSpec CommandFileProps CommandInjectModel CommandInjectSpec CommandHistorySpec.
From Verif Require Import CountProps.
From Verif Require ProductModel ProductSpec ProductProps SaveProofs CommandFileProofs CommandHwProps CommandProofs2 CommandHistoryProofs.
Local Open Scope nat_scope.

Section Histories.
Variables (E : env) (digest : str -> str -> str) (print : elem -> str) (parse : str -> option elem) (capacity : str -> result str) (fuel : nat).
Variables (w : world) (p : str) (o : ovf).
Let history := history E digest print parse capacity fuel w p o.
Let ran := ran E digest print parse capacity fuel.
Let orderly (o : ovf) : Prop := orderly (env_of E o) (vmd_of o).

(** The package stays in order however often it is changed, and all that is not a device, a file
    or a disk stays the same, but for the product if it was edited.  Each run changes two devices at most (a drive and its controller);
    all others report the same values at the end, and there are no others. *)
Theorem C74_history : forall l w' p' o', history l w' p' o' -> orderly o ->
  orderly o' /\ else_same (exists st x, In (st, x) l /\ edits_product st) o o' /\
  exists ks, length ks <= 2 * length l /\ devices_same_but (env_of E o) ks (o_hardware o) (o_hardware o').
Proof. intros l w' p' o' H O. destruct (CommandHistoryProofs.history_leaves E digest print parse capacity fuel l w p o w' p' o' H O) as (H1 & H2 & H3 & _). exact (conj H1 (conj H2 H3)). Qed.

(** A file whose name no command brings has at the end the content that it had, exactly if all
    packages in between list it; none appears. *)
Theorem C74_files : forall l w' p' o' h data, history l w' p' o' -> orderly o -> (forall st x, In (st, x) l -> brings st x <> Some h) ->
  (stored w' o' h data <-> stored w o h data /\ forall st x, In (st, x) l -> listed (o_version x) (o_references x) h).
Proof. intros l w' p' o' h data H O N. destruct (CommandHistoryProofs.history_leaves E digest print parse capacity fuel l w p o w' p' o' H O) as (_ & _ & _ & H4). exact (H4 h data N). Qed.

(** The file that a command brought has at the end exactly the content that the user supplied to
    that run, if no later command brings that name and all later packages list it. *)
Theorem C74_brought : forall l1 st x l2 w' p' o' h, history (l1 ++ (st, x) :: l2) w' p' o' -> orderly o -> brings st x = Some h ->
  (forall st' x', In (st', x') l2 -> brings st' x' <> Some h /\ listed (o_version x') (o_references x') h) ->
  exists w1 p1 o1 wd, history l1 w1 p1 o1 /\ forall data, stored w' o' h data <-> supplied st (after_opening w1 wd p1) o1 data.
Proof. intros l1 st x l2 w' p' o' h H O B N. exact (CommandHistoryProofs.history_brought E digest print parse capacity fuel l1 st x l2 w p o w' p' o' H O h B N). Qed.

(** After any of the runs the package can be opened, in every working directory: a history never
    ends in a package that COT cannot read. *)
Theorem C74_next : forall l st w1 p1 o1 w2 p2 d u, history l w1 p1 o1 -> orderly o -> ran st w1 p1 o1 w2 p2 -> (forall c, In c (d ++ [u]) -> proper c) ->
  exists o2, factory E digest parse w2 (path_of (d ++ [u])) p2 [] = Ok o2 /\ orderly o2.
Proof.
  intros l st w1 p1 o1 w2 p2 d u H O R PD. destruct (CommandHistoryProofs.history_leaves E digest print parse capacity fuel l w p o w1 p1 o1 H O) as (O1 & _).
  destruct (CommandHistoryProofs.run_leaves E digest print parse capacity fuel st w1 p1 o1 w2 p2 d u R O1 PD) as (o2 & F & O2 & _). now exists o2.
Qed.
End Histories.

(** ** A history: add-disk, remove-file of the disk that was there before, and edit-product *)
Local Notation hs_wd := (path_of ([L "tmp"] ++ [L "cot"])).
Local Notation hs_add := (AddDisk yes 100 (fun _ => ide) cf_image (L "harddisk") None (Some (L "ide")) None (Some (L "0:1")) None None).
Local Notation hs_remove := (RemoveFile yes (Some (L "sub/d.vmdk")) None).
Local Notation hs_edit := (EditProduct ProductProps.opts1).
(** how many Files there are, and whether there is an URL *)
Definition hs_print (e : elem) : str :=
  flat_map (fun c => flat_map (fun f => if str_eqb (etag f) (FILE V1) then L "x" else flat_map (fun g => if str_eqb (etag g) (ProductModel.APPLICATION_URL V1) then L "u" else []) (echildren f)) (echildren c)) (echildren e).
Definition hs_tree (r : result (elem * elem * list (str * ref))) : elem := match r with Ok (e, _, _) => xml_reindent e 0 | Err _ => cf_root end.
Definition hs_prepared (st : step) (w : world) (input : str) (o : ovf) : result (elem * elem * list (str * ref)) :=
  do wo <- does env0 st hs_wd (after_opening w hs_wd input) o; prepare env0 sv_capacity 9 (fst wo) (snd wo).
Definition hs_one : elem := hs_tree (hs_prepared hs_add ex_world (L "/home/a.ova") cf_package).
Definition hs_world : world := fst (command_in env0 sv_digest hs_print (fun t => Some cf_root) sv_capacity 9 (does env0 hs_add hs_wd) ex_world hs_wd (L "/home/a.ova") false (L "/out/b.ovf")).
Definition hs_package : ovf := some_package (factory env0 sv_digest (fun t => Some hs_one) hs_world hs_wd (L "/out/b.ovf") (L "/new/c.ovf")).
Definition hs_two : elem := hs_tree (hs_prepared hs_remove hs_world (L "/out/b.ovf") hs_package).
Definition hs_end : world := fst (command_in env0 sv_digest hs_print (fun t => Some hs_one) sv_capacity 9 (does env0 hs_remove hs_wd) hs_world hs_wd (L "/out/b.ovf") false (L "/new/c.ovf")).
Definition hs_last : ovf := some_package (factory env0 sv_digest (fun t => Some hs_two) hs_end hs_wd (L "/new/c.ovf") (L "/end/d.ovf")).
Definition hs_three : elem := hs_tree (hs_prepared hs_edit hs_end (L "/new/c.ovf") hs_last).
Definition hs_parse (t : str) : option elem :=
  if str_eqb t (L "old") then Some cf_root else if str_eqb t (L "xx") then Some hs_one else if str_eqb t (L "x") then Some hs_two else Some hs_three.
Definition hs_final : world := fst (command_in env0 sv_digest hs_print hs_parse sv_capacity 9 (does env0 hs_edit hs_wd) hs_end hs_wd (L "/new/c.ovf") false (L "/end/d.ovf")).
Definition hs_product : ovf := some_package (factory env0 sv_digest hs_parse hs_final hs_wd (L "/end/d.ovf") []).


Lemma hs_tag : forall t r, hs_parse t = Some r -> ~ In NL (etag r).
Proof.
  intros t r H. assert (X : etag r = envelope_tag V1).
  { unfold hs_parse in H. assert (Y : forall x, Some x = Some r -> r = x) by (intros x Q; now inversion Q).
    destruct (str_eqb t (L "old")); [apply Y in H; rewrite H; reflexivity|]. destruct (str_eqb t (L "xx")); [apply Y in H; rewrite H; vm_compute; reflexivity|]. destruct (str_eqb t (L "x")); apply Y in H; rewrite H; vm_compute; reflexivity. }
  rewrite X. clear. vm_compute. intuition discriminate.
Qed.
Lemma hs_runs : forall st w input output o r, factory env0 sv_digest hs_parse w hs_wd input output = Ok o ->
  does env0 st hs_wd (after_opening w hs_wd input) o = Ok r -> can_be_written env0 (fst r) hs_wd (destination input output) (snd r) ->
  hs_parse (hs_print (hs_tree (hs_prepared st w input o))) = Some (hs_tree (hs_prepared st w input o)) ->
  snd (command_in env0 sv_digest hs_print hs_parse sv_capacity 9 (does env0 st hs_wd) w hs_wd input false output) = Ok tt ->
  changing_run env0 sv_digest hs_print hs_parse sv_capacity 9 (does env0 st hs_wd) w
    (fst (command_in env0 sv_digest hs_print hs_parse sv_capacity 9 (does env0 st hs_wd) w hs_wd input false output)) [L "tmp"] (L "cot") input false output o.
Proof.
  intros st w input output o r F DO CW RP OK. constructor.
  - intros x c H; injection H as <-; eexists; split; [vm_compute; reflexivity|]; split; [vm_compute; discriminate|reflexivity].
  - intros a x; split; [discriminate|]; intros c [<-|[]]; vm_compute; tauto.
  - intros c [<-|[<-|[]]]; vm_compute; repeat split; intuition discriminate.
  - exact hs_tag.
  - exact F.
  - intros w2 o1 H. rewrite DO in H. assert (R : r = (w2, o1)) by (now inversion H). subst r. cbn [fst snd] in *. split; [exact CW|].
    intros e refs l P. exists (xml_reindent e 0). split; [|apply SaveProofs.same_itself]. unfold hs_prepared in RP. rewrite DO in RP. cbn [rbind fst snd] in RP. rewrite P in RP. exact RP.
  - apply CommandHwProps.ok_pair. exact OK.
Qed.
(** The first run *)
Lemma hs_open1 : factory env0 sv_digest hs_parse ex_world hs_wd (L "/home/a.ova") (L "/out/b.ovf") = Ok cf_package. Proof. vm_compute. reflexivity. Qed.
Lemma hs_open0 : factory env0 sv_digest (fun t => Some cf_root) ex_world hs_wd (L "/home/a.ova") (L "/out/b.ovf") = Ok cf_package. Proof. vm_compute. reflexivity. Qed.
Definition some_result (r : result (world * ovf)) : world * ovf := match r with Ok x => x | Err _ => (ex_world, cf_package) end.
Definition hs_done1 : world * ovf := some_result (does env0 hs_add hs_wd cf_w1 cf_package).
Lemma hs_does1 : does env0 hs_add hs_wd (after_opening ex_world hs_wd (L "/home/a.ova")) cf_package = Ok hs_done1. Proof. vm_compute. reflexivity. Qed.
Lemma hs_fst1 : fst hs_done1 = cf_w1. Proof. reflexivity. Qed.
Lemma hs_steps : forall st w o r, match st with InjectConfig _ _ _ _ _ _ | EditProduct _ | EditProperties _ _ _ => False | _ => True end -> does env0 st hs_wd w o = Ok r ->
  fst r = w /\ exists new m', snd r = package_of_vmd o new m' /\ CommandFileProofs.shifts (o_version o) (vmd_of o) m'.
Proof.
  intros st w o r N H. destruct st as [agree im file_id|agree path id|agree fuel2 guess im dt file_id controller subtype address diskname desc| | |]; [| | |destruct N|destruct N|destruct N]; cbn [does] in H;
    match type of H with rbind ?x _ = _ => destruct x as [o1|] eqn:X; [|discriminate H] end; cbn [rbind] in H; assert (R : r = (w, o1)) by (now inversion H); subst r; (split; [reflexivity|]); cbn [snd].
  - exact (file_steps _ _ _ _ _ _ X).
  - exact (remove_steps _ _ _ _ _ _ X).
  - exact (disk_steps _ _ _ _ _ _ _ _ _ _ _ _ _ _ X).
Qed.
Lemma hs_can1 : can_be_written env0 (fst hs_done1) hs_wd (destination (L "/home/a.ova") (L "/out/b.ovf")) (snd hs_done1).
Proof.
  rewrite hs_fst1. change (destination (L "/home/a.ova") (L "/out/b.ovf")) with (L "/out/b.ovf"). apply (cf_fits _ ex_names ex_refs); [vm_compute; reflexivity|vm_compute; reflexivity|vm_compute; reflexivity| |vm_compute; reflexivity|vm_compute; reflexivity|exact cf_names].
  destruct (hs_steps hs_add _ _ _ I hs_does1) as (_ & new & m' & -> & S). cbn [package_of_vmd o_hardware]. rewrite <- cf_version. exact (CommandFileProofs.now_reachable env0 cf_package m' S cf_reads).
Qed.
Lemma hs_world_is : hs_world = fst (command_in env0 sv_digest hs_print hs_parse sv_capacity 9 (does env0 hs_add hs_wd) ex_world hs_wd (L "/home/a.ova") false (L "/out/b.ovf")).
Proof. unfold hs_world, command_in. rewrite hs_open0, hs_open1. reflexivity. Qed.
Lemma hs_read1 : hs_parse (hs_print (hs_tree (hs_prepared hs_add ex_world (L "/home/a.ova") cf_package))) = Some (hs_tree (hs_prepared hs_add ex_world (L "/home/a.ova") cf_package)). Proof. vm_compute. reflexivity. Qed.
Lemma hs_ok1 : snd (command_in env0 sv_digest hs_print hs_parse sv_capacity 9 (does env0 hs_add hs_wd) ex_world hs_wd (L "/home/a.ova") false (L "/out/b.ovf")) = Ok tt.
Proof. vm_compute. reflexivity. Qed.
Lemma hs_ran1 : ran env0 sv_digest hs_print hs_parse sv_capacity 9 hs_add ex_world (L "/home/a.ova") cf_package hs_world (L "/out/b.ovf").
Proof.
  exists [L "tmp"], (L "cot"), false, (L "/out/b.ovf"). split; [reflexivity|]. split.
  - cbn [suits]. destruct C72_example as (_ & _ & NS & _ & DA & KT & _). rewrite cf_version. split; [exact NS|]. split; [intros _; exact DA|]. split; [intros c H; injection H as <-; exact KT|exact KT].
  - rewrite hs_world_is. exact (hs_runs hs_add ex_world (L "/home/a.ova") (L "/out/b.ovf") cf_package hs_done1 hs_open1 hs_does1 hs_can1 hs_read1 hs_ok1).
Qed.
(** The second run *)
Lemma hs_open2 : factory env0 sv_digest hs_parse hs_world hs_wd (L "/out/b.ovf") (L "/new/c.ovf") = Ok hs_package. Proof. vm_compute. reflexivity. Qed.
Lemma hs_version : o_version hs_package = V1. Proof. vm_compute. reflexivity. Qed.
Lemma hs_after : after_opening hs_world hs_wd (L "/out/b.ovf") = hs_world. Proof. reflexivity. Qed.
Definition hs_done2 : world * ovf := some_result (does env0 hs_remove hs_wd hs_world hs_package).
Lemma hs_does2 : does env0 hs_remove hs_wd (after_opening hs_world hs_wd (L "/out/b.ovf")) hs_package = Ok hs_done2. Proof. vm_compute. reflexivity. Qed.
Definition hs_refs : list (str * ref) := [(L "c.txt", OnDisk (L "/out") (L "c.txt"))].
Lemma hs_names : copyable hs_world [L "new"] (L "c.ovf") (L "c.mf") [L "c.txt"] hs_refs (fun _ => L "new").
Proof.
  constructor.
  + repeat constructor; vm_compute; intuition discriminate.
  + repeat constructor; vm_compute; intuition discriminate.
  + intros h. reflexivity.
  + intros h [<-|[]]. split; [exists [L "c.txt"]; split; [discriminate|]; split; [intros c [<-|[]]; repeat split; vm_compute; intuition discriminate|reflexivity]|]. repeat split; vm_compute; intuition discriminate.
  + intros h r [X|[]]; injection X as <- <-; vm_compute; reflexivity.
  + intros h d n [X|[]]; injection X as <- <- <-; vm_compute; intuition discriminate.
  + intros h t n [X|[]]; discriminate X.
Qed.
Lemma hs_fits : forall o1, o_version o1 = V1 -> names_in V1 (o_references o1) = [L "c.txt"] -> o_files o1 = hs_refs -> hw_reachable V1 (o_hardware o1) ->
  forallb (CommandHwProps.simple_b (env_of env0 o1)) (o_hardware o1) = true -> CommandHwProps.plain_b o1 = true -> can_be_written env0 hs_world hs_wd (L "/new/c.ovf") o1.
Proof.
  intros o1 F1 F2 F3 F4 F5 F6. constructor.
  - apply (CommandHwProps.simple_ok (env_of env0 o1)); [|exact F5]. change (hw_reachable (o_version o1) (o_hardware o1)). now rewrite F1.
  - rewrite F1. intros x c Hx Ix Hc. unfold CommandHwProps.plain_b in F6. rewrite forallb_forall in F6. specialize (F6 x Hx). apply orb_prop in F6 as [F6|F6].
    + apply negb_true_iff in F6. unfold is_item_elem in F6. destruct Ix as [Ix|[Ix|Ix]]; rewrite Ix in F6; discriminate F6.
    + rewrite forallb_forall in F6. specialize (F6 c Hc). apply andb_prop in F6 as [A B]. split; [now destruct (echildren c)|now apply mem_str_In].
  - rewrite F1. intros F. discriminate F.
  - apply (fits_descriptor _ _ _ _ [L "new"] (L "c") (fun _ => L "new")); [reflexivity|discriminate| | | |].
    + intros c [<-|[]]. repeat split; vm_compute; intuition discriminate.
    + split; [vm_compute; intuition discriminate|]. exists "c"%char. split; [now left|discriminate].
    + vm_compute. intuition discriminate.
    + rewrite F1, F2, F3. exact hs_names.
Qed.
Lemma hs_can2 : can_be_written env0 (fst hs_done2) hs_wd (destination (L "/out/b.ovf") (L "/new/c.ovf")) (snd hs_done2).
Proof.
  change (destination (L "/out/b.ovf") (L "/new/c.ovf")) with (L "/new/c.ovf").
  destruct (hs_steps hs_remove _ _ _ I hs_does2) as (F & new & m' & HS & S). rewrite F, hs_after. apply hs_fits; [vm_compute; reflexivity|vm_compute; reflexivity|vm_compute; reflexivity| |vm_compute; reflexivity|vm_compute; reflexivity].
  rewrite HS. cbn [package_of_vmd o_hardware]. rewrite <- hs_version. exact (CommandFileProofs.now_reachable env0 hs_package m' S (CommandProofs2.factory_reads _ _ _ _ _ _ _ _ hs_open2)).
Qed.
Lemma hs_read2 : hs_parse (hs_print (hs_tree (hs_prepared hs_remove hs_world (L "/out/b.ovf") hs_package))) = Some (hs_tree (hs_prepared hs_remove hs_world (L "/out/b.ovf") hs_package)). Proof. vm_compute. reflexivity. Qed.
Lemma hs_ok2 : snd (command_in env0 sv_digest hs_print hs_parse sv_capacity 9 (does env0 hs_remove hs_wd) hs_world hs_wd (L "/out/b.ovf") false (L "/new/c.ovf")) = Ok tt.
Proof. vm_compute. reflexivity. Qed.
Lemma hs_open02 : factory env0 sv_digest (fun t => Some hs_one) hs_world hs_wd (L "/out/b.ovf") (L "/new/c.ovf") = Ok hs_package. Proof. vm_compute. reflexivity. Qed.
Lemma hs_end_is : hs_end = fst (command_in env0 sv_digest hs_print hs_parse sv_capacity 9 (does env0 hs_remove hs_wd) hs_world hs_wd (L "/out/b.ovf") false (L "/new/c.ovf")).
Proof. unfold hs_end, command_in. rewrite hs_open02, hs_open2. reflexivity. Qed.
Lemma hs_ran2 : ran env0 sv_digest hs_print hs_parse sv_capacity 9 hs_remove hs_world (L "/out/b.ovf") hs_package hs_end (L "/new/c.ovf").
Proof.
  exists [L "tmp"], (L "cot"), false, (L "/new/c.ovf"). split; [reflexivity|]. split; [exact I|].
  rewrite hs_end_is. exact (hs_runs hs_remove hs_world (L "/out/b.ovf") (L "/new/c.ovf") hs_package hs_done2 hs_open2 hs_does2 hs_can2 hs_read2 hs_ok2).
Qed.
(** The third run *)
Lemma hs_open3 : factory env0 sv_digest hs_parse hs_end hs_wd (L "/new/c.ovf") (L "/end/d.ovf") = Ok hs_last. Proof. vm_compute. reflexivity. Qed.
Lemma hs_version3 : o_version hs_last = V1. Proof. vm_compute. reflexivity. Qed.
Lemma hs_after3 : after_opening hs_end hs_wd (L "/new/c.ovf") = hs_end. Proof. reflexivity. Qed.
Definition hs_done3 : world * ovf := some_result (does env0 hs_edit hs_wd hs_end hs_last).
Lemma hs_does3 : does env0 hs_edit hs_wd (after_opening hs_end hs_wd (L "/new/c.ovf")) hs_last = Ok hs_done3. Proof. vm_compute. reflexivity. Qed.
Definition hs_refs3 : list (str * ref) := [(L "c.txt", OnDisk (L "/new") (L "c.txt"))].
Lemma hs_names3 : copyable hs_end [L "end"] (L "d.ovf") (L "d.mf") [L "c.txt"] hs_refs3 (fun _ => L "new").
Proof.
  constructor.
  + repeat constructor; vm_compute; intuition discriminate.
  + repeat constructor; vm_compute; intuition discriminate.
  + intros h. reflexivity.
  + intros h [<-|[]]. split; [exists [L "c.txt"]; split; [discriminate|]; split; [intros c [<-|[]]; repeat split; vm_compute; intuition discriminate|reflexivity]|]. repeat split; vm_compute; intuition discriminate.
  + intros h r [X|[]]; injection X as <- <-; vm_compute; reflexivity.
  + intros h d n [X|[]]; injection X as <- <- <-; vm_compute; intuition discriminate.
  + intros h t n [X|[]]; discriminate X.
Qed.
Lemma hs_fits3 : forall o1, o_version o1 = V1 -> names_in V1 (o_references o1) = [L "c.txt"] -> o_files o1 = hs_refs3 -> hw_reachable V1 (o_hardware o1) ->
  forallb (CommandHwProps.simple_b (env_of env0 o1)) (o_hardware o1) = true -> CommandHwProps.plain_b o1 = true -> can_be_written env0 hs_end hs_wd (L "/end/d.ovf") o1.
Proof.
  intros o1 F1 F2 F3 F4 F5 F6. constructor.
  - apply (CommandHwProps.simple_ok (env_of env0 o1)); [|exact F5]. change (hw_reachable (o_version o1) (o_hardware o1)). now rewrite F1.
  - rewrite F1. intros x c Hx Ix Hc. unfold CommandHwProps.plain_b in F6. rewrite forallb_forall in F6. specialize (F6 x Hx). apply orb_prop in F6 as [F6|F6].
    + apply negb_true_iff in F6. unfold is_item_elem in F6. destruct Ix as [Ix|[Ix|Ix]]; rewrite Ix in F6; discriminate F6.
    + rewrite forallb_forall in F6. specialize (F6 c Hc). apply andb_prop in F6 as [A B]. split; [now destruct (echildren c)|now apply mem_str_In].
  - rewrite F1. intros F. discriminate F.
  - apply (fits_descriptor _ _ _ _ [L "end"] (L "d") (fun _ => L "new")); [reflexivity|discriminate| | | |].
    + intros c [<-|[]]. repeat split; vm_compute; intuition discriminate.
    + split; [vm_compute; intuition discriminate|]. exists "d"%char. split; [now left|discriminate].
    + vm_compute. intuition discriminate.
    + rewrite F1, F2, F3. exact hs_names3.
Qed.
Lemma hs_reach3 : hw_reachable V1 (o_hardware hs_last).
Proof. rewrite <- hs_version3. exact (HardwareSpec.H_read _ (env_of env0 hs_last) _ _ eq_refl (CommandProofs2.factory_reads _ _ _ _ _ _ _ _ hs_open3)). Qed.
Lemma hs_hardware3 : o_hardware (snd hs_done3) = o_hardware hs_last. Proof. vm_compute. reflexivity. Qed.
Lemma hs_fst3 : fst hs_done3 = hs_end. Proof. reflexivity. Qed.
Lemma hs_can3 : can_be_written env0 (fst hs_done3) hs_wd (destination (L "/new/c.ovf") (L "/end/d.ovf")) (snd hs_done3).
Proof.
  change (destination (L "/new/c.ovf") (L "/end/d.ovf")) with (L "/end/d.ovf"). rewrite hs_fst3.
  apply hs_fits3; [vm_compute; reflexivity|vm_compute; reflexivity|vm_compute; reflexivity|rewrite hs_hardware3; exact hs_reach3|vm_compute; reflexivity|vm_compute; reflexivity].
Qed.
Lemma hs_before3 : can_be_written env0 (after_opening hs_end hs_wd (L "/new/c.ovf")) hs_wd (L "/end/d.ovf") hs_last.
Proof.
  rewrite hs_after3. apply hs_fits3; [vm_compute; reflexivity|vm_compute; reflexivity|vm_compute; reflexivity|exact hs_reach3|vm_compute; reflexivity|vm_compute; reflexivity].
Qed.
Lemma hs_read3 : hs_parse (hs_print (hs_tree (hs_prepared hs_edit hs_end (L "/new/c.ovf") hs_last))) = Some (hs_tree (hs_prepared hs_edit hs_end (L "/new/c.ovf") hs_last)). Proof. vm_compute. reflexivity. Qed.
Lemma hs_ok3 : snd (command_in env0 sv_digest hs_print hs_parse sv_capacity 9 (does env0 hs_edit hs_wd) hs_end hs_wd (L "/new/c.ovf") false (L "/end/d.ovf")) = Ok tt.
Proof. vm_compute. reflexivity. Qed.
Lemma hs_flat3 : match o_product hs_last with Some s => forallb (fun e => match echildren e with [] => true | _ => negb (mem_str (etag e) (map fst (ProductSpec.texts V1 ProductProps.opts1))) end) (echildren s) | None => true end = true.
Proof. vm_compute. reflexivity. Qed.
Lemma hs_plain3 : plain_texts (map fst (ProductSpec.texts V1 ProductProps.opts1)) hs_last.
Proof.
  intros s e H He It. pose proof hs_flat3 as F. rewrite H in F. rewrite forallb_forall in F. specialize (F e He). destruct (echildren e); [reflexivity|]. apply mem_str_In in It. rewrite It in F. discriminate F.
Qed.
Lemma hs_ran3 : ran env0 sv_digest hs_print hs_parse sv_capacity 9 hs_edit hs_end (L "/new/c.ovf") hs_last hs_final (L "/end/d.ovf").
Proof.
  exists [L "tmp"], (L "cot"), false, (L "/end/d.ovf"). split; [reflexivity|]. split; [cbn [suits]; split; [exact hs_before3|rewrite hs_version3; exact hs_plain3]|].
  exact (hs_runs hs_edit hs_end (L "/new/c.ovf") (L "/end/d.ovf") hs_last hs_done3 hs_open3 hs_does3 hs_can3 hs_read3 hs_ok3).
Qed.
Lemma hs_open4 : factory env0 sv_digest hs_parse hs_final hs_wd (L "/end/d.ovf") [] = Ok hs_product. Proof. vm_compute. reflexivity. Qed.
Lemma hs_proper : forall c, In c ([L "tmp"] ++ [L "cot"]) -> proper c.
Proof. intros c [<-|[<-|[]]]; vm_compute; repeat split; intuition discriminate. Qed.

(** The history meets the hypotheses.  At the end only the file is there that add-disk brought,
    and the product is the new one. *)
Example C74_example :
  history env0 sv_digest hs_print hs_parse sv_capacity 9 ex_world (L "/home/a.ova") cf_package [(hs_add, hs_package); (hs_remove, hs_last); (hs_edit, hs_product)] hs_final (L "/end/d.ovf") hs_product /\
  orderly (env_of env0 cf_package) (vmd_of cf_package) /\
  contents ex_world cf_package = [(L "sub/d.vmdk", Some (L "disk"))] /\
  contents hs_world hs_package = [(L "sub/d.vmdk", Some (L "disk")); (L "c.txt", Some (L "new"))] /\
  contents hs_end hs_last = [(L "c.txt", Some (L "new"))] /\
  contents hs_final hs_product = [(L "c.txt", Some (L "new"))] /\
  (class_of cf_package, text_of (ProductModel.VERSION V1) cf_package) = (Some (L "com.cisco.iosv"), Some (Some (L "15.1"))) /\
  (class_of hs_product, text_of (ProductModel.VERSION V1) hs_product) = (Some (L "com.cisco.csr1000v"), Some (Some (L "16.1"))) /\
  summary (vmd_of hs_product) = ([(Some (L "c.txt"), Some (L "c.txt"))], [(Some (L "c.txt"), Some (L "c.txt"))],
     [row "1" ["3"; ""; ""; ""; ""]; row "2" ["5"; "0"; ""; ""; ""]; row "4" ["17"; ""; "ovf:/disk/c.txt"; "2"; "1"]])%string.
Proof.
  split; [|split; [exact cf_orderly|vm_compute; repeat split]].
  apply (run_first _ _ _ _ _ _ _ _ _ _ _ _ _ _ _ _ _ hs_ran1); [exists [L "tmp"], (L "cot"), (L "/new/c.ovf"); split; [exact hs_proper|exact hs_open2]|].
  apply (run_first _ _ _ _ _ _ _ _ _ _ _ _ _ _ _ _ _ hs_ran2); [exists [L "tmp"], (L "cot"), (L "/end/d.ovf"); split; [exact hs_proper|exact hs_open3]|].
  apply (run_first _ _ _ _ _ _ _ _ _ _ _ _ _ _ _ _ _ hs_ran3); [exists [L "tmp"], (L "cot"), []; split; [exact hs_proper|exact hs_open4]|]. apply no_run.
Qed.

Print Assumptions C74_history.
Print Assumptions C74_files.
Print Assumptions C74_brought.
Print Assumptions C74_next.
