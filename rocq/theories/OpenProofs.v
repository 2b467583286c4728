(** Opening a package. *)
From Coq Require Import List Ascii Bool ZArith Lia.
Import ListNotations.
From Verif Require Import PyBase PyBaseProofs PyDict PyRegex PyRegexProofs XmlModel XmlSpec XmlProofs NamesModel ItemModel HardwareModel ProfileModel NetworkModel
  DriveModel EnvPropModel EditPropModel ProductModel PlatformModel InfoModel SelectModel RawModel PathModel PathSpec TarModel TarSpec TarProofs OvfWriteModel
  OpenModel OpenSpec OpenNameProofs OpenHwProofs OpenFileProofs.
Local Open Scope nat_scope.

(** ** The root *)
Lemma no_close_no_ns : forall t, ~ In "}"%char t -> get_ns t = [].
Proof.
  intros t H. unfold get_ns. rewrite (proj2 (re_match_none re_get_ns t)); [reflexivity|].
  intros (u & Hu). apply mt_seq_inv in Hu as (t1 & H1 & Hu). apply mt_lit_inv in H1. subst t.
  apply mt_seq_inv in Hu as (t2 & H2 & Hu). apply mt_group_inv in H2. apply mt_star_chr in H2 as (p & -> & _).
  apply mt_lit_inv in Hu. subst t2. apply H. right. apply in_or_app. right. now left.
Qed.
Lemma split_close : forall t : str, In "}"%char t -> exists a b, t = a ++ "}"%char :: b /\ ~ In "}"%char b.
Proof.
  intros t H. pose proof (split_last_spec "}"%char t) as S. destruct (split_last "}"%char t) as [[a b]|]; [exists a, b; exact S|contradiction].
Qed.
Definition ns_uri (v : version) : str :=
  match v with
  | V0 => L "http://www.vmware.com/schema/ovf/1/envelope"
  | V1 => L "http://schemas.dmtf.org/ovf/envelope/1"
  | V2 => L "http://schemas.dmtf.org/ovf/envelope/2"
  end.
Lemma envelope_tag_ns : forall v, envelope_tag v = "{"%char :: ns_uri v ++ "}"%char :: L "Envelope".
Proof. now destruct v. Qed.
Lemma envelope_ok : forall v, get_ns (envelope_tag v) = ns_uri v /\ strip_ns (envelope_tag v) = L "Envelope".
Proof.
  intros v. rewrite envelope_tag_ns. apply qualified_name.
  - destruct v; vm_compute; intuition discriminate.
  - vm_compute; intuition discriminate.
Qed.
Lemma root_ok : forall root v, etag root = envelope_tag v -> is_envelope root = true /\ ovf_version root = Ok v.
Proof.
  intros root v H. destruct (envelope_ok v) as [H1 H2]. unfold is_envelope, ovf_version. rewrite H, H1, H2. split.
  - rewrite (proj2 (str_eqb_eq _ _) eq_refl), andb_true_r. destruct v; vm_compute; reflexivity.
  - destruct v; vm_compute; reflexivity.
Qed.
Lemma root_only : forall root v, ~ In NL (etag root) -> is_envelope root = true -> ovf_version root = Ok v -> etag root = envelope_tag v.
Proof.
  intros root v N I V. unfold is_envelope in I. apply andb_true_iff in I as [_ I]. apply str_eqb_eq in I.
  assert (G : get_ns (etag root) = ns_uri v).
  { unfold ovf_version in V. destruct (str_eqb (get_ns (etag root)) (L "http://www.vmware.com/schema/ovf/1/envelope")) eqn:E0.
    - apply str_eqb_eq in E0. injection V as <-. exact E0.
    - destruct (str_eqb (get_ns (etag root)) (L "http://schemas.dmtf.org/ovf/envelope/1")) eqn:E1.
      + apply str_eqb_eq in E1. injection V as <-. exact E1.
      + destruct (str_eqb (get_ns (etag root)) (L "http://schemas.dmtf.org/ovf/envelope/2")) eqn:E2; [|discriminate].
        apply str_eqb_eq in E2. injection V as <-. exact E2. }
  assert (NE : ns_uri v <> []) by (destruct v; discriminate).
  destruct (etag root) as [|a t] eqn:Et.
  { exfalso. apply NE. rewrite <- G. apply unqualified_name. discriminate. }
  destruct (Ascii.eqb a "{"%char) eqn:Ea.
  2:{ exfalso. apply NE. rewrite <- G. apply unqualified_name. intros t' F. injection F as -> ->. discriminate. }
  apply Ascii.eqb_eq in Ea. subst a.
  destruct (in_dec Ascii.ascii_dec "}"%char t) as [C|C].
  2:{ exfalso. apply NE. rewrite <- G. apply no_close_no_ns. intros [F|F]; [discriminate|contradiction]. }
  apply split_close in C as (ns & name & -> & Nb).
  assert (Q : ~ In NL (ns ++ name)).
  { intros F. apply N. right. apply in_app_iff in F. apply in_or_app. destruct F as [F|F]; [now left|right; now right]. }
  destruct (qualified_name ns name Q Nb) as [Q1 Q2]. change (list ascii) with str in *. rewrite Q1 in G. rewrite Q2 in I. subst. now rewrite envelope_tag_ns.
Qed.
Lemma version_error : forall root e, ovf_version root = Err e -> e = EVMInitError.
Proof. intros root e. unfold ovf_version. repeat (destruct (str_eqb _ _); [discriminate|]). congruence. Qed.
Lemma envelope_tag_inj : forall v v', envelope_tag v = envelope_tag v' -> v = v'.
Proof. intros v v' H. destruct v, v'; try reflexivity; discriminate. Qed.

(** ** The sections *)
Lemma optional_spec : forall p tag attrib,
  match find_child p tag attrib false with
  | Ok o => at_most p tag attrib o
  | Err e => e = ELookupError /\ several p tag attrib
  end.
Proof.
  intros p tag attrib. pose proof (find_child_spec p tag attrib false) as H. destruct (find_child p tag attrib false) as [[e|]|e].
  - exact H.
  - exact (proj2 H).
  - destruct e; try contradiction; [|now split]. destruct H. discriminate.
Qed.
Lemma required_spec : forall p tag attrib,
  match required p tag attrib with
  | Ok e => only p tag attrib e
  | Err e => (e = ELookupError /\ several p tag attrib) \/ (e = EKeyError /\ none p tag attrib)
  end.
Proof.
  intros p tag attrib. unfold required. pose proof (find_child_spec p tag attrib true) as H. destruct (find_child p tag attrib true) as [[e|]|e]; cbn [rbind].
  - exact H.
  - destruct H. discriminate.
  - destruct e; try contradiction; [right; split; [reflexivity|exact (proj2 H)]|left; now split].
Qed.
Lemma only_In : forall p tag attrib e, only p tag attrib e -> In e (echildren p) /\ answers tag attrib e.
Proof. intros p tag attrib e (pre & post & -> & A & _). split; [apply in_or_app; right; now left|exact A]. Qed.
Lemma only_unique : forall p tag attrib e x, only p tag attrib e -> In x (echildren p) -> answers tag attrib x -> x = e.
Proof.
  intros p tag attrib e x (pre & post & Ec & A & N) I Ax. rewrite Ec in I. apply in_app_iff in I as [I|[I|I]]; [|now symmetry|];
    exfalso; apply (N x); try exact Ax; apply in_or_app; auto.
Qed.
Lemma only_fun : forall p tag attrib e e', only p tag attrib e -> only p tag attrib e' -> e = e'.
Proof. intros p tag attrib e e' H H'. destruct (only_In _ _ _ _ H) as [I A]. exact (only_unique _ _ _ _ _ H' I A). Qed.
Lemma only_none : forall p tag attrib e, only p tag attrib e -> none p tag attrib -> False.
Proof. intros p tag attrib e H N. destruct (only_In _ _ _ _ H) as [I A]. exact (N e I A). Qed.
Lemma only_several : forall p tag attrib e, only p tag attrib e -> several p tag attrib -> False.
Proof.
  intros p tag attrib e (pre & post & Ec & A & N) (a & x & b & y & c & Ec' & Ax & Ay). rewrite Ec in Ec'.
  assert (F : filter (child_match tag attrib) (pre ++ e :: post) = [e]).
  { assert (Z : forall l, (forall z, In z l -> ~ answers tag attrib z) -> filter (child_match tag attrib) l = []).
    { induction l as [|z l IH]; intros Hz; [reflexivity|]. cbn [filter]. destruct (child_match tag attrib z) eqn:M.
      - apply child_match_spec in M. exfalso. apply (Hz z); [now left|exact M].
      - apply IH. intros u Hu. apply Hz. now right. }
    rewrite filter_app. cbn [filter]. rewrite (proj2 (child_match_spec tag attrib e) A), !Z; [reflexivity| |]; intros z Hz; apply N, in_or_app; auto. }
  rewrite Ec', filter_app in F. cbn [filter] in F. rewrite (proj2 (child_match_spec tag attrib x) Ax), filter_app in F. cbn [filter] in F. rewrite (proj2 (child_match_spec tag attrib y) Ay) in F.
  apply (f_equal (@length elem)) in F. rewrite app_length in F. cbn [length] in F. rewrite app_length in F. cbn [length] in F. lia.
Qed.
Lemma at_most_several : forall p tag attrib o, at_most p tag attrib o -> several p tag attrib -> False.
Proof.
  intros p tag attrib [e|] H S; [exact (only_several _ _ _ _ H S)|]. destruct S as (a & x & b & y & c & Ec & Ax & Ay).
  apply (H x); [rewrite Ec; apply in_or_app; right; now left|exact Ax].
Qed.
Lemma at_most_fun : forall p tag attrib o o', at_most p tag attrib o -> at_most p tag attrib o' -> o = o'.
Proof.
  intros p tag attrib [e|] [e'|] H H'; [f_equal; exact (only_fun _ _ _ _ _ H H')|exfalso; exact (only_none _ _ _ _ H H')|exfalso; exact (only_none _ _ _ _ H' H)|reflexivity].
Qed.

(** ** The envelope *)
Section Envelope.
  Variable E : env.
  Variable digest : str -> str -> str.
  Variables (w : world) (c : container) (path : str) (root : elem).
  Hypothesis NLroot : ~ In NL (etag root).

  Theorem open_envelope_spec :
    match open_envelope E digest w c path root with
    | Ok o => described E digest w c path root o
    | Err e => envelope_wrong E w c path root e
    end.
  Proof.
    unfold open_envelope. destruct (is_envelope root) eqn:Ie; cbn [negb].
    2:{ apply e_root. intros v F. destruct (root_ok root v F). congruence. }
    destruct (ovf_version root) as [v|e] eqn:Iv; cbn [rbind].
    2:{ pose proof (version_error _ _ Iv) as ->. apply e_root. intros v F. destruct (root_ok root v F). congruence. }
    pose proof (root_only root v NLroot Ie Iv) as T.
    pose proof (required_spec root (REFERENCES v) []) as R1. destruct (required root (REFERENCES v) []) as [refs|e]; cbn [rbind].
    2:{ destruct R1 as [[-> R1]|[-> R1]]; [apply (e_several _ _ _ _ _ v (REFERENCES v, []) T); [now left|exact R1]|apply (e_none _ _ _ _ _ v (REFERENCES v, []) T); [now left|exact R1]]. }
    pose proof (optional_spec root (DISK_SECTION v) (DISK_SECTION_ATTRIB v)) as R2. destruct (find_child root (DISK_SECTION v) (DISK_SECTION_ATTRIB v) false) as [disks|e]; cbn [rbind].
    2:{ destruct R2 as [-> R2]. apply (e_several _ _ _ _ _ v (DISK_SECTION v, DISK_SECTION_ATTRIB v) T); [right; now left|exact R2]. }
    pose proof (optional_spec root (NETWORK_SECTION v) (NETWORK_SECTION_ATTRIB v)) as R3. destruct (find_child root (NETWORK_SECTION v) (NETWORK_SECTION_ATTRIB v) false) as [nets|e]; cbn [rbind].
    2:{ destruct R3 as [-> R3]. apply (e_several _ _ _ _ _ v (NETWORK_SECTION v, NETWORK_SECTION_ATTRIB v) T); [right; right; now left|exact R3]. }
    pose proof (optional_spec root (DEPLOY_OPT_SECTION v) []) as R4. destruct (find_child root (DEPLOY_OPT_SECTION v) [] false) as [deploy|e]; cbn [rbind].
    2:{ destruct R4 as [-> R4]. apply (e_several _ _ _ _ _ v (DEPLOY_OPT_SECTION v, []) T); [do 3 right; now left|exact R4]. }
    pose proof (required_spec root (VIRTUAL_SYSTEM v) (VIRTUAL_SYSTEM_ATTRIB v)) as R5. destruct (required root (VIRTUAL_SYSTEM v) (VIRTUAL_SYSTEM_ATTRIB v)) as [sys|e]; cbn [rbind].
    2:{ destruct R5 as [[-> R5]|[-> R5]]; [apply (e_several _ _ _ _ _ v (VIRTUAL_SYSTEM v, VIRTUAL_SYSTEM_ATTRIB v) T); [do 4 right; now left|exact R5]|apply (e_none _ _ _ _ _ v (VIRTUAL_SYSTEM v, VIRTUAL_SYSTEM_ATTRIB v) T); [right; now left|exact R5]]. }
    pose proof (optional_spec sys (PRODUCT_SECTION v) (PRODUCT_SECTION_ATTRIB v)) as R6. destruct (find_child sys (PRODUCT_SECTION v) (PRODUCT_SECTION_ATTRIB v) false) as [prod|e]; cbn [rbind].
    2:{ destruct R6 as [-> R6]. apply (e_sys_several _ _ _ _ _ v sys (PRODUCT_SECTION v, PRODUCT_SECTION_ATTRIB v) T R5); [now left|exact R6]. }
    pose proof (optional_spec sys (ANNOTATION_SECTION v) (ANNOTATION_SECTION_ATTRIB v)) as R7. destruct (find_child sys (ANNOTATION_SECTION v) (ANNOTATION_SECTION_ATTRIB v) false) as [ann|e]; cbn [rbind].
    2:{ destruct R7 as [-> R7]. apply (e_sys_several _ _ _ _ _ v sys (ANNOTATION_SECTION v, ANNOTATION_SECTION_ATTRIB v) T R5); [right; now left|exact R7]. }
    pose proof (required_spec sys (VIRTUAL_HW_SECTION v) (VIRTUAL_HW_SECTION_ATTRIB v)) as R8. destruct (required sys (VIRTUAL_HW_SECTION v) (VIRTUAL_HW_SECTION_ATTRIB v)) as [hws|e]; cbn [rbind].
    2:{ destruct R8 as [[-> R8]|[-> R8]]; [apply (e_sys_several _ _ _ _ _ v sys (VIRTUAL_HW_SECTION v, VIRTUAL_HW_SECTION_ATTRIB v) T R5); [right; right; now left|exact R8]|exact (e_sys_none _ _ _ _ _ v sys T R5 R8)]. }
    set (E' := mkEnv v (named match deploy with Some s => config_ids v s | None => [] end) (e_re_sub E) (e_seq_repr E) (e_tostring E) (e_fromstring E)).
    pose proof (read_hardware_spec E' hws) as R9. destruct (read_hardware E' hws) as [h|e]; cbn [rbind].
    2:{ assert (W : envelope_wrong E w c path root (match e with EOVFHardwareData => EVMInitError | _ => e end))
          by exact (e_hardware _ _ _ _ _ v sys hws deploy e T R5 R8 R4 R9). destruct e; exact W. }
    pose proof (file_elems_spec v (findall (FILE v) refs)) as R10. destruct (file_elems v (findall (FILE v) refs)) as [es|e]; cbn [rbind].
    2:{ destruct R10 as (-> & x & I & H). apply file_in in I as [I1 I2]. exact (e_href _ _ _ _ _ v refs x T R1 I1 I2 H). }
    pose proof (load_files_spec (digest (checksum_algorithm v)) w c path v refs es R10) as R11.
    destruct (load_files (digest (checksum_algorithm v)) w c path es) as [[files cs]|e]; cbn [rbind fst snd].
    2:{ destruct R11 as [[-> R11]|(-> & hh & s & r & data & L1 & L2 & L3)]; [exact (e_descriptor _ _ _ _ _ v T R11)|exact (e_size _ _ _ _ _ v refs hh s r data T R1 L1 L2 L3)]. }
    destruct R11 as (F1 & F2 & F3 & F4). destruct R9 as [H1 H2].
    constructor; cbn [o_version o_envelope o_references o_disks o_networks o_deploy o_system o_product o_annotation o_hardware_section o_profiles o_hardware o_platform o_files o_complaints]; try assumption; try reflexivity.
    - split; [exact H1|exact H2].
    - intros e I Te F. assert (X : In e (findall (FILE v) refs)) by now apply file_in.
      clear - R10 X F. induction R10 as [|y x l xs [Y1 Y2] G IH]; [destruct X|]. destruct X as [->|X]; [congruence|exact (IH X)].
  Qed.

  Lemma wrong_not_described : forall e o, envelope_wrong E w c path root e -> described E digest w c path root o -> False.
  Proof.
    intros e o W D. destruct D as [D1 D2 D3 D4 D5 D6 D7 D8 D9 D10 D11 D12 D13 D14 D15 D16 D17 D18].
    destruct W as [H|v tag T I N|v tag T I N|v sys T S N|v sys tag T S I N|v sys hws deploy e T S H Dp W|v refs x T R I Tx H|v T M|v refs hh s r data T R LS F P];
      [exact (H _ D2)|..]; rewrite D2 in T; apply envelope_tag_inj in T; subst v.
    - destruct I as [<-|[<-|[]]]; cbn [fst snd] in N; [exact (only_none _ _ _ _ D3 N)|exact (only_none _ _ _ _ D7 N)].
    - destruct I as [<-|[<-|[<-|[<-|[<-|[]]]]]]; cbn [fst snd] in N;
        [exact (only_several _ _ _ _ D3 N)|exact (at_most_several _ _ _ _ D4 N)|exact (at_most_several _ _ _ _ D5 N)|exact (at_most_several _ _ _ _ D6 N)|exact (only_several _ _ _ _ D7 N)].
    - pose proof (only_fun _ _ _ _ _ S D7) as ->. exact (only_none _ _ _ _ D10 N).
    - pose proof (only_fun _ _ _ _ _ S D7) as ->. destruct I as [<-|[<-|[<-|[]]]]; cbn [fst snd] in N;
        [exact (at_most_several _ _ _ _ D8 N)|exact (at_most_several _ _ _ _ D9 N)|exact (only_several _ _ _ _ D10 N)].
    - pose proof (only_fun _ _ _ _ _ S D7) as ->. pose proof (only_fun _ _ _ _ _ H D10) as ->. pose proof (at_most_fun _ _ _ _ _ Dp D6) as ->.
      rewrite <- D11 in W. exact (wrong_not_fine _ _ _ W (proj1 D12)).
    - pose proof (only_fun _ _ _ _ _ R D3) as ->. exact (D14 x I Tx H).
    - destruct D16 as (r & data & F). exact (M r data F).
    - pose proof (only_fun _ _ _ _ _ R D3) as ->. exact (D15 hh s r data LS F P).
  Qed.
End Envelope.

(** ** The archive *)
Lemma first_unique : forall (A A' B B' : archive) m m', A ++ m :: B = A' ++ m' :: B' ->
  ovf_name (t_name m) -> ovf_name (t_name m') -> (forall x, In x A -> ~ ovf_name (t_name x)) -> (forall x, In x A' -> ~ ovf_name (t_name x)) -> m = m'.
Proof.
  induction A as [|a A IH]; intros [|a' A'] B B' m m' H O O' N N'; cbn [app] in H; injection H as H1 H2.
  - exact H1.
  - subst. exfalso. apply (N' a'); [now left|exact O].
  - subst. exfalso. apply (N m'); [now left|exact O'].
  - subst. apply (IH A' B B' m m' H2 O O'); intros x Hx; [apply N|apply N']; now right.
Qed.
Lemma untar_iff : forall d u tar, (forall c, In c (d ++ [u]) -> proper c) ->
  match untar (path_of (d ++ [u])) tar with
  | Ok (m, p) => extracted d u tar m p
  | Err e => e = EVMInitError /\ forall m p, ~ extracted d u tar m p
  end.
Proof.
  intros d u tar P. destruct tar as [a|].
  2:{ cbn [untar]. split; [reflexivity|]. intros m p (a & A & B & F & _). discriminate. }
  pose proof (untar_spec d u a P) as S. destruct (untar (path_of (d ++ [u])) (Some a)) as [[m p]|e].
  - destruct S as ((A & B & S1 & S2 & S3) & S4 & S5). exists a, A, B. now repeat split; try assumption; apply S5.
  - destruct S as [-> S]. split; [reflexivity|]. intros m p (a' & A & B & F & S1 & S2 & S3 & S4 & S5). injection F as <-.
    assert (I : In m a) by (rewrite S1; apply in_or_app; right; now left).
    destruct S as [->|[(x & Hx & [T|T])|S]]; [destruct I|apply (S5 x Hx), T|apply T, (S5 x Hx)|exact (S m I S2)].
Qed.
Lemma extracted_unique : forall d u tar m p m' p', extracted d u tar m p -> extracted d u tar m' p' -> m = m' /\ p = p'.
Proof.
  intros d u tar m p m' p' (a & A & B & H1 & H2 & H3 & H4 & H5 & _) (a' & A' & B' & H1' & H2' & H3' & H4' & H5' & _).
  rewrite H1 in H1'. injection H1' as <-. rewrite H2 in H2'. pose proof (first_unique _ _ _ _ _ _ H2' H3 H3' H4 H4'). subst. now split.
Qed.
(** the extracted path stands for a descriptor *)
Lemma path_join_shape : forall a b, exists pre, path_join a b = pre ++ b /\ (pre = [] \/ exists q, pre = q ++ ["/"%char]).
Proof.
  intros a b. unfold path_join. destruct (starts_with (L "/") b); [exists []; split; [reflexivity|now left]|].
  destruct a as [|c a]; [exists []; split; [reflexivity|now left]|]. destruct (ends_with (L "/") (c :: a)) eqn:En.
  - exists (c :: a). split; [reflexivity|]. right. apply ends_with_spec in En as [q Hq]. exists q. exact Hq.
  - exists ((c :: a) ++ L "/"). split; [now rewrite <- app_assoc|]. right. now exists (c :: a).
Qed.
Lemma extracted_kind : forall d u tar m p, extracted d u tar m p -> kind_of p (L ".ovf").
Proof.
  intros d u tar m p (a & A & B & _ & _ & (dir & base & Hn & Hd & Nb & Hc) & _ & -> & _).
  apply (by_extension _ (L "ovf")); [now left|]. destruct (path_join_shape (path_of (d ++ [u])) (t_name m)) as (pre & -> & Hp).
  exists (pre ++ dir), base. split; [rewrite Hn, app_assoc; reflexivity|]. split; [|now split].
  destruct Hd as [->|[q ->]]; [now rewrite app_nil_r|right; exists (pre ++ q); now rewrite app_assoc].
Qed.
Lemma kind_fun : forall p k k', kind_of p k -> kind_of p k' -> k = k'.
Proof. intros p k k' H H'. apply kind_unique in H. apply kind_unique in H'. congruence. Qed.
Lemma kind_cases : forall p k, kind_of p k -> k = L ".ovf" \/ (k = L ".ova" \/ k = L ".box").
Proof. intros p k [e [<-|[<-|[<-|[]]]] _|e pre _ [<-|[<-|[]]] _ _]; auto. Qed.

(** ** The whole *)
Section Whole.
  Variable E : env.
  Variable digest : str -> str -> str.
  Variable parse : str -> option elem.
  Variables (w : world) (d : list str) (u input output : str).
  Hypothesis Hd : forall c, In c (d ++ [u]) -> proper c.
  Hypothesis Hp : forall t r, parse t = Some r -> ~ In NL (etag r).
  Let wd := path_of (d ++ [u]).

  Lemma descriptor_fun : forall c p t w' c' p' t' w'', descriptor_is w d u input c p t w' -> descriptor_is w d u input c' p' t' w'' ->
    c = c' /\ p = p' /\ t = t' /\ w' = w''.
  Proof.
    intros c p t w' c' p' t' w'' H H'.
    destruct H as [t K R|k m p K N X Lk|k m p target t K N X Lk R]; destruct H' as [t' K' R'|k' m' p' K' N' X' Lk'|k' m' p' target' t' K' N' X' Lk' R'];
      try (exfalso; first [apply N'; exact (kind_fun _ _ _ K' K)|apply N; exact (kind_fun _ _ _ K K')]);
      try (destruct (extracted_unique _ _ _ _ _ _ _ X X') as [-> ->]); try congruence.
    - rewrite R in R'. injection R' as <-. now repeat split.
    - now repeat split.
    - rewrite Lk in Lk'. injection Lk' as <-. rewrite R in R'. injection R' as <-. now repeat split.
  Qed.

  (** what [descriptor] finds *)
  Lemma descriptor_spec :
    match descriptor w wd input with
    | Ok (p, Some t, w') => exists c, descriptor_is w d u input c p t w' /\
        c = (if str_eqb input p then Dir (dirname (normpath p)) else Tar (normpath input))
    | Ok (p, None, w') => refused E parse w d u input output EEnvironment
    | Err EValueUnsupported => forall k, ~ kind_of input k
    | Err e => refused E parse w d u input output e
    end.
  Proof.
    unfold descriptor. pose proof (detect_spec input) as S. destruct (detect_type input) as [k|e]; cbn [rbind].
    2:{ destruct S as [-> S]. exact S. }
    destruct (str_eqb k (L ".ova") || str_eqb k (L ".box")) eqn:B.
    - assert (N : k <> L ".ovf") by (intros ->; discriminate).
      pose proof (untar_iff d u (w_tars w (normpath input)) Hd) as U. fold wd in U. destruct (untar wd (w_tars w (normpath input))) as [[m p]|e]; cbn [rbind fst snd].
      2:{ destruct U as [-> U]. exact (r_archive _ _ _ _ _ _ _ k S N U). }
      assert (NE : str_eqb input p = false).
      { destruct (str_eqb input p) eqn:Eq; [|reflexivity]. apply str_eqb_eq in Eq. subst p. exfalso. apply N. exact (kind_fun _ _ _ S (extracted_kind _ _ _ _ _ U)). }
      destruct (t_link m) as [target|] eqn:Lk.
      + destruct (read w (path_join (dirname p) target)) as [t|] eqn:R.
        * exists (Tar (normpath input)). rewrite NE. split; [exact (in_archive_link _ _ _ _ k m p target t S N U Lk R)|reflexivity].
        * exact (r_link _ _ _ _ _ _ _ k m p target S N U Lk R).
      + exists (Tar (normpath input)). rewrite NE. split; [exact (in_archive _ _ _ _ k m p S N U Lk)|reflexivity].
    - assert (K : k = L ".ovf") by (destruct (kind_cases _ _ S) as [->|[->| ->]]; [reflexivity|discriminate|discriminate]). subst k.
      destruct (read w input) as [t|] eqn:R.
      + exists (Dir (dirname (normpath input))). rewrite (proj2 (str_eqb_eq input input) eq_refl). split; [exact (in_place _ _ _ _ t S R)|reflexivity].
      + exact (r_file _ _ _ _ _ _ _ S R).
  Qed.

  Theorem factory_spec :
    match factory E digest parse w wd input output with
    | Ok o => (output = [] \/ exists k, kind_of output k) /\
        exists c p t w' root, descriptor_is w d u input c p t w' /\ parse t = Some root /\ described E digest w' c p root o
    | Err e => refused E parse w d u input output e
    end.
  Proof.
    unfold factory, open_ovf. pose proof (detect_spec input) as S. destruct (detect_type input) as [k|e].
    2:{ destruct S as [-> S]. exact (r_name _ _ _ _ _ _ _ S). }
    assert (O : match (if is_nil output then Ok tt else do _ <- detect_type output; Ok tt) with
                | Ok _ => output = [] \/ exists k, kind_of output k
                | Err e => e = EValueUnsupported /\ output <> [] /\ forall k, ~ kind_of output k end).
    { destruct output as [|c o]; cbn [is_nil]; [now left|]. pose proof (detect_spec (c :: o)) as So. destruct (detect_type (c :: o)) as [ko|e]; cbn [rbind].
      - right. now exists ko.
      - destruct So as [-> So]. repeat split; [discriminate|exact So]. }
    destruct (if is_nil output then Ok tt else do _ <- detect_type output; Ok tt) as [[]|e]; cbn [rbind].
    2:{ destruct O as (-> & O1 & O2). exact (r_output _ _ _ _ _ _ _ O1 O2). }
    pose proof descriptor_spec as D. destruct (descriptor w wd input) as [[[p [t|]] w']|e]; cbn [rbind].
    - destruct D as (c & D & Ec). rewrite <- Ec. destruct (parse t) as [root|] eqn:P.
      + pose proof (open_envelope_spec E digest w' c p root (Hp t root P)) as S'. destruct (open_envelope E digest w' c p root) as [o|e].
        * split; [exact O|]. exists c, p, t, w', root. exact (conj D (conj P S')).
        * assert (W : refused E parse w d u input output (match e with EValueUnsupported => EVMInitError | _ => e end))
            by exact (r_envelope _ _ _ _ _ _ _ c p t w' root e D P S'). destruct e; exact W.
      + exact (r_xml _ _ _ _ _ _ _ c p t w' D P).
    - exact D.
    - destruct e; try exact D. exfalso. exact (D k S).
  Qed.

  Lemma refused_not_described : forall e c p t w' root o, refused E parse w d u input output e ->
    (output = [] \/ exists k, kind_of output k) -> descriptor_is w d u input c p t w' -> parse t = Some root -> described E digest w' c p root o -> False.
  Proof.
    intros e c p t w' root o H O D P De.
    destruct H as [N|O1 O2|k K N X|K R|k m path target K N X Lk R|c' p' t' w'' D' P'|c' p' t' w'' root' e D' P' W].
    - destruct D as [? K|? ? ? K|? ? ? ? ? K]; exact (N _ K).
    - destruct O as [->|[k O]]; [now apply O1|exact (O2 k O)].
    - destruct D as [t K' _|k' m' p' K' N' X' _|k' m' p' target' t' K' N' X' _ _];
        [apply N; exact (kind_fun _ _ _ K K')|exact (X _ _ X')|exact (X _ _ X')].
    - destruct D as [t K' R'|k' m' p' K' N' X' _|k' m' p' target' t' K' N' X' _ _];
        [congruence|apply N'; exact (kind_fun _ _ _ K' K)|apply N'; exact (kind_fun _ _ _ K' K)].
    - destruct D as [t K' R'|k' m' p' K' N' X' Lk'|k' m' p' target' t' K' N' X' Lk' R'].
      + apply N; exact (kind_fun _ _ _ K K').
      + destruct (extracted_unique _ _ _ _ _ _ _ X X') as [-> ->]. congruence.
      + destruct (extracted_unique _ _ _ _ _ _ _ X X') as [-> ->]. rewrite Lk in Lk'. injection Lk' as <-. congruence.
    - destruct (descriptor_fun _ _ _ _ _ _ _ _ D D') as (-> & -> & -> & ->). congruence.
    - destruct (descriptor_fun _ _ _ _ _ _ _ _ D D') as (-> & -> & -> & ->). rewrite P in P'. injection P' as <-.
      exact (wrong_not_described E digest _ _ _ _ e o W De).
  Qed.

  Theorem opens_iff :
    (exists o, factory E digest parse w wd input output = Ok o) <->
    (output = [] \/ exists k, kind_of output k) /\
    exists c p t w' root o, descriptor_is w d u input c p t w' /\ parse t = Some root /\ described E digest w' c p root o.
  Proof.
    pose proof factory_spec as S. split.
    - intros [o H]. rewrite H in S. destruct S as (O & c & p & t & w' & root & S). split; [exact O|]. exists c, p, t, w', root, o. exact S.
    - intros (O & c & p & t & w' & root & o & D & P & De). destruct (factory E digest parse w wd input output) as [o'|e]; [now exists o'|].
      exfalso. exact (refused_not_described e c p t w' root o S O D P De).
  Qed.
  Theorem refused_iff :
    (exists e, factory E digest parse w wd input output = Err e) <-> exists e, refused E parse w d u input output e.
  Proof.
    pose proof factory_spec as S. split.
    - intros [e H]. rewrite H in S. now exists e.
    - intros [e R]. destruct (factory E digest parse w wd input output) as [o|e']; [|now exists e'].
      exfalso. destruct S as (O & c & p & t & w' & root & D & P & De). exact (refused_not_described e c p t w' root o R O D P De).
  Qed.
End Whole.
