(** Proofs about running commands: the exit code, and commands that go well. *)
From Coq Require Import Lia Permutation.
From Verif Require Import PyBase PyBaseProofs TarModel CliModel CliSpec CliProofs.
Local Open Scope nat_scope.

Section MainTrace.
  Variable oracle : nat -> answer.
  Variable abspath : str -> str.
  Hypothesis abs_ok : forall p, abspath p <> [].

  Lemma cmd_destroy_trace : forall s, s_trace (fst (cmd_destroy oracle s)) = s_trace s.
  Proof.
    intros s. unfold cmd_destroy. destruct (s_vm s) as [[d o]|]; [|reflexivity]. unfold bind. pose proof (vm_destroy_quiet oracle d s) as (E & _).
    destruct (vm_destroy oracle d s) as [s' [e|[]]]; exact E.
  Qed.
  Lemma cmd_destroy_blame : forall s s' e, cmd_destroy oracle s = (s', inl e) -> exists i, oracle i = Raises e.
  Proof.
    intros s s' e. unfold cmd_destroy. destruct (s_vm s) as [[d o]|]; [|discriminate]. unfold bind. destruct (vm_destroy oracle d s) as [s1 [e'|[]]] eqn:E; [|discriminate].
    intros H. injection H as _ <-. exact (vm_destroy_blame oracle d s s1 e' E).
  Qed.
  Lemma uncaught_handled : forall e, uncaught e = 0%Z -> handled e = 0%Z.
  Proof. intros []; cbn; try discriminate. intros H; exact H. Qed.

  Theorem main_spec : forall k attrs n, (k = Writer -> named_package attrs <> Some []) ->
    let (s, code) := main oracle abspath k attrs n start in
    prefix (s_trace s) (script abspath k attrs n) /\
    (code = 0%Z -> (s_trace s = script abspath k attrs n /\ (k <> Plain -> named_package attrs <> None)) \/ raised oracle (fun e => handled e = 0%Z)).
  Proof.
    intros k attrs n NP. unfold main. pose proof (h_body oracle abspath abs_ok k attrs n NP start eq_refl) as H.
    destruct (body oracle abspath k attrs n start) as [s1 r]. pose proof (cmd_destroy_trace s1) as ET. destruct (cmd_destroy oracle s1) as [s2 r2] eqn:ED. cbn [fst] in ET.
    assert (BD : forall e, r2 = inl e -> uncaught e = 0%Z -> raised oracle (fun e => handled e = 0%Z)).
    { intros e -> Hu. destruct (cmd_destroy_blame s1 s2 e ED) as [i Hi]. exists i, e. split; [exact Hi|now apply uncaught_handled]. }
    destruct r as [e|[]].
    - destruct H as [HP HB]. split; [now rewrite ET|]. intros Hc. right. destruct r2 as [e2|[]]; [now apply (BD e2)|]. destruct HB as [HB|[i Hi]]; [contradiction|]. now exists i, e.
    - destruct H as [HP HB]. rewrite ET. split; [exists []; now rewrite HP, app_nil_r|]. intros Hc. destruct r2 as [e2|[]]; [right; now apply (BD e2)|]. left. now split.
  Qed.
  Lemma at_exit_trace : forall l s, s_trace (fold_left (fun s d => fst (vm_destroy oracle d s)) l s) = s_trace s.
  Proof. induction l as [|d l IH]; intros s; [reflexivity|]. cbn [fold_left]. rewrite IH. apply (vm_destroy_quiet oracle d s). Qed.
  Theorem process_spec : forall k args n, (k = Writer -> named_package (attribute_order args) <> Some []) ->
    let (s, code) := process oracle abspath k args n start in
    prefix (s_trace s) (script abspath k (attribute_order args) n) /\
    (code = 0%Z -> (s_trace s = script abspath k (attribute_order args) n /\ (k <> Plain -> named_package (attribute_order args) <> None)) \/ raised oracle (fun e => handled e = 0%Z)).
  Proof.
    intros k args n NP. unfold process. pose proof (main_spec k (attribute_order args) n NP) as H. destruct (main oracle abspath k (attribute_order args) n start) as [s code].
    unfold at_exit. now rewrite at_exit_trace.
  Qed.
End MainTrace.

(** ** Commands that go well *)
Section Well.
  Variable oracle : nat -> answer.
  Variable abspath : str -> str.
  Hypothesis abs_ok : forall p, abspath p <> [].
  Hypothesis well : forall i, oracle i = Says true.

  Definition succeeds {A : Type} (P : st -> Prop) (x : m A) : Prop := forall s, P s -> exists s' a, x s = (s', inr a).
  Lemma hoare_succeeds : forall A (P : st -> Prop) (x : m A) (Q : A -> st -> Prop) (R : exc -> st -> Prop),
    hoare P x Q R -> succeeds P x -> forall s, P s -> exists s' a, x s = (s', inr a) /\ Q a s'.
  Proof. intros A P x Q R H S s Hs. destruct (S s Hs) as (s' & a & E). specialize (H s Hs). rewrite E in H. now exists s', a. Qed.
  Lemma s_bind : forall A B (P : st -> Prop) (x : m A) (f : A -> m B) (Q : A -> st -> Prop) (R : exc -> st -> Prop),
    hoare P x Q R -> succeeds P x -> (forall a, succeeds (Q a) (f a)) -> succeeds P (bind x f).
  Proof. intros A B P x f Q R H S F s Hs. destruct (hoare_succeeds A P x Q R H S s Hs) as (s' & a & E & HQ). unfold bind. rewrite E. exact (F a s' HQ). Qed.
  Lemma s_then : forall A B (x : m A) (f : A -> m B), succeeds (fun _ => True) x -> (forall a, succeeds (fun _ => True) (f a)) -> succeeds (fun _ => True) (bind x f).
  Proof. intros A B x f H F s Hs. unfold bind. destruct (H s Hs) as (s' & a & E). rewrite E. exact (F a s' I). Qed.
  Lemma s_outside : succeeds (fun _ => True) (outside oracle).
  Proof. intros s _. unfold outside. rewrite well. eexists. eexists. reflexivity. Qed.
  Lemma s_require : forall e, succeeds (fun _ => True) (require oracle e).
  Proof. intros e s _. unfold require, bind, outside. rewrite well. eexists. eexists. reflexivity. Qed.
  Lemma s_ret : forall A (a : A), succeeds (fun _ => True) (ret a). Proof. intros A a s _. now exists s, a. Qed.
  Lemma s_emit : forall e, succeeds (fun _ => True) (emit e). Proof. intros e s _. eexists. eexists. reflexivity. Qed.
  Lemma s_weaken : forall A (P : st -> Prop) (x : m A), succeeds (fun _ => True) x -> succeeds P x. Proof. intros A P x H s _. now apply H. Qed.
  Lemma s_vm_destroy : forall d, succeeds (fun _ => True) (vm_destroy oracle d).
  Proof. intros d s _. unfold vm_destroy, outside. rewrite well. destruct (existsb _ _); eexists; eexists; reflexivity. Qed.
  Lemma s_cmd_destroy : succeeds (fun _ => True) (cmd_destroy oracle).
  Proof.
    intros s _. unfold cmd_destroy. destruct (s_vm s) as [[d o]|]; [|now exists s, tt]. apply (s_then _ _ (vm_destroy oracle d)); [apply s_vm_destroy| |exact I].
    intros a s0 _. eexists. eexists. reflexivity.
  Qed.
  Definition fine (out : str) : Prop := out = [] \/ writable out.
  Lemma fine_detect : forall c out, fine (c :: out) -> exists e, detect_type (c :: out) = Ok e.
  Proof. intros c out [H|[H|H]]; [discriminate| |]; eexists; exact H. Qed.
  Lemma s_factory : forall out, fine out -> succeeds (fun _ => True) (factory oracle out).
  Proof.
    intros out F. unfold factory. apply s_then; [apply s_require|]. intros ?. apply s_then; [apply s_outside|]. intros ?.
    apply s_then; [intros s _; eexists; eexists; reflexivity|]. intros d s _. unfold destroying.
    match goal with |- context [bind ?a ?b s] => assert (S : succeeds (fun _ => True) (bind a b)) end.
    { apply s_then; [|intros ?; apply s_then; [intros s0 _; eexists; eexists; reflexivity|intros ?; apply s_outside]].
      destruct out as [|c out]; [apply s_ret|]. destruct (fine_detect c out F) as [e ->]. apply s_ret. }
    destruct (S s I) as (s' & b & ->). eexists. eexists. reflexivity.
  Qed.
  Lemma s_set_package : forall k v, succeeds (fun s => k = Writer -> fine (s_out s)) (set_package oracle k v).
  Proof.
    intros k v s Hs. unfold set_package. unfold bind at 1. destruct (s_require XInvalid s I) as (s1 & [] & E1). rewrite E1.
    assert (O1 : s_out s1 = s_out s). { unfold require, bind, outside in E1. rewrite well in E1. injection E1 as <-. reflexivity. }
    unfold bind at 1. pose proof (h_cmd_destroy oracle (s_trace s1) (s_out s1) (s_pkg s1) (fun _ => True) I) as HD.
    destruct (hoare_succeeds _ _ _ _ _ HD (s_weaken _ _ _ s_cmd_destroy) s1 (conj eq_refl (conj eq_refl eq_refl))) as (s2 & [] & E2 & _ & O2 & _). rewrite E2.
    unfold bind. match goal with |- context [factory oracle ?o s2] => assert (F : fine o) end.
    { destruct k; [now left|now left|]. rewrite O2, O1. now apply Hs. }
    destruct (s_factory _ F s2 I) as (s3 & [] & ->). eexists. eexists. reflexivity.
  Qed.
  Lemma s_set_output : forall v, fine (norm_out abspath v) -> succeeds (fun _ => True) (set_output oracle abspath v).
  Proof.
    intros v F s _. unfold set_output. cbv zeta. change (match v with [] => [] | _ :: _ => abspath v end) with (norm_out abspath v). set (v' := norm_out abspath v) in *.
    destruct (str_eqb v' (s_out s)); [now exists s, tt|].
    match goal with |- context [bind ?a ?b s] => assert (S : succeeds (fun _ => True) (bind a b)) end; [|exact (S s I)].
    apply s_then.
    - destruct v' as [|c v']; [apply s_ret|]. apply s_then; [apply s_outside|]. intros [|]; (apply s_then; [apply s_require|intros ?; apply s_require]).
    - intros ?. apply s_then; [intros s0 _; eexists; eexists; reflexivity|]. intros ? s0 _. destruct (s_vm s0) as [[d o]|]; [|now exists s0, tt].
      destruct v' as [|c v'']; [eexists; eexists; reflexivity|]. destruct (fine_detect c v'' F) as [e ->]. eexists. eexists. reflexivity.
  Qed.
  (** the outputs that are given can be written *)
  Definition outputs_fine (l : list (str * str)) : Prop := forall v, In (L "output", v) l -> fine (norm_out abspath v).
  Lemma named_output_fine : forall l, outputs_fine l -> fine (named_output abspath l).
  Proof.
    induction l as [|x l IH] using rev_ind; intros H; [now left|]. rewrite (named_output_snoc abspath l x). destruct (str_eqb (fst x) (L "output")) eqn:E.
    - apply H. apply in_or_app. right. left. apply str_eqb_eq in E. destruct x as [a b]. cbn [fst] in E. now rewrite E.
    - apply IH. intros v Hv. apply H. apply in_or_app. now left.
  Qed.
  Lemma s_set_attr : forall k l name v, (k = Writer -> outputs_fine (l ++ [(name, v)])) -> succeeds (after abspath k l) (set_attr oracle abspath k name v).
  Proof.
    intros k l name v F s Hs. unfold set_attr.
    assert (SO : succeeds (fun _ => True) (outside oracle ;; ret tt)) by (apply s_then; [apply s_outside|intros ?; apply s_ret]).
    match goal with |- context [bind ?a ?b s] => assert (S : exists s' u, a s = (s', inr u)) end.
    { destruct k; [now apply SO| |]; (destruct (str_eqb name (L "package")); [apply s_set_package|]); try (now apply SO); try discriminate.
      - intros ?. destruct Hs as (_ & Ho & _). rewrite (Ho eq_refl). apply named_output_fine. intros v' Hv'. apply (F eq_refl). apply in_or_app. now left.
      - destruct (str_eqb name (L "output")) eqn:E; [|now apply SO]. apply s_set_output; [|exact I]. apply (F eq_refl). apply in_or_app. right. left. apply str_eqb_eq in E. now rewrite E. }
    destruct S as (s' & u & E). unfold bind at 1. rewrite E. eexists. eexists. reflexivity.
  Qed.
  Lemma s_set_attrs : forall k l done, (k = Writer -> outputs_fine (done ++ l)) -> succeeds (after abspath k done) (set_attrs oracle abspath k l).
  Proof.
    intros k. induction l as [|[name v] l IH]; intros done F; [apply s_weaken, s_ret|]. cbn [set_attrs].
    eapply s_bind; [apply (h_set_attr oracle abspath k done name v (fun _ => True) I)|apply s_set_attr|].
    - intros EK v' Hv'. apply (F EK). apply in_or_app. apply in_app_or in Hv' as [Hv'|[Hv'|[]]]; [now left|right; now left].
    - intros ?. apply IH. intros EK. specialize (F EK). now rewrite <- app_assoc.
  Qed.
  Lemma s_ready : forall k p o t, (k <> Plain -> p <> None) -> succeeds (at_ k p o t) (ready oracle k).
  Proof.
    intros k p o t Hp s Hs. unfold ready.
    assert (HR := at_require oracle k p o t XInvalid (fun _ => True) ltac:(discriminate) I).
    destruct (hoare_succeeds _ _ _ _ _ HR (s_weaken _ _ _ (s_require XInvalid)) s Hs) as (s1 & [] & E1 & H1). unfold bind at 1. rewrite E1.
    match goal with |- context [bind ?a ?b s1] => assert (E2 : a s1 = (s1, inr tt)) end.
    { destruct H1 as (_ & H1 & _). destruct k; [reflexivity| |]; specialize (H1 ltac:(discriminate)); specialize (Hp ltac:(discriminate)); rewrite H1; destruct p; [reflexivity|contradiction|reflexivity|contradiction]. }
    unfold bind at 1. rewrite E2. match goal with |- context [bind ?a ?b s1] => assert (S : succeeds (fun _ => True) (bind a b)) end; [|exact (S s1 I)].
    apply s_then; [intros s0 _; destruct (s_vm s0); [now apply s_require|now exists s0, tt]|]. intros ?. apply s_then; [destruct k; [apply s_ret|apply s_ret|apply s_require]|]. intros ?. apply s_emit.
  Qed.
  Lemma s_work : forall n from, succeeds (fun _ => True) (work oracle from n).
  Proof. induction n as [|n IH]; intros from; cbn [work]; [apply s_ret|]. apply s_then; [apply s_outside|]. intros ?. apply s_then; [apply s_emit|]. intros ?. apply IH. Qed.
  Lemma s_run : forall k p o n t, (k <> Plain -> p <> None) -> (k = Writer -> forall q, p = Some q -> fine (norm_out abspath q)) -> succeeds (at_ k p o t) (run oracle abspath k n).
  Proof.
    intros k p o n t Hp Hf. unfold run. eapply s_bind; [apply (h_ready oracle k p o t (fun _ => True) I)|now apply s_ready|]. intros ? s (Hs & _).
    match goal with |- context [bind ?a ?b s] => assert (S : exists s', a s = (s', inr tt)) end.
    { destruct k; [now exists s|now exists s|]. destruct (s_out s); [|now exists s]. destruct Hs as (_ & H & _). specialize (H ltac:(discriminate)). rewrite H. destruct p as [q|]; [|now exists s].
      destruct (s_set_output q (Hf eq_refl q eq_refl) s I) as (s' & [] & E). now exists s'. }
    destruct S as [s' E]. unfold bind at 1. rewrite E. now apply s_work.
  Qed.
  Lemma s_write : forall o, writable o -> succeeds (fun _ => True) (write oracle o).
  Proof.
    intros o F. unfold write. destruct o as [|c o]; [apply s_ret|]. apply s_then; [apply s_outside|]. intros ?.
    destruct F as [-> | ->]; cbn [str_eqb]; [change (str_eqb (L ".ova") (L ".ova")) with true|change (str_eqb (L ".ovf") (L ".ova")) with false; change (str_eqb (L ".ovf") (L ".ovf")) with true]; cbv iota;
      repeat (apply s_then; [apply s_outside || apply s_emit|intros ?]); apply s_emit.
  Qed.
  Lemma s_finished : forall k p o t, (k = Writer -> writable o) -> succeeds (at_ k p o t) (finished oracle k).
  Proof.
    intros k p o t F. unfold finished. destruct k; try (apply s_weaken, s_ret). intros s (H1 & H2 & H3 & H4). unfold linked in H4. destruct (s_vm s) as [[d vo]|]; [|now exists s, tt].
    rewrite (H4 eq_refl), (H3 eq_refl). apply (s_then _ _ (confirm_or_die oracle)); [apply s_require| |exact I]. intros ?. apply s_then; [apply s_emit|]. intros ?. apply s_write. now apply F.
  Qed.
  Theorem main_well : forall k attrs n,
    (k <> Plain -> exists p, named_package attrs = Some p /\ (k = Writer -> p <> [] /\ writable (abspath p))) ->
    (k = Writer -> forall v, v <> [] -> In (L "output", v) attrs -> writable (abspath v)) ->
    let (s, code) := main oracle abspath k attrs n start in s_trace s = script abspath k attrs n /\ code = 0%Z.
  Proof.
    intros k attrs n HP HO.
    assert (OF : k = Writer -> outputs_fine attrs).
    { intros EK v Hv. unfold fine, norm_out. destruct v as [|c v]; [now left|]. right. apply (HO EK); [discriminate|exact Hv]. }
    assert (NP : k = Writer -> named_package attrs <> Some []).
    { intros EK E. destruct (HP ltac:(now rewrite EK)) as (p & E' & H). destruct (H EK) as [H' _]. congruence. }
    assert (NN : k <> Plain -> named_package attrs <> None) by (intros EK; destruct (HP EK) as (p & -> & _); discriminate).
    set (p := named_package attrs) in *. set (o := named_output abspath attrs).
    assert (SB : succeeds (fun s => s = start) (body oracle abspath k attrs n)).
    { unfold body. eapply s_bind with (Q := fun _ => at_ k p o (names attrs)) (R := fun _ _ => True).
      - eapply h_conseq; [apply (h_set_attrs oracle abspath k attrs [] (fun _ => True) (fun _ _ _ => I))| | |exact (fun _ _ _ => I)].
        + intros s ->. unfold after, start, linked. cbn. now repeat split.
        + intros ? s (H1 & H2 & H3 & H4). now repeat split.
      - intros s ->. apply (s_set_attrs k attrs []); [exact OF|]. unfold after, start, linked. cbn. now repeat split.
      - intros ?. eapply s_bind; [apply (h_run oracle abspath abs_ok k p o n (names attrs) (fun _ => True) I (fun _ _ => I) NP)| |].
        + apply s_run; [exact NN|]. intros EK q Eq. destruct (HP ltac:(now rewrite EK)) as (p' & E' & H). fold p in E'. rewrite Eq in E'. injection E' as <-. destruct (H EK) as [Hq Hw].
          unfold norm_out. destruct q; [contradiction|]. now right.
        + intros ? s (Hs & _). eapply s_finished; [|exact Hs]. intros ->. unfold dest. pose proof (named_output_fine attrs (OF eq_refl)) as F. fold o in F.
          destruct o as [|c o']; [|destruct F as [F|F]; [discriminate|exact F]]. destruct (HP ltac:(discriminate)) as (p' & E' & H). fold p in E'. rewrite E'. now apply H. }
    unfold main. destruct (hoare_succeeds _ _ _ _ _ (h_body oracle abspath abs_ok k attrs n NP) SB start eq_refl) as (s1 & [] & E1 & HT & _). rewrite E1.
    destruct (s_cmd_destroy s1 I) as (s2 & [] & E2). pose proof (cmd_destroy_trace oracle s1) as ET. rewrite E2 in *. cbn [fst] in ET. split; [congruence|reflexivity].
  Qed.
End Well.

(** ** The order of attributes *)
Lemma given_In : forall args n v, In (n, v) (given args) <-> In (n, Some v) args.
Proof.
  intros args n v. unfold given. rewrite in_flat_map. split.
  - intros ([a [b|]] & Hx & Hy); cbn in Hy; [|destruct Hy]. destruct Hy as [Hy|[]]. injection Hy as -> ->. exact Hx.
  - intros H. exists (n, Some v). split; [exact H|]. now left.
Qed.
Lemma attribute_order_spec : forall args, exists A B, attribute_order args = map (fun x => (lower (fst x), snd x)) A ++ B /\
  Permutation (A ++ B) (filter (fun x => mandatory (fst x) || negb (str_eqb (fst x) (L "instance"))) (given args)) /\
  (forall x, In x A -> mandatory (fst x) = true) /\ (forall x, In x B -> mandatory (fst x) = false).
Proof.
  intros args. exists (filter (fun x => mandatory (fst x)) (given args)), (filter (fun x => negb (mandatory (fst x)) && negb (str_eqb (fst x) (L "instance"))) (given args)).
  split; [reflexivity|]. split; [|split].
  - generalize (given args) as l. induction l as [|x l IH]; [constructor|]. cbn [filter]. destruct (mandatory (fst x)); cbn [negb andb orb].
    + cbn [app]. now constructor.
    + destruct (str_eqb (fst x) (L "instance")); cbn [negb]; [exact IH|]. apply Permutation_sym, Permutation_cons_app, Permutation_sym, IH.
  - intros x Hx. now apply filter_In in Hx.
  - intros x Hx. apply filter_In in Hx as [_ Hx]. apply andb_true_iff in Hx as [Hx _]. now apply negb_true_iff in Hx.
Qed.

(** ** The context manager *)
Section With.
  Variable oracle : nat -> answer.
  Lemma work_vm : forall n from s, s_vm (fst (work oracle from n s)) = s_vm s.
  Proof.
    induction n as [|n IH]; intros from s; [reflexivity|]. cbn [work]. unfold bind at 1, outside. destruct (oracle (s_clock s)); [|reflexivity].
    unfold bind at 1, emit, modify. rewrite IH. reflexivity.
  Qed.
  Lemma plain_at : forall p o t s, s_trace s = t -> at_ Plain p o t s.
  Proof. intros p o t s H. split; [exact H|]. split; [contradiction|]. split; [discriminate|]. unfold linked. destruct (s_vm s) as [[d v]|]; [discriminate|contradiction]. Qed.
  Theorem with_spec : forall out n, let (s, r) := with_vm oracle out (work oracle 0 n) start in
    prefix (s_trace s) (block_script out n) /\ (forall u, r = inr u -> s_trace s = block_script out n).
  Proof.
    intros out n. unfold with_vm. unfold bind. pose proof (h_factory oracle out [] [] None (fun t => t = []) eq_refl start (conj eq_refl (conj eq_refl eq_refl))) as HF.
    destruct (factory oracle out start) as [s1 [e|[]]].
    { destruct HF as [-> _]. split; [exists (block_script out n); reflexivity|discriminate]. }
    destruct HF as (T1 & _ & _ & d & V1). rewrite V1. pose proof (work_vm n 0 s1) as VW.
    set (T := fun t => prefix t (block_script out n)).
    assert (TW : forall i, i <= n -> T (map WorkStep (seq 0 i))).
    { intros i Hi. unfold T, block_script. destruct (prefix_works oracle i n Hi) as [r ->]. exists (r ++ match out with [] => [] | _ => [WriteBegun out; WriteDone out] end). now rewrite <- app_assoc. }
    pose proof (h_work oracle (fun _ => L "/") (fun _ => ltac:(discriminate)) Plain None out n 0 [] T TW s1 (plain_at None out [] s1 T1)) as HW. destruct (work oracle 0 n s1) as [s2 r]. cbn [fst] in VW. rewrite VW, V1.
    set (x := match r with inr _ => write oracle out s2 | inl e => (s2, inl e) end).
    assert (HX : T (s_trace (fst x)) /\ (forall u, snd x = inr u -> s_trace (fst x) = block_script out n)).
    { unfold x. destruct r as [e|[]].
      - destruct HW as [H _]. split; [exact H|discriminate].
      - assert (HT : s_trace s2 = map WorkStep (seq 0 n)) by (destruct HW as (H & _); exact H).
        destruct out as [|c o]; [cbn; rewrite HT; unfold T, block_script; rewrite app_nil_r; split; [exists []; now rewrite app_nil_r|reflexivity]|].
        set (out := c :: o) in *. assert (TB : T (map WorkStep (seq 0 n) ++ [WriteBegun out])) by (exists [WriteDone out]; unfold block_script; now rewrite <- app_assoc).
        pose proof (h_write oracle Plain None out (map WorkStep (seq 0 n)) T ltac:(discriminate) (TW n (le_n n)) TB s2 (plain_at _ _ _ _ HT)) as HWr.
        destruct (write oracle out s2) as [s3 [e|[]]]; cbn [fst snd].
        + destruct HWr as [H _]. split; [exact H|discriminate].
        + destruct HWr as (H & _). rewrite H. split; [exists []; now rewrite app_nil_r|reflexivity]. }
    destruct x as [s3 r2]. cbn [fst snd] in HX. pose proof (vm_destroy_quiet oracle d s3) as (E & _). destruct (vm_destroy oracle d s3) as [s4 [e|[]]]; cbn [fst] in E; rewrite E; destruct HX as [H1 H2].
    - split; [exact H1|discriminate].
    - split; [exact H1|exact H2].
  Qed.
End With.
