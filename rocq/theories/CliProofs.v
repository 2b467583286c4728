(** Proofs about running commands. *)
From Coq Require Import Lia.
From Verif Require Import PyBase PyBaseProofs TarModel CliModel CliSpec.
Local Open Scope nat_scope.

Definition hoare {A : Type} (P : st -> Prop) (x : m A) (Q : A -> st -> Prop) (R : exc -> st -> Prop) : Prop :=
  forall s, P s -> match x s with (s', inr a) => Q a s' | (s', inl e) => R e s' end.
Lemma h_bind : forall A B (P : st -> Prop) (x : m A) (f : A -> m B) (Q : A -> st -> Prop) (Q' : B -> st -> Prop) (R : exc -> st -> Prop),
  hoare P x Q R -> (forall a, hoare (Q a) (f a) Q' R) -> hoare P (bind x f) Q' R.
Proof.
  intros A B P x f Q Q' R H1 H2 s Hs. unfold bind. specialize (H1 s Hs). destruct (x s) as [s' [e|a]]; [exact H1|]. exact (H2 a s' H1).
Qed.
Lemma h_ret : forall A (a : A) (P : st -> Prop) (Q : A -> st -> Prop) (R : exc -> st -> Prop), (forall s, P s -> Q a s) -> hoare P (ret a) Q R.
Proof. intros A a P Q R H s Hs. cbn. now apply H. Qed.
Lemma h_fail : forall A e (P : st -> Prop) (Q : A -> st -> Prop) (R : exc -> st -> Prop), (forall s, P s -> R e s) -> hoare P (fail e) Q R.
Proof. intros A e P Q R H s Hs. cbn. now apply H. Qed.
Lemma h_modify : forall f (P : st -> Prop) (Q : unit -> st -> Prop) (R : exc -> st -> Prop), (forall s, P s -> Q tt (f s)) -> hoare P (modify f) Q R.
Proof. intros f P Q R H s Hs. cbn. now apply H. Qed.
Lemma h_conseq : forall A (P P' : st -> Prop) (x : m A) (Q Q' : A -> st -> Prop) (R R' : exc -> st -> Prop),
  hoare P x Q R -> (forall s, P' s -> P s) -> (forall a s, Q a s -> Q' a s) -> (forall e s, R e s -> R' e s) -> hoare P' x Q' R'.
Proof. intros A P P' x Q Q' R R' H HP HQ HR s Hs. specialize (H s (HP s Hs)). destruct (x s) as [s' [e|a]]; [now apply HR|now apply HQ]. Qed.

(** Nothing that matters changed. *)
Definition quiet (P : st -> Prop) : Prop :=
  forall s s', s_trace s' = s_trace s -> s_out s' = s_out s -> s_pkg s' = s_pkg s -> s_vm s' = s_vm s -> P s -> P s'.

Section Trace.
  Variable oracle : nat -> answer.
  Variable abspath : str -> str.
  Hypothesis abs_ok : forall p, abspath p <> [].

  (** an error has a code other than 0, or comes from outside *)
  Definition blame (e : exc) : Prop := handled e <> 0%Z \/ exists i, oracle i = Raises e.
  Definition ends (T : list event -> Prop) (e : exc) (s : st) : Prop := T (s_trace s) /\ blame e.

  Lemma h_outside : forall (P : st -> Prop) (T : list event -> Prop), quiet P -> (forall s, P s -> T (s_trace s)) -> hoare P (outside oracle) (fun _ => P) (ends T).
  Proof.
    intros P T Q HT s Hs. unfold outside. assert (P (set_clock (S (s_clock s)) s)) by (now apply (Q s)).
    destruct (oracle (s_clock s)) as [b|e] eqn:E; [exact H|]. split; [now apply HT in H|]. right. now exists (s_clock s).
  Qed.
  Lemma h_require : forall (P : st -> Prop) (T : list event -> Prop) x, handled x <> 0%Z -> quiet P -> (forall s, P s -> T (s_trace s)) -> hoare P (require oracle x) (fun _ => P) (ends T).
  Proof.
    intros P T x Hx Q HT. unfold require. eapply h_bind; [now apply h_outside|]. intros [|]; cbn; [now apply h_ret|].
    apply h_fail. intros s Hs. split; [now apply HT|now left].
  Qed.
  Lemma vm_destroy_quiet : forall d s, let s' := fst (vm_destroy oracle d s) in
    s_trace s' = s_trace s /\ s_out s' = s_out s /\ s_pkg s' = s_pkg s /\ s_vm s' = s_vm s.
  Proof.
    intros d s. unfold vm_destroy. destruct (existsb _ (s_dirs s)); [|now repeat split]. unfold outside. destruct (oracle (s_clock s)); now repeat split.
  Qed.
  Lemma vm_destroy_blame : forall d s s' e, vm_destroy oracle d s = (s', inl e) -> exists i, oracle i = Raises e.
  Proof.
    intros d s s' e. unfold vm_destroy. destruct (existsb _ (s_dirs s)); [|discriminate]. unfold outside. destruct (oracle (s_clock s)) as [b|x] eqn:E; [discriminate|].
    intros H. injection H as _ <-. now exists (s_clock s).
  Qed.
  Lemma h_vm_destroy : forall d (P : st -> Prop) (T : list event -> Prop), quiet P -> (forall s, P s -> T (s_trace s)) -> hoare P (vm_destroy oracle d) (fun _ => P) (ends T).
  Proof.
    intros d P T Q HT s Hs. destruct (vm_destroy oracle d s) as [s' r] eqn:E. pose proof (vm_destroy_quiet d s) as (A & B & C & D). rewrite E in A, B, C, D. cbn [fst] in *.
    assert (P s') by now apply (Q s). destruct r as [e|[]]; [|exact H]. split; [now apply HT|]. right. exact (vm_destroy_blame d s s' e E).
  Qed.
  Lemma h_destroying : forall A d (P : st -> Prop) (T : list event -> Prop) (x : m A) (Q : A -> st -> Prop), 
    hoare P x Q (ends T) -> hoare P (destroying oracle d x) Q (ends T).
  Proof.
    intros A d P T x Q H s Hs. unfold destroying. specialize (H s Hs). destruct (x s) as [s' [e|a]]; [|exact H]. destruct H as [HT HB].
    destruct (base_exception e); [now split|]. destruct (vm_destroy oracle d s') as [s2 r] eqn:E.
    pose proof (vm_destroy_quiet d s') as (E1 & _). rewrite E in E1. cbn [fst] in E1. destruct r as [e'|[]]; split; try (now rewrite E1); [right; exact (vm_destroy_blame d s' s2 e' E)|exact HB].
  Qed.
  Lemma h_factory : forall out tr o p (T : list event -> Prop), T tr ->
    hoare (fun s => s_trace s = tr /\ s_out s = o /\ s_pkg s = p) (factory oracle out)
          (fun _ s => s_trace s = tr /\ s_out s = o /\ s_pkg s = p /\ exists d, s_vm s = Some (d, out)) (ends T).
  Proof.
    intros out tr o p T HT. set (P := fun s => s_trace s = tr /\ s_out s = o /\ s_pkg s = p).
    assert (Q : quiet P) by (intros s s' E1 E2 E3 _ (H1 & H2 & H3); repeat split; congruence).
    assert (PT : forall s, P s -> T (s_trace s)) by (intros s (-> & _); exact HT).
    unfold factory. eapply h_bind; [apply (h_require P T); [discriminate|exact Q|exact PT]|]. intros ?. eapply h_bind; [apply (h_outside P T Q PT)|]. intros ?.
    eapply h_bind with (Q := fun _ => P); [intros s Hs; exact (Q s _ eq_refl eq_refl eq_refl eq_refl Hs)|]. intros d s Hs.
    assert (HH : hoare P (destroying oracle d
        ((match out with [] => ret tt | _ => match detect_type out with Ok _ => ret tt | Err _ => fail XUnsupported end end) ;;
         modify (fun s => set_dirs (s_fresh s) (s_dirs s) (d :: s_hooks s) s) ;; outside oracle)) (fun _ => P) (ends T)).
    { apply h_destroying. eapply h_bind with (Q := fun _ => P); [|intros ?; eapply h_bind with (Q := fun _ => P); [apply h_modify; intros s0 H0; exact (Q s0 _ eq_refl eq_refl eq_refl eq_refl H0)|intros ?; apply (h_outside P T Q PT)]].
      destruct out as [|c out]; [now apply h_ret|]. destruct (detect_type (c :: out)); [now apply h_ret|]. apply h_fail. intros s0 H0. split; [now apply PT|left; discriminate]. }
    specialize (HH s Hs). destruct (destroying oracle d _ s) as [s' [e|b]].
    - destruct HH as [H1 H2]. destruct e; try (now split). split; [exact H1|]. left. discriminate.
    - destruct HH as (H1 & H2 & H3). repeat split; try assumption. now exists d.
  Qed.
  Lemma h_cmd_destroy : forall tr o p (T : list event -> Prop), T tr ->
    hoare (fun s => s_trace s = tr /\ s_out s = o /\ s_pkg s = p) (cmd_destroy oracle)
          (fun _ s => s_trace s = tr /\ s_out s = o /\ s_pkg s = p) (ends T).
  Proof.
    intros tr o p T HT s Hs. unfold cmd_destroy. destruct (s_vm s) as [[d vo]|]; [|exact Hs]. set (P := fun s => s_trace s = tr /\ s_out s = o /\ s_pkg s = p) in *.
    assert (Q : quiet P) by (intros s1 s2 E1 E2 E3 _ (H1 & H2 & H3); repeat split; congruence).
    assert (HH : hoare P (vm_destroy oracle d ;; modify (set_vm None)) (fun _ => P) (ends T)); [|exact (HH s Hs)].
    eapply h_bind; [apply (h_vm_destroy d P T Q); intros s0 (-> & _); exact HT|]. intros ?. apply h_modify. intros s0 H0. exact H0.
  Qed.

  (** the VM writes to the output of the command *)
  Definition linked (k : kind) (s : st) : Prop :=
    match s_vm s with Some (_, vo) => k = Writer -> vo = s_out s | None => k <> Plain -> s_pkg s = None end.
  Definition norm_out (v : str) : str := match v with [] => [] | _ => abspath v end.

  Lemma h_set_package : forall k v tr o (T : list event -> Prop), T tr ->
    hoare (fun s => s_trace s = tr /\ s_out s = o) (set_package oracle k v)
          (fun _ s => s_trace s = tr /\ s_out s = o /\ s_pkg s = Some v /\ linked k s) (ends T).
  Proof.
    intros k v tr o T HT. unfold set_package. eapply h_bind with (Q := fun _ s => s_trace s = tr /\ s_out s = o).
    { apply (h_require _ T); [discriminate| |intros s (-> & _); exact HT]. intros s1 s2 E1 E2 _ _ (H1 & H2); split; congruence. }
    intros ? s (H1 & H2). assert (HH := h_cmd_destroy tr o (s_pkg s) T HT s (conj H1 (conj H2 eq_refl))). unfold bind at 1. destruct (cmd_destroy oracle s) as [s1 [e|[]]]; [exact HH|].
    destruct HH as (A1 & A2 & A3). unfold bind. match goal with |- context [factory oracle ?x s1] => set (out := x) end.
    pose proof (h_factory out tr o (s_pkg s1) T HT s1 (conj A1 (conj A2 eq_refl))) as HF. destruct (factory oracle out s1) as [s2 [e|[]]]; [exact HF|].
    destruct HF as (B1 & B2 & _ & d & B4). cbn. split; [exact B1|]. split; [exact B2|]. split; [reflexivity|]. unfold linked. cbn. rewrite B4. intros ->. unfold out. congruence.
  Qed.
  Lemma h_set_output : forall v tr o p (T : list event -> Prop), T tr ->
    hoare (fun s => s_trace s = tr /\ s_out s = o /\ s_pkg s = p /\ linked Writer s) (set_output oracle abspath v)
          (fun _ s => s_trace s = tr /\ s_out s = norm_out v /\ s_pkg s = p /\ linked Writer s) (ends T).
  Proof.
    intros v tr o p T HT s Hs. unfold set_output. cbv zeta. change (match v with [] => [] | _ :: _ => abspath v end) with (norm_out v). set (v' := norm_out v) in *.
    destruct (str_eqb v' (s_out s)) eqn:E.
    { apply str_eqb_eq in E. destruct Hs as (H1 & H2 & H3 & H4). split; [exact H1|]. split; [now symmetry|]. now split. }
    clear E. set (P := fun s => s_trace s = tr /\ s_out s = o /\ s_pkg s = p /\ linked Writer s) in *.
    assert (Q : quiet P) by (intros s1 s2 E1 E2 E3 E4 (H1 & H2 & H3 & H4); unfold P, linked; rewrite E1, E2, E3, E4; now repeat split).
    assert (PT : forall s, P s -> T (s_trace s)) by (intros s0 (-> & _); exact HT).
    match goal with |- match ?x s with _ => _ end => assert (HH : hoare P x (fun _ s => s_trace s = tr /\ s_out s = v' /\ s_pkg s = p /\ linked Writer s) (ends T)); [|exact (HH s Hs)] end.
    eapply h_bind with (Q := fun _ => P).
    { destruct v' as [|c v']; [now apply h_ret|]. eapply h_bind; [apply (h_outside P T Q PT)|]. intros [|]; cbn.
      - eapply h_bind; [apply (h_require P T); [discriminate|exact Q|exact PT]|]. intros ?. apply (h_require P T); [discriminate|exact Q|exact PT].
      - eapply h_bind; [apply (h_require P T); [discriminate|exact Q|exact PT]|]. intros ?. apply (h_require P T); [discriminate|exact Q|exact PT]. }
    intros ?. eapply h_bind with (Q := fun _ s => s_trace s = tr /\ s_out s = v' /\ s_pkg s = p /\ (s_vm s = None -> s_pkg s = None)).
    { apply h_modify. intros s0 (H1 & H2 & H3 & H4). cbn. split; [exact H1|]. split; [reflexivity|]. split; [exact H3|]. unfold linked in H4. intros E0. rewrite E0 in H4. now apply H4. }
    intros ? s0 (H1 & H2 & H3 & H4). destruct (s_vm s0) as [[d vo]|] eqn:EV.
    - assert (GOAL : s_trace (set_vm (Some (d, v')) s0) = tr /\ s_out (set_vm (Some (d, v')) s0) = v' /\ s_pkg (set_vm (Some (d, v')) s0) = p /\ linked Writer (set_vm (Some (d, v')) s0)).
      { cbn. split; [exact H1|]. split; [exact H2|]. split; [exact H3|]. unfold linked. cbn. intros ?. now symmetry. }
      destruct v' as [|c v'']; [exact GOAL|]. destruct (detect_type (c :: v'')); [exact GOAL|]. split; [now rewrite H1|left; discriminate].
    - split; [exact H1|]. split; [exact H2|]. split; [exact H3|]. unfold linked. rewrite EV. intros ?. now apply H4.
  Qed.

  Definition names (l : list (str * str)) : list event := map (fun x => AttrSet (fst x)) l.
  Lemma named_package_snoc : forall l x, named_package (l ++ [x]) = if str_eqb (fst x) (L "package") then Some (snd x) else named_package l.
  Proof. intros l x. unfold named_package. now rewrite fold_left_app. Qed.
  Lemma named_output_snoc : forall l x, named_output abspath (l ++ [x]) = if str_eqb (fst x) (L "output") then norm_out (snd x) else named_output abspath l.
  Proof. intros l [a [|c b]]; unfold named_output; now rewrite fold_left_app. Qed.
  (** the state after the attributes [l] *)
  Definition after (k : kind) (l : list (str * str)) (s : st) : Prop :=
    s_trace s = names l /\ (k = Writer -> s_out s = named_output abspath l) /\ (k <> Plain -> s_pkg s = named_package l) /\ linked k s.
  Lemma after_quiet : forall k l, quiet (after k l).
  Proof. intros k l s1 s2 E1 E2 E3 E4 (H1 & H2 & H3 & H4). unfold after, linked. rewrite E1, E2, E3, E4. now repeat split. Qed.

  Lemma h_emit : forall e (P : st -> Prop) (Q : unit -> st -> Prop) (R : exc -> st -> Prop), (forall s, P s -> Q tt (add_event e s)) -> hoare P (emit e) Q R.
  Proof. intros e P Q R H. apply h_modify. exact H. Qed.
  Lemma names_snoc : forall l x, names (l ++ [x]) = names l ++ [AttrSet (fst x)].
  Proof. intros l x. unfold names. now rewrite map_app. Qed.

  Lemma h_set_attr : forall k l name v (T : list event -> Prop), T (names l) ->
    hoare (after k l) (set_attr oracle abspath k name v) (fun _ => after k (l ++ [(name, v)])) (ends T).
  Proof.
    intros k l name v T HT. unfold set_attr.
    assert (PT : forall s, after k l s -> T (s_trace s)) by (intros s (-> & _); exact HT).
    assert (OUT : (k = Writer -> str_eqb name (L "output") = false) -> (k <> Plain -> str_eqb name (L "package") = false) ->
       hoare (after k l) ((outside oracle ;; ret tt) ;; emit (AttrSet name)) (fun _ => after k (l ++ [(name, v)])) (ends T)).
    { intros N1 N2. eapply h_bind with (Q := fun _ => after k l).
      - eapply h_bind; [apply (h_outside (after k l) T (after_quiet k l) PT)|]. intros ?. now apply h_ret.
      - intros ?. apply h_emit. intros s (H1 & H2 & H3 & H4). unfold after. cbn [s_trace add_event s_out s_pkg]. rewrite names_snoc, H1. split; [reflexivity|].
        rewrite named_output_snoc, named_package_snoc. cbn [fst snd]. split; [intros K; rewrite (N1 K); now apply H2|]. split; [intros K; rewrite (N2 K); now apply H3|exact H4]. }
    assert (PKG : k <> Plain -> str_eqb name (L "package") = true -> hoare (after k l) (set_package oracle k v ;; emit (AttrSet name)) (fun _ => after k (l ++ [(name, v)])) (ends T)).
    { intros KP EN s (H1 & H2 & H3 & H4). assert (HP := h_set_package k v (names l) (s_out s) T HT s (conj H1 eq_refl)). unfold bind.
      destruct (set_package oracle k v s) as [s1 [e|[]]]; [exact HP|]. destruct HP as (A1 & A2 & A3 & A4). cbn. unfold after. cbn [s_trace add_event s_out s_pkg].
      rewrite names_snoc, A1. split; [reflexivity|]. rewrite named_output_snoc, named_package_snoc. cbn [fst snd]. rewrite EN. apply str_eqb_eq in EN. subst name.
      split; [intros K; change (str_eqb (L "package") (L "output")) with false; rewrite A2; now apply H2|]. split; [intros ?; exact A3|exact A4]. }
    destruct k.
    - apply OUT; [discriminate|contradiction].
    - destruct (str_eqb name (L "package")) eqn:EN; [now apply PKG|]. apply OUT; [discriminate|reflexivity].
    - destruct (str_eqb name (L "package")) eqn:EN; [now apply PKG|]. destruct (str_eqb name (L "output")) eqn:EO; [|now apply OUT].
      intros s (H1 & H2 & H3 & H4). assert (HO := h_set_output v (names l) (s_out s) (s_pkg s) T HT s (conj H1 (conj eq_refl (conj eq_refl H4)))). unfold bind.
      destruct (set_output oracle abspath v s) as [s1 [e|[]]]; [exact HO|]. destruct HO as (A1 & A2 & A3 & A4). cbn. unfold after. cbn [s_trace add_event s_out s_pkg].
      rewrite names_snoc, A1. split; [reflexivity|]. rewrite named_output_snoc, named_package_snoc. cbn [fst snd]. rewrite EO, EN. split; [intros ?; exact A2|].
      split; [intros K; rewrite A3; now apply H3|exact A4].
  Qed.
  Lemma h_set_attrs : forall k l done (T : list event -> Prop), (forall x y, done ++ l = x ++ y -> T (names x)) ->
    hoare (after k done) (set_attrs oracle abspath k l) (fun _ => after k (done ++ l)) (ends T).
  Proof.
    intros k. induction l as [|[name v] l IH]; intros done T HT.
    - apply h_ret. intros s Hs. now rewrite app_nil_r.
    - cbn [set_attrs]. eapply h_bind; [apply h_set_attr; exact (HT done _ eq_refl)|]. intros ?.
      eapply h_conseq; [apply (IH (done ++ [(name, v)]) T)| | |].
      + intros x y E. apply (HT x y). now rewrite <- E, <- app_assoc.
      + intros s Hs. exact Hs.
      + intros ? s Hs. now rewrite <- app_assoc in Hs.
      + intros e s Hs. exact Hs.
  Qed.

  (** the state with the trace [t], and the VM writing to [o] *)
  Definition at_ (k : kind) (p : option str) (o : str) (t : list event) (s : st) : Prop :=
    s_trace s = t /\ (k <> Plain -> s_pkg s = p) /\ (k = Writer -> s_out s = o) /\ linked k s.
  Lemma at_quiet : forall k p o t, quiet (at_ k p o t).
  Proof. intros k p o t s1 s2 E1 E2 E3 E4 (H1 & H2 & H3 & H4). unfold at_, linked. rewrite E1, E2, E3, E4. now repeat split. Qed.
  Lemma at_emit : forall k p o t e (R : exc -> st -> Prop), hoare (at_ k p o t) (emit e) (fun _ => at_ k p o (t ++ [e])) R.
  Proof. intros k p o t e R. apply h_emit. intros s (H1 & H2 & H3 & H4). unfold at_. cbn. rewrite H1. now repeat split. Qed.
  Lemma at_outside : forall k p o t (T : list event -> Prop), T t -> hoare (at_ k p o t) (outside oracle) (fun _ => at_ k p o t) (ends T).
  Proof. intros k p o t T HT. apply h_outside; [apply at_quiet|intros s (-> & _); exact HT]. Qed.
  Lemma at_require : forall k p o t x (T : list event -> Prop), handled x <> 0%Z -> T t -> hoare (at_ k p o t) (require oracle x) (fun _ => at_ k p o t) (ends T).
  Proof. intros k p o t x T Hx HT. apply h_require; [exact Hx|apply at_quiet|intros s (-> & _); exact HT]. Qed.

  Lemma h_ready : forall k p o t (T : list event -> Prop), T t ->
    hoare (at_ k p o t) (ready oracle k) (fun _ s => at_ k p o (t ++ [IsReady]) s /\ (k <> Plain -> p <> None)) (ends T).
  Proof.
    intros k p o t T HT. unfold ready. eapply h_bind; [apply (at_require k p o t); [discriminate|exact HT]|]. intros ?.
    eapply h_bind with (Q := fun _ s => at_ k p o t s /\ (k <> Plain -> p <> None)).
    { destruct k; [apply h_ret; intros s Hs; split; [exact Hs|contradiction]| |];
        intros s Hs; assert (Hs' := Hs); destruct Hs as (H1 & H2 & H3 & H4); (destruct (s_pkg s) eqn:E;
        [split; [exact Hs'|]; intros ?; rewrite <- (H2 ltac:(discriminate)); discriminate|split; [now rewrite H1|left; discriminate]]). }
    intros ?. eapply h_bind with (Q := fun _ s => at_ k p o t s /\ (k <> Plain -> p <> None)).
    { intros s (Hs & Hp). destruct (s_vm s); [|now split]. pose proof (at_require k p o t XInvalid T ltac:(discriminate) HT s Hs) as H.
      destruct (require oracle XInvalid s) as [s' [e|[]]]; [exact H|now split]. }
    intros ?. eapply h_bind with (Q := fun _ s => at_ k p o t s /\ (k <> Plain -> p <> None)).
    { destruct k; try (apply h_ret; intros s Hs; exact Hs). intros s (Hs & Hp). pose proof (at_require Writer p o t XInvalid T ltac:(discriminate) HT s Hs) as H.
      destruct (require oracle XInvalid s) as [s' [e|[]]]; [exact H|now split]. }
    intros ?. intros s (Hs & Hp). split; [|exact Hp]. exact (at_emit k p o t IsReady (ends T) s Hs).
  Qed.
  Lemma h_work : forall k p o n from t (T : list event -> Prop), (forall i, i <= n -> T (t ++ map WorkStep (seq from i))) ->
    hoare (at_ k p o t) (work oracle from n) (fun _ => at_ k p o (t ++ map WorkStep (seq from n))) (ends T).
  Proof.
    intros k p o. induction n as [|n IH]; intros from t T HT; cbn [work seq map].
    - apply h_ret. intros s Hs. now rewrite app_nil_r.
    - eapply h_bind; [apply at_outside; specialize (HT 0 (Nat.le_0_l _)); cbn in HT; now rewrite app_nil_r in HT|]. intros ?.
      eapply h_bind; [apply at_emit|]. intros ?. eapply h_conseq; [apply (IH (S from) (t ++ [WorkStep from]) T)| | |].
      + intros i Hi. rewrite <- app_assoc. apply (HT (S i)). lia.
      + intros s Hs. exact Hs.
      + intros ? s Hs. now rewrite <- app_assoc in Hs.
      + intros e s Hs. exact Hs.
  Qed.
  Definition dest (k : kind) (p : option str) (o : str) : str :=
    match k, o, p with Writer, [], Some p => abspath p | _, _, _ => o end.
  Lemma h_run : forall k p o n t (T : list event -> Prop), T t -> (forall i, i <= n -> T (t ++ [IsReady] ++ map WorkStep (seq 0 i))) -> (k = Writer -> p <> Some []) ->
    hoare (at_ k p o t) (run oracle abspath k n) (fun _ s => at_ k p (dest k p o) (t ++ [IsReady] ++ map WorkStep (seq 0 n)) s /\ (k <> Plain -> p <> None)) (ends T).
  Proof.
    intros k p o n t T HT HW NP. unfold run. eapply h_bind; [apply h_ready; exact HT|]. intros ?.
    eapply h_bind with (Q := fun _ s => at_ k p (dest k p o) (t ++ [IsReady]) s /\ (k <> Plain -> p <> None)).
    { destruct k; try (apply h_ret; intros s Hs; exact Hs). intros s (Hs & Hp). assert (Hs' := Hs). destruct Hs as (H1 & H2 & H3 & H4).
      specialize (H2 ltac:(discriminate)). specialize (H3 eq_refl). rewrite H2, H3. cbn [dest].
      destruct o as [|c o]; [|now split]. destruct p as [p|]; [|now split].
      assert (T1 : T (t ++ [IsReady])) by (specialize (HW 0 (Nat.le_0_l _)); exact HW).
      pose proof (h_set_output p (t ++ [IsReady]) [] (Some p) T T1 s (conj H1 (conj H3 (conj H2 H4)))) as HO.
      destruct (set_output oracle abspath p s) as [s' [e|[]]]; [exact HO|]. destruct HO as (A1 & A2 & A3 & A4). split; [|exact Hp].
      split; [exact A1|]. split; [intros ?; exact A3|]. split; [intros ?|exact A4]. rewrite A2. unfold norm_out. destruct p; [now destruct (NP eq_refl)|reflexivity]. }
    intros ? s (Hs & Hp). pose proof (h_work k p (dest k p o) n 0 (t ++ [IsReady]) T) as HH.
    assert (HH' := HH (fun i Hi => eq_ind _ T (HW i Hi) _ (app_assoc _ _ _)) s Hs). destruct (work oracle 0 n s) as [s' [e|[]]]; [exact HH'|]. split; [|exact Hp]. now rewrite <- app_assoc in HH'.
  Qed.
  Lemma h_write : forall k p o t (T : list event -> Prop), o <> [] -> T t -> T (t ++ [WriteBegun o]) -> 
    hoare (at_ k p o t) (write oracle o) (fun _ => at_ k p o (t ++ [WriteBegun o; WriteDone o])) (ends T).
  Proof.
    intros k p o t T No H0 H1. unfold write. destruct o as [|c o0]; [contradiction|]. set (o := c :: o0) in *.
    assert (E2 : forall e, t ++ [WriteBegun o; e] = (t ++ [WriteBegun o]) ++ [e]) by (intros e; now rewrite <- app_assoc).
    eapply h_bind; [apply at_outside; exact H0|]. intros ?. destruct (detect_type o) as [e|]; [|apply h_fail; intros s (Et & _); split; [rewrite Et; exact H0|left; discriminate]].
    destruct (str_eqb e (L ".ova")).
    - eapply h_bind; [apply at_outside; exact H0|]. intros ?. eapply h_bind; [apply at_outside; exact H0|]. intros ?.
      eapply h_bind; [apply at_emit|]. intros ?. eapply h_bind; [apply at_outside; exact H1|]. intros ?. rewrite E2. apply at_emit.
    - destruct (str_eqb e (L ".ovf")); [|apply h_fail; intros s (Et & _); split; [rewrite Et; exact H0|left; discriminate]].
      eapply h_bind; [apply at_emit|]. intros ?. eapply h_bind; [apply at_outside; exact H1|]. intros ?. eapply h_bind; [apply at_outside; exact H1|]. intros ?.
      eapply h_bind; [apply at_outside; exact H1|]. intros ?. rewrite E2. apply at_emit.
  Qed.
  Definition last_part (k : kind) (o : str) : list event := match k with Writer => [Accepted; WriteBegun o; WriteDone o] | _ => [] end.
  Lemma h_finished : forall k p o t (T : list event -> Prop), (k = Writer -> o <> [] /\ p <> None) -> T t -> (k = Writer -> T (t ++ [Accepted]) /\ T (t ++ [Accepted; WriteBegun o])) ->
    hoare (at_ k p o t) (finished oracle k) (fun _ => at_ k p o (t ++ last_part k o)) (ends T).
  Proof.
    intros k p o t T HO H0 H1. unfold finished. destruct k; try (apply h_ret; intros s Hs; cbn; now rewrite app_nil_r).
    destruct (HO eq_refl) as [No Np]. destruct (H1 eq_refl) as [T1 T2]. intros s Hs. assert (Hs' := Hs). destruct Hs as (A1 & A2 & A3 & A4). unfold linked in A4.
    destruct (s_vm s) as [[d vo]|]; [|exfalso; apply Np; rewrite <- (A2 ltac:(discriminate)); now apply A4]. rewrite (A4 eq_refl), (A3 eq_refl).
    assert (HH : hoare (at_ Writer p o t) (confirm_or_die oracle ;; emit Accepted ;; write oracle o) (fun _ => at_ Writer p o (t ++ last_part Writer o)) (ends T)); [|exact (HH s Hs')].
    eapply h_bind; [apply at_require; [discriminate|exact H0]|]. intros ?. eapply h_bind; [apply at_emit|]. intros ?.
    eapply h_conseq; [apply (h_write Writer p o (t ++ [Accepted]) T No T1)|intros s0 H; exact H| |intros e s0 H; exact H].
    - rewrite <- app_assoc. exact T2.
    - intros ? s0 H. rewrite <- app_assoc in H. exact H.
  Qed.

  Lemma prefix_seq : forall i n, i <= n -> prefix (seq 0 i) (seq 0 n).
  Proof. intros i n H. exists (seq i (n - i)). transitivity (seq 0 (i + (n - i))); [f_equal; lia|apply (seq_app i (n - i) 0)]. Qed.
  Lemma prefix_works : forall i n, i <= n -> exists r, map WorkStep (seq 0 n) = map WorkStep (seq 0 i) ++ r.
  Proof. intros i n H. destruct (prefix_seq i n H) as [r E]. exists (map WorkStep r). now rewrite E, map_app. Qed.

  Theorem h_body : forall k attrs n, (k = Writer -> named_package attrs <> Some []) ->
    hoare (fun s => s = start) (body oracle abspath k attrs n)
      (fun _ s => s_trace s = script abspath k attrs n /\ (k <> Plain -> named_package attrs <> None))
      (ends (fun t => prefix t (script abspath k attrs n))).
  Proof.
    intros k attrs n NP. set (T := fun t => prefix t (script abspath k attrs n)). unfold body.
    assert (T0 : forall x y, attrs = x ++ y -> T (names x)).
    { intros x y E. unfold T, script. rewrite E. rewrite map_app. rewrite <- app_assoc. now eexists. }
    eapply h_bind.
    { eapply h_conseq; [apply (h_set_attrs k attrs [] T)| |intros ? s H; exact H|intros e s H; exact H]; [intros x y E; exact (T0 x y E)|].
      intros s ->. unfold after, start, linked. cbn. now repeat split. }
    intros ?. cbn [app]. set (p := named_package attrs) in *. set (o := named_output abspath attrs).
    set (t := names attrs).
    assert (Tt : T t) by (apply (T0 attrs []); now rewrite app_nil_r).
    (* everything after the check that the package is given *)
    destruct (match k with Plain => true | _ => match p with Some _ => true | None => false end end) eqn:EP.
    - set (o' := dest k p o).
      assert (SC : script abspath k attrs n = t ++ [IsReady] ++ map WorkStep (seq 0 n) ++ last_part k o').
      { unfold script. fold t p. unfold t, names, o', dest, last_part. destruct k; [cbn; now rewrite app_nil_r|destruct p; [cbn; now rewrite app_nil_r|discriminate]|].
        destruct p as [pp|]; [|discriminate]. f_equal. cbn [app]. f_equal. unfold destination. fold o. destruct o; reflexivity. }
      assert (WO : k = Writer -> o' <> [] /\ p <> None).
      { intros ->. destruct p as [pp|]; [|discriminate]. split; [|discriminate]. unfold o', dest. destruct o; [apply abs_ok|discriminate]. }
      eapply h_bind.
      { eapply h_conseq; [apply (h_run k p o n t T)| |intros ? s H; exact H|intros e s H; exact H].
        - exact Tt.
        - intros i Hi. unfold T. rewrite SC. destruct (prefix_works i n Hi) as [r ->]. exists (r ++ last_part k o'). rewrite <- !app_assoc. reflexivity.
        - exact NP.
        - intros s (H1 & H2 & H3 & H4). now repeat split. }
      intros ?. fold o'. intros s (Hs & Hp).
      assert (HF := h_finished k p o' (t ++ [IsReady] ++ map WorkStep (seq 0 n)) T WO).
      assert (HF' : hoare (at_ k p o' (t ++ [IsReady] ++ map WorkStep (seq 0 n))) (finished oracle k) (fun _ => at_ k p o' ((t ++ [IsReady] ++ map WorkStep (seq 0 n)) ++ last_part k o')) (ends T)).
      { apply HF.
        - unfold T. rewrite SC. exists (last_part k o'). now rewrite <- !app_assoc.
        - intros EK. unfold T. rewrite SC. unfold last_part. rewrite EK. split; [exists [WriteBegun o'; WriteDone o']|exists [WriteDone o']]; now rewrite <- !app_assoc. }
      specialize (HF' s Hs). destruct (finished oracle k s) as [s' [e|[]]]; [exact HF'|]. split; [|exact Hp]. destruct HF' as (H & _). rewrite H, SC. now rewrite <- !app_assoc.
    - eapply h_bind with (Q := fun _ _ => False); [|intros ? s []]. unfold run. eapply h_bind with (Q := fun _ _ => False); [|intros ? s []].
      eapply h_conseq; [apply (h_ready k p o t T Tt)| | |intros e s H; exact H].
      + intros s (H1 & H2 & H3 & H4). now repeat split.
      + intros ? s (_ & H). destruct k; [discriminate| |]; (destruct p; [discriminate|]; now apply H).
  Qed.
End Trace.
