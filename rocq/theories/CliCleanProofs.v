(** Proofs about running commands: working directories. *)
From Coq Require Import Lia.
From Verif Require Import PyBase PyBaseProofs TarModel CliModel CliSpec CliProofs.
Local Open Scope nat_scope.

Section Clean.
  Variable oracle : nat -> answer.
  Variable abspath : str -> str.

  Definition core (s : st) := (s_dirs s, s_hooks s, option_map fst (s_vm s), s_stuck s, s_leaked s).
  Definition keeps {A : Type} (x : m A) : Prop := forall s, core (fst (x s)) = core s.
  Lemma k_bind : forall A B (x : m A) (f : A -> m B), keeps x -> (forall a, keeps (f a)) -> keeps (bind x f).
  Proof.
    intros A B x f H1 H2 s. unfold bind. specialize (H1 s). destruct (x s) as [s' [e|a]]; [exact H1|]. rewrite (H2 a s'). exact H1.
  Qed.
  Lemma k_ret : forall A (a : A), keeps (ret a). Proof. intros A a s. reflexivity. Qed.
  Lemma k_fail : forall A e, keeps (@fail A e). Proof. intros A e s. reflexivity. Qed.
  Lemma k_outside : keeps (outside oracle). Proof. intros s. reflexivity. Qed.
  Lemma k_require : forall e, keeps (require oracle e).
  Proof. intros e. apply k_bind; [apply k_outside|]. intros [|]; [apply k_ret|apply k_fail]. Qed.
  Lemma k_emit : forall e, keeps (emit e). Proof. intros e s. reflexivity. Qed.
  Lemma k_set_output : forall v, keeps (set_output oracle abspath v).
  Proof.
    intros v s. unfold set_output. cbv zeta. destruct (str_eqb _ (s_out s)); [reflexivity|].
    match goal with |- core (fst (?x s)) = _ => assert (H : keeps x); [|exact (H s)] end.
    apply k_bind; [|intros []; apply k_bind; [intros s0; reflexivity|]].
    - destruct (match v with [] => [] | _ :: _ => abspath v end); [apply k_ret|]. apply k_bind; [apply k_outside|]. intros [|]; (apply k_bind; [apply k_require|intros []; apply k_require]).
    - intros [] s0. destruct (s_vm s0) as [[d o]|] eqn:E; [|reflexivity].
      assert (G : forall v', core (set_vm (Some (d, v')) s0) = core s0) by (intros v'; unfold core; cbn; now rewrite E).
      destruct (match v with [] => [] | _ :: _ => abspath v end) as [|c v']; [apply G|]. destruct (detect_type (c :: v')); [apply G|reflexivity].
  Qed.
  Lemma k_work : forall n from, keeps (work oracle from n).
  Proof. induction n as [|n IH]; intros from; cbn [work]; [apply k_ret|]. apply k_bind; [apply k_outside|]. intros ?. apply k_bind; [apply k_emit|]. intros ?. apply IH. Qed.
  Lemma k_ready : forall k, keeps (ready oracle k).
  Proof.
    intros k. unfold ready. apply k_bind; [apply k_require|]. intros ?. apply k_bind; [destruct k; [apply k_ret| |]; intros s; destruct (s_pkg s); reflexivity|]. intros ?.
    apply k_bind; [intros s; destruct (s_vm s); [apply (k_require XInvalid s)|reflexivity]|]. intros ?. apply k_bind; [destruct k; [apply k_ret|apply k_ret|apply k_require]|]. intros ?. apply k_emit.
  Qed.
  Lemma k_run : forall k n, keeps (run oracle abspath k n).
  Proof.
    intros k n. unfold run. apply k_bind; [apply k_ready|]. intros ?. apply k_bind; [|intros ?; apply k_work]. destruct k; [apply k_ret|apply k_ret|].
    intros s. destruct (s_out s); [|reflexivity]. destruct (s_pkg s); [|reflexivity]. apply k_set_output.
  Qed.
  Lemma k_write : forall o, keeps (write oracle o).
  Proof.
    intros o. unfold write. destruct o as [|c o]; [apply k_ret|]. apply k_bind; [apply k_outside|]. intros ?. destruct (detect_type (c :: o)) as [e|]; [|apply k_fail].
    destruct (str_eqb e (L ".ova")); [|destruct (str_eqb e (L ".ovf")); [|apply k_fail]];
      repeat (apply k_bind; [apply k_outside || apply k_emit|intros ?]); apply k_emit.
  Qed.
  Lemma k_finished : forall k, keeps (finished oracle k).
  Proof.
    intros k. destruct k; [apply k_ret|apply k_ret|]. intros s. unfold finished. destruct (s_vm s) as [[d o]|]; [|reflexivity].
    match goal with |- core (fst (?x s)) = _ => assert (H : keeps x); [|exact (H s)] end.
    apply k_bind; [apply k_require|]. intros ?. apply k_bind; [apply k_emit|]. intros ?. apply k_write.
  Qed.

  Definition never_raises : Prop := forall i e, oracle i <> Raises e.
  (** where a working directory can be *)
  Definition sound (dirs hooks : list nat) (vm : option nat) (stuck leaked : list nat) : Prop :=
    (forall d, In d dirs -> (In d hooks \/ In d stuck) /\ (vm = Some d \/ In d stuck \/ In d leaked)) /\
    (stuck <> [] -> raised oracle (fun _ => True)) /\ (leaked <> [] -> raised oracle (fun e => base_exception e = true)).
  Definition clean (s : st) : Prop := sound (s_dirs s) (s_hooks s) (option_map fst (s_vm s)) (s_stuck s) (s_leaked s).
  Lemma clean_core : forall s s', core s' = core s -> clean s -> clean s'.
  Proof. intros s s' E H. unfold core in E. injection E as E1 E2 E3 E4 E5. unfold clean. now rewrite E1, E2, E3, E4, E5. Qed.
  Lemma keeps_clean : forall A (x : m A), keeps x -> forall s, clean s -> clean (fst (x s)).
  Proof. intros A x H s Hs. exact (clean_core s _ (H s) Hs). Qed.

  (** what destroying does *)
  Lemma vm_destroy_spec : forall d s, let (s', r) := vm_destroy oracle d s in
    s_hooks s' = s_hooks s /\ s_vm s' = s_vm s /\ s_leaked s' = s_leaked s /\ incl (s_dirs s') (s_dirs s) /\ incl (s_stuck s) (s_stuck s') /\
    (s_stuck s' <> [] -> s_stuck s <> [] \/ raised oracle (fun _ => True)) /\
    match r with inl e => In d (s_stuck s') | inr _ => ~ In d (s_dirs s') end.
  Proof.
    intros d s. unfold vm_destroy. destruct (existsb (Nat.eqb d) (s_dirs s)) eqn:E.
    - unfold outside. destruct (oracle (s_clock s)) as [b|e] eqn:EO; cbn.
      + repeat split; try (intros x Hx; exact Hx); try (intros H; now left).
        * intros x Hx. now apply filter_In in Hx.
        * intros Hx. apply filter_In in Hx as [_ Hx]. now rewrite Nat.eqb_refl in Hx.
      + repeat split; try (intros x Hx; exact Hx); [intros x Hx; now right| |now left]. intros _. right. exists (s_clock s), e. now split.
    - repeat split; try (intros x Hx; exact Hx); [now left|]. intros Hd. assert (existsb (Nat.eqb d) (s_dirs s) = true); [|congruence].
      apply existsb_exists. exists d. split; [exact Hd|apply Nat.eqb_refl].
  Qed.
  Lemma cmd_destroy_clean : forall s, clean s -> let (s', r) := cmd_destroy oracle s in clean s' /\ (match r with inr _ => s_vm s' = None | inl _ => True end) /\
    forall d, In d (s_dirs s') -> In d (s_stuck s') \/ In d (s_leaked s').
  Proof.
    intros s (H1 & H2 & H3). unfold cmd_destroy. destruct (s_vm s) as [[d o]|] eqn:E.
    - unfold bind. pose proof (vm_destroy_spec d s) as V. destruct (vm_destroy oracle d s) as [s' [e|[]]]; destruct V as (E1 & E2 & E3 & I1 & I2 & B & P).
      + assert (C : forall x, In x (s_dirs s') -> In x (s_stuck s') \/ In x (s_leaked s')).
        { intros x Hx. destruct (H1 x (I1 x Hx)) as [_ [Ev|[Hs|Hl]]]; [cbn in Ev; injection Ev as <-; now left|left; now apply I2|right; now rewrite E3]. }
        split; [|split; [exact I|exact C]]. unfold clean. rewrite E1, E2, E3, E. cbn [option_map fst]. split; [|split].
        * intros x Hx. split; [destruct (proj1 (H1 x (I1 x Hx))) as [Hh|Hs]; [now left|right; now apply I2]|right; rewrite <- E3; now apply C].
        * intros N. destruct (B N) as [N'|R]; [now apply H2|exact R].
        * exact H3.
      + assert (C : forall x, In x (s_dirs s') -> In x (s_stuck s') \/ In x (s_leaked s')).
        { intros x Hx. destruct (H1 x (I1 x Hx)) as [_ [Ev|[Hs|Hl]]]; [cbn in Ev; injection Ev as <-; contradiction|left; now apply I2|right; now rewrite E3]. }
        cbn. split; [|split; [reflexivity|exact C]]. unfold clean. cbn. rewrite E1, E3. split; [|split].
        * intros x Hx. split; [destruct (proj1 (H1 x (I1 x Hx))) as [Hh|Hs]; [now left|right; now apply I2]|right; rewrite <- E3; now apply C].
        * intros N. destruct (B N) as [N'|R]; [now apply H2|exact R].
        * exact H3.
    - split; [unfold clean; rewrite E; split; [exact H1|split; [exact H2|exact H3]]|]. split; [exact E|]. intros d Hd. destruct (H1 d Hd) as [_ [F|F]]; [discriminate|exact F].
  Qed.
  Lemma base_unsupported : forall e, e = XUnsupported -> base_exception e = false. Proof. now intros e ->. Qed.
  Lemma factory_clean : forall out s, clean s -> s_vm s = None -> clean (fst (factory oracle out s)).
  Proof.
    intros out s Hs Hv. unfold factory. unfold bind at 1. pose proof (k_require (XEnvironment (Some 2%Z)) s) as K1.
    assert (V1 : s_vm (fst (require oracle (XEnvironment (Some 2%Z)) s)) = None).
    { unfold require, bind, outside. destruct (oracle (s_clock s)) as [[|]|]; exact Hv. }
    destruct (require oracle _ s) as [s1 [e|[]]]; cbn [fst] in *; [exact (clean_core _ _ K1 Hs)|]. assert (C1 := clean_core _ _ K1 Hs). clear K1.
    unfold bind at 1. pose proof (k_outside s1) as K2. assert (V2 : s_vm (fst (outside oracle s1)) = None) by exact V1.
    destruct (outside oracle s1) as [s2 [e|b]]; cbn [fst] in *; [exact (clean_core _ _ K2 C1)|]. assert (C2 := clean_core _ _ K2 C1). clear K2 C1 V1.
    unfold bind at 1. set (d := s_fresh s2). set (s3 := set_dirs (S d) (d :: s_dirs s2) (s_hooks s2) s2).
    (* in the rest, [d] is the only directory that is not accounted for *)
    set (mid := fun s => s_vm s = None /\ (forall x, In x (s_dirs s) -> x = d \/ (In x (s_hooks s) \/ In x (s_stuck s)) /\ (In x (s_stuck s) \/ In x (s_leaked s))) /\
      (s_stuck s <> [] -> raised oracle (fun _ => True)) /\ (s_leaked s <> [] -> raised oracle (fun e => base_exception e = true))).
    assert (M3 : mid s3).
    { destruct C2 as (A & B & C). unfold mid, s3. cbn. split; [exact V2|]. split; [|now split]. intros x [<-|Hx]; [now left|]. right. rewrite V2 in A. destruct (A x Hx) as [A1 [A2|A2]]; [discriminate|now split]. }
    set (inner := (match out with [] => ret tt | _ => match detect_type out with Ok _ => ret tt | Err _ => fail XUnsupported end end) ;;
         modify (fun s => set_dirs (s_fresh s) (s_dirs s) (d :: s_hooks s) s) ;; outside oracle).
    assert (HI : hoare mid inner (fun _ s => mid s /\ In d (s_hooks s)) (fun e s => mid s /\ (base_exception e = true -> In d (s_hooks s) /\ raised oracle (fun e => base_exception e = true)))).
    { unfold inner. eapply h_bind with (Q := fun _ => mid).
      - destruct out as [|c out]; [now apply h_ret|]. destruct (detect_type (c :: out)); [now apply h_ret|]. apply h_fail. intros s0 H0. now split.
      - intros ?. eapply h_bind with (Q := fun _ s => mid s /\ In d (s_hooks s)).
        + apply h_modify. intros s0 (A & B & C & D). split; [|now left]. unfold mid. cbn. split; [exact A|]. split; [|now split]. intros x Hx. destruct (B x Hx) as [->|[[Hh|Hh] H2]]; [now left| |]; right; (split; [|exact H2]); [left; now right|now right].
        + intros ? s0 (Hm & Hd). unfold outside. destruct (oracle (s_clock s0)) as [b'|e] eqn:EO; [split; [exact Hm|exact Hd]|]. split; [exact Hm|]. intros Hb. split; [exact Hd|]. exists (s_clock s0), e. now split. }
    specialize (HI s3 M3). cbv beta. unfold destroying. fold inner. destruct (inner s3) as [s4 [e|b']].
    - destruct HI as [(A & B & C & D) HB].
      assert (G : forall s5 e', clean s5 -> clean (fst (match (s5, @inl exc bool e') with (s', inl XUnsupported) => (s', inl (XEnvironment (Some 2%Z))) | (s', inl e) => (s', inl e) | (s', inr _) => (set_vm (Some (d, out)) s', inr tt) end)))
        by (intros s5 e' H5; destruct e'; exact H5).
      destruct (base_exception e) eqn:Eb.
      + destruct (HB eq_refl) as [Hd Hr]. apply G. unfold clean. cbn. rewrite A. cbn [option_map]. split; [|split; [exact C|intros _; exact Hr]].
        intros x Hx. destruct (B x Hx) as [->|[H1 H2]]; [split; [now left|right; right; now left]|]. split; [exact H1|]. right. destruct H2; [now left|right; now right].
      + pose proof (vm_destroy_spec d s4) as V. destruct (vm_destroy oracle d s4) as [s5 [e'|[]]]; destruct V as (E1 & E2 & E3 & I1 & I2 & Bl & P); apply G; unfold clean; rewrite E1, E2, E3, A; cbn [option_map].
        * split; [|split; [intros N; destruct (Bl N) as [N'|R]; [now apply C|exact R]|exact D]].
          intros x Hx. destruct (B x (I1 x Hx)) as [->|[H1 H2]]; [split; [now right|right; now left]|]. split; [destruct H1; [now left|right; now apply I2]|]. right. destruct H2; [left; now apply I2|now right].
        * split; [|split; [intros N; destruct (Bl N) as [N'|R]; [now apply C|exact R]|exact D]].
          intros x Hx. destruct (B x (I1 x Hx)) as [->|[H1 H2]]; [contradiction|]. split; [destruct H1; [now left|right; now apply I2]|]. right. destruct H2; [left; now apply I2|now right].
    - destruct HI as [(A & B & C & D) Hd]. unfold clean. cbn. split; [|now split]. intros x Hx. destruct (B x Hx) as [->|[H1 H2]]; [split; [now left|now left]|]. split; [exact H1|now right].
  Qed.
  Lemma set_package_clean : forall k v s, clean s -> clean (fst (set_package oracle k v s)).
  Proof.
    intros k v s Hs. unfold set_package. unfold bind at 1. pose proof (keeps_clean _ _ (k_require XInvalid) s Hs) as C1. destruct (require oracle XInvalid s) as [s1 [e|[]]]; [exact C1|]. cbn [fst] in C1.
    unfold bind at 1. pose proof (cmd_destroy_clean s1 C1) as C2. destruct (cmd_destroy oracle s1) as [s2 [e|[]]]; destruct C2 as (C2 & V2 & _); [exact C2|].
    unfold bind. match goal with |- context [factory oracle ?o s2] => pose proof (factory_clean o s2 C2 V2) as C3; destruct (factory oracle o s2) as [s3 [e|[]]] end; exact C3.
  Qed.
  Lemma set_attrs_clean : forall k l s, clean s -> clean (fst (set_attrs oracle abspath k l s)).
  Proof.
    intros k. induction l as [|[name v] l IH]; intros s Hs; [exact Hs|]. cbn [set_attrs]. unfold bind at 1.
    assert (C1 : clean (fst (set_attr oracle abspath k name v s))).
    { unfold set_attr. unfold bind at 1.
      assert (KO : keeps (outside oracle ;; ret tt)) by (apply k_bind; [apply k_outside|intros ?; apply k_ret]).
      assert (C0 : clean (fst ((match k with Plain => outside oracle ;; ret tt
        | _ => if str_eqb name (L "package") then set_package oracle k v else match k with Writer => if str_eqb name (L "output") then set_output oracle abspath v else outside oracle ;; ret tt | _ => outside oracle ;; ret tt end end) s))).
      { destruct k; [now apply keeps_clean| |]; (destruct (str_eqb name (L "package")); [now apply set_package_clean|]); [now apply keeps_clean|].
        destruct (str_eqb name (L "output")); [apply keeps_clean; [apply k_set_output|exact Hs]|now apply keeps_clean]. }
      match goal with |- context [?x s] => match type of x with m unit => destruct (x s) as [s1 [e|[]]]; exact C0 end end. }
    destruct (set_attr oracle abspath k name v s) as [s1 [e|[]]]; [exact C1|]. now apply IH.
  Qed.
  Lemma body_clean : forall k attrs n s, clean s -> clean (fst (body oracle abspath k attrs n s)).
  Proof.
    intros k attrs n s Hs. unfold body. unfold bind at 1. pose proof (set_attrs_clean k attrs s Hs) as C1. destruct (set_attrs oracle abspath k attrs s) as [s1 [e|[]]]; [exact C1|].
    apply keeps_clean; [|exact C1]. apply k_bind; [apply k_run|intros ?; apply k_finished].
  Qed.
  Lemma start_clean : clean start.
  Proof. unfold clean, start, sound. cbn. split; [intros d []|]. split; intros N; now destruct N. Qed.

  Theorem main_clean : forall k attrs n, let s := fst (main oracle abspath k attrs n start) in
    (forall d, In d (s_dirs s) -> In d (s_stuck s) \/ In d (s_leaked s)) /\ (forall d, In d (s_dirs s) -> In d (s_hooks s) \/ In d (s_stuck s)) /\
    (s_stuck s <> [] -> raised oracle (fun _ => True)) /\ (s_leaked s <> [] -> raised oracle (fun e => base_exception e = true)).
  Proof.
    intros k attrs n. unfold main. pose proof (body_clean k attrs n start start_clean) as C. destruct (body oracle abspath k attrs n start) as [s1 r]. cbn [fst] in C.
    pose proof (cmd_destroy_clean s1 C) as D. destruct (cmd_destroy oracle s1) as [s2 r2]. destruct D as ((A & B & E) & _ & F). cbn. split; [exact F|]. split; [|now split].
    intros d Hd. exact (proj1 (A d Hd)).
  Qed.
  Lemma at_exit_spec : forall l s, (forall d, In d (s_dirs s) -> In d l \/ In d (s_stuck s)) -> (s_stuck s <> [] -> raised oracle (fun _ => True)) ->
    let s' := fold_left (fun s d => fst (vm_destroy oracle d s)) l s in
    (forall d, In d (s_dirs s') -> In d (s_stuck s')) /\ (s_stuck s' <> [] -> raised oracle (fun _ => True)).
  Proof.
    induction l as [|d l IH]; intros s H B; cbn [fold_left].
    - split; [|exact B]. intros d Hd. now destruct (H d Hd) as [[]|].
    - apply IH; pose proof (vm_destroy_spec d s) as V; destruct (vm_destroy oracle d s) as [s' r]; destruct V as (_ & _ & _ & I1 & I2 & Bl & P); cbn [fst].
      + intros x Hx. destruct (H x (I1 x Hx)) as [[->|Hl]|Hs]; [|now left|right; now apply I2]. destruct r; [now right|contradiction].
      + intros N. destruct (Bl N) as [N'|R]; [now apply B|exact R].
  Qed.
  Theorem process_clean : forall k args n, let s := fst (process oracle abspath k args n start) in
    (forall d, In d (s_dirs s) -> In d (s_stuck s)) /\ (s_stuck s <> [] -> raised oracle (fun _ => True)).
  Proof.
    intros k args n. unfold process. pose proof (main_clean k (attribute_order args) n) as H. destruct (main oracle abspath k (attribute_order args) n start) as [s1 code]. cbn [fst] in *.
    destruct H as (_ & H & B & _). unfold at_exit. now apply at_exit_spec.
  Qed.

  (** the same for a block *)
  Theorem with_clean : forall out n s, clean s -> s_vm s = None ->
    let s' := fst (with_vm oracle out (work oracle 0 n) s) in
    forall d, In d (s_dirs s') -> In d (s_stuck s') \/ In d (s_leaked s').
  Proof.
    intros out n s Hs Hv. unfold with_vm. unfold bind. pose proof (factory_clean out s Hs Hv) as C.
    assert (FV : match factory oracle out s with (s1, inl _) => s_vm s1 = None | (s1, inr _) => exists d, s_vm s1 = Some (d, out) end).
    { clear C. pose proof (h_factory oracle out (s_trace s) (s_out s) (s_pkg s) (fun _ => True) I s (conj eq_refl (conj eq_refl eq_refl))) as HF.
      destruct (factory oracle out s) as [s1 [e|[]]] eqn:EF; [|destruct HF as (_ & _ & _ & d & E); now exists d]. clear HF.
      assert (Q : hoare (fun s => s_vm s = None) (factory oracle out) (fun _ _ => True) (fun _ s => s_vm s = None)); [|specialize (Q s Hv); now rewrite EF in Q].
      assert (HO : hoare (fun s => s_vm s = None) (outside oracle) (fun _ s => s_vm s = None) (fun _ s => s_vm s = None)) by (intros s0 H0; unfold outside; destruct (oracle (s_clock s0)); exact H0).
      unfold factory. eapply h_bind with (Q := fun _ s => s_vm s = None).
      { unfold require. eapply h_bind; [exact HO|]. intros [|]; [now apply h_ret|now apply h_fail]. }
      intros ?. eapply h_bind; [exact HO|]. intros ?. eapply h_bind with (Q := fun _ s => s_vm s = None); [intros s0 H0; exact H0|]. intros d s0 H0.
      match goal with |- context [destroying oracle d ?x s0] => assert (HD : hoare (fun s => s_vm s = None) (destroying oracle d x) (fun _ _ => True) (fun _ s => s_vm s = None)) end.
      { intros s2 H2. unfold destroying.
        match goal with |- context [bind ?a ?b s2] => assert (HI : hoare (fun s => s_vm s = None) (bind a b) (fun _ s => s_vm s = None) (fun _ s => s_vm s = None)) end.
        { eapply h_bind with (Q := fun _ s => s_vm s = None).
          - destruct out as [|c out]; [now apply h_ret|]. destruct (detect_type (c :: out)); [now apply h_ret|now apply h_fail].
          - intros ?. eapply h_bind with (Q := fun _ s => s_vm s = None); [now apply h_modify|]. intros ?. exact HO. }
        specialize (HI s2 H2). match goal with |- context [bind ?a ?b s2] => destruct (bind a b s2) as [s3 [e'|b']] end; [|exact I].
        destruct (base_exception e'); [exact HI|]. pose proof (vm_destroy_quiet oracle d s3) as (_ & _ & _ & V). destruct (vm_destroy oracle d s3) as [s4 [e''|[]]]; cbn [fst] in V; now rewrite V. }
      specialize (HD s0 H0). match goal with |- context [destroying oracle d ?x s0] => destruct (destroying oracle d x s0) as [s2 [e'|b']] end; [|exact I]. destruct e'; exact HD. }
    destruct (factory oracle out s) as [s1 [e|[]]]; cbn [fst] in C.
    - intros d Hd. destruct C as (A & _). destruct (A d Hd) as [_ [F|F]]; [now rewrite FV in F|exact F].
    - destruct FV as [d0 FV]. rewrite FV. pose proof (k_work n 0 s1) as KW. destruct (work oracle 0 n s1) as [s2 r]. cbn [fst] in KW.
      set (x := match r with inr _ => match s_vm s2 with Some (_, o) => write oracle o s2 | None => (s2, inr tt) end | inl e => (s2, inl e) end).
      assert (KX : core (fst x) = core s2). { unfold x. destruct r; [reflexivity|]. destruct (s_vm s2) as [[? o]|]; [apply k_write|reflexivity]. }
      destruct x as [s3 r2]. cbn [fst] in KX. assert (C3 : clean s3) by (apply (clean_core s1); [congruence|exact C]).
      assert (V3 : option_map fst (s_vm s3) = Some d0). { assert (E3 : core s3 = core s1) by congruence. unfold core in E3. injection E3 as _ _ E3 _ _. now rewrite E3, FV. }
      pose proof (vm_destroy_spec d0 s3) as V. destruct (vm_destroy oracle d0 s3) as [s4 r4]. destruct V as (E1 & E2 & E3 & I1 & I2 & Bl & P).
      assert (G : forall d, In d (s_dirs s4) -> In d (s_stuck s4) \/ In d (s_leaked s4)).
      { intros d Hd. destruct C3 as (A & _). destruct (A d (I1 d Hd)) as [_ [F|[F|F]]].
        - rewrite V3 in F. injection F as <-. destruct r4; [now left|contradiction].
        - left. now apply I2.
        - right. now rewrite E3. }
      destruct r4; exact G.
  Qed.
End Clean.
