(** Proofs about bootstrap disk sizes. *)
From Coq Require Import Lia Permutation.
From Verif Require Import PyBase PyBaseProofs UnitsModel UnitsProofs RawModel RawSpec.
Local Open Scope Z_scope.

Lemma sum_from : forall l a, fold_left Z.add l a = a + sum l.
Proof.
  unfold sum. induction l as [|x l IH]; intros a; cbn [fold_left]; [lia|]. rewrite (IH (a + x)), (IH (0 + x)). lia.
Qed.
Lemma sum_cons : forall x l, sum (x :: l) = x + sum l.
Proof. intros. unfold sum at 1. cbn. now rewrite sum_from. Qed.
Lemma sum_app : forall a b, sum (a ++ b) = sum a + sum b.
Proof. induction a as [|x a IH]; intros b; cbn [app]; [reflexivity|]. rewrite !sum_cons, IH. lia. Qed.

Lemma round53_small : forall z, Z.abs z <= 2 ^ 53 -> round53 z = z.
Proof.
  intros z H. destruct (Z.eq_dec (Z.abs z) (2 ^ 53)) as [E|N].
  - assert (z = Z.sgn z * 2 ^ 53) as -> by (rewrite <- E; rewrite <- Z.sgn_abs; lia).
    apply round53_exact; [lia|]. assert (2 ^ 1 < 2 ^ 53) by (apply Z.pow_lt_mono_r; lia). lia.
  - pose proof (round53_exact z 0 ltac:(lia) ltac:(lia)) as R. now rewrite Z.mul_1_r in R.
Qed.

Theorem capacity_exact : forall total, 0 <= total <= 2 ^ 53 - 2 ^ 23 -> capacity_mib total = total / MiB + 8.
Proof.
  intros total [H1 H2]. unfold capacity_mib. rewrite (round53_small total) by lia.
  rewrite round53_small by lia. change MiB with (2 ^ 20). change (2 ^ 23) with (8 * 2 ^ 20).
  rewrite Z.div_add by lia. reflexivity.
Qed.

Theorem capacity_bounds : forall total, 0 <= total <= 2 ^ 53 - 2 ^ 23 ->
  total + 7 * MiB < capacity_mib total * MiB <= total + 8 * MiB.
Proof.
  intros total H. rewrite capacity_exact by exact H. unfold MiB.
  pose proof (Z.div_mod total 1048576). pose proof (Z.mod_pos_bound total 1048576). lia.
Qed.

Lemma rounded_up_mod : forall n, rounded_up n (n + (8 * 2 ^ 20 - n) mod (8 * 2 ^ 20)).
Proof.
  intros n. change (8 * 2 ^ 20) with (8 * MiB). set (m := 8 * MiB).
  assert (0 < m) as Hm by (unfold m, MiB; lia).
  pose proof (Z.mod_pos_bound (m - n) m Hm) as B. unfold rounded_up. fold m.
  assert ((m | n + (m - n) mod m)) as D.
  { exists (1 - (m - n) / m). pose proof (Z.div_mod (m - n) m ltac:(lia)). lia. }
  split; [exact D|]. split; [lia|]. intros r' D' Hr.
  destruct D as [a Ea], D' as [b Eb]. rewrite Ea in *. subst r'. assert (a <= b) by nia. nia.
Qed.

Theorem inject_space_spec : forall base config secondary extra cdrom,
  let total := match config with Some z => z | None => 0 end +
               match secondary with Some z => z | None => 0 end + sum (map extra_size extra) in
  exists r, inject_space_required base config secondary extra cdrom = base + r /\
    if cdrom then r = total else rounded_up total r.
Proof.
  intros base config secondary extra cdrom total. unfold inject_space_required. fold total.
  destruct cdrom; eexists; (split; [reflexivity|]); [reflexivity|apply rounded_up_mod].
Qed.

(** ** Directories *)

Section node_rect.
  Variable P : node -> Prop.
  Hypothesis Hf : forall s, P (NFile s).
  Hypothesis Hd : forall l, (forall name n, In (name, n) l -> P n) -> P (NDir l).
  Fixpoint node_deep (n : node) : P n :=
    match n with
    | NFile s => Hf s
    | NDir l => Hd l ((fix go (l : list (str * node)) : forall name n, In (name, n) l -> P n :=
        match l with
        | [] => fun _ _ F => match F with end
        | e :: l' => fun name n F =>
            match F with
            | or_introl E => match E in _ = y return P (snd y) with eq_refl => node_deep (snd e) end
            | or_intror F' => go l' name n F'
            end
        end) l)
    end.
End node_rect.

(** All readable files with their paths. *)
Fixpoint files_of (n : node) : list (list str * Z) :=
  match n with
  | NFile (Some s) => [([], s)]
  | NFile None => []
  | NDir l => flat_map (fun e => map (fun f => (fst e :: fst f, snd f)) (files_of (snd e))) l
  end.

Lemma files_of_at : forall n path s, In (path, s) (files_of n) <-> file_at n path s.
Proof.
  induction n as [[z|]|l IH] using node_deep; intros path s.
  - split.
    + intros [E|[]]. injection E as <- <-. constructor.
    + intros H. inversion H; subst. now left.
  - split; [intros []|]. intros H. inversion H.
  - cbn [files_of]. rewrite in_flat_map. split.
    + intros ([name n] & Hi & H). cbn [fst snd] in H. apply in_map_iff in H as ([p z] & E & Hp). injection E as <- <-.
      apply (at_dir l name n p z); [exact Hi|]. now apply (IH name n Hi).
    + intros H. inversion H as [|l' name n p z Hi Hp]; subst. exists (name, n). split; [exact Hi|].
      apply in_map_iff. exists (p, s). split; [reflexivity|]. now apply (IH name n Hi).
Qed.

Lemma NoDup_app_intro : forall (A : Type) (a b : list A), NoDup a -> NoDup b -> (forall x, In x a -> ~ In x b) -> NoDup (a ++ b).
Proof.
  induction a as [|x a IH]; intros b Ha Hb H; [exact Hb|]. inversion Ha; subst. cbn. constructor.
  - rewrite in_app_iff. intros [F|F]; [contradiction|]. exact (H x (or_introl eq_refl) F).
  - apply IH; auto. intros y Hy. apply H. now right.
Qed.

Lemma files_of_nodup : forall n, proper n -> NoDup (map fst (files_of n)).
Proof.
  induction n as [[z|]|l IH] using node_deep; intros H.
  - cbn. constructor; [intros []|constructor].
  - constructor.
  - inversion H as [|l' Hn Hp]; subst. cbn [files_of]. clear H. revert Hn IH Hp.
    induction l as [|[name n] l IHl]; intros Hn IH Hp; [constructor|].
    cbn [flat_map fst snd]. rewrite map_app, map_map. cbn [fst].
    cbn [map fst] in Hn. apply NoDup_cons_iff in Hn as [Hn1 Hn2].
    apply NoDup_app_intro.
    + rewrite <- (map_map fst (cons name)). apply FinFun.Injective_map_NoDup.
      * intros a b E. now injection E.
      * apply (IH name n); [now left|]. apply (Hp name n). now left.
    + apply IHl; auto.
      * intros m x Hi. apply IH with m. now right.
      * intros m x Hi. apply Hp with m. now right.
    + intros x Hx F. apply in_map_iff in Hx as (y & <- & _).
      apply in_map_iff in F as ([p z] & E & F). cbn [fst] in E. subst p.
      apply in_flat_map in F as ([m k] & Hi & F). apply in_map_iff in F as (w & E & _). cbn [fst snd] in E.
      injection E as -> _ _. apply Hn1. apply in_map_iff. exists (name, k). auto.
Qed.

Definition readable (s : option Z) : list Z := match s with Some z => [z] | None => [] end.

Lemma total_sum : forall l, total_size l = sum (map snd l).
Proof. induction l as [|x l IH]; [reflexivity|]. cbn [total_size map]. now rewrite sum_cons, IH. Qed.

Lemma directory_size_walk : forall n,
  match n with NDir _ => directory_size n = total_size (files_of n) | NFile _ => directory_size n = 0 end.
Proof.
  induction n as [s|l IH] using node_deep; [reflexivity|].
  unfold directory_size. cbn [walk_sizes files_of].
  rewrite flat_map_app, sum_app, total_sum.
  induction l as [|[name n] l IHl]; [reflexivity|].
  cbn [flat_map fst snd]. rewrite !flat_map_app, !sum_app, map_app, sum_app, map_map. cbn [snd].
  rewrite <- IHl by (intros m x Hi; apply IH with m; now right).
  assert (map (fun f : list str * Z => snd f) (files_of n) = map snd (files_of n)) as -> by reflexivity.
  specialize (IH name n (or_introl eq_refl)). destruct n as [[z|]|l'].
  - cbn [flat_map files_of map snd app walk_sizes]. rewrite !sum_cons. change (sum []) with 0. lia.
  - cbn [flat_map files_of map snd app walk_sizes]. change (sum []) with 0. lia.
  - unfold directory_size in IH. rewrite total_sum in IH. rewrite IH. cbn [flat_map app]. change (sum []) with 0. lia.
Qed.

Theorem directory_size_spec : forall l, proper (NDir l) -> exists files,
  NoDup (map fst files) /\ (forall path s, In (path, s) files <-> file_at (NDir l) path s) /\
  directory_size (NDir l) = total_size files.
Proof.
  intros l H. exists (files_of (NDir l)). split; [now apply files_of_nodup|]. split; [intros; apply files_of_at|].
  exact (directory_size_walk (NDir l)).
Qed.

(** ** The calls that create the disk *)

Theorem create_raw_spec : forall path files, 0 <= sum (map snd files) <= 2 ^ 53 - 2 ^ 23 ->
  exists cap, create_raw path files None =
    (L "fatdisk", [path; L "format"; L "size"; zdec cap ++ L "M"; L "fat32"]) ::
    map (fun f => (L "fatdisk", [path; L "fileadd"; fst f; basename (fst f)])) files /\
    sum (map snd files) + 7 * MiB < cap * MiB <= sum (map snd files) + 8 * MiB.
Proof. intros path files H. eexists. split; [reflexivity|]. now apply capacity_bounds. Qed.

Theorem create_raw_requested : forall path files c s,
  create_raw path files (Some (c :: s)) =
    (L "fatdisk", [path; L "format"; L "size"; c :: s; L "fat32"]) ::
    map (fun f => (L "fatdisk", [path; L "fileadd"; fst f; basename (fst f)])) files.
Proof. reflexivity. Qed.

Theorem estimate_gap : forall total r, 0 <= total <= 2 ^ 53 - 2 ^ 23 -> rounded_up total r ->
  capacity_mib total * MiB <= r + 8 * MiB.
Proof. intros total r H (_ & H1 & _). pose proof (capacity_bounds total H). lia. Qed.
