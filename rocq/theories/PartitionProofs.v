(** Proofs about COT/vm_description/ovf/item.py:717-746: the partition of profiles. *)
From Coq Require Import Lia.
From Verif Require Import PyBase PyBaseProofs PyDict XmlModel NamesModel ItemModel PsetProofs.

Lemma repartition_spec : forall L new r n,
  NoDup new ->
  (forall s, In s L -> NoDup s) ->
  ForallOrdPairs (fun s t => forall q, In q s -> ~ In q t) L ->
  repartition new L = (r, n) ->
  (forall t, In t r -> NoDup t /\ exists s b, In s L /\
     forall q, In q t <-> In q s /\ pmem q new = b) /\
  (forall s q, In s L -> In q s -> exists t, In t r /\ In q t) /\
  (forall q, In q new -> (forall s, In s L -> ~ In q s) -> In q n) /\
  NoDup n /\
  ((forall q, In q n <-> In q new /\ forall s, In s L -> ~ In q s) \/
   exists t, In t r /\ forall q, In q n <-> In q t).
Proof.
  induction L as [|s L IH]; intros new r n Hnew HL Hdis H; cbn [repartition] in H.
  - injection H as <- <-. split; [intros t []|]. split; [intros s q []|]. split; [auto|]. split; [exact Hnew|].
    left. intros q. split; [intros Hq; split; [exact Hq|intros s []]|tauto].
  - inversion Hdis as [|? ? Hs Hdis']; subst. rewrite Forall_forall in Hs.
    assert (HL' : forall t, In t L -> NoDup t) by (intros t Ht; apply HL; now right).
    destruct (pset_eqb new s || is_nil (pinter new s)) eqn:E.
    + destruct (repartition new L) as [r0 n0] eqn:Er. injection H as <- <-.
      destruct (IH new r0 n0 Hnew HL' Hdis' Er) as (A1 & A2 & A5 & A3 & A4).
      assert (Hb : exists b, forall q, In q s -> pmem q new = b).
      { apply orb_true_iff in E as [E|E].
        - exists true. intros q Hq. apply pmem_In. rewrite pset_eqb_spec in E. now apply E.
        - exists false. intros q Hq. apply pmem_false. intros Hn.
          rewrite is_nil_pinter in E. now apply (E q). }
      destruct Hb as (b & Hb). split; [|split; [|split; [|split]]].
      * intros t [<-|Ht].
        -- split; [apply HL; now left|]. exists s, b. split; [now left|]. intros q.
           split; [intros Hq; split; [exact Hq|now apply Hb]|tauto].
        -- destruct (A1 t Ht) as (N & s' & b' & Hs' & Hq). split; [exact N|].
           exists s', b'. split; [now right|exact Hq].
      * intros s' q [<-|Hs'] Hq; [exists s; split; [now left|exact Hq]|].
        destruct (A2 s' q Hs' Hq) as (t & Ht & Hqt). exists t. split; [now right|exact Hqt].
      * intros q Hq Hno. apply A5; [exact Hq|]. intros t Ht. apply Hno. now right.
      * exact A3.
      * destruct A4 as [A4|(t & Ht & Hq)]; [|right; exists t; split; [now right|exact Hq]].
        apply orb_true_iff in E as [E|E].
        -- rewrite pset_eqb_spec in E. right. exists s. split; [now left|]. intros q.
           rewrite A4, E. split; [tauto|]. intros Hq. split; [exact Hq|].
           intros t Ht Hqt. now apply (Hs t Ht q).
        -- rewrite is_nil_pinter in E. left. intros q. rewrite A4. split.
           ++ intros (Hq & Hno). split; [exact Hq|]. intros t [<-|Ht]; [now apply E|now apply Hno].
           ++ intros (Hq & Hno). split; [exact Hq|]. intros t Ht. apply Hno. now right.
    + destruct (repartition (pdiff new s) L) as [r0 n0] eqn:Er. injection H as <- <-.
      destruct (IH (pdiff new s) r0 n0 (pdiff_NoDup _ _ Hnew) HL' Hdis' Er) as (A1 & A2 & A5 & A3 & A4).
      assert (Hns : NoDup s) by (apply HL; now left).
      split; [|split; [|split; [|split]]].
      * intros t [<-|[<-|Ht]].
        -- split; [now apply pdiff_NoDup|]. exists s, false. split; [now left|]. intros q.
           rewrite pdiff_In, pmem_false. reflexivity.
        -- split; [now apply pinter_NoDup|]. exists s, true. split; [now left|]. intros q.
           rewrite pinter_In, pmem_In. reflexivity.
        -- destruct (A1 t Ht) as (N & s' & b' & Hs' & Hq). split; [exact N|].
           exists s', b'. split; [now right|]. intros q. rewrite Hq.
           assert (G : In q s' -> pmem q (pdiff new s) = pmem q new).
           { intros Hqs. apply eq_true_iff_eq. rewrite !pmem_In, pdiff_In.
             split; [tauto|]. intros Hqn. split; [exact Hqn|]. intros F. now apply (Hs s' Hs' q). }
           split; intros (Hqs & Hqb); (split; [exact Hqs|]); rewrite <- Hqb;
             [symmetry|]; now apply G.
      * intros s' q [<-|Hs'] Hq.
        -- destruct (pmem q new) eqn:Em.
           ++ exists (pinter s new). split; [right; now left|]. apply pinter_In.
              split; [exact Hq|now apply pmem_In].
           ++ exists (pdiff s new). split; [now left|]. apply pdiff_In.
              split; [exact Hq|now apply pmem_false].
        -- destruct (A2 s' q Hs' Hq) as (t & Ht & Hqt). exists t.
           split; [right; now right|exact Hqt].
      * intros q Hq Hno. apply A5; [|intros t Ht; apply Hno; now right]. apply pdiff_In.
        split; [exact Hq|]. apply Hno. now left.
      * exact A3.
      * destruct A4 as [A4|(t & Ht & Hq)]; [|right; exists t; split; [right; now right|exact Hq]].
        left. intros q. rewrite A4, pdiff_In. split.
        -- intros ((Hq & Hqs) & Hno). split; [exact Hq|].
           intros t [<-|Ht]; [exact Hqs|now apply Hno].
        -- intros (Hq & Hno). split; [split; [exact Hq|apply Hno; now left]|].
           intros t Ht. apply Hno. now right.
Qed.

(** Removing duplicates and empty sets. *)
Definition distinct (l : list pset) : Prop :=
  ForallOrdPairs (fun s t => pset_eqb s t = false) l.

Lemma pset_eqb_sym : forall a b, pset_eqb a b = pset_eqb b a.
Proof. intros. unfold pset_eqb. apply andb_comm. Qed.

Lemma FOP_snoc : forall (A : Type) (R : A -> A -> Prop) l x, ForallOrdPairs R l ->
  (forall y, In y l -> R y x) -> ForallOrdPairs R (l ++ [x]).
Proof.
  intros A R l x H Hx. induction H as [|y l Hy H IH]; cbn.
  - constructor; [constructor|constructor].
  - constructor.
    + apply Forall_app. split; [exact Hy|]. constructor; [|constructor]. apply Hx. now left.
    + apply IH. intros z Hz. apply Hx. now right.
Qed.

Lemma add_distinct_fold : forall l acc,
  distinct acc -> (forall s, In s acc -> s <> []) ->
  let r := fold_left add_distinct l acc in
  distinct r /\ (forall s, In s r -> s <> [] /\ (In s acc \/ In s l)) /\
  (forall s, In s acc -> In s r) /\
  (forall s, In s l -> s <> [] -> exists t, In t r /\ forall q, In q s <-> In q t).
Proof.
  induction l as [|s l IH]; intros acc Hd Hne; cbn zeta.
  - cbn. split; [exact Hd|]. split; [auto|]. split; [auto|]. intros s [].
  - cbn [fold_left]. set (acc' := add_distinct acc s).
    assert (H' : distinct acc' /\ (forall t, In t acc' -> t <> []) /\
                 (forall t, In t acc' <-> In t acc \/ (t = s /\ In s acc')) /\
                 (s <> [] -> exists t, In t acc' /\ forall q, In q s <-> In q t)).
    { unfold acc', add_distinct. destruct (is_nil s || existsb (pset_eqb s) acc) eqn:E.
      - split; [exact Hd|]. split; [exact Hne|]. split; [intros t; split; [tauto|];
          intros [H|(-> & H)]; exact H|].
        intros Hs. apply orb_true_iff in E as [E|E]; [apply is_nil_true in E; contradiction|].
        apply existsb_exists in E as (t & Ht & Eq). exists t. split; [exact Ht|].
        now apply pset_eqb_spec.
      - apply orb_false_iff in E as [E1 E2]. apply is_nil_false in E1. split; [|split; [|split]].
        + apply FOP_snoc; [exact Hd|]. intros y Hy. rewrite pset_eqb_sym.
          destruct (pset_eqb s y) eqn:Ey; [|reflexivity].
          assert (existsb (pset_eqb s) acc = true); [|congruence].
          apply existsb_exists. now exists y.
        + intros t Ht. apply in_app_iff in Ht as [Ht|[<-|[]]]; auto.
        + intros t. rewrite in_app_iff. cbn. split.
          * intros [H|[<-|[]]]; [now left|]. right. split; [reflexivity|].
            apply in_or_app. right. now left.
          * intros [H|(-> & _)]; auto.
        + intros _. exists s. split; [apply in_or_app; right; now left|reflexivity]. }
    destruct H' as (D' & N' & M' & S').
    destruct (IH acc' D' N') as (B1 & B2 & B3 & B4). split; [exact B1|]. split; [|split].
    + intros t Ht. destruct (B2 t Ht) as (Hne' & [Hin|Hin]).
      * split; [exact Hne'|]. apply M' in Hin as [Hin|(-> & _)]; [now left|right; now left].
      * split; [exact Hne'|]. right. now right.
    + intros t Ht. apply B3. apply M'. now left.
    + intros t [<-|Ht] Hne'; [|now apply B4]. destruct (S' Hne') as (u & Hu & Hq).
      exists u. split; [now apply B3|exact Hq].
Qed.

(** The invariant: the cells are the classes of profiles that no set separates. *)
Record cells (L Ns : list pset) : Prop := {
  c_ne : forall s, In s L -> s <> [] /\ NoDup s;
  c_dist : distinct L;
  c_dis : forall s t q, In s L -> In t L -> In q s -> In q t -> s = t;
  c_cover : forall q, (exists s, In s L /\ In q s) <-> (exists N, In N Ns /\ In q N);
  c_class : forall s q r, In s L -> In q s ->
    (In r s <-> forall N, In N Ns -> (In q N <-> In r N)) }.

Lemma distinct_eq : forall l s t, distinct l -> In s l -> In t l ->
  (forall q, In q s <-> In q t) -> s = t.
Proof.
  intros l s t H Hs Ht Hq. induction H as [|x l Hx H IH]; [contradiction|].
  rewrite Forall_forall in Hx. apply pset_eqb_spec in Hq.
  destruct Hs as [<-|Hs], Ht as [<-|Ht]; auto.
  - rewrite (Hx t Ht) in Hq. discriminate.
  - rewrite pset_eqb_sym, (Hx s Hs) in Hq. discriminate.
Qed.

Lemma cells_pairs : forall L Ns, cells L Ns ->
  ForallOrdPairs (fun s t => forall q, In q s -> ~ In q t) L.
Proof.
  intros L Ns [H1 H2 H3 _ _]. clear Ns. induction H2 as [|s L Hs H2 IH]; [constructor|].
  constructor.
  - apply Forall_forall. intros t Ht q Hq Hqt. rewrite Forall_forall in Hs.
    assert (s = t) by (apply (H3 s t q); auto; [now left|now right]). subst t.
    specialize (Hs s Ht). assert (pset_eqb s s = true) by (apply pset_eqb_spec; reflexivity).
    congruence.
  - apply IH.
    + intros t Ht. apply H1. now right.
    + intros a b q Ha Hb. apply H3; now right.
Qed.

Lemma partition_step_cells : forall L Ns new, cells L Ns -> NoDup new ->
  cells (partition_step L new) (Ns ++ [new]).
Proof.
  intros L Ns new HC Hnew. unfold partition_step.
  destruct (repartition new L) as [r n] eqn:Er.
  assert (HL : forall s, In s L -> NoDup s) by (intros s Hs; now apply (c_ne L Ns HC)).
  destruct (repartition_spec L new r n Hnew HL (cells_pairs L Ns HC) Er) as (A1 & A2 & A5 & A3 & A4).
  assert (D0 : distinct []) by constructor.
  assert (N0 : forall s : pset, In s [] -> s <> []) by (intros s []).
  destruct (add_distinct_fold (r ++ [n]) [] D0 N0) as (B1 & B2 & _ & B4).
  set (R := fold_left add_distinct (r ++ [n]) []) in *.
  (* every member of R, and of r ++ [n], is of one of two shapes *)
  assert (Hshape : forall t, In t (r ++ [n]) -> NoDup t /\
     ((exists s b, In s L /\ forall q, In q t <-> In q s /\ pmem q new = b) \/
      (forall q, In q t <-> In q new /\ forall s, In s L -> ~ In q s))).
  { intros t Ht. apply in_app_iff in Ht as [Ht|[<-|[]]].
    - destruct (A1 t Ht) as (Nt & H). split; [exact Nt|now left].
    - split; [exact A3|]. destruct A4 as [A4|(u & Hu & Hq)]; [now right|].
      destruct (A1 u Hu) as (_ & s & b & Hs & H). left. exists s, b. split; [exact Hs|].
      intros q. rewrite Hq. apply H. }
  assert (HR : forall t, In t R -> t <> [] /\ In t (r ++ [n])).
  { intros t Ht. destruct (B2 t Ht) as (H1 & [[]|H2]). auto. }
  destruct HC as [C1 C2 C3 C4 C5].
  constructor.
  - intros t Ht. destruct (HR t Ht) as (H1 & H2). split; [exact H1|]. now apply Hshape.
  - exact B1.
  - intros t u q Ht Hu Hqt Hqu. apply (distinct_eq R); auto.
    destruct (HR t Ht) as (_ & Ht'). destruct (HR u Hu) as (_ & Hu').
    destruct (Hshape t Ht') as (_ & [(s & b & Hs & Hq)|Hq]);
      destruct (Hshape u Hu') as (_ & [(s' & b' & Hs' & Hq')|Hq']).
    + assert (s = s'). { apply (C3 s s' q); auto; [now apply Hq in Hqt|now apply Hq' in Hqu]. }
      subst s'. assert (b = b').
      { apply Hq in Hqt as (_ & E1). apply Hq' in Hqu as (_ & E2). congruence. }
      subst b'. intros p. rewrite Hq, Hq'. reflexivity.
    + exfalso. apply Hq' in Hqu as (_ & Hno). apply (Hno s Hs). now apply Hq in Hqt.
    + exfalso. apply Hq in Hqt as (_ & Hno). apply (Hno s' Hs'). now apply Hq' in Hqu.
    + intros p. rewrite Hq, Hq'. reflexivity.
  - intros q. split.
    + intros (t & Ht & Hqt). destruct (HR t Ht) as (_ & Ht').
      destruct (Hshape t Ht') as (_ & [(s & b & Hs & Hq)|Hq]).
      * apply Hq in Hqt as (Hqs & _). destruct (proj1 (C4 q)) as (N & HN & HqN); [now exists s|].
        exists N. split; [apply in_or_app; now left|exact HqN].
      * apply Hq in Hqt as (Hqn & _). exists new. split; [apply in_or_app; right; now left|exact Hqn].
    + intros (N & HN & HqN).
      assert (G : exists t, In t (r ++ [n]) /\ In q t).
      { destruct (in_dec profile_eq_dec q (concat L)) as [Hin|Hout].
        - apply in_concat in Hin as (s & Hs & Hqs). destruct (A2 s q Hs Hqs) as (t & Ht & Hqt).
          exists t. split; [apply in_or_app; now left|exact Hqt].
        - assert (Hno : forall s, In s L -> ~ In q s).
          { intros s Hs Hqs. apply Hout. apply in_concat. now exists s. }
          apply in_app_iff in HN as [HN|[<-|[]]].
          + exfalso. destruct (proj2 (C4 q)) as (s & Hs & Hqs); [now exists N|].
            now apply (Hno s Hs).
          + exists n. split; [apply in_or_app; right; now left|].
            now apply A5. }
      destruct G as (t & Ht & Hqt). destruct (B4 t Ht) as (u & Hu & Hqu).
      * intros ->. contradiction.
      * exists u. split; [exact Hu|]. now apply Hqu.
  - intros t q p Ht Hqt. destruct (HR t Ht) as (_ & Ht').
    destruct (Hshape t Ht') as (_ & [(s & b & Hs & Hq)|Hq]).
    + assert (Hqs : In q s) by (now apply Hq in Hqt). split.
      * intros Hpt N HN. apply in_app_iff in HN as [HN|[<-|[]]].
        -- apply Hq in Hpt as (Hps & _). now apply (C5 s q p Hs Hqs).
        -- apply Hq in Hqt as (_ & E1). apply Hq in Hpt as (_ & E2).
           rewrite <- !pmem_In. rewrite E1, E2. reflexivity.
      * intros H. apply Hq. split.
        -- apply (C5 s q p Hs Hqs). intros N HN. apply H. apply in_or_app. now left.
        -- apply Hq in Hqt as (_ & <-). apply eq_true_iff_eq. rewrite !pmem_In. symmetry.
           apply H. apply in_or_app. right. now left.
    + apply Hq in Hqt as (Hqn & Hqno). split.
      * intros Hpt. apply Hq in Hpt as (Hpn & Hpno). intros N HN.
        apply in_app_iff in HN as [HN|[<-|[]]]; [|tauto].
        split; intros F; exfalso.
        -- destruct (proj2 (C4 q)) as (s & Hs & Hqs); [now exists N|]. now apply (Hqno s Hs).
        -- destruct (proj2 (C4 p)) as (s & Hs & Hps); [now exists N|]. now apply (Hpno s Hs).
      * intros H. apply Hq. split.
        -- apply (H new); [apply in_or_app; right; now left|exact Hqn].
        -- intros s Hs Hps. destruct (proj1 (C4 p)) as (N & HN & HpN); [now exists s|].
           assert (HqN : In q N) by (apply (H N); [apply in_or_app; now left|exact HpN]).
           destruct (proj2 (C4 q)) as (s' & Hs' & Hqs); [now exists N|]. now apply (Hqno s' Hs').
Qed.

Lemma partition_sets : forall Ns Ns0 L, cells L Ns0 -> (forall N, In N Ns -> NoDup N) ->
  cells (fold_left partition_step Ns L) (Ns0 ++ Ns).
Proof.
  induction Ns as [|N Ns IH]; intros Ns0 L HC HN; cbn [fold_left].
  - now rewrite app_nil_r.
  - replace (Ns0 ++ N :: Ns) with ((Ns0 ++ [N]) ++ Ns) by (now rewrite <- app_assoc).
    apply IH; [|intros M HM; apply HN; now right].
    apply partition_step_cells; [exact HC|]. apply HN. now left.
Qed.

Lemma cells_nil : cells [] [].
Proof.
  constructor; try (intros s; intros; contradiction).
  - constructor.
  - intros q. split; intros (s & [] & _).
Qed.
