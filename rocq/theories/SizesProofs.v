From Verif Require Import PyBase PyDict PyBaseProofs PyDictProofs SizesModel SizesSpec ManifestModel.
From Coq Require Import Lia Permutation ZifyBool.
Ltac Zify.zify_post_hook ::= Z.div_mod_to_equations.
Open Scope Z_scope.

Lemma rounded_up_add : forall m n, 0 < m -> rounded_up m n (n + (m - n) mod m).
Proof.
  intros m n Hm. split.
  - apply Z.mod_divide; [lia|].
    rewrite Z.add_mod_idemp_r by lia. replace (n + (m - n)) with (1 * m) by lia.
    apply Z.mod_mul. lia.
  - pose proof (Z.mod_pos_bound (m - n) m Hm). lia.
Qed.

Lemma rounded_up_unique : forall m n r1 r2, 0 < m -> rounded_up m n r1 -> rounded_up m n r2 -> r1 = r2.
Proof.
  intros m n r1 r2 Hm [[a ->] H1] [[b ->] H2]. assert (a = b) by nia. now subst.
Qed.

Lemma rounded_up_mono : forall m n1 n2 r1 r2, 0 < m -> n1 <= n2 ->
  rounded_up m n1 r1 -> rounded_up m n2 r2 -> r1 <= r2.
Proof.
  intros m n1 n2 r1 r2 Hm Hn [[a ->] H1] [[b ->] H2].
  assert (a <= b) by nia. nia.
Qed.

Lemma tar_entry_size_spec : forall n, tar_entry n (tar_entry_size n).
Proof.
  intros n. exists (n + (512 - n) mod 512). split; [apply rounded_up_add; lia|].
  unfold tar_entry_size. lia.
Qed.

Lemma tar_entry_unique : forall n e1 e2, tar_entry n e1 -> tar_entry n e2 -> e1 = e2.
Proof.
  intros n e1 e2 (d1 & H1 & ->) (d2 & H2 & ->). f_equal.
  now apply (rounded_up_unique 512 n); [lia| |].
Qed.

Definition line_estimate (v2 : bool) (href : str) : Z :=
  (if v2 then 76 else 50) + Z.of_nat (length href).

Definition manifest_estimate (v2 : bool) (files : list (str * Z)) : Z :=
  fold_right Z.add 0 (map (fun f => line_estimate v2 (fst f)) files).

Definition total_entries (sizes : list Z) : Z :=
  fold_right Z.add 0 (map tar_entry_size sizes).

Lemma predict_fold : forall v2 files m n,
  fold_left (predict_file v2) files (m, n) =
  (m + manifest_estimate v2 files, n + total_entries (map snd files)).
Proof.
  intros v2. induction files as [|[h s] files IH]; intros m n.
  - cbn. f_equal; lia.
  - cbn [fold_left predict_file].
    rewrite IH. unfold manifest_estimate, total_entries, line_estimate.
    cbn [map fold_right fst snd]. f_equal; destruct v2; lia.
Qed.

Definition unrounded (v2 : bool) (descr : Z) (files : list (str * Z)) : Z :=
  tar_entry_size descr + (tar_entry_size (manifest_estimate v2 files) +
    total_entries (map snd files)) + 1024.

Lemma predicted_unfold : forall v2 descr files,
  rounded_up 10240 (unrounded v2 descr files) (predicted_output_size v2 descr files).
Proof.
  intros v2 descr files. unfold predicted_output_size. rewrite predict_fold.
  cbv beta iota zeta. replace (0 + manifest_estimate v2 files) with (manifest_estimate v2 files) by lia.
  set (x := tar_entry_size descr + total_entries (map snd files) +
            tar_entry_size (manifest_estimate v2 files) + 1024).
  replace (unrounded v2 descr files) with x by (unfold unrounded, x; lia).
  apply rounded_up_add. lia.
Qed.

Lemma entries_forall2 : forall sizes, Forall2 tar_entry sizes (map tar_entry_size sizes).
Proof. induction sizes; cbn; constructor; auto using tar_entry_size_spec. Qed.

Lemma entries_unique : forall sizes es, Forall2 tar_entry sizes es -> es = map tar_entry_size sizes.
Proof.
  induction 1; [reflexivity|]. cbn. f_equal; [|assumption].
  apply (tar_entry_unique x); auto using tar_entry_size_spec.
Qed.

Lemma predicted_is_archive : forall v2 descr files,
  tar_archive (descr :: manifest_estimate v2 files :: map snd files)
              (predicted_output_size v2 descr files).
Proof.
  intros. exists (map tar_entry_size (descr :: manifest_estimate v2 files :: map snd files)).
  split; [apply entries_forall2|]. cbn [map fold_right].
  exact (predicted_unfold v2 descr files).
Qed.

Lemma tar_entry_size_mono : forall a b, a <= b -> tar_entry_size a <= tar_entry_size b.
Proof. intros a b H. unfold tar_entry_size. lia. Qed.

Lemma archive_value : forall sizes total, tar_archive sizes total ->
  rounded_up 10240 (total_entries sizes + 1024) total.
Proof.
  intros sizes total (es & He & Hr). apply entries_unique in He. subst es. exact Hr.
Qed.

Lemma covers_estimate : forall v2 descr files m total,
  m <= manifest_estimate v2 files ->
  tar_archive (descr :: m :: map snd files) total ->
  total <= predicted_output_size v2 descr files.
Proof.
  intros v2 descr files m total Hm Ht. apply archive_value in Ht.
  apply (rounded_up_mono 10240 _ _ _ _ eq_refl) with (2 := Ht) (3 := predicted_unfold v2 descr files).
  unfold unrounded, total_entries. cbn [map fold_right].
  pose proof (tar_entry_size_mono _ _ Hm). lia.
Qed.

(** ** The manifest that is really written *)

Definition digest_length (v2 : bool) : Z := if v2 then 64 else 40.

Lemma algo_upper : forall v2, upper (checksum_algorithm v2) = if v2 then L "SHA256" else L "SHA1".
Proof. intros [|]; reflexivity. Qed.

Lemma manifest_line_length : forall v2 name sum,
  Z.of_nat (length sum) = digest_length v2 ->
  Z.of_nat (length (manifest_line (upper (checksum_algorithm v2)) name sum)) =
  line_estimate v2 name - 1.
Proof.
  intros v2 name sum H. unfold manifest_line. rewrite !app_length, algo_upper.
  unfold line_estimate, digest_length in *.
  destruct v2; cbn [L list_ascii_of_string length]; lia.
Qed.

Lemma manifest_files_length : forall v2 (refs : list (str * str)) elems text,
  (forall h s, dget str_eqb h refs = Some s -> Z.of_nat (length s) = digest_length v2) ->
  manifest_files (upper (checksum_algorithm v2)) elems refs = Ok text ->
  Z.of_nat (length text) =
  fold_right Z.add 0 (map (line_estimate v2) elems) - Z.of_nat (length elems).
Proof.
  intros v2 refs. induction elems as [|h elems IH]; intros text Hd H; cbn [manifest_files] in H.
  - injection H as <-. reflexivity.
  - destruct (dget str_eqb h refs) as [s|] eqn:E; [|discriminate].
    destruct (manifest_files _ elems refs) as [tail|] eqn:Et; [|discriminate].
    cbn [rbind] in H. injection H as <-. rewrite app_length, Nat2Z.inj_add.
    rewrite (manifest_line_length v2 h s (Hd h s E)), (IH tail Hd eq_refl).
    cbn [map fold_right length]. lia.
Qed.

Lemma sum_perm : forall l1 l2 : list Z, Permutation l1 l2 ->
  fold_right Z.add 0 l1 = fold_right Z.add 0 l2.
Proof. induction 1; cbn; lia. Qed.

Lemma generate_length : forall v2 name sum elems (refs : list (str * str)) files text,
  Z.of_nat (length sum) = digest_length v2 ->
  (forall h s, dget str_eqb h refs = Some s -> Z.of_nat (length s) = digest_length v2) ->
  Permutation elems (map fst files) ->
  generate_manifest (upper (checksum_algorithm v2)) name sum elems refs = Ok text ->
  Z.of_nat (length text) =
    manifest_estimate v2 files - Z.of_nat (length files) + (line_estimate v2 name - 1).
Proof.
  intros v2 name sum elems refs files text Hs Hd Hp H. unfold generate_manifest in H.
  destruct (manifest_files _ elems refs) as [tail|] eqn:Et; [|discriminate].
  cbn [rbind] in H. injection H as <-. rewrite app_length, Nat2Z.inj_add.
  rewrite (manifest_line_length v2 name sum Hs).
  rewrite (manifest_files_length v2 refs elems tail Hd Et).
  rewrite (sum_perm (map (line_estimate v2) elems) (map (line_estimate v2) (map fst files)))
    by now apply Permutation_map.
  apply Permutation_length in Hp. rewrite map_length in Hp.
  unfold manifest_estimate. rewrite map_map, Hp. lia.
Qed.

Lemma tar_entry_size_add : forall a x, 0 <= x <= 10240 -> tar_entry_size (a + x) <= tar_entry_size a + 10240.
Proof. intros a x H. unfold tar_entry_size. lia. Qed.

Lemma manifest_estimate_nonneg : forall v2 files, 0 <= manifest_estimate v2 files.
Proof.
  intros v2 files. unfold manifest_estimate. induction files as [|f files IH]; cbn [map fold_right]; [lia|].
  unfold line_estimate at 1. destruct v2; lia.
Qed.

Lemma total_entries_nonneg : forall sizes, Forall (fun s => 0 <= s) sizes -> 0 <= total_entries sizes.
Proof.
  unfold total_entries. induction 1; cbn [map fold_right]; [lia|].
  unfold tar_entry_size at 1. lia.
Qed.

Lemma real_within_one_record : forall v2 descr name sum elems (refs : list (str * str)) files text total,
  Z.of_nat (length sum) = digest_length v2 ->
  (forall h s, dget str_eqb h refs = Some s -> Z.of_nat (length s) = digest_length v2) ->
  Permutation elems (map fst files) ->
  Z.of_nat (length name) <= 10165 ->
  generate_manifest (upper (checksum_algorithm v2)) name sum elems refs = Ok text ->
  tar_archive (descr :: Z.of_nat (length text) :: map snd files) total ->
  total <= predicted_output_size v2 descr files + 10240.
Proof.
  intros v2 descr name sum elems refs files text total Hs Hd Hp Hn Hg Ht.
  pose proof (generate_length v2 name sum elems refs files text Hs Hd Hp Hg) as Hl.
  apply archive_value in Ht. pose proof (predicted_unfold v2 descr files) as Hu.
  set (P := predicted_output_size v2 descr files) in *.
  assert (Hu' : rounded_up 10240 (unrounded v2 descr files + 10240) (P + 10240)).
  { destruct Hu as [[q Hq] Hb]. split; [exists (q + 1); lia|lia]. }
  apply (rounded_up_mono 10240 _ _ _ _ eq_refl) with (2 := Ht) (3 := Hu').
  unfold unrounded, total_entries. cbn [map fold_right].
  set (T := fold_right Z.add 0 (map tar_entry_size (map snd files))).
  assert (Hle : Z.of_nat (length text) <= manifest_estimate v2 files + (line_estimate v2 name - 1)) by lia.
  apply tar_entry_size_mono in Hle.
  assert (0 <= line_estimate v2 name - 1 <= 10240) by (unfold line_estimate; destruct v2; lia).
  pose proof (tar_entry_size_add (manifest_estimate v2 files) _ H). lia.
Qed.

Lemma predicted_at_least_record : forall v2 descr files,
  0 <= descr -> Forall (fun f => 0 <= snd f) files ->
  10240 <= predicted_output_size v2 descr files.
Proof.
  intros v2 descr files Hd Hf. destruct (predicted_unfold v2 descr files) as [[q Hq] Hb].
  assert (0 < unrounded v2 descr files).
  { unfold unrounded. pose proof (manifest_estimate_nonneg v2 files).
    assert (0 <= total_entries (map snd files)).
    { apply total_entries_nonneg. apply Forall_map. exact Hf. }
    unfold tar_entry_size. lia. }
  lia.
Qed.

Lemma real_within_twice : forall v2 descr name sum elems (refs : list (str * str)) files text total,
  0 <= descr -> Forall (fun f => 0 <= snd f) files ->
  Z.of_nat (length sum) = digest_length v2 ->
  (forall h s, dget str_eqb h refs = Some s -> Z.of_nat (length s) = digest_length v2) ->
  Permutation elems (map fst files) ->
  Z.of_nat (length name) <= 10165 ->
  generate_manifest (upper (checksum_algorithm v2)) name sum elems refs = Ok text ->
  tar_archive (descr :: Z.of_nat (length text) :: map snd files) total ->
  total <= 2 * predicted_output_size v2 descr files.
Proof.
  intros v2 descr name sum elems refs files text total H1 H2 H3 H4 H5 H6 H7 H8.
  pose proof (real_within_one_record v2 descr name sum elems refs files text total H3 H4 H5 H6 H7 H8).
  pose proof (predicted_at_least_record v2 descr files H1 H2). lia.
Qed.

Lemma underestimate : exists descr name sum text total,
  length sum = 40%nat /\
  generate_manifest (upper (checksum_algorithm false)) name sum [] [] = Ok text /\
  tar_archive [descr; Z.of_nat (length text)] total /\
  predicted_output_size false descr [] < total.
Proof.
  exists 8192, (L "x.ovf"), (repeat "0"%char 40). eexists. exists 20480.
  split; [reflexivity|]. split; [reflexivity|]. split.
  - exists [8704; 1024]. split.
    + repeat constructor; [exists 8192|exists 512]; (split; [|reflexivity]); split;
        [exists 16; reflexivity|lia|exists 1; reflexivity|vm_compute; split; congruence].
    + split; [exists 2; reflexivity|]. cbn. lia.
  - vm_compute. reflexivity.
Qed.

Lemma tar_entry_size_iff : forall n e, tar_entry n e <-> e = tar_entry_size n.
Proof.
  intros n e. split.
  - intros H. apply (tar_entry_unique n); [exact H|apply tar_entry_size_spec].
  - intros ->. apply tar_entry_size_spec.
Qed.
