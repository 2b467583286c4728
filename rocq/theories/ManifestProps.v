(** C03: manifests written by COT are read back exactly. *)
From Verif Require Import PyBase PyDict ManifestModel ManifestSpec ManifestProofs.

(** Writing a manifest and parsing it gives the descriptor's entry followed by
    one entry per File element, in order, and nothing else. *)
Theorem C03_manifest_round_trip : forall algo ovf_name ovf_sum elems refs,
  algorithm_name algo ->
  file_name_ok ovf_name -> hex_digest ovf_sum ->
  (forall h, In h elems ->
     file_name_ok h /\ exists s, dget str_eqb h refs = Some s /\ hex_digest s) ->
  NoDup (ovf_name :: elems) ->
  exists text, generate_manifest algo ovf_name ovf_sum elems refs = Ok text /\
    parse_manifest text =
      (ovf_name, (algo, ovf_sum)) ::
      map (fun h => (h, (algo, match dget str_eqb h refs with Some s => s | None => [] end))) elems.
Proof. exact manifest_round_trip. Qed.
Print Assumptions C03_manifest_round_trip.

(** Without the uniqueness hypothesis: every name is looked up as its last
    written line, and names that were not written are absent. *)
Theorem C03_manifest_lookup : forall algo ovf_name ovf_sum elems refs,
  algorithm_name algo ->
  file_name_ok ovf_name -> hex_digest ovf_sum ->
  (forall h, In h elems ->
     file_name_ok h /\ exists s, dget str_eqb h refs = Some s /\ hex_digest s) ->
  exists text, generate_manifest algo ovf_name ovf_sum elems refs = Ok text /\
    forall name, dget str_eqb name (parse_manifest text) =
      expected_entry algo ovf_name ovf_sum elems refs name.
Proof. exact manifest_lookup. Qed.
Print Assumptions C03_manifest_lookup.

(** A line is accepted only in the documented shape, and what is stored are its
    parts; ... *)
Theorem C03_line_sound : forall line name algo sum,
  parse_manifest_line line = Some (name, (algo, sum)) ->
  exists b1 b2 b3 b4 b5,
     line = b1 ++ algo ++ b2 ++ L "(" ++ name ++ L ")" ++ b3 ++ L "=" ++ b4 ++ sum ++ b5 /\
     blanks b1 /\ blanks b2 /\ blanks b3 /\ blanks b4 /\ blanks b5 /\
     algo <> [] /\ forallb is_algo_char algo = true /\
     name <> [] /\ no_newline name /\
     sum <> [] /\ forallb is_sum_char sum = true.
Proof. exact parse_line_sound. Qed.
Print Assumptions C03_line_sound.

(** ... and every line of that shape is accepted. *)
Theorem C03_line_complete : forall b1 algo b2 name b3 b4 sum b5,
  blanks b1 -> blanks b2 -> blanks b3 -> blanks b4 -> blanks b5 ->
  algo <> [] -> forallb is_algo_char algo = true ->
  name <> [] -> no_newline name ->
  sum <> [] -> forallb is_sum_char sum = true ->
  exists r, parse_manifest_line
    (b1 ++ algo ++ b2 ++ L "(" ++ name ++ L ")" ++ b3 ++ L "=" ++ b4 ++ sum ++ b5) = Some r.
Proof. exact parse_line_complete. Qed.
Print Assumptions C03_line_complete.

(** A newline in a name loses the entry. *)
Theorem C03_newline_name_lost_refuted :
  exists name sum text,
    generate_manifest (L "SHA1") name sum [] [] = Ok text /\
    name <> [] /\ hex_digest sum /\ parse_manifest text = [].
Proof. exact newline_name_lost. Qed.
Print Assumptions C03_newline_name_lost_refuted.

(** The hypotheses hold for file names that look like manifest syntax. *)
Example C03_example :
  let refs := [(L "a)= 12", L "abc0"); (L "disk (1).vmdk", L "ff")] in
  let elems := [L "a)= 12"; L "disk (1).vmdk"] in
  (forall h, In h elems ->
     file_name_ok h /\ exists s, dget str_eqb h refs = Some s /\ hex_digest s) /\
  NoDup (L "x.ovf" :: elems) /\
  (do text <- generate_manifest (L "SHA1") (L "x.ovf") (L "00") elems refs;
   Ok (parse_manifest text)) =
  Ok [(L "x.ovf", (L "SHA1", L "00")); (L "a)= 12", (L "SHA1", L "abc0"));
      (L "disk (1).vmdk", (L "SHA1", L "ff"))].
Proof.
  cbv zeta. split; [|split].
  - intros h [<-|[<-|[]]]; (split;
      [split; [discriminate|cbn; intuition discriminate]|
       eexists; split; [reflexivity|split; [discriminate|cbn; intuition (subst; auto 20)]]]).
  - repeat constructor; cbn; intuition discriminate.
  - vm_compute. reflexivity.
Qed.
