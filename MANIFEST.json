{
 "claims": [
  {
   "property": "C01",
   "status": "proved",
   "theorems": [
    "C01_tar_entry_size_exact",
    "C01_prediction_is_an_archive_size",
    "C01_prediction_too_small_refuted",
    "C01_prediction_within_one_record",
    "C01_twice_the_prediction_suffices"
   ],
   "note": "The per-entry size and the shape of the estimate are exact; the estimate omits the descriptor's own manifest line, so the plain 'never under-estimates' claim is refuted and replaced by 'at most one 10 KiB record too small' and 'twice the estimate always suffices'."
  },
  {
   "property": "C02",
   "status": "proved",
   "theorems": [
    "C02_capacity_round_trip",
    "C02_capacity_round_trip_below_8EiB",
    "C02_zero_never_returns_refuted",
    "C02_large_capacity_changes_refuted",
    "C02_named_units",
    "C02_unknown_units_raise_refuted"
   ],
   "note": "Exact characterisation of the counts that survive; 0 never terminates and quotients above 53 significant bits are rounded (refuted parts of the claim)."
  },
  {
   "property": "C03",
   "status": "proved",
   "theorems": [
    "C03_manifest_round_trip",
    "C03_manifest_lookup",
    "C03_line_sound",
    "C03_line_complete",
    "C03_newline_name_lost_refuted"
   ],
   "note": "Exact for every set of file names without a newline; a newline in a name loses the entry (refuted theorem)."
  },
  {
   "property": "C04",
   "status": "proved",
   "theorems": [
    "C04_split_unique",
    "C04_split_value",
    "C04_order_total",
    "C04_natural_sort",
    "C04_natural_sort_sound",
    "C04_total_refuted"
   ],
   "note": ""
  },
  {
   "property": "C05",
   "status": "proved",
   "theorems": [
    "C05_check_for_conflict",
    "C05_match_or_die"
   ],
   "note": ""
  },
  {
   "property": "C06",
   "status": "proved",
   "theorems": [
    "C06_validate_int_text",
    "C06_validate_int_range",
    "C06_bounded_ints",
    "C06_int_text_functional",
    "C06_int_text_str"
   ],
   "note": ""
  },
  {
   "property": "C07",
   "status": "proved",
   "theorems": [
    "C07_mac_address",
    "C07_device_address",
    "C07_no_whitespace",
    "C07_revalidate",
    "C07_errors"
   ],
   "note": ""
  },
  {
   "property": "C08",
   "status": "proved",
   "theorems": [
    "C08_nic",
    "C08_ide",
    "C08_scsi",
    "C08_idempotent",
    "C08_case_blind",
    "C08_empty"
   ],
   "note": ""
  },
  {
   "property": "C09",
   "status": "proved",
   "theorems": [
    "C09_first_use",
    "C09_later_use",
    "C09_always_rejected_refuted",
    "C09_nic_types",
    "C09_nic_types_canonical"
   ],
   "note": ""
  },
  {
   "property": "C10",
   "status": "proved",
   "theorems": [
    "C10_nic_names_distinct",
    "C10_documented"
   ],
   "note": ""
  },
  {
   "property": "C11",
   "status": "proved",
   "theorems": [
    "C11_unused_id",
    "C11_new_device",
    "C11_cloned_device",
    "C11_unique"
   ],
   "note": "Termination and choice of the ID, fresh IDs of new and cloned devices, uniqueness over all histories of hardware operations that do not assign InstanceIDs directly."
  },
  {
   "property": "C12",
   "status": "proved",
   "theorems": [
    "C12_history",
    "C12_address",
    "C12_controller",
    "C12_checked",
    "C12_ready",
    "C12_ready_history"
   ],
   "note": "C12_negative records that negative parts are only stopped by the parser of the option."
  },
  {
   "property": "C13",
   "status": "proved",
   "theorems": [
    "C13_one_value_per_profile",
    "C13_disjoint_sets",
    "C13_single_valued",
    "C13_check_passes"
   ],
   "note": ""
  },
  {
   "property": "C14",
   "status": "proved",
   "theorems": [
    "C14_set_property",
    "C14_recorded",
    "C14_set_empty",
    "C14_failures",
    "C14_refusal",
    "C14_default_shows_refuted"
   ],
   "note": ""
  },
  {
   "property": "C15",
   "status": "proved",
   "theorems": [
    "C15_remove_profile",
    "C15_remove_records",
    "C15_remove_absent",
    "C15_add_profile"
   ],
   "note": ""
  },
  {
   "property": "C16",
   "status": "proved",
   "theorems": [
    "C16_elements",
    "C16_roundtrip",
    "C16_writing_succeeds",
    "C16_child_attribute_refuted"
   ],
   "note": ""
  },
  {
   "property": "C17",
   "status": "proved",
   "theorems": [
    "C17_count",
    "C17_explicit",
    "C17_default",
    "C17_default_refuted",
    "C17_all_named_refuted"
   ],
   "note": "The statement as reworded. C17_default_refuted and C17_all_named_refuted show why its conditions are needed: without a profile list a device present only in some profiles is added to the default one and so to every profile; naming all profiles raises RuntimeError when new devices must be cloned from a generic one."
  },
  {
   "property": "C18",
   "status": "proved",
   "theorems": [
    "C18_content",
    "C18_others_kept",
    "C18_second_write",
    "C18_no_lost_update"
   ],
   "note": "Content, order, untouched other children, idempotence, and no lost update over all histories of reads, edits and writes. Where no device changed the Items are left as read; otherwise all Items are regenerated, as the statement now says."
  },
  {
   "property": "C19",
   "status": "proved",
   "theorems": [
    "C19_declared",
    "C19_sections",
    "C19_hardware",
    "C19_gone",
    "C19_succeeds",
    "C19_unknown",
    "C19_stray_refuted"
   ],
   "note": "C19_stray_refuted records the part of the original wording that is false of the code: values set under p on devices outside p survive."
  },
  {
   "property": "C20",
   "status": "proved",
   "theorems": [
    "C20_add_child"
   ],
   "note": ""
  },
  {
   "property": "C21",
   "status": "proved",
   "theorems": [
    "C21_set_or_make_child",
    "C21_find_child"
   ],
   "note": ""
  },
  {
   "property": "C22",
   "status": "proved",
   "theorems": [
    "C22_reindent_content",
    "C22_reindent_layout",
    "C22_reindent_idempotent",
    "C22_mixed_text_lost_refuted"
   ],
   "note": ""
  },
  {
   "property": "C23",
   "status": "proved",
   "theorems": [
    "C23_only_used",
    "C23_rest_unchanged",
    "C23_determined",
    "C23_again",
    "C23_define",
    "C23_defined_is_written",
    "C23_every_connection_counts_refuted"
   ],
   "note": ""
  },
  {
   "property": "C24",
   "status": "proved",
   "theorems": [
    "C24_set",
    "C24_others_untouched",
    "C24_others_read",
    "C24_refused",
    "C24_refused_values_kept",
    "C24_invariant",
    "C24_failure_changes_nothing_refuted"
   ],
   "note": ""
  },
  {
   "property": "C25",
   "status": "proved",
   "theorems": [
    "C25_lines",
    "C25_values",
    "C25_others",
    "C25_import",
    "C25_keys",
    "C25_stale_lines_refuted",
    "C25_unsupported"
   ],
   "note": ""
  },
  {
   "property": "C26",
   "status": "proved",
   "theorems": [
    "C26_pattern",
    "C26_expand",
    "C26_long_enough",
    "C26_length",
    "C26_guess",
    "C26_guess_found"
   ],
   "note": "C26_leading_zero shows the boundary of guessing: names with leading zeros are not recognised."
  },
  {
   "property": "C27",
   "status": "proved",
   "theorems": [
    "C27_memory",
    "C27_unique",
    "C27_monotone_refuted"
   ],
   "note": "C27_monotone_refuted records that bare numbers are not interpreted monotonically."
  },
  {
   "property": "C28",
   "status": "proved",
   "theorems": [
    "C28_safe",
    "C28_measured",
    "C28_remembered",
    "C28_total",
    "C28_repeat",
    "C28_consent_refuted"
   ],
   "note": "C28_consent_refuted: a repeated check fails after consent, also with die=True."
  },
  {
   "property": "C29",
   "status": "proved",
   "theorems": [
    "C29_checksum",
    "C29_unsupported",
    "C29_size",
    "C29_reference_checksum",
    "C29_refresh",
    "C29_refresh_missing",
    "C29_refresh_again",
    "C29_every_refresh_refuted",
    "C29_new"
   ],
   "note": "C29_every_refresh_refuted: a second refresh detects no change. Hash functions are parameters that can be fed piece by piece."
  },
  {
   "property": "C30",
   "status": "proved",
   "theorems": [
    "C30_consent_add_disk",
    "C30_consent_add_file",
    "C30_consent_remove_file",
    "C30_add_disk",
    "C30_add_file",
    "C30_remove_file",
    "C30_history",
    "C30_new_id_refuted",
    "C30_changed_id_refuted",
    "C30_disk_id_refuted",
    "C30_hidden_drive_refuted"
   ],
   "note": "Per command and over histories, for packages in order, with the id conditions spelled out; the unconditional claim is refuted by four witnesses (duplicate File id, changed File id, duplicate Disk id, drive in a named profile only). On an error the model has no state."
  },
  {
   "property": "C31",
   "status": "proved",
   "theorems": [
    "C31_new_drive",
    "C31_open_controller",
    "C31_new_controller",
    "C31_wish_refuted",
    "C31_given_address_refuted",
    "C31_free_in_all_profiles_refuted"
   ],
   "note": "Exact choice of controller and address; three refuted witnesses (existing drive keeps its address, named-profile drive at a given address, drive with several addresses)."
  },
  {
   "property": "C32",
   "status": "proved",
   "theorems": [
    "C32_untar",
    "C32_no_archive",
    "C32_names",
    "C32_place",
    "C32_downward",
    "C32_outside",
    "C32_sibling_refuted",
    "C32_link_refuted",
    "C32_subdirectory_refuted"
   ],
   "note": "untar modelled over TAR members and POSIX paths; exact acceptance condition; three refuted witnesses"
  },
  {
   "property": "C33",
   "status": "proved",
   "theorems": [
    "C33_parse",
    "C33_unambiguous",
    "C33_invalid",
    "C33_total",
    "C33_nothing_lost",
    "C33_list",
    "C33_list_atomic",
    "C33_labels",
    "C33_every_value_refuted",
    "C33_lines_refuted",
    "C33_transports"
   ],
   "note": "Exact for arguments without newlines; for others the soundness theorem holds. The two limitations are recorded as refuted theorems."
  },
  {
   "property": "C34",
   "status": "proved",
   "theorems": [
    "C34_accepted",
    "C34_complete",
    "C34_blank",
    "C34_refused",
    "C34_unsupported",
    "C34_roundtrip",
    "C34_list",
    "C34_esxi",
    "C34_network_map",
    "C34_device_name_refuted",
    "C34_all_used_refuted"
   ],
   "note": "Sound and complete against an independent grammar, with the classification of errors; deviations from the documented syntax are recorded as refuted theorems."
  },
  {
   "property": "C35",
   "status": "proved",
   "theorems": [
    "C35_choice",
    "C35_waits",
    "C35_range",
    "C35_force",
    "C35_number_shown",
    "C35_unlisted_number_refuted",
    "C35_confirm"
   ],
   "note": "C35_unlisted_number_refuted: 0 selects the last option."
  },
  {
   "property": "C36",
   "status": "proved",
   "theorems": [
    "C36_order",
    "C36_success",
    "C36_clean_process",
    "C36_clean_main",
    "C36_no_directories",
    "C36_attributes",
    "C36_with",
    "C36_half_written_refuted",
    "C36_exit_zero_refuted",
    "C36_box_refuted",
    "C36_interrupted_refuted"
   ],
   "note": "Order, completeness, exit code, cleanup, attribute order and context manager proved for an arbitrary oracle of step outcomes; refuted: half-written output, errno multiple of 256, .box output only refused after the work, interrupted load leaves its directory until exit. Asynchronous exceptions between steps are not modelled."
  },
  {
   "property": "C37",
   "status": "proved",
   "theorems": [
    "C37_helper",
    "C37_no_helper",
    "C37_install_fails",
    "C37_format",
    "C37_missing",
    "C37_no_format",
    "C37_class",
    "C37_replaced_file_refuted"
   ],
   "note": "C37_replaced_file_refuted: the remembered qemu-img output makes a replaced file keep its old format. StrictVersion comparison is a parameter."
  },
  {
   "property": "C38",
   "status": "proved",
   "theorems": [
    "C38_capacity",
    "C38_requested",
    "C38_multiple_refuted",
    "C38_directory",
    "C38_estimate",
    "C38_estimate_gap",
    "C38_covers_refuted"
   ],
   "note": "C38_multiple_refuted and C38_covers_refuted record that the capacity is not a multiple of 8 MiB and that the estimate does not cover the disk."
  },
  {
   "property": "C39",
   "status": "proved",
   "theorems": [
    "C39_text_is_reported",
    "C39_wildcard_per_profile",
    "C39_text_is_reported_refuted"
   ],
   "note": ""
  },
  {
   "property": "C40",
   "status": "proved",
   "theorems": [
    "C40_printed",
    "C40_unique",
    "C40_range",
    "C40_negative_shift",
    "C40_below_1024_refuted",
    "C40_length"
   ],
   "note": "C40_below_1024_refuted: the printed text can be 1024 of a unit. Infinite, NaN and negative counts are not modelled."
  },
  {
   "property": "C41",
   "status": "proved",
   "theorems": [
    "C41_truth_value",
    "C41_truth_value_bool",
    "C41_truth_value_error"
   ],
   "note": ""
  },
  {
   "property": "C42",
   "status": "proved",
   "theorems": [
    "C42_qualified_name",
    "C42_unqualified_name"
   ],
   "note": ""
  },
  {
   "property": "C43",
   "status": "proved",
   "theorems": [
    "C43_list",
    "C43_create",
    "C43_create_list",
    "C43_create_place"
   ],
   "note": "Configuration elements without an id are listed as None, as in the code; the hardware does not see them."
  },
  {
   "property": "C44",
   "status": "proved",
   "theorems": [
    "C44_product",
    "C44_nic_types",
    "C44_controller",
    "C44_bootstrap"
   ],
   "note": ""
  },
  {
   "property": "C45",
   "status": "proved",
   "theorems": [
    "C45_find_all",
    "C45_find_all_ok",
    "C45_find_one",
    "C45_values_in_order",
    "C45_value_for_all",
    "C45_clone",
    "C45_clone_adjusted",
    "C45_values_in_order_refuted"
   ],
   "note": ""
  },
  {
   "property": "C46",
   "status": "proved",
   "theorems": [
    "C46_value",
    "C46_assign",
    "C46_reject",
    "C46_history",
    "C46_refused_refuted"
   ],
   "note": "C46_refused_refuted: a value refused once is accepted the second time, because the platform object remembers reported values."
  },
  {
   "property": "C47",
   "status": "proved",
   "theorems": [
    "C47_written",
    "C47_reopened",
    "C47_descriptor_replaced_refuted",
    "C47_other_algorithm_refuted"
   ],
   "note": "write/tar/manifest and reopening modelled over an abstract digest; TAR byte format and XML of the descriptor not part of this claim"
  },
  {
   "property": "C48",
   "status": "proved",
   "theorems": [
    "C48_once",
    "C48_command_line",
    "C48_questions",
    "C48_declined",
    "C48_serial_ports",
    "C48_all_or_nothing",
    "C48_success",
    "C48_checked_before_deployment_refuted",
    "C48_target_refuted",
    "C48_right_vm_refuted",
    "C48_profile_address_refuted",
    "C48_settings"
   ],
   "note": "Proved for an arbitrary world (package, answers, ovftool, server) and all settings; four expectations are refuted with witnesses. shlex splitting of the ovftool arguments and the SSL/requests error unwrapping are not modelled."
  },
  {
   "property": "C49",
   "status": "proved",
   "theorems": [
    "C49_once",
    "C49_last",
    "C49_labels",
    "C49_others",
    "C49_questions",
    "C49_declined",
    "C49_asked_if_missing_refuted",
    "C49_transports",
    "C49_transports_read_back_refuted",
    "C49_interactive",
    "C49_interactive_force",
    "C49_interactive_safe",
    "C49_interactive_quit",
    "C49_interactive_again",
    "C49_interactive_keep",
    "C49_interactive_edit",
    "C49_interactive_ends",
    "C49_interactive_every_property_refuted",
    "C49_interactive_Q_quits_refuted"
   ],
   "note": "whole run of the command on the VirtualSystem element; reading the file and the texts shown are not modelled"
  },
  {
   "property": "C50",
   "status": "proved",
   "theorems": [
    "C50_inject",
    "C50_again",
    "C50_declined",
    "C50_nothing",
    "C50_ready",
    "C50_accepted",
    "C50_no_drive",
    "C50_spare_disk_refuted",
    "C50_loose_file_refuted",
    "C50_named_drive_refuted"
   ],
   "note": "hypotheses: package in order (C30), addresses without a colon, CD-ROM drives in the default profile, given files not inside the working directory; the image-making programs are any function of the content; refuted witnesses for loose File, spare Disk and named-profile drive"
  },
  {
   "property": "C51",
   "status": "proved",
   "theorems": [
    "C51_convert",
    "C51_convert_any",
    "C51_convert_possible",
    "C51_convert_to",
    "C51_create",
    "C51_create_possible",
    "C51_create_refused",
    "C51_convert_own_file_refuted",
    "C51_convert_replaces_refuted",
    "C51_convert_leftover_refuted",
    "C51_convert_error_refuted",
    "C51_convert_default_refuted",
    "C51_create_error_refuted"
   ],
   "note": "the programs are modelled by what each command line of COT writes when it can be done (see ImageModel), with arbitrary versions, failures and partial files; nothing is installed on the way; refuted witnesses listed in the statement"
  },
  {
   "property": "C52",
   "status": "proved",
   "theorems": [
    "C52_capacity",
    "C52_capacity_none",
    "C52_subformat",
    "C52_subformat_none",
    "C52_raw_files",
    "C52_iso_files",
    "C52_iso_files_plain",
    "C52_rock_ridge",
    "C52_capacity_refuted",
    "C52_raw_files_refuted",
    "C52_iso_files_refuted",
    "C52_subformat_refuted"
   ],
   "note": "text is Latin-1; refuted witnesses for capacity, FAT names, ISO versions and greedy quotes"
  },
  {
   "property": "C53",
   "status": "proved",
   "theorems": [
    "C53_no_work",
    "C53_work",
    "C53_consent",
    "C53_profiles",
    "C53_other_profiles",
    "C53_other_devices",
    "C53_cpus",
    "C53_memory",
    "C53_types",
    "C53_nics",
    "C53_serials",
    "C53_connectivity",
    "C53_macs",
    "C53_networks",
    "C53_networks_stay",
    "C53_system_types",
    "C53_nic_names",
    "C53_cards_untouched_refuted",
    "C53_connected_refuted",
    "C53_old_cards_stay_refuted",
    "C53_in_turn_refuted",
    "C53_cpus_refuted",
    "C53_single_card_name_refuted",
    "C53_left_over_names_refuted"
   ],
   "note": "the option values are those after parsing (C27, C46); counting theorems need devices that are in the same profiles throughout (countable) and no profile named twice; names are read back as given for plain names (no underscore, no embedded value); seven refuted witnesses listed in the statement"
  },
  {
   "property": "C54",
   "status": "proved",
   "theorems": [
    "C54_edit",
    "C54_reads",
    "C54_getter",
    "C54_class",
    "C54_properties",
    "C54_reopened",
    "C54_again",
    "C54_fails",
    "C54_no_work",
    "C54_order_refuted",
    "C54_empty_refuted",
    "C54_two_sections_refuted"
   ],
   "note": "three refuted witnesses listed in the statement"
  },
  {
   "property": "C55",
   "status": "proved",
   "theorems": [
    "C55_validate",
    "C55_two_devices",
    "C55_again_refuted",
    "C55_error_refuted",
    "C55_types_by_profile_refuted"
   ],
   "note": "memory sizes below 2^53 bytes in the main theorem; three refuted witnesses listed in the statement"
  },
  {
   "property": "C56",
   "status": "proved",
   "theorems": [
    "C56_check_call",
    "C56_check_output",
    "C56_mkdir",
    "C56_copy_file",
    "C56_output_retry_refuted",
    "C56_undecodable_refuted",
    "C56_original_error_refuted"
   ],
   "note": "Complete for check_call, check_output, mkdir, copy_file; the machine is an arbitrary record of functions. The refuted theorems show the deviations from the docstrings."
  },
  {
   "property": "C57",
   "status": "proved",
   "theorems": [
    "C57_start",
    "C57_install",
    "C57_no_manager",
    "C57_exit",
    "C57_success",
    "C57_verify_only",
    "C57_orderly",
    "C57_verify_pages",
    "C57_install_pages",
    "C57_pages_message",
    "C57_verify_always_succeeds",
    "C57_verify_refuted",
    "C57_abort_refuted",
    "C57_abort_linux_refuted"
   ],
   "note": "Complete for the functions named; messages are data constructors, StrictVersion's printing and the layout of the report are not modelled; the caches of captured output (C37) are left out. files_behave lists what is assumed about the file system for the manual pages."
  },
  {
   "property": "C58",
   "status": "proved",
   "theorems": [
    "C58_wrapped",
    "C58_filled",
    "C58_determined",
    "C58_no_width",
    "C58_blanks_refuted"
   ],
   "note": "Complete: textwrap.TextWrapper with the options COT uses (break_on_hyphens=False, break_long_words=False) is modelled from the library's source."
  },
  {
   "property": "C59",
   "status": "proved",
   "theorems": [
    "C59_table",
    "C59_printed",
    "C59_text",
    "C59_capacity_refuted",
    "C59_always_refuted"
   ],
   "note": "Complete. The wrapping of label and description, where hyphens may be broken, is an arbitrary function."
  },
  {
   "property": "C60",
   "status": "proved",
   "theorems": [
    "C60_listing",
    "C60_longest",
    "C60_full_name",
    "C60_width",
    "C60_width_disks",
    "C60_device_refuted",
    "C60_no_id_refuted"
   ],
   "note": "Complete. The readable form of a File's size text is an arbitrary function (float parsing is not modelled); pretty_bytes itself is C40."
  },
  {
   "property": "C61",
   "status": "proved",
   "theorems": [
    "C61_refreshed",
    "C61_sourced",
    "C61_works",
    "C61_orderly",
    "C61_linked_refuted",
    "C61_same_name_refuted",
    "C61_empty_image_refuted",
    "C61_old_unit_refuted"
   ],
   "note": "Complete for _refresh_file_references. For OVF 0.9, whose Disks have no units, Disks that nevertheless carry a units attribute are excluded by hypothesis. The state of the files (existence, size, capacity, readability) is arbitrary but fixed while the method runs."
  },
  {
   "property": "C62",
   "status": "proved",
   "theorems": [
    "C62_whole",
    "C62_header",
    "C62_product",
    "C62_annotation",
    "C62_eula",
    "C62_printed",
    "C62_hardware",
    "C62_networks",
    "C62_network_fits",
    "C62_nics",
    "C62_environment",
    "C62_properties",
    "C62_property_fits",
    "C62_run",
    "C62_options",
    "C62_terminal",
    "C62_label_refuted",
    "C62_no_networks_refuted",
    "C62_narrow_refuted",
    "C62_success_refuted"
   ],
   "note": "Complete for the text; the reading of float texts (file sizes) and textwrap at hyphens (labels of profiles, see C59) are parameters. The wording of log messages is left out."
  },
  {
   "property": "C63",
   "status": "proved",
   "theorems": [
    "C63_usage",
    "C63_usage_total",
    "C63_usage_determined",
    "C63_usage_complete",
    "C63_usage_fits",
    "C63_usage_long",
    "C63_parts",
    "C63_examples",
    "C63_examples_narrow",
    "C63_example_words",
    "C63_example_fits",
    "C63_layout_determined",
    "C63_question",
    "C63_question_narrow",
    "C63_blank_usage_refuted",
    "C63_nested_refuted",
    "C63_quoted_refuted",
    "C63_blank_lines_refuted",
    "C63_endless_refuted",
    "C63_bare_backslash_refuted"
   ],
   "note": "The texts of the interface, including the two verbose regular expressions and textwrap with broken words. Examples are treated for terminals of at least 4 columns; for 1 column and less the error is proved, for 2 columns the endless loop."
  },
  {
   "property": "C64",
   "status": "proved",
   "theorems": [
    "C64_verbosity",
    "C64_fields",
    "C64_starts",
    "C64_delivered",
    "C64_mandatory_first",
    "C64_no_command",
    "C64_names",
    "C64_cot_names",
    "C64_cot_words",
    "C64_cot_starts",
    "C64_help",
    "C64_help_refuted",
    "C64_quietude_refuted"
   ],
   "note": "argparse itself is not modelled: the namespace it returns is the input. That argparse accepts exactly the names registered is its documented behaviour, modelled as a map."
  },
  {
   "property": "C65",
   "status": "proved",
   "theorems": [
    "C65_written",
    "C65_reopened",
    "C65_confined",
    "C65_descriptor_sum",
    "C65_directory",
    "C65_subdirectory_refuted",
    "C65_same_name_refuted",
    "C65_descriptor_replaced_refuted",
    "C65_unrelated_refuted",
    "C65_failure_refuted"
   ],
   "note": "The file system is a map from places to contents: no permissions, links or full disks, directories are made as needed. A manifest half written on an error is not modelled."
  },
  {
   "property": "C66",
   "status": "proved",
   "theorems": [
    "C66_hardware_reread",
    "C66_reindented",
    "C66_cannot_be_read_refuted",
    "C66_unknown_profile_refuted",
    "C66_empty_device_refuted"
   ],
   "note": "Printing and parsing the XML text itself are not modelled: the theorem holds for every document with the same content as the one that was written."
  },
  {
   "property": "C67",
   "status": "proved",
   "theorems": [
    "C67_names",
    "C67_opens",
    "C67_refused",
    "C67_opens_iff",
    "C67_refused_iff",
    "C67_reported_refuted"
   ],
   "note": "Proved for any package; C67_reported_refuted shows malformed packages that are not reported with VMInitError."
  },
  {
   "property": "C68",
   "status": "proved",
   "theorems": [
    "C68_ovf",
    "C68_ova",
    "C68_opened",
    "C68_box_refuted"
   ],
   "note": "Proved for .ovf and .ova on top of C22, C23, C47, C61, C65, C66 and C67. XML serialisation is a pair of functions that need only be faithful on the tree being written. C68_box_refuted: an output x.box is accepted but can never be written."
  },
  {
   "property": "C69",
   "status": "proved",
   "theorems": [
    "C69_ovf_steps",
    "C69_ova_steps",
    "C69_confined_ovf",
    "C69_confined_ova",
    "C69_original_archive",
    "C69_original_directory",
    "C69_in_place",
    "C69_noticed_archive",
    "C69_noticed_directory",
    "C69_in_place_lost_refuted",
    "C69_in_place_ovf_refuted"
   ],
   "note": "Proved for every stopping point. Power failures that lose already written data are not meant. C69_in_place_lost_refuted: as the working directory is removed when the command fails, (3) does not save the files. C69_in_place_ovf_refuted: overwriting a .ovf in place and stopping before the manifest leaves a package that is taken for damaged."
  },
  {
   "property": "C70",
   "status": "proved",
   "theorems": [
    "C70_edit_product",
    "C70_edit_properties",
    "C70_refused"
   ],
   "note": "Proved, with the conditions of C16, C65, C47, C66 and C68 for the input (can_be_written). An element that has both text and elements loses its text when it is written (C22), so product texts, labels and descriptions are claimed if they have no elements in them. In the interactive mode (nothing asked for) which properties are changed is C49."
  },
  {
   "property": "C71",
   "status": "proved",
   "theorems": [
    "C71_opens",
    "C71_profiles",
    "C71_other_profiles",
    "C71_other_devices",
    "C71_cpus",
    "C71_memory",
    "C71_types",
    "C71_numbers",
    "C71_macs",
    "C71_connectivity",
    "C71_networks",
    "C71_nic_names",
    "C71_new_networks",
    "C71_system_types",
    "C71_rest"
   ],
   "note": "Proved, with the conditions of C16, C65, C47, C66 and C68 for the edited package (can_be_written). The conditions on the single options are those of C53: distinct profiles, devices countable, a number not below zero. The numbers of NICs and serial ports and the devices not concerned are claimed for runs that delete no profiles. A refused run is C70_refused, which holds for every edit."
  },
  {
   "property": "C72",
   "status": "proved",
   "theorems": [
    "C72_add_file",
    "C72_remove_file",
    "C72_add_disk"
   ],
   "note": "C72_add_file, C72_remove_file and C72_add_disk put together opening (C67), the commands (C30, C31), writing (C68) and opening again. Sizes and capacities are measured again when writing (C61) and are therefore left out of what is the same. The preconditions on identifiers are those of C30."
  },
  {
   "property": "C73",
   "status": "proved",
   "theorems": [
    "C73_inject",
    "C73_found",
    "C73_refused"
   ],
   "note": "Composes C50 (inject-config on an open package) with C67 (opening), C68/C69 (writing) and C72's argument about what the output has. The image-making programs are a parameter. The user's files and the files of the package are not among the scratch files in the working directory; directories given with --extra-files are not modelled."
  },
  {
   "property": "C74",
   "status": "proved",
   "theorems": [
    "C74_history",
    "C74_files",
    "C74_brought",
    "C74_next"
   ],
   "note": "By induction over the list of runs, from C70, C72 and C73 for one run; the conditions that these ask are asked of each run. edit-hardware is not among the commands (that it leaves the package in order is not proved)."
  },
  {
   "property": "C75",
   "status": "proved",
   "theorems": [
    "C75_subtype",
    "C75_all_same",
    "C75_differ",
    "C75_common_refuted",
    "C75_drive_name",
    "C75_controller_name"
   ],
   "note": ""
  },
  {
   "property": "C76",
   "status": "proved",
   "theorems": [
    "C76_history",
    "C76_one_meaning",
    "C76_version",
    "C76_children",
    "C76_model_names",
    "C76_system_type",
    "C76_section_types",
    "C76_numbers",
    "C76_namespace_of_type",
    "C76_tag_and_namespace",
    "C76_every_type_has_a_tag",
    "C76_new_disk"
   ],
   "note": ""
  },
  {
   "property": "C77",
   "status": "proved",
   "theorems": [
    "C77_package",
    "C77_fatdisk",
    "C77_vmdktool",
    "C77_up_to_date",
    "C77_version",
    "C77_any_version_refuted"
   ],
   "note": "Exact events of a successful installation, by helper; the version by C77_version. C77_any_version_refuted: a program whose version is one number or four numbers makes version raise ValueError. Dictionaries are in insertion order (Python 3.7 and later)."
  },
  {
   "property": "C78",
   "status": "proved",
   "theorems": [
    "C78_add_disk",
    "C78_add_disk_refused",
    "C78_add_disk_at",
    "C78_add_controller",
    "C78_add_disk_controller",
    "C78_add_controller_refused",
    "C78_add_disk_no_controller",
    "C78_add_disk_at_new",
    "C78_add_disk_at_refused",
    "C78_add_file",
    "C78_add_new_file",
    "C78_remove_file",
    "C78_remove_forced"
   ],
   "note": "Exact outcome (success or which error) of add_file_run and remove_file_run for all inputs on orderly packages; success of add_disk_worker for new images when a controller has room, a new controller is agreed to and has an address, or the given address is free, and the refusal otherwise. Success of add-disk when a drive is replaced is not claimed."
  }
 ]
}