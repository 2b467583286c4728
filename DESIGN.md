# Formal model of COT (glennmatthews/cot) in Rocq

## 1. Approach

Every modelled function is a small total Gallina function that follows the
Python function branch by branch.  Exceptions are values (`result`), mutation
returns the new state, loops are structural recursion, folds, or recursion on
fuel that returns an explicit out-of-fuel error which the theorems exclude.
Every definition carries a comment with file and lines in /repo; where it is
simpler than the code the comment says so.  Python 3 semantics is assumed.

Layout of `rocq/theories`:

* `Py*.v`            – Python-level primitives (results, strings, decimal text,
                       dictionaries, a backtracking regular expression engine).
* `<Area>Model.v`    – model of the code, no proofs.
* `<Area>Spec.v`     – small independent specification.
* `<Area>Proofs.v`   – lemmas.
* `<Area>Props.v`    – the property theorems, each followed by
                       `Print Assumptions`, and `Example`s showing that the
                       hypotheses are met by concrete non-trivial cases.

Python `str` is modelled by `str := list ascii`, that is text of 8-bit
characters with the code points of Latin-1; `L "abc"` is a literal.  Characters
above U+00FF are outside the model.

A theorem named `Cnn_…_refuted` is a witness that an expectation one may have,
or an earlier wording of the property, is false of the code.  The statement in
`properties.jsonl` then says what is true instead, and that is what is proved.
No property is left partial: where a hypothesis is needed it is part of the
statement.

## 2. Properties

| id | what is modelled | how it is proved |
|----|------------------|------------------|
| C01 | tar_entry_size, predicted_output_size over Z; length of the manifest text | arithmetic (div/mod), induction on the file list |
| C02 | both unit conversions; float division as rounding to 53 bits | strong induction on the number of factors 1024; witnesses for 0 and above 53 bits |
| C03 | generate_manifest / parse_manifest, the regex run by the backtracking engine PyRegex | induction on the entries, last-match lemma for the greedy group |
| C04 | alphanum_split and sort by key (stable insertion sort as list.sort) | induction; the key order is a total preorder |
| C05 | check_for_conflict, match_or_die | induction on the list |
| C06 | int() as a text parser; validate_int and its relatives | case analysis against a grammar of integer texts |
| C07 | the validators' regexes, run by PyRegex | equivalence with declarative grammars |
| C08 | canonicalize_helper with the three tables of patterns | prefix lemmas; finite sweep over the tables, lifted by forallb_forall |
| C09 | Platform objects as state machines with their memory of reported values | induction over histories of checks |
| C10 | guess_nic_name of all platforms | injectivity of decimal printing and of (div, mod) |
| C11 | OVFHardware dictionary, find_unused_instance_id, new/clone/delete | pigeonhole for termination, invariant over histories |
| C12 | the setters of add-disk for controller and address | invariant over histories of assignments |
| C13 | OVFItem: dictionary value -> profiles per property | invariant over all operations of the item |
| C14 | set_property, get_value | refinement to profile -> property -> option value |
| C15 | add_profile, remove_profile | same refinement |
| C16 | generate_items and reading them back | partition of the profiles, round trip through XML |
| C17 | set_item_count_per_profile | counting lemmas; refinement to counts per profile |
| C18 | update_xml, reading the VirtualHardwareSection | simulation between item table and XML, over histories |
| C19 | delete_configuration_profile | refinement; what remains of every device |
| C20 | XML.add_child with its ordering | induction on the children, permutation and sortedness |
| C21 | XML.set_or_make_child | case analysis on find_child |
| C22 | XML.xml_reindent | nested structural induction on element trees |
| C23 | _refresh_networks | filtering lemma over networks and connections of all NICs |
| C24 | set_property_value, validate_property_value and the qualifiers | case analysis, history lemma |
| C25 | config_file_to_properties | induction over the lines |
| C26 | expand_list_wildcard, guess_list_wildcard | induction on the length |
| C27 | the memory option | regex as grammar, arithmetic |
| C28 | check_disk_space with its cache and the user as oracle | induction over histories |
| C29 | chunked hashing with an arbitrary streaming digest; FileReference.refresh | induction on chunks, histories of refreshes |
| C30 | Files, Disks, drives; add-disk, add-file, remove-file as whole commands, with the user as oracle | invariant `orderly` kept by each command and over histories; inversion of the questions asked |
| C31 | find_open_controller, add_controller_device, _create_new_disk_device | lowest-free lemma; description of the occupied addresses |
| C32 | untar: members, POSIX path functions | characterisation of normalised paths |
| C33 | the parser of `key=value+type` arguments | grammar, uniqueness of the parse |
| C34 | SerialConnection.from_cli_string and its parts | sound and complete against a grammar |
| C35 | confirm, confirm_or_die, choose_from_list, input loops with an input stream | induction on the inputs |
| C36 | CLI.main and the command life cycle with an oracle of outcomes | case analysis over all outcomes of all steps |
| C37 | helper_select, DiskRepresentation.from_file with the qemu-img cache | induction over the choices |
| C38 | raw and ISO capacity arithmetic | arithmetic |
| C39 | wildcard substitution in item properties | string replacement lemmas |
| C40 | pretty_bytes on exact rationals, rounding as in Python's format | induction on the units, rounding lemmas |
| C41 | truth_value | finite tables, grammar |
| C42 | XML.get_ns, strip_ns, add_ns helpers | string lemmas |
| C43 | config_profiles, create_configuration_profile | equality with the list in the document, over histories |
| C44 | Platform.for_product_string | case analysis over the table |
| C45 | find_item, find_all_items, set_value_for_all_items, set_item_values_per_profile, clone_item | membership characterisation, sortedness, effect lemmas |
| C46 | the quantity options (cpus, nics, serial ports) | case analysis with the platform's memory and the user as oracle |
| C47 | write for OVA: archive contents, manifest; opening it again | induction on the members, composition with C03 and C29 |
| C48 | COT deploy to ESXi: ovftool command line, power, serial ports | inversion of the run in an arbitrary world |
| C49 | edit-properties: command line and dialogue | invariant over the dialogue's rounds, with the answers as stream |
| C50 | inject-config as a whole command | composition of C30 with the search for drives |
| C51 | creating and converting images (RAW, VMDK, QCOW2, ISO) over an abstract file system | inversion of the runs; frame property for other files |
| C52 | parsers of the outputs of qemu-img, fatdisk, isoinfo and of VMDK headers | grammar of the outputs; regexes run by PyRegex |
| C53 | edit-hardware as a whole command | composition of C17, C23, C45, C46; frame properties per option |
| C54 | edit-product and the product attributes | effect on the section, frame property |
| C55 | validate_hardware | loop over profiles and devices with the platform's memory |
| C56 | check_call, check_output, Helper.call, mkdir, cp | inversion in an arbitrary machine |
| C57 | install-helpers and the helpers' install methods | inversion of the loop; effects on the set of installed programs |
| C58 | textwrap as COT uses it | strong induction on the chunks; greedy fill is unique |
| C59 | profile_info_list, profile_info_string | exact content of each row from independent counting predicates |
| C60 | the files and disks part of info_string | exact content of each row; width arithmetic |
| C61 | _refresh_file_references in an arbitrary world of files | invariant of the loop over files; preservation of `orderly` |
| C62 | info_string and its remaining parts; the run over several packages | exact content of each part, by words of wrapped texts |
| C63 | fill_usage, fill_examples and the wrapping of confirm, with their regular expressions and textwrap with broken words | uniqueness of the parts and of the greedy layout; continuation lemmas of the regex engine |
| C64 | verbosity, log fields, forced mode, flattening of arguments, setting of attributes, registration of subparsers, help | dictionaries as association lists; induction over registrations; exact characterisation of the attributes set |
| C65 | the .ovf branch of write, copy_to of both kinds of file, dirname | file system as a map from places; induction over the files copied; composition with the manifest round trip and the opening of a package |
| C66 | no new code: read_hardware and update_xml together | reading sorts the elements by InstanceID, so that the fold over the section is a fold per device; composition with the round trip of one device (C16) and of the section (C18); independence of layout by same_content |
| C67 | OpenModel.v models factory, detect_type_from_name, _ovf_descriptor_from_name and OVF.__init__ up to the files and their complaints, over find_child (XmlModel), read_hardware (HardwareModel), untar, load_files and the parser of XML as a function. | OpenSpec.v says in relations what a well-formed package is (descriptor_is, described), what is wrong with one (envelope_wrong, refused) and what the name stands for (kind_of).  Opened implies described, not opened implies refused for the exception raised, and the two exclude each other; so both are equivalences. |
| C68 | SaveModel.v models write and write_xml over update_xml, validate_hardware, refresh_files, refresh_networks, xml_reindent, write_ovf and write_ova; the sections, separate fields of an open package, are put back into the tree they belong to. | SaveSpec.v says which packages are meant (consistent, hardware_ready) and what stays the same (same_package). Section by section, the written envelope is shown to have exactly the sections of the package, refreshed; the tree that is read back has the same content, so opening finds the same sections, reads the same hardware (C66) and, by C47 and C65, the same files and a manifest that agrees. |
| C69 | CrashModel.v gives the changes of write_ovf and write_ova one after the other (a file written, an archive begun, a member appended), up to the error if there is one; CrashSpec.v says where the program can have stopped, including halfway through a file or member. | The steps are shown to refine the models of C65 and C47 (same end, same result), then an invariant over the prefixes of the steps gives what has been touched, what has been carried over before the archive is begun, and what of the new archive or directory can be read. |
| C70 | CommandModel.v puts OpenModel, ProductModel or EditPropModel, and SaveModel together, as ReadWriteCommand does; CommandSpec.v says what a package's product information and properties are, and what 'the package with another product section' is. | The edits keep everything of the virtual system outside the product section (invariant over config file, command line and dialogue) and the transport attribute; then C68 for the edited package, and the fields of same_package are carried back to the input; hardware_ready is derived for opened packages. |
| C71 | CommandHwModel.v puts OpenModel, EditHwModel and SaveModel together, as ReadWriteCommand does for edit-hardware; CommandHwSpec.v says what 'alike under a profile', 'alike of a type' and 'all else' mean for two packages and what a run is. | TwinProofs.v: devices that report the same values satisfy the same specifications of C53, so that each theorem of C53 about the edited hardware is carried over C66/C68 to the hardware read back; the document invariants of C53 (profiles cached, networks, other sections) connect the edited machine with the package that is written. |
| C72 | Runs of add-file, add-disk and remove-file from the input on the disk to the output on the disk (CommandFileModel: the package after the command, with the place each file is copied from). | The run is opened, the command is a sequence of steps of C18, so the result can be written and read again; being in order is carried over since devices report the same and Files and Disks have the same attributes; contents are followed through the copy. |
| C73 | The files of the world are changed by the command (copies of the configurations and the image in the working directory) before the package is written; inject_run (C50) runs on the files that the user gave, and the package is then written from the changed world. | written_again (CommandFileProofs2) gives the reopened package for any change to Files, Disks and devices; made_image and made_other say what is in the working directory, and holds_twin carries the values of the drive to the output. |
| C74 | Relation history over (command, package after it); files, devices and the rest carried over each run | Induction over the runs; C70/C72/C73 per run, transitivity of sameness, opening does not change what is stored |
| C75 | The add-disk worker of C30/C31 with the selection of the subtype and the creation of the controller; the shared subtype is specified by a relation over the controllers of the kind in InstanceID order. | Induction over the list of controllers for the shared subtype; the frame over the devices comes from the add-disk proofs. |
| C76 | __getattr__ with the tables of the three classes and their class-level caches as state; the specification is a table of names by version. Attributes Python finds without __getattr__ are not modelled as lookups. | Invariant over histories: every cached entry is what an uncached lookup gives; the tables are compared with the specification by computation over their finitely many entries, for every string. |
| C77 | InstallExactSpec: literal tables of managers, packages and version words, the relations packaged, got, fatdisk_built, vmdktool_built, version_in over the list of events. | InstallExactProofs: every lookup is calm (only the memory of the helpers changes, and what counts as present does not), so the events are those of the commands in sequence; the regular expression for the version by the greedy-match lemmas. |
| C78 | Which add-file, remove-file and add-disk commands succeed | AcceptSpec says which Files a name and an identifier mean (`meant`) and which fit both (`fits`). AcceptProofs shows that the searches of DriveModel cannot fail on an orderly package (uniqueness of names and identifiers, one drive per disk, sortable InstanceIDs, controllers that exist) and derives the exact outcome of both commands as a match over the result. AcceptDiskProofs shows that each step of add_disk_worker succeeds for a new image: the searches find nothing, the open controller is of the right type, and every property of the new drive can be set (`fresh`: one ResourceType and no quantity, subtype or connection, so no wildcard of a name can fail). For a new controller: the lowest unused address is within the limit if any is free (`lowest_unused`), the name replaces the first one so that the description can be written with it, and a controller under a free InstanceID has no devices, so its first address is open. |

No property was found that a model cannot express; what each leaves open (an
external program, the file system, the XML parser, …) is a universally
quantified parameter of its theorems, and listed in section 5.

## 3. Deviations found

Where the code does not do what one would expect, with the theorem that shows
it.

| id | finding | theorems |
|----|---------|----------|
| C01 | the estimate omits the descriptor's own line in the manifest, so it can be one record too small | `C01_prediction_too_small_refuted` |
| C02 | capacity 0 never terminates; above 53 significant bits the number changes; 'PetaBytes' is a ValueError | `C02_zero_never_returns_refuted`, `C02_large_capacity_changes_refuted`, `C02_unknown_units_raise_refuted` |
| C03 | a newline in a file name loses the entry | `C03_newline_name_lost_refuted` |
| C04 | superscript digits are a ValueError | `C04_total_refuted` |
| C09 | a value outside the limits is accepted at the second call | `C09_always_rejected_refuted` |
| C12 | negative addresses are stopped by the option parser only |  |
| C14 | a default value shows under profiles without a value of their own | `C14_default_shows_refuted` |
| C16 | attributes of a child without namespace make the written item unreadable | `C16_child_attribute_refuted` |
| C17 | without a profile list, devices of single profiles yield too many; naming all profiles can raise RuntimeError | `C17_default_refuted`, `C17_all_named_refuted` |
| C19 | a value set under a deleted profile on a device outside it survives | `C19_stray_refuted` |
| C22 | text between elements is lost | `C22_mixed_text_lost_refuted` |
| C23 | only the first Connection of a NIC counts | `C23_every_connection_counts_refuted` |
| C24 | a refused retyping leaves the new type; a refused new key leaves a property without value | `C24_failure_changes_nothing_refuted` |
| C25 | lines of an earlier, longer import stay | `C25_stale_lines_refuted` |
| C26 | leading zeros defeat the guessing of a pattern |  |
| C27 | bare numbers are not read monotonically (GiB against MiB) | `C27_monotone_refuted` |
| C28 | consent is not remembered | `C28_consent_refuted` |
| C29 | a second refresh detects no change, or raises for a missing file | `C29_every_refresh_refuted` |
| C30 | duplicate File and Disk ids, a Disk left dangling when the id of its File changes, a drive of a named profile left dangling | `C30_new_id_refuted`, `C30_changed_id_refuted`, `C30_disk_id_refuted`, `C30_hidden_drive_refuted` |
| C31 | an existing drive keeps its address despite a wish; a given address may collide with a drive of a named profile; a drive with several addresses is not counted | `C31_wish_refuted`, `C31_given_address_refuted`, `C31_free_in_all_profiles_refuted` |
| C32 | a sibling directory with the same prefix is accepted; a symbolic link can be the descriptor; a descriptor in a subdirectory is extracted before it is refused | `C32_sibling_refuted`, `C32_link_refuted`, `C32_subdirectory_refuted` |
| C33 | a value ending in +word cannot be given untyped; lines are refused or lost | `C33_every_value_refuted`, `C33_lines_refuted` |
| C34 | letters are taken as a kind; text after the port and unknown options are dropped; a refused list has already replaced the old one | `C34_device_name_refuted`, `C34_all_used_refuted` |
| C35 | 0 selects the last option | `C35_unlisted_number_refuted` |
| C36 | an interrupted write leaves half the output; an errno that is a multiple of 256 exits with 0; .box is refused only after the work; an interrupted load leaves its directory until exit | `C36_half_written_refuted`, `C36_exit_zero_refuted`, `C36_box_refuted`, `C36_interrupted_refuted` |
| C37 | the qemu-img cache is by path, so a replaced file keeps its old format | `C37_replaced_file_refuted` |
| C38 | the capacity is no multiple of 8 MiB and the estimate can be below it | `C38_multiple_refuted`, `C38_covers_refuted` |
| C39 | some texts (a quantity in the name) cannot be reported | `C39_text_is_reported_refuted` |
| C40 | '1024 KiB' can be printed | `C40_below_1024_refuted` |
| C45 | a device outside the given profiles still uses up a value | `C45_values_in_order_refuted` |
| C46 | a refused value is accepted the second time | `C46_refused_refuted` |
| C47 | a file named like the new descriptor replaces it; the algorithm named in the manifest is ignored | `C47_descriptor_replaced_refuted`, `C47_other_algorithm_refuted` |
| C48 | an unsupported serial kind is noticed after deployment; ambiguous targets; the first VM of the same name is changed; profile-dependent serial addresses are ignored | `C48_checked_before_deployment_refuted`, `C48_target_refuted`, `C48_right_vm_refuted`, `C48_profile_address_refuted` |
| C49 | asked to create a property that exists; a transport with a blank reads back as two; the keys 'q' and 'Q' | `C49_asked_if_missing_refuted`, `C49_transports_read_back_refuted`, `C49_interactive_every_property_refuted`, `C49_interactive_Q_quits_refuted` |
| C50 | a loose config File ends in a LookupError; a spare first Disk hides later ones; a CD drive of a named profile gets a neighbour at its address | `C50_spare_disk_refuted`, `C50_loose_file_refuted`, `C50_named_drive_refuted` |
| C51 | own prefix.img overwritten and removed; a source in the target directory replaced; scratch files stay after errors; masked errors | `C51_convert_own_file_refuted`, `C51_convert_replaces_refuted`, `C51_convert_leftover_refuted`, `C51_convert_error_refuted`, `C51_convert_default_refuted`, `C51_create_error_refuted` |
| C52 | '5 bytes.vmdk' as capacity; FAT names with blanks; ISO version suffixes; greedy createType | `C52_capacity_refuted`, `C52_raw_files_refuted`, `C52_iso_files_refuted`, `C52_subformat_refuted` |
| C53 | editing CPUs can create 'VM Network' or reconnect NICs; a NIC outside the profile uses up a value; success without any CPU; `--nic-names 'eth{0}'` with one card names it 'eth{0}'; left-over cards are named 'None' | `C53_cards_untouched_refuted`, `C53_connected_refuted`, `C53_old_cards_stay_refuted`, `C53_in_turn_refuted`, `C53_cpus_refuted`, `C53_single_card_name_refuted`, `C53_left_over_names_refuted` |
| C54 | new elements come after the properties; a text cannot be emptied; two ProductSections cannot be opened | `C54_order_refuted`, `C54_empty_refuted`, `C54_two_sections_refuted` |
| C55 | a failed check passes the second time; two CPU devices are a LookupError; NIC types are not told apart by profile | `C55_again_refuted`, `C55_error_refuted`, `C55_types_by_profile_refuted` |
| C56 | check_output never retries; undecodable output of a failed command raises UnicodeDecodeError; a missing sudo hides the error | `C56_output_retry_refuted`, `C56_undecodable_refuted`, `C56_original_error_refuted` |
| C57 | verify-only always succeeds; RuntimeError or a failed download aborts without a report | `C57_verify_refuted`, `C57_abort_refuted`, `C57_abort_linux_refuted` |
| C58 | blanks are not kept; a terminal of one column is a ValueError | `C58_blanks_refuted` |
| C59 | the capacity is that of the package; a CPU without quantity is a TypeError | `C59_capacity_refuted`, `C59_always_refuted` |
| C60 | the device is cut after 20 characters; a File without id is a TypeError | `C60_device_refuted`, `C60_no_id_refuted` |
| C61 | a missing file leaves its Disk dangling; two Files of one name are a LookupError; capacity 0 never ends; in an OVF 0.9 package a Disk with units keeps them although the refreshed capacity is in bytes (C61_old_unit_refuted) | `C61_linked_refuted`, `C61_same_name_refuted`, `C61_empty_image_refuted`, `C61_old_unit_refuted` |
| C62 | an annotation beginning with a line break loses its label; a network section without networks is a ValueError; narrow terminals; success although nothing could be read | `C62_label_refuted`, `C62_no_networks_refuted`, `C62_narrow_refuted`, `C62_success_refuted` |
| C63 | a blank usage string is a ValueError; nested brackets are torn apart; the alternative for quoted values in the example splitter can never be used, so quoted values are split and lose blanks; blank lines of a question vanish; a description beginning with a blank is wrapped forever in a terminal of two columns | `C63_blank_usage_refuted`, `C63_nested_refuted`, `C63_quoted_refuted`, `C63_blank_lines_refuted`, `C63_endless_refuted`, `C63_bare_backslash_refuted` |
| C64 | cot help knows deploy-esxi, which is no command, and not esxi; the number of -q becomes an attribute of every command | `C64_help_refuted`, `C64_quietude_refuted` |
| C65 | writing an .ovf flattens subdirectories, lets files of the same base name and files called like the descriptor overwrite each other, overwrites unrelated files without asking, and a failure leaves a new descriptor with the old manifest | `C65_subdirectory_refuted`, `C65_same_name_refuted`, `C65_descriptor_replaced_refuted`, `C65_unrelated_refuted`, `C65_failure_refuted` |
| C66 | `edit-hardware --profiles small --memory N`, when the memory exists only under another profile, writes an Item without InstanceID, and the package can then not be opened again (AttributeError); a device emptied by deleting its profile keeps its number until the package is opened again | `C66_cannot_be_read_refuted`, `C66_unknown_profile_refuted`, `C66_empty_device_refuted` |
| C67 | Malformed packages raise raw exceptions instead of VMInitError: no References or VirtualSystem (KeyError), two DiskSections (LookupError), an Item without InstanceID (AttributeError), an Item with two different ElementNames (OVFItemDataError), a File without href (TypeError), a size that is no number (ValueError); an archive whose descriptor is in a subdirectory cannot be opened (EnvironmentError), since the descriptor is then looked for by its base name. | `C67_reported_refuted` |
| C68 | An output file named x.box passes the check of names when the package is opened (detect_type_from_name), all edits are done, and only write() raises NotImplementedError: every command with such an output fails at the very end with a traceback. | `C68_box_refuted` |
| C69 | Overwriting an .ova in place (no -o given) is not safe: tarfile.open(..., 'w') truncates the only copy, the files are then only in the working directory, and if an exception follows (disk full) destroy() deletes that directory: the package is lost (C69_in_place_lost_refuted). Overwriting an .ovf in place writes the descriptor first and the manifest last: stopping in between leaves a checksum mismatch (C69_in_place_ovf_refuted). | `C69_in_place_lost_refuted`, `C69_in_place_ovf_refuted` |
| C70 | edit-product and edit-properties read, edit, refresh and write the whole package; nothing beyond C68 is lost. Product texts, labels or descriptions with elements in them (mixed content) lose their text when the file is indented. |  |
| C71 | The hardware edited in memory (C53) is the hardware read from the output: the Items written are read back with the same values, profiles and order. A VirtualSystemType element with elements in it (mixed content) would lose its text. |  |
| C75 | The documentation of get_common_subtype says None is returned when the items do not all have the same subtype. The result depends on the order: a first controller without a subtype is skipped and the subtype of the second is returned, while with the two swapped the answer is None (C75_common_refuted). | `C75_common_refuted` |
| C77 | A helper that prints a version of one number, or of four or more (qemu-img version 4, 2.11.1.1), makes Helper.version raise ValueError from StrictVersion, which is not caught by install-helpers (C77_any_version_refuted). | `C77_any_version_refuted` |
| C78 | C78: remove-file of the file of a drive that is neither a CD-ROM drive nor a hard disk (for example a floppy drive) raises ValueUnsupportedError, after the File has been taken out of the description in memory. |  |

## 4. Trusted base

* The kernel of Coq 8.16.1, including the virtual machine (`vm_compute` is used
  for the examples, the witnesses and finite tables).
* The reading of the Python source into the model; nothing here runs the code.
* For each of the 570 theorems in `MANIFEST.json`, `Print Assumptions` (in the
  `*Props*.v` files, below each theorem) prints "Closed under the global
  context": no axioms are used, neither of the standard library nor of any other
  library.  Only the standard library is imported; what it loads itself (the file
  Coq.ssr.ssrunder declares axioms) is not used by any theorem.
* Parameters.  External things are Section variables or record fields, over
  which the theorems quantify: the answers of the user, the outcome of programs
  and of file system calls, digests, capacities and sizes of files, the
  comparison of version numbers, wrapping at hyphens, reading a float.
  Assumptions about them are hypotheses visible in the theorems (for example
  that a digest can be fed piece by piece, or that qemu-img reports a number
  below 2^63).

## 5. What is modelled

Lines of function bodies cited by the model, per file of /repo/COT (without
docstrings), and the functions that have no model.  Functions that only return
a stored value, and the abstract methods of `VMDescription`, need none.

| file | lines | not modelled |
|------|-------|--------------|
| _version.py | 0/360 | (version bookkeeping) |
| commands/add_disk.py | 212/294 | run, create_subparser |
| commands/add_file.py | 22/57 | __init__, file, ready_to_run, create_subparser |
| commands/command.py | 130/146 | __init__, working_dir_disk_space_required |
| commands/demo_logging.py | 0/70 | run, create_subparser |
| commands/deploy.py | 160/256 | __init__, create_subparser |
| commands/deploy_esxi.py | 244/303 | create_subparser |
| commands/edit_hardware.py | 376/557 | nic_type, nic_types, scsi_subtype, scsi_subtypes, ide_subtype, ide_subtypes, create_subparser |
| commands/edit_product.py | 72/111 | create_subparser |
| commands/edit_properties.py | 157/240 | create_subparser |
| commands/help.py | 14/26 | __init__, create_subparser |
| commands/info.py | 34/58 | create_subparser |
| commands/inject_config.py | 140/177 | __init__, create_subparser |
| commands/install_helpers.py | 126/195 | __init__, create_subparser |
| commands/remove_file.py | 43/80 | __init__, ready_to_run, create_subparser |
| data_validation.py | 129/142 | __init__, __str__ |
| disks/disk.py | 102/107 |  |
| disks/iso.py | 64/64 |  |
| disks/qcow2.py | 25/25 |  |
| disks/raw.py | 83/83 |  |
| disks/vmdk.py | 79/80 |  |
| file_reference.py | 125/152 | add_to_archive, __init__, open |
| helpers/apt_get.py | 11/12 |  |
| helpers/brew.py | 5/10 | __init__ |
| helpers/fatdisk.py | 37/41 | __init__ |
| helpers/gcc.py | 0/1 |  |
| helpers/helper.py | 284/292 | __init__, TemporaryDirectory |
| helpers/isoinfo.py | 4/8 | __init__ |
| helpers/make.py | 0/1 |  |
| helpers/mkisofs.py | 0/8 | __init__ |
| helpers/ovftool.py | 6/10 | __init__ |
| helpers/port.py | 7/10 | __init__ |
| helpers/qemu_img.py | 4/8 | __init__ |
| helpers/vmdktool.py | 52/56 | __init__ |
| helpers/yum.py | 2/3 |  |
| platforms/cisco_c9800cl.py | 11/11 |  |
| platforms/cisco_csr1000v.py | 11/11 |  |
| platforms/cisco_iosv.py | 8/8 |  |
| platforms/cisco_iosxrv.py | 12/12 |  |
| platforms/cisco_iosxrv_9000.py | 8/8 |  |
| platforms/cisco_nexus_9000v.py | 4/4 |  |
| platforms/cisco_nxosv.py | 5/5 |  |
| platforms/platform.py | 37/47 | __init__ |
| ui/cli.py | 282/348 | __init__, run, create_parser, create_subparsers |
| ui/ui.py | 35/56 | __init__, fill_usage, get_input |
| utilities.py | 40/47 | to_string |
| vm_description/ovf/hardware.py | 297/297 |  |
| vm_description/ovf/item.py | 436/448 | __str__ |
| vm_description/ovf/name_helper.py | 117/129 |  |
| vm_description/ovf/ovf.py | 1868/1877 | product_class |
| vm_description/ovf/utilities.py | 49/49 |  |
| vm_description/vm_description.py | 62/134 | abstract methods |
| xml_file.py | 157/161 | __init__ |

Not modelled, in words: argparse and the construction of the option parsers
(what an option's `type` function does is), the texts of log messages, the
network (pyVmomi and ovftool are oracles), what external helper programs do
beyond what the theorems on them say, the XML parser and serialiser and the TAR
format (element trees and member lists are the level of the model), and the
real file system beyond the operations the model's worlds describe.
