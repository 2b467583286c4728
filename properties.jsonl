{"id": "C01", "title": "TAR size prediction is exact per entry and never off by more than one record", "statement": "The space reported for a TAR entry is the 512-byte header plus the data rounded up to a whole 512-byte block. The predicted output size of an OVA is a whole number of 10240-byte TAR records: the size of an archive with the descriptor, every referenced file and a manifest with one line per referenced file. The archive really written (whose manifest also has a line for the descriptor, which the prediction forgets) exceeds the prediction by at most one record, so twice the prediction, which COT requires to be free, always suffices.", "quantifier": "every file size, every list of referenced files, both checksum algorithms", "why_tests_cant": "unbounded integers and list lengths; rounding errors show only at specific residues", "anchors": ["COT/utilities.py:tar_entry_size", "COT/vm_description/ovf/ovf.py:OVF.predicted_output_size", "COT/vm_description/ovf/ovf.py:OVF.generate_manifest"]}
{"id": "C02", "title": "Disk capacity survives a write/read round trip below 8 EiB", "statement": "Writing a non-zero byte count as an OVF (capacity, capacityAllocationUnits) pair terminates, and reading the pair back gives the same number of bytes exactly when the count is not a multiple of 1024 or its quotient by 1024 is exact in double precision - in particular for every positive count below 2^63. (A count of 0 never terminates and some larger counts change.) Named units in any letter case are read as powers of 1024.", "quantifier": "every non-negative byte count", "why_tests_cant": "unbounded integers; failures only at 0 and beyond the 53-bit float mantissa", "anchors": ["COT/vm_description/ovf/utilities.py:int_bytes_to_programmatic_units", "COT/vm_description/ovf/utilities.py:programmatic_bytes_to_int", "COT/vm_description/ovf/ovf.py:OVF.set_capacity_of_disk", "COT/vm_description/ovf/ovf.py:OVF.get_capacity_from_disk"]}
{"id": "C03", "title": "Manifest files written by COT are read back exactly", "statement": "Parsing the manifest text generated for any list of files whose names contain no newline yields exactly one entry per file, each with the algorithm and checksum that was written (the last one written if a name is repeated); a line is accepted exactly when it has the documented shape with optional blanks, and the stored parts are the parts of the line.", "quantifier": "every list of distinct non-empty file names without newlines and every hexadecimal checksum", "why_tests_cant": "file names may contain any character including the manifest's own delimiters", "anchors": ["COT/vm_description/ovf/ovf.py:OVF.generate_manifest", "COT/vm_description/ovf/utilities.py:parse_manifest"]}
{"id": "C04", "title": "natural_sort is a stable, number-aware sort", "statement": "Every string has one cut into text and maximal digit runs; natural_sort returns the one permutation of its input that is ordered by this cut (digit runs as numbers, text by code points) and keeps elements with equal cuts in their old order. It raises only ValueError, and only if some text between digit runs consists of superscript digits alone.", "quantifier": "every list of strings over the Latin-1 characters", "why_tests_cant": "unbounded lists and strings; total-order laws quantify over triples", "anchors": ["COT/data_validation.py:alphanum_split", "COT/data_validation.py:natural_sort"]}
{"id": "C05", "title": "Conflict checking returns the one agreed object or rejects", "statement": "check_for_conflict returns None when no non-None references are given, the common object when all non-None references are the same, and otherwise raises; it never silently picks one of two different objects.", "quantifier": "every list of optional references", "why_tests_cant": "arbitrary list length and order", "anchors": ["COT/data_validation.py:check_for_conflict", "COT/data_validation.py:match_or_die"]}
{"id": "C06", "title": "Integer validators accept exactly the documented range", "statement": "validate_int, non_negative_int and positive_int read text as the decimal integer it denotes (optional blanks around, optional sign, single underscores between digits), return the integer when it lies in the inclusive range, raise the too-low error exactly below, the too-high error exactly above the range, and the unsupported-value error exactly for text that denotes no integer.", "quantifier": "every text and every pair of optional bounds", "why_tests_cant": "unbounded integers and strings", "anchors": ["COT/data_validation.py:validate_int", "COT/data_validation.py:non_negative_int", "COT/data_validation.py:positive_int"]}
{"id": "C07", "title": "MAC and device-address validators accept exactly the documented syntax", "statement": "mac_address accepts exactly six two-digit hex groups separated all by ':' or all by '-' or three four-digit groups separated by '.', device_address exactly <digits>:<digits>, no_whitespace exactly text without blanks inside, all after trimming; accepted values are returned trimmed, re-validating a returned value returns it unchanged, and everything else is an InvalidInputError.", "quantifier": "every string", "why_tests_cant": "the set of strings is infinite", "anchors": ["COT/data_validation.py:mac_address", "COT/data_validation.py:device_address", "COT/data_validation.py:no_whitespace"]}
{"id": "C08", "title": "Canonicalisation of device subtypes is idempotent, case-blind and closed", "statement": "canonicalize_ide_subtype, canonicalize_scsi_subtype and canonicalize_nic_subtype return the canonical name of the first documented alias that the input starts with (in any letter case, blanks allowed between the words of an alias), return only documented canonical names, map their own results to themselves and reject everything that starts with no known alias; the empty value maps to no subtype.", "quantifier": "every string", "why_tests_cant": "the set of strings is infinite; idempotence depends on the interplay of all regular expressions in order", "anchors": ["COT/data_validation.py:canonicalize_helper", "COT/data_validation.py:canonicalize_ide_subtype", "COT/data_validation.py:canonicalize_nic_subtype", "COT/data_validation.py:canonicalize_scsi_subtype"]}
{"id": "C09", "title": "Platform limits are reported at the first use of each value", "statement": "For any sequence of validate_* calls on one platform object, a call raises iff the value is outside the limits of that platform and (except for the CPU sets of CSR1000V and C9800-CL) the same value was not validated before on that object; different hardware kinds never interfere.", "quantifier": "every platform, every history of validation calls", "why_tests_cant": "depends on the whole call history", "anchors": ["COT/platforms/platform.py:Platform", "COT/platforms/cisco_csr1000v.py:CSR1000V", "COT/platforms/cisco_c9800cl.py:C9800CL", "COT/platforms/cisco_iosv.py:IOSv", "COT/platforms/cisco_iosxrv.py:IOSXRv", "COT/platforms/cisco_iosxrv_9000.py:IOSXRv9000", "COT/platforms/cisco_nexus_9000v.py:Nexus9000v", "COT/platforms/cisco_nxosv.py:NXOSv"]}
{"id": "C10", "title": "Guessed NIC names never collide and follow the documented numbering", "statement": "On every platform, guess_nic_name gives different names to different NIC numbers counted from 1, and each name is the one documented for that platform (for example slot and port from 2/1 to 2/48, then 3/1 on NX-OSv).", "quantifier": "every platform, all pairs of positive NIC numbers", "why_tests_cant": "infinitely many pairs", "anchors": ["COT/platforms/platform.py:Platform.guess_nic_name", "COT/platforms/cisco_nxosv.py:NXOSv.guess_nic_name", "COT/platforms/cisco_iosxrv_9000.py:IOSXRv9000.guess_nic_name"]}
{"id": "C11", "title": "New hardware items get a fresh instance ID, and IDs stay unique", "statement": "The instance ID chosen for a new item terminates, is at least the requested start, is unused and is the smallest such; after any sequence of creating, cloning, deleting and editing items, no two items share an instance ID.", "quantifier": "every hardware section, every operation history", "why_tests_cant": "depends on the history of operations and on arbitrary existing IDs", "anchors": ["COT/vm_description/ovf/hardware.py:OVFHardware.find_unused_instance_id", "COT/vm_description/ovf/hardware.py:OVFHardware.new_item", "COT/vm_description/ovf/hardware.py:OVFHardware.clone_item"]}
{"id": "C12", "title": "Disk controller and address options stay mutually valid", "statement": "After any sequence of assignments to the controller and address options of add-disk, some of which may be rejected, the stored pair is always a valid combination (with both set: IDE at most 1:1, SCSI at most 3:15); an assignment is accepted exactly if it makes a valid combination, it then changes only that option, and a rejected assignment changes nothing. Addresses that went through the option's own parser are also bounded from below by 0:0 (the combination check alone lets negative numbers pass).", "quantifier": "every sequence of assignments of arbitrary strings", "why_tests_cant": "order-dependent validation over all histories", "anchors": ["COT/commands/add_disk.py:validate_controller_address", "COT/commands/add_disk.py:COTAddDisk.controller", "COT/commands/add_disk.py:COTAddDisk.address"]}
{"id": "C13", "title": "A hardware item never holds two values of one property for one profile", "statement": "Through any sequence of reading XML items, setting properties, adding and removing profiles, the sets of profiles attached to the different values of one property are pairwise disjoint and the default profile never shares a set with a named one.", "quantifier": "every operation history on an item", "why_tests_cant": "an invariant over unbounded histories", "anchors": ["COT/vm_description/ovf/item.py:OVFItem"]}
{"id": "C14", "title": "Setting a property affects exactly the requested profiles", "statement": "After set_property(name, value, profiles) with a non-empty value, the item reports that value for exactly the requested profiles and, if the default profile is requested, for the profiles without a value of their own; every other profile reports what it did before and every other recorded property is unchanged. An empty value removes exactly the requested profiles' records. The call fails only if overwriting is forbidden and a requested profile has a value, or if a second instance ID or resource type would arise. (The two free texts are recorded with wildcards, see C39.)", "quantifier": "every item reachable by any history, every property, value and profile set", "why_tests_cant": "default inheritance and profile-set merging make interference input-dependent", "anchors": ["COT/vm_description/ovf/item.py:OVFItem.set_property", "COT/vm_description/ovf/item.py:OVFItem.get_value"]}
{"id": "C15", "title": "Adding or removing a profile does not disturb the other profiles", "statement": "remove_profile leaves nothing reported for the profile and the reports for all other profiles of the document unchanged (with split_default=False the profile falls back to the default values and all others are unchanged); add_profile leaves the reports for all other profiles unchanged and makes the new profile report, for every property of the source item other than the two free texts, its default or only value.", "quantifier": "every item reachable by any history and every profile name", "why_tests_cant": "as above", "anchors": ["COT/vm_description/ovf/item.py:OVFItem.add_profile", "COT/vm_description/ovf/item.py:OVFItem.remove_profile"]}
{"id": "C16", "title": "Item generation partitions the profiles and loses nothing", "statement": "The XML items generated for a device have pairwise disjoint configuration sets which together cover exactly the profiles that have values of their own; two profiles share an item exactly if all their values agree, the default profile has an item of its own which comes first, and each item gives for each property exactly the value the device reports for its profiles and nothing else. Reading the generated items back succeeds and reports the same value of every property under every profile. This is for devices with the usual child elements and attributes, profile names that are single words, and texts that are not confused with the values they mention: attributes of child elements are written on a separate child without namespace, and the result cannot be read back.", "quantifier": "every well-formed item, any number of profiles and properties", "why_tests_cant": "set refinement over arbitrary families of overlapping sets", "anchors": ["COT/vm_description/ovf/item.py:OVFItem.generate_items", "COT/vm_description/ovf/item.py:OVFItem.get_nonintersecting_set_list", "COT/vm_description/ovf/item.py:OVFItem.add_item"]}
{"id": "C17", "title": "Setting the number of devices yields that number in every requested profile", "statement": "get_item_count reports the number of devices of a type in a profile. When set_item_count_per_profile(type, n, profiles) succeeds with named profiles that every device of the type knows of (and each device has its type wherever it has its InstanceID), every requested profile has exactly n devices of the type afterwards: a surplus is removed from the highest-numbered devices, and devices already there stay when n grows. Every other named profile keeps exactly its devices, devices of other types are untouched and no device vanishes. Without a profile list the same holds for all profiles of the document and the default one when the devices of the type are generic (in every profile by default); when devices differ between profiles it does not hold (a profile can end with more devices), and naming all profiles explicitly can fail with RuntimeError.", "quantifier": "every reachable hardware section, type, count n >= 0 and profile list", "why_tests_cant": "depends on how existing items are shared between profiles", "anchors": ["COT/vm_description/ovf/hardware.py:OVFHardware.set_item_count_per_profile", "COT/vm_description/ovf/hardware.py:OVFHardware.get_item_count_per_profile"]}
{"id": "C18", "title": "Hardware edits reach the XML and nothing else changes", "statement": "A write of the hardware section either finds that no device was marked as changed and their number equals the number of Item elements, and leaves the document alone, or leaves in the section exactly the elements generated from the current devices, in natural order of their instance IDs, Item elements directly behind Info and System and other item elements at the end, with every other child kept in order. Whatever was read, edited and written before, no change to a device is lost: after a write the items of the document are those the devices were read from unchanged, or those generated from them. A second write changes nothing.", "quantifier": "every hardware section and edit history", "why_tests_cant": "lost updates depend on history", "anchors": ["COT/vm_description/ovf/hardware.py:OVFHardware.update_xml"]}
{"id": "C19", "title": "Deleting a configuration profile removes all of it and only it", "statement": "A successful delete_configuration_profile(p) removes exactly the one Configuration with ID p (and the deployment section with the last of them), drops p from the listed profiles and nothing else, removes the records under p from every device that is in p, and leaves every other device, record and section as it was, so every other profile sees the same values; a device that was in p only is no longer written. It succeeds for any profile declared once, and refuses an undeclared one. (A value set under p on a device that is not in p survives the deletion: refuted part.)", "quantifier": "every document, every history of edits, and every profile", "why_tests_cant": "interaction with default inheritance", "anchors": ["COT/vm_description/ovf/ovf.py:OVF.delete_configuration_profile", "COT/vm_description/ovf/item.py:OVFItem.remove_profile"]}
{"id": "C20", "title": "XML insertion keeps the schema order and all existing children", "statement": "add_child inserts the new element so that existing children keep their relative order, nothing is dropped, and if the children were ordered according to the given ordering they still are.", "quantifier": "every list of children and every ordering", "why_tests_cant": "all positions and duplicate tags", "anchors": ["COT/xml_file.py:XML.add_child"]}
{"id": "C21", "title": "set_or_make_child is idempotent and visible", "statement": "After set_or_make_child(parent, tag, text, attrib) looking up that tag (and attributes) finds a child with that text and attributes; repeating the call changes nothing; other children are untouched.", "quantifier": "every element tree", "why_tests_cant": "as above", "anchors": ["COT/xml_file.py:XML.set_or_make_child", "COT/xml_file.py:XML.find_child"]}
{"id": "C22", "title": "Re-indentation only touches whitespace", "statement": "xml_reindent changes no tag, attribute, child order or text of an element without children, and re-indenting twice gives the same document as once.", "quantifier": "every element tree at every depth", "why_tests_cant": "unbounded depth and width", "anchors": ["COT/xml_file.py:XML.xml_reindent"]}
{"id": "C23", "title": "Only networks in use are written out", "statement": "When an OVF is written, a network stays listed exactly if it was listed before and some NIC item names it in its (first) Connection. The kept Network elements are unchanged and in their order, the rest of the section and of the document is untouched, the section goes when no network is left, and a second write changes nothing. Defining a network lists it exactly once with its description, updates an existing one in place and leaves the others alone. Deviations shown: a second Connection of a NIC, and a NIC written as a plain Item in OVF 2.x, do not keep their network.", "quantifier": "every document, every sequence of network definitions and clean-ups, every hardware section, all three OVF versions", "why_tests_cant": "depends on arbitrary per-profile connections", "anchors": ["COT/vm_description/ovf/ovf.py:OVF._refresh_networks", "COT/vm_description/ovf/ovf.py:OVF.create_network", "COT/vm_description/ovf/ovf.py:OVF.networks", "COT/vm_description/ovf/ovf.py:OVF._ensure_section"]}
{"id": "C24", "title": "Environment property values obey their declarations", "statement": "Setting an environment property either succeeds or raises. On success the property with that key (created, with type string, if there is none) carries the type, label, description and user-configurable mark given, its stored value is the one given in the canonical form of its type (true/false for a boolean) and satisfies the type and the MinLen/MaxLen qualifiers, reading it gives that value, and if all properties satisfied their declarations before, they all do afterwards. On success or failure the other properties and all other content of the document are untouched, apart from creating the product section if missing. It fails only for OVF 0.9, an ambiguous document, or a value that cannot be stored so as to satisfy the declaration, and then no value changes - although the new type, the new user-configurable mark or a newly created valueless property stays behind, so that a refused change of type leaves a value contradicting its declaration.", "quantifier": "every property table, key, value, type and qualifier string", "why_tests_cant": "infinite input space of values and qualifiers", "anchors": ["COT/vm_description/ovf/ovf.py:OVF.set_property_value", "COT/vm_description/ovf/ovf.py:OVF._validate_value_for_property"]}
{"id": "C25", "title": "Configuration files become uniquely numbered properties", "statement": "Importing a configuration file on a platform that supports it makes the i-th line that is neither empty nor a '!' comment, trimmed of surrounding white space, the value of the i-th numbered property (platform prefix, '-', the number in decimal with at least four digits): where no property has those keys yet the import succeeds and appends exactly these properties, of type string, in order; where some do, they are overwritten. Different lines get different keys, and the natural order of the keys is the order of the lines, also beyond 9999. Reading any other property gives what it gave before - including lines of an earlier, longer import, which stay. Unsupported platforms and OVF 0.9 change nothing.", "quantifier": "every configuration text", "why_tests_cant": "unbounded number of lines (number width changes)", "anchors": ["COT/vm_description/ovf/ovf.py:OVF.config_file_to_properties"]}
{"id": "C26", "title": "Numbered name lists expand and are guessed faithfully", "statement": "Expanding a name list to a requested length returns the list unchanged if it is long enough; otherwise it keeps every name but the last, and the missing names are the last name with each '{n}' wildcard replaced by consecutive numbers counted from n (from 0 for names without a wildcard, which are then repeated unchanged). The pattern guessed for a list expands back to exactly that list, and a pattern is found whenever the list ends in two or more names that differ only in consecutive numbers written without leading zeros. (Names with leading zeros are not recognised.)", "quantifier": "every list of names and every target length", "why_tests_cant": "unbounded lists and numbers; digits carry over", "anchors": ["COT/commands/edit_hardware.py:expand_list_wildcard", "COT/commands/edit_hardware.py:guess_list_wildcard"]}
{"id": "C27", "title": "Memory strings are interpreted by their unit", "statement": "A memory option is accepted exactly if it consists, apart from blanks, of decimal digits followed by an optional M or G in either case, an optional i and an optional B in either case, and denotes a positive amount; the stored amount in MiB is the number itself with M, 1024 times the number with G, and for a bare number 1024 times the number when it is at most 64 and the number itself otherwise. Every other text is rejected with InvalidInputError. (For bare numbers the stored amount is therefore not monotone: 64 means 65536 MiB and 65 means 65 MiB.)", "quantifier": "every string", "why_tests_cant": "infinite input space; threshold boundaries", "anchors": ["COT/commands/edit_hardware.py:COTEditHardware.memory"]}
{"id": "C28", "title": "Disk-space checks never pass without space or consent", "statement": "Over any sequence of disk space checks, a check succeeds only if the user has just agreed, or the space just measured in the deepest existing directory of the location suffices, or the space last measured there does; a check measures unless it is unforced and an earlier measurement there was for at least as much; the user is asked exactly if a measuring check finds too little, and a refusal makes it fail (or ends the program, if so requested). A repeated check with the same requirement does not ask again. (Consent is not remembered: the repeated check fails without asking, even where failure should end the program.)", "quantifier": "every history of checks, any disk usage and user answers", "why_tests_cant": "history-dependent cache", "anchors": ["COT/commands/command.py:Command.check_disk_space"]}
{"id": "C29", "title": "Checksums are independent of buffering and refreshed after changes", "statement": "file_checksum equals the digest of the whole content whatever the sizes of the single reads. Over any history of operations on a file reference and changes to its file, the reference reports the size and checksum it first saw until the first refresh and the current ones afterwards; the first refresh answers True exactly if size and checksum are what was first seen. (Every later refresh answers True for any existing file and raises for a missing one, so it detects no change.) A reference can be made exactly if the file exists; otherwise an IOError is raised.", "quantifier": "every file content, every history of modifications and refreshes", "why_tests_cant": "unbounded content and histories", "anchors": ["COT/data_validation.py:file_checksum", "COT/file_reference.py:FileReference.refresh"]}
{"id": "C30", "title": "File, disk and drive references stay consistent", "statement": "Call a package in order when File ids, File names and Disk ids are there and unique, no reference leads nowhere, no two drives share a disk or file and no two Disks a File, drives have one HostResource and exist in the default profile, and exactly the Files of the descriptor are copied. add-disk, add-file and remove-file, in any order and with any answers, keep a package in order: add-disk adds or replaces one File and (for a hard disk) one Disk and one drive standing for exactly it, on an existing controller of the asked type; add-file adds or replaces one File; remove-file takes exactly the named File, its Disk and its hard disk drive, or empties its CD-ROM drive. All other entries stay. No File or Disk is replaced, no existing drive used, changed to another kind, emptied or removed, no controller added and no existing controller's subtype changed unless the user agreed to a question that says so. Conditions: an id that is asked for, or that defaults to the file name, must not belong to another File or Disk (COT does not check this: duplicate ids and dangling Disks are possible), and drives that exist only in a named profile are not found and may be left dangling.", "quantifier": "every package description and every history of successful commands", "why_tests_cant": "cross-references over arbitrary collections", "anchors": ["COT/vm_description/ovf/ovf.py:OVF.add_file", "COT/vm_description/ovf/ovf.py:OVF.remove_file", "COT/vm_description/ovf/ovf.py:OVF.add_disk", "COT/vm_description/ovf/ovf.py:OVF.add_disk_device"]}
{"id": "C31", "title": "Automatically chosen controllers and addresses are free", "statement": "A new drive for which no address is given goes to the first controller of its type, by InstanceID, that is not full, at its lowest free address; if all are full it goes to a new controller at the lowest address that no controller of the type has; past the ranges (SCSI 0-3 with 0-7, IDE 0-1 with 0-1) there is an error. A new drive with a given address gets it, and no device of the default profile was there. A device counts as occupying an address if this is its only address over all profiles: one with different addresses in different profiles, or (for given addresses) one that exists in a named profile only, may get a neighbour at its address; a file that already has a drive on the given controller keeps its address whatever is asked for.", "quantifier": "every arrangement of existing devices", "why_tests_cant": "arbitrary occupancy patterns", "anchors": ["COT/vm_description/ovf/ovf.py:OVF.find_open_controller", "COT/vm_description/ovf/ovf.py:OVF.add_controller_device", "COT/vm_description/ovf/ovf.py:OVF._create_new_disk_device"]}
{"id": "C32", "title": "Opening an OVA extracts one descriptor and refuses names that lead elsewhere", "statement": "Opening an OVA extracts exactly one member: the first one whose name ends in \".ovf\" (with something other than dots before it), to the path of that name in the working directory, and only if the archive can be read, is not empty and every member name passes the check; otherwise a VMInitError is raised and nothing is extracted. A name passes exactly if it does not begin with exactly two slashes and the place it leads to from the working directory lies in the parent of the working directory, in an entry whose name begins with the name of the working directory. So names that do not lead upwards always pass and stay inside the working directory, and names that lead out of the parent directory are always refused. The check is textual: a name leading into a sibling directory whose name extends the working directory's passes (refuted witness), a symbolic link as descriptor is extracted as such (refuted witness), and a descriptor in a subdirectory of the archive is extracted but the package is then refused (refuted witness).", "quantifier": "all archives (any number of members with any names), all absolute working directories", "why_tests_cant": "adversarial path strings", "anchors": ["COT/vm_description/ovf/ovf.py:OVF.untar"]}
{"id": "C33", "title": "Property arguments parse into key, value and type without ambiguity", "statement": "A one-line property argument is read as key[=value][+type], where key and type are non-empty and free of '=' and '+' and a value that ends in '+word' is read as value and type: the reading is unique, it is the one stored, and an argument without a reading is refused as invalid input. For any argument at all the stored parts spell the argument (apart from one final newline). A list is stored in order, or, if one argument is invalid, nothing changes. Labels and descriptions, when given, must be as many as the properties. (A value ending in '+word' cannot be given without a type, and a value of several lines is refused.) A word given for a transport stands for iso, VMware's or IBM's transport if it is one of the three short names, and for itself otherwise; the transports given replace those given before.", "quantifier": "every argument text and every list of arguments", "why_tests_cant": "regular-expression backtracking over arbitrary strings", "anchors": ["COT/commands/edit_properties.py:COTEditProperties.properties"]}
{"id": "C34", "title": "Serial connection strings parse consistently", "statement": "A serial connection string is blank (no connection), refused as unsupported exactly when its kind is unknown, refused as invalid, or stored with exactly the kind, value and options it spells: tcp and telnet values are host:port, files need a datastore option, the last entry for an option counts. 'kind:value,options' comes back as given. Lists are stored in order, at most four on ESXi; network maps are stored unchanged if every entry has the form network=target, else nothing changes. (Letters at the start of a value without a kind are taken for a kind, text after the port and options beginning with '=' are dropped, and a refused list has already replaced the old one.)", "quantifier": "every string and every list of strings", "why_tests_cant": "infinite input space", "anchors": ["COT/commands/deploy.py:SerialConnection", "COT/commands/deploy.py:COTDeploy.serial_connection", "COT/commands/deploy.py:COTDeploy.network_map", "COT/commands/deploy_esxi.py:COTDeployESXi.serial_connection"]}
{"id": "C35", "title": "Questions to the user have exactly the documented answers", "statement": "choose_from_list returns what the first acceptable line selects: the line itself if it is the default or an option, else the only option starting with it, else the option with that number; an empty line stands for the default; it keeps asking exactly as long as nothing is selected, and without interaction the default is returned. Every option is shown with its number and that number selects it unless the default or an option starts with it. A yes/no question is answered by the first line that is, apart from blanks, empty, y or Y (yes) or n or N (no). (0 and negative numbers, which are not shown, select options from the end.)", "quantifier": "every option list and every sequence of user inputs", "why_tests_cant": "unbounded interaction sequences", "anchors": ["COT/ui/ui.py:UI.choose_from_list", "COT/ui/cli.py:CLI.confirm", "COT/ui/cli.py:CLI.get_input"]}
{"id": "C36", "title": "Commands act in order, write only finished and accepted work, and clean up", "statement": "Whatever each step outside COT's own control flow does (succeeds, says no, or raises any exception), what a command run does is a beginning of: set every given attribute (mandatory arguments first, each exactly once), pass the readiness checks, do the work, have the result accepted, begin and complete writing the output under the requested name (or over the package). If nothing goes wrong all of it happens and the exit code is 0; the exit code is 0 otherwise only if an exception from outside maps to 0 (SystemExit(0), or an EnvironmentError whose errno is a multiple of 256). Working directories are all removed at the end of the process, except those whose removal itself raised; after main also except one whose loading was interrupted by a non-Exception. A `with` block writes only after the block succeeded and removes its directory likewise. (Not true: that a failed command never touches the output: a failure while writing leaves half of it.)", "quantifier": "every command kind, argument list, amount of work, and every outcome (success, refusal or any exception) of every step", "why_tests_cant": "all exception points", "anchors": ["COT/ui/cli.py:CLI.main", "COT/commands/command.py:ReadWriteCommand.finished", "COT/vm_description/vm_description.py:VMDescription.__exit__"]}
{"id": "C37", "title": "Helper and disk-format selection is deterministic by preference", "statement": "helper_select returns the first installed helper of sufficient version without installing anything; if there is none, it installs the installable choices in order of preference until one has a sufficient version, and fails with HelperNotFoundError if nothing can be installed; a failing installation ends the search. A disk image is represented as ISO if isoinfo (or, without it, the mark in the file) says so, otherwise by the format that qemu-img names, and is rejected if that format is not supported or no format is named. (qemu-img's answer is remembered by path: after a file has been replaced it is still taken for what it was.)", "quantifier": "every list of choices, every installation state", "why_tests_cant": "all combinations of availability", "anchors": ["COT/helpers/helper.py:helper_select", "COT/disks/disk.py:DiskRepresentation.from_file", "COT/disks/disk.py:DiskRepresentation.file_is_this_type", "COT/disks/iso.py:ISO.file_is_this_type", "COT/disks/raw.py:RAW.file_is_this_type", "COT/helpers/qemu_img.py:QEMUImg.call"]}
{"id": "C38", "title": "Bootstrap disk sizes and their estimates", "statement": "A raw configuration disk made for given files (up to 8 PiB in total) is formatted with a whole number of MiB more than 7 MiB and at most 8 MiB above the total size of the files, or with the requested capacity, and then receives every file in order under its base name. The temporary space inject-config asks for is, beyond that of the VM, the total size of the files (counting every readable file below a given directory exactly once), rounded up to the next multiple of 8 MiB for a hard disk. (The capacity is not a multiple of 8 MiB, and the estimate does not cover the disk: it can be up to 8 MiB too small.)", "quantifier": "every list of file sizes and every directory tree", "why_tests_cant": "unbounded integers", "anchors": ["COT/disks/raw.py:RAW._create_file", "COT/commands/inject_config.py:COTInjectConfig.working_dir_disk_space_required", "COT/utilities.py:directory_size"]}
{"id": "C39", "title": "Wildcard values are rendered per item and recovered on reading", "statement": "An element name or description that is set is recorded with wildcards in place of the item's quantity, subtype, connection and name, and is reported again exactly as given, provided that these values are non-empty plain text without underscores that is no part of a placeholder, and that the text has no underscores and no placeholder word between two of the values. A recorded wildcard is reported as the value of the profile asked for, or as an error if there is none. Without the provisos the text can be lost.", "quantifier": "every item reachable by any history, every text and every set of profiles", "why_tests_cant": "substring interactions are input-dependent", "anchors": ["COT/vm_description/ovf/item.py:OVFItem.value_add_wildcards", "COT/vm_description/ovf/item.py:OVFItem.value_replace_wildcards"]}
{"id": "C40", "title": "Byte counts are printed in the right unit and correctly rounded", "statement": "Printing a byte count picks the one unit B, KiB, ..., YiB in which the number is below 1024 and, above bytes, at least 1; the printed number is that exact quotient rounded to an integer for bytes (ties to even) or to four significant digits for larger units. The text has at most nine characters. The operation fails with IndexError exactly for counts of 1024 YiB or more and with ValueError exactly for a negative shift. (Because of the rounding to four digits, '1024 KiB' can be printed.)", "quantifier": "every size and shift", "why_tests_cant": "unbounded magnitude", "anchors": ["COT/utilities.py:pretty_bytes"]}
{"id": "C41", "title": "Truth values are read as the documented words only", "statement": "truth_value returns a boolean unchanged, reads y/yes/t/true/on/1 as true and n/no/f/false/off/0 as false in any letter case, and rejects every other text with ValueUnsupportedError.", "quantifier": "every boolean and every string", "why_tests_cant": "the set of strings is infinite", "anchors": ["COT/data_validation.py:truth_value"]}
{"id": "C42", "title": "Qualified XML names split and join without loss", "statement": "For a qualified name '{namespace}name' (no line break, no closing brace in the local name) get_ns gives the namespace and strip_ns the local name; a name that does not start with an opening brace has the empty namespace and is its own local name.", "quantifier": "every namespace and every local name", "why_tests_cant": "names and namespaces are arbitrary strings", "anchors": ["COT/xml_file.py:XML.get_ns", "COT/xml_file.py:XML.strip_ns"]}
{"id": "C43", "title": "The list of configuration profiles is always that of the document; creating one touches nothing else", "statement": "After any history of opening, looking up, creating and deleting profiles and editing hardware, the listed profiles are those declared in the document, default ones first. Creating a profile updates the one Configuration with that ID or adds one last, sets the given label and description, keeps attributes, other Configurations, other sections and the hardware, and puts a new section directly before the VirtualSystem.", "quantifier": "every document, every history, every profile ID, label and description", "why_tests_cant": "a cached list can go stale along any interleaving of edits; tests try one or two", "anchors": ["COT/vm_description/ovf/ovf.py:OVF.config_profiles", "COT/vm_description/ovf/ovf.py:OVF.create_configuration_profile", "COT/vm_description/ovf/ovf.py:OVF._ensure_section"]}
{"id": "C44", "title": "Platforms are selected exactly by product string", "statement": "for_product_string selects a special platform exactly when the product string is one of the known ones, character by character, and the generic platform otherwise; each platform supports exactly its documented NIC types and attaches disks to IDE except hard disks on CSR1000V and C9800-CL (SCSI). Each platform has its documented bootstrap files (primary and secondary configuration), bootstrap disk type and prefix for literal commands.", "quantifier": "every product string, platform, NIC type and device type", "why_tests_cant": "ranges over all strings: near-misses such as prefixes must select the generic platform", "anchors": ["COT/platforms/platform.py:Platform.for_product_string", "COT/platforms/platform.py:Platform.SUPPORTED_NIC_TYPES", "COT/platforms/cisco_csr1000v.py:CSR1000V.controller_type_for_device", "COT/platforms/cisco_c9800cl.py:C9800CL.controller_type_for_device"]}
{"id": "C45", "title": "Device lookup, bulk property changes and cloned devices", "statement": "Looking up devices by type, profiles and property values lists exactly the devices that fit, lowest InstanceID first (numbers inside IDs compared as numbers); looking up a single device returns the only one that fits, nothing if none fits, and raises LookupError if several fit. Setting a list of values device by device gives the m-th device of the type the m-th value, and the default once the values are used up, under exactly those given profiles that the device is in (a device in none of them still uses up its value), and changes no other property, profile or device. Setting one value for all devices of a type gives it to all of them, or makes one new device with it on request if there is none. A cloned device gets the first free InstanceID from its parent's on, reports the parent's values under the profiles it is made for and nothing under the others that the parent is in, has the next AddressOnParent, and (a network card) the platform's next name; a device with an Address of its own cannot be cloned.", "quantifier": "All reachable hardware descriptions (any XML read, any history of changes), resource types, property conditions, profiles, value lists and default values", "why_tests_cant": "Fixtures have a handful of devices with ordinary IDs and at most a few profiles; the claims are about every set of devices, value lists of any length and every combination of profiles with default and profile-specific values.", "anchors": ["COT/vm_description/ovf/hardware.py:OVFHardware.find_all_items", "COT/vm_description/ovf/hardware.py:OVFHardware.find_item", "COT/vm_description/ovf/hardware.py:OVFHardware.clone_item", "COT/vm_description/ovf/hardware.py:OVFHardware._update_cloned_item", "COT/vm_description/ovf/hardware.py:OVFHardware.set_value_for_all_items", "COT/vm_description/ovf/hardware.py:OVFHardware.set_item_values_per_profile"]}
{"id": "C46", "title": "Quantity options are stored only if supported or agreed to", "statement": "Setting the cpus, memory, nics or serial_ports option of edit-hardware either stores exactly the number denoted by the given value, having first checked it against the limits of the VM's platform, or raises and leaves the option as it was. A number outside the limits is stored only after the user was asked and agreed, or after the same platform object has reported the same value before; a number inside the limits is stored without asking. (Because of the platform's memory of reported values, a value refused once is accepted the second time.)", "quantifier": "all option values, platforms, user answers and histories of previous assignments", "why_tests_cant": "It ranges over every number, platform limit, sequence of answers and history of earlier assignments; a unit test sees one value on a fresh platform object.", "anchors": ["COT/commands/edit_hardware.py: COTEditHardware.cpus", "COT/commands/edit_hardware.py: COTEditHardware.memory", "COT/commands/edit_hardware.py: COTEditHardware.nics", "COT/commands/edit_hardware.py: COTEditHardware.serial_ports", "COT/ui/ui.py: UI.validate_value", "COT/platforms/platform.py: Platform"]}
{"id": "C47", "title": "A written OVA is complete, ordered and opens again without complaints", "statement": "Writing a package to an OVA gives an archive whose members are the descriptor, the manifest and then every file of the package in the order of the descriptor, each with the content it had before writing, also when the OVA being written is the one the files are still stored in. The manifest lists the descriptor and every file with its checksum. When that archive is opened again (in any place), the descriptor found is the one written, no missing file, wrong checksum, wrong size or manifest mismatch is reported, and each file reference gives the content of the file. This needs file names that are unique, relative, normalised and different from those of the new descriptor and manifest; a file named like the new descriptor replaces it when the archive is overwritten (refuted witness). On opening, the algorithm named in a manifest is ignored, so correct SHA256 sums in an OVF 1.x package are reported as wrong (refuted witness).", "quantifier": "all digest functions, working directories, packages (any number of files from disk or from TAR files, any contents), output names, whether or not the input is overwritten, all places the result is opened from", "why_tests_cant": "Tests pack a few fixed files; whether order, content and manifest agree for every mix of files on disk and files inside the archive being overwritten needs an argument over all packages.", "anchors": ["COT/vm_description/ovf/ovf.py: OVF.write, OVF.tar, OVF.generate_manifest, OVF.untar, OVF._init_check_file_entries, OVF._compare_file_lists", "COT/file_reference.py: FileReference.create, FileOnDisk.add_to_archive, FileInTAR.exists, FileInTAR.add_to_archive"]}
{"id": "C48", "title": "Deployment calls ovftool once, exactly as asked, and adds serial ports all or none", "statement": "`cot deploy ... esxi` calls ovftool at most once, after every question asked so far was answered with yes; a question that is declined (or input that ends) stops the command at once. The command line consists of the user's own ovftool arguments, --X:injectOvfEnv exactly if the package has environment properties, the target is not a vCenter host, ovftool is at least 4.0.0 and power-on is requested, the profile (the one asked for, the only one, or the one the user selects; never none if the package has any), the network map, the name (given, or the package's file name without directory and extension), power-on, datastore, package and target. The user is asked exactly if there are more connections than the profile has serial ports, and if environment properties would get lost. The command succeeds only if ovftool did and all serial ports described (those given, or else those of the package for this profile) were added in order, in one step, to the VM of that name; if one port cannot be made none is. (Not true: that unsupported connections are refused before the VM is deployed, that the target URI is unambiguous, that the VM changed is the one deployed if names are shared, that a profile's own serial address is used when it differs between profiles.)", "quantifier": "every package content, command setting, user input, ovftool and server behaviour", "why_tests_cant": "The existing tests replace ovftool and the server by mocks for a handful of settings; the claims range over all combinations of settings, answers and failures.", "anchors": ["COT/commands/deploy.py:COTDeploy.run", "COT/commands/deploy_esxi.py:COTDeployESXi.run", "COT/commands/deploy_esxi.py:COTDeployESXi.fixup_ovftool_args", "COT/commands/deploy_esxi.py:COTDeployESXi.fixup_serial_ports", "COT/commands/deploy_esxi.py:PyVmomiVMReconfigSpec", "COT/vm_description/ovf/ovf.py:OVF.get_serial_connectivity"]}
{"id": "C49", "title": "edit-properties sets exactly what was asked for, and its dialogue is safe", "statement": "A successful edit-properties run gives every property named on the command line the value (canonical, obeying type and qualifiers), type, user-configurable mark, label and description given for it (those of the last mention if named several times), creates it only after the user agreed, leaves every other property and everything outside the properties alone except for lines imported from the configuration file and the transport list, which replaces the old one and reads back as given if no name has a blank. Declining ends the run without creating the property. Numbers of labels or descriptions that do not fit are refused first. (The question is also asked for an existing property without a value.) With nothing given there is a dialogue in which, whatever is typed and wherever the input ends, no property appears, vanishes or changes anything but its value and mark, values keep obeying their declarations, each line does what the prompt says, two empty lines always end it, and --force changes nothing. (A property with key q cannot be selected, an empty value cannot be entered, and Q does not quit in general.)", "quantifier": "all documents, command-line settings, configuration files and sequences of lines typed by the user", "why_tests_cant": "the outcome depends on the order of repeated keys, on document contents and on unboundedly long dialogues; a test fixes one of each", "anchors": ["COT/commands/edit_properties.py: COTEditProperties.run, edit_properties_interactive", "COT/vm_description/ovf/ovf.py: environment_transports, set_property_value, get_property_value", "COT/ui/ui.py: choose_from_list, confirm_or_die"]}
{"id": "C50", "title": "Injecting a configuration puts exactly the given files on one disk in the right drive", "statement": "When inject-config succeeds on a package that is in order: the new image holds exactly the given files, the primary and secondary configuration under the names the platform looks for and the others under their own names; the package has one File for it, named config.iso (config.vmdk for IOSv), of the size of the image, either new or in the place of the configuration disk that was there; it is in the drive of that earlier configuration disk if there was one and the user agreed to overwrite it, or else in the first empty drive (the lowest InstanceID, or the first Disk without a File); that drive keeps its controller, address and everything but its type, content and description; no device is added or removed, no other device changes, and all references stay consistent. A second injection goes to the same drive and adds no File. It never replaces an existing configuration disk against the user's answer, refuses missing files, configurations the platform has no name for, and having nothing to do. Exceptions shown with witnesses: a File of that name that is in no drive makes the command fail after asking although a drive is empty; a first Disk without a File and without a drive hides later ones; an empty CD-ROM drive that exists in a named profile only gets a second drive at the same address.", "quantifier": "for all platforms, package descriptions in order, sets of given files, working directories, answers, image sizes and hardware; for any two injections one after the other", "why_tests_cant": "tests inject into a few sample packages with one empty drive; which drive is chosen and that nothing else changes depends on all files, disks, drives and profiles of the package", "anchors": ["COT/commands/inject_config.py: COTInjectConfig.run", "COT/commands/inject_config.py: COTInjectConfig.ready_to_run", "COT/commands/inject_config.py: config_file, secondary_config_file, extra_files", "COT/vm_description/ovf/ovf.py: OVF.find_empty_drive", "COT/vm_description/ovf/ovf.py: OVF.find_device_location", "COT/commands/add_disk.py: add_disk_worker"]}
{"id": "C51", "title": "Creating and converting disk images keeps the data and touches no other file", "statement": "An image that goes into a package as a hard disk ends up as a stream-optimized VMDK: one that is already is left alone (as is one for a CD drive), any other is converted to a file of the same stem in the given directory, with the same data; only that file is written, and, if vmdktool is needed, a raw image of the same stem which is gone afterwards. The conversion succeeds whenever qemu-img from 2.1.0 on, or vmdktool with a raw image or any qemu-img, is installed and no program fails. Conversions in general give an image of the format and sub-format asked for with the same data; to ISO or an unknown format they are refused with nothing changed. A new image is only made at a path where there is no file, contains exactly the given files under their own names or is empty with the given capacity, has the sub-format asked for or the usual one, and no other file changes. Exceptions shown with witnesses: a user's own raw image of that stem in the directory is overwritten and removed; a VMDK in the directory itself is replaced by its conversion; a half-written raw image stays after a failure; converting to QCOW2 may report an undefined variable instead of the error; converting to VMDK without naming a sub-format never works; a missing qemu-img is a TypeError when a VMDK is created.", "quantifier": "for all images, formats, sub-formats, directories, files, versions of the programs, and for all ways in which programs fail and leave partial files", "why_tests_cant": "tests run with the programs of one machine or mock them; which program is chosen, what is left behind and what else is touched depends on all combinations of versions, formats, names and failures", "anchors": ["COT/disks/disk.py: DiskRepresentation.convert_to, for_new_file, create_file, _create_file", "COT/disks/vmdk.py: VMDK.from_other_image, VMDK._create_file", "COT/disks/qcow2.py: QCOW2.from_other_image", "COT/disks/raw.py: RAW.from_other_image, RAW._create_file", "COT/disks/iso.py: ISO._create_file", "COT/vm_description/ovf/ovf.py: OVF.convert_disk_if_needed"]}
{"id": "C52", "title": "What is read about a disk image is what the programs' outputs say", "statement": "The capacity is the number before the first \" bytes\" in the output of qemu-img info, and a RuntimeError if there is none; the sub-format of a VMDK is the one its header declares (in quotes on a line without further quotes), and a RuntimeError if there is none; the files of a raw image are the sixth words of the lines that fatdisk lists, in order, without the summary; the files of an ISO image are the lines of isoinfo that start with a slash, in order, without Rock Ridge in lower case and without the version; Rock Ridge is recognized exactly by \"Rock Ridge\" with \"found\" later on the same line. Exceptions shown with witnesses: an image named \"5 bytes.vmdk\" has capacity 5; FAT names with blanks are cut off; a version other than ;1 or a ;1 elsewhere damages the ISO name; a second quoted text on the line becomes part of the sub-format.", "quantifier": "for all outputs, headers, names, numbers of lines and spacings", "why_tests_cant": "tests check a few sample outputs; the regular expressions and splits must give the right part of every output", "anchors": ["COT/disks/disk.py: DiskRepresentation.capacity", "COT/disks/vmdk.py: VMDK.disk_subformat", "COT/disks/raw.py: RAW.files", "COT/disks/iso.py: ISO.files, ISO.disk_subformat"]}
{"id": "C53", "title": "edit-hardware changes what is asked for, under the profiles it is asked for, with consent", "statement": "A run of edit-hardware is refused when, and only when, no option asks for a change. When a run succeeds: every answered question was answered yes, except those about single profiles to delete; the profiles afterwards are the old ones and those named, without those deleted, each new one was agreed to, and if other profiles are deleted each deleted one was agreed to and each kept one declined (without named profiles all go, after one question); under every profile that is not named, all devices report what they reported before; devices of kinds no option concerns are as before; all CPUs (memory devices) have the given number (of megabytes) under the named profiles and there is one; all network cards, SCSI and IDE controllers have the given (canonical) types; the number of network cards and serial ports under each named profile is the one given, a loss of devices was agreed to; serial ports get the given addresses in turn, and that there are more ports than addresses was agreed to; network cards get the given MAC addresses and networks (after expansion of a wildcard) in turn, the last one repeated; network cards get the given names in turn, a wildcard expanded to as many names as there are cards under one profile (a name is shown as given unless it contains an underscore or a value of its card that is kept as a placeholder in names); every network given is then declared, no network is lost and every new one was agreed to; the system types read back as given and nothing else of the section's system information changes without that option. Exceptions shown with witnesses: in a package with network cards but without networks any run (such as --cpus 2) asks to create one and connects all cards to it; with networks but no cards a new card is connected to none; --nics may silently reconnect old cards; a card outside the named profile uses up the first value of a list; --cpus succeeds for a profile without a CPU; a single card is called by the wildcard itself ('eth{0}'), and cards in different profiles for which no name is left are called 'None'.", "quantifier": "for all packages that can be opened, options, platforms' limits and names, profiles and answers of the user", "why_tests_cant": "tests run a few option combinations on sample packages; what stays unchanged, what is asked, and under which profiles a value shows must hold for all combinations of options, profiles, devices and answers", "anchors": ["COT/commands/edit_hardware.py: COTEditHardware.run, ready_to_run, _run_update_profiles, _run_update_nics, _run_update_networks, _run_update_serial, _infer_networks", "COT/vm_description/ovf/ovf.py: OVF.set_cpu_count, set_memory, set_nic_types, set_nic_count, set_nic_networks, set_nic_mac_addresses, set_nic_names, set_serial_count, set_serial_connectivity, set_scsi_subtypes, set_ide_subtypes, system_types, create_network, create_configuration_profile, delete_configuration_profile"]}
{"id": "C54", "title": "edit-product changes the product information asked for and nothing else", "statement": "When edit-product succeeds, the product section of the virtual system (made, after the other sections, if there is none) has the class, product, vendor, version, full version and URLs that were given; each text not given reads as before; all other attributes and elements of the section, in particular the environment properties, and everything outside it are unchanged and in the same order. The platform is then the one of the class. A VM opened from the result is the same as the one edited, and running the same edit again changes nothing. It fails only if no non-empty text is given, or if the section holds an element to be set twice. Exceptions shown with witnesses: a new element is put at the end of the section, after the properties, where the OVF schema does not allow it; a single text cannot be made empty; a package with two product sections, which OVF allows, cannot be opened.", "quantifier": "for all OVF versions, virtual systems that can be opened, and combinations of options", "why_tests_cant": "tests look at a few fields of one sample descriptor; that nothing else changes, and that the same edit is harmless twice, must hold for every descriptor and combination of options", "anchors": ["COT/commands/edit_product.py: COTEditProduct.run, ready_to_run", "COT/vm_description/ovf/ovf.py: OVF.product_class, product, vendor, version_short, version_long, product_url, vendor_url, application_url, _set_product_section_child, platform"]}
{"id": "C55", "title": "Before writing, the hardware of every profile is checked against the platform's limits", "statement": "Whenever a VM is written, the numbers of CPUs, of whole MiB of memory and of NICs of every configuration profile (of the default one if there is none) are compared with the limits of the platform, and the types of the NICs with those it supports. The check succeeds exactly if all of them are acceptable; otherwise there is a warning for each unacceptable number, naming a profile that has it, and none for anything else. The VM is not changed. Exceptions shown with witnesses: a number the platform has already complained about counts as acceptable, so the same hardware passes a second check; two CPU or memory devices in one profile (always), or a CPU without an integer number, are not warned about but raise an error, so that such a VM cannot be written; the NIC types are not told apart by profile.", "quantifier": "for all platforms, histories of earlier checks, sets of profiles and hardware reachable by any operations", "why_tests_cant": "tests check a handful of sample VMs; the exact agreement of the verdict with the limits must hold for all hardware, profiles and platforms, and after any history of earlier checks", "anchors": ["COT/vm_description/ovf/ovf.py: OVF.validate_hardware, OVF.write", "COT/platforms/platform.py: Platform.validate_cpu_count, validate_memory_amount, validate_nic_count, validate_nic_types", "COT/vm_description/ovf/item.py: list_union"]}
{"id": "C56", "title": "Helper programs are run once, and again as superuser only on request", "statement": "For every machine, COT's wrappers around external programs behave as documented. check_call runs the given command exactly once, and a second time with 'sudo' in front exactly if retry_with_sudo was asked for and the first attempt was not permitted (EPERM, EACCES) or, success being required, exited with a non-zero status; it never runs anything else. It returns exactly if the last attempt exited with status 0, or at all when success is not required; a missing program is HelperNotFoundError, a bad status (or an unusable sudo) HelperError, any other refusal the OSError itself. check_output does the same, returning the output without its non-ASCII bytes, but never retries a command that was not permitted, and a non-zero exit whose output is not valid text is a UnicodeDecodeError even when success is not required. mkdir does nothing for an existing directory, refuses anything else of that name, and otherwise makes it, by sudo only after the plain attempt failed; copy_file likewise; if both attempts fail the first error is raised, except that a missing sudo raises HelperNotFoundError instead.", "quantifier": "every machine (any outcome of any program, any file system), command, directory, require_success, retry_with_sudo and state", "why_tests_cant": "The tests replace the subprocess module by a few canned answers; here every outcome of both attempts, for every command and option, is covered, including the ones nobody thought of (no sudo, undecodable output).", "anchors": ["COT/helpers/helper.py: check_call, check_output, Helper.mkdir, Helper.copy_file"]}
{"id": "C57", "title": "install-helpers installs what it reports, and verify-only only looks", "statement": "From a consistent state (true when COT starts, and kept), installing a helper that succeeds ends with the program found; a helper found before is left alone without running anything; a program once found stays found; and whatever happens, the machine is changed only by the listed package manager, build and file commands for the listed packages and two download addresses, with superuser rights only to repeat what has just been tried without them. Without any of the four package managers nothing at all is done (only fatdisk under Linux can be built without), with RuntimeError for helpers that a package manager could provide and NotImplementedError for the others. install-helpers reports each of fatdisk, ovftool, qemu-img and vmdktool, the ISO tools up to the first good one, and the manual pages; if it prints its report, it fails, with EnvironmentError, exactly if some needed item failed and errors are not ignored. If it succeeds (no --verify-only, no --ignore-errors), all four helpers and one ISO tool have been found and every manual page is in place with COT's own contents. With --verify-only nothing but version questions to programs that were found is run, and the check of the pages says 'no updates needed' exactly if all are in place; but the command then always succeeds, and other ISO tools are not looked for when mkisofs is missing. A RuntimeError (no package manager on a Mac or under Linux) or a failed download ends the command without any report, even with --ignore-errors.", "quantifier": "every machine (programs found, outcomes of commands, file system, downloads, answers), set of pages, option and consistent state", "why_tests_cant": "Tests try some platforms with a mocked set of tools; which tools exist, what each command answers and in which order the lookups are cached has unboundedly many combinations, and 'runs nothing else' cannot be tested.", "anchors": ["COT/helpers/helper.py: Helper.path, installed, installable, version, call, install, unsure_how_to_install, _install, helper_select", "COT/helpers/apt_get.py, yum.py, port.py, brew.py, fatdisk.py, vmdktool.py, ovftool.py, qemu_img.py, mkisofs.py, make.py, gcc.py", "COT/commands/install_helpers.py: COTInstallHelpers, verify_manpages, install_manpages, _install_manpage"]}
{"id": "C58", "title": "Texts are wrapped without losing words, and no line is needlessly long or short", "statement": "Wrapping a text to a positive width (as 'cot info' does with names, descriptions, annotations and licenses) gives lines of which the first starts with the initial and every other one with the subsequent indentation; the words of the lines, in order, are the words of the text; no line is longer than the width unless it holds just one word too long for it; and no line is empty. Words separated by single blanks are filled so that each line takes as many words as fit, which determines the lines. The number of blanks between words is not kept, and a width of zero or less is a ValueError (so on a terminal of one column 'cot info' fails).", "quantifier": "every text, width and pair of indentations", "why_tests_cant": "Wrapping can lose or split words only for particular combinations of lengths and blanks; a test sees a few texts and widths.", "anchors": ["COT/vm_description/ovf/ovf.py: OVF._info_strings_for_headers, _info_strings_for_products, _info_strings_for_annotation, _info_strings_for_eula (textwrap.TextWrapper)"]}
{"id": "C59", "title": "The table of profiles in 'cot info' shows what each profile has", "statement": "In the output of 'cot info', the table of configuration profiles has exactly one row per declared profile, in the order of the descriptor (one row for the unnamed default if none is declared); the first is marked as default when there are several. A row states the number of CPUs, the memory in readable form, the numbers of network adapters, serial ports and hard disk drives that the hardware has under that profile, and the summed capacity of the Disks; the first column is exactly as wide as needed and, in verbose output, each declared profile's label and description follow. The table is printed whenever all quantities, units and capacities are readable, the memory is not negative and the capacities add up to less than 2^53. But the capacity is that of all Disks of the package, even for a profile without any drive; and one CPU without a quantity makes the whole command fail with a TypeError.", "quantifier": "every hardware that can be read from a descriptor and edited, every list of profiles, Disks, output width and verbosity", "why_tests_cant": "The table is computed from any number of profiles, devices and inheritance between default and profile-specific values; tests compare the output for a few fixed files.", "anchors": ["COT/vm_description/ovf/ovf.py: OVF.profile_info_string, profile_info_list, _info_strings_for_profiles"]}
{"id": "C60", "title": "The list of files and disks in 'cot info' is complete and correctly aligned", "statement": "In the output of 'cot info' every File has exactly one row, in the order of the descriptor, with its name, its size in readable form, the capacity of its Disk and the type and address of the drive that holds it (through its Disk or directly, in the new or the old form of reference); after these rows every Disk that belongs to no File has a placeholder row. Verbose output adds the identifiers. Without Files and Disks there is no list. The column of names is as wide as the longest name but leaves room for the others; a name is printed in full if it has at most 18 characters or at most the width less 43, and otherwise its beginning followed by dots, filling the column. On a terminal of 61 columns or more no row is longer than the terminal. But the device is cut off after 20 characters, so that drives at 10:12 and 10:13 look alike, and a File without an identifier makes the command fail with a TypeError.", "quantifier": "every hardware that can be read from a descriptor and edited, every References and DiskSection, width and verbosity", "why_tests_cant": "Which File, Disk, drive and controller belong together is decided by identifiers anywhere in the descriptor; tests compare the output for a few fixed files.", "anchors": ["COT/vm_description/ovf/ovf.py: OVF._info_strings_for_files_and_disks, device_info_str, get_capacity_from_disk, search_for_elements helpers find_disk_from_file_id, find_item_from_disk, find_item_from_file, find_parent_from_item"]}
{"id": "C61", "title": "A written package describes its files as they are", "statement": "When a package is written, its descriptor is first brought up to date: every File whose file exists states that file's current size, every File whose file is missing is left out, and the Disk of a file that lies on the user's disk states the capacity qemu-img reports for it, in units that read back to that number; Files, Disks and other elements keep their order and all their other attributes and contents, and the hardware is untouched. So every File that is written comes from a file that exists, a package in order (see C30) stays in order if no file is missing, and the update succeeds whenever the files can be read, names and identifiers are unique and capacities are positive. But a missing file leaves its Disk pointing nowhere, two Files of the same name make writing fail with a LookupError, and an image of capacity 0 makes it never end.", "quantifier": "every References, DiskSection and list of file sources, every state of the files on disk (sizes, capacities, which of them exist) and both OVF 0.9 and 1.x/2.x names", "why_tests_cant": "What is written depends on how any number of files changed between reading and writing; a test sees a few histories of a few files.", "anchors": ["COT/vm_description/ovf/ovf.py: OVF._refresh_file_references, set_capacity_of_disk, get_capacity_from_disk, find_disk_from_file_id, write"]}
{"id": "C62", "title": "cot info shows every part of the package in full", "statement": "The text that cot info prints is a header (file name and detected platform), followed by the parts that have something to say, in a fixed order, separated by empty lines: the product texts (each on a row with its label, or a note that it is missing; URLs and the long version unless brief), all lines of the annotation, the licences (their full text only when verbose), the types of system and of SCSI, IDE and Ethernet devices of any profile, every network with its description, every NIC by InstanceID with its name and network, the transports, and every property in order with key or label and value. Every word of a text is printed and lines are broken only between words; descriptions of networks are cut (unless verbose) to exactly the width. With several packages each is described, or complained about if it cannot be read, in order. But an annotation that begins with a line break loses its label, a network section without networks makes the command fail, in a narrow terminal network descriptions are cut too late, and the command succeeds even if no package could be read; any other error hides the remaining packages.", "quantifier": "every package (section contents, hardware reachable by any history), width, degree of detail, list of packages and outcome of opening each", "why_tests_cant": "Which parts appear and how texts are laid out depends on unboundedly many combinations of contents and widths; a test compares the output of a few packages.", "anchors": ["COT/vm_description/ovf/ovf.py: OVF.info_string, _info_string_header, _info_string_product, _info_string_annotation, _info_string_eula, _info_string_hardware, _info_string_networks, _info_string_nics, _info_string_environment, _info_string_properties", "COT/commands/info.py: COTInfo", "COT/ui/cli.py: CLI.terminal_width"]}
{"id": "C63", "title": "Help texts and questions keep every word and fit the terminal", "statement": "The usage text of a subcommand is a --help line followed by every usage string in order. Each is taken apart in exactly one way (parenthesised and bracketed groups up to the first closing one, options with their value, other words), the parts are laid out greedily behind the subcommand, continuation lines start below the end of the subcommand, or after five blanks if some part would not fit there. No visible character is lost, added or reordered; if the parts fit no line is longer than the terminal, and a line that is longer consists of the bare command or of a single part. Examples are listed in order with an empty line between them: the description wrapped (no visible character lost, no line too long, no word cut that fits on a line), then the command; a command of several lines is only indented, and a command of one line is continued with backslashes so that pasted into a shell it has the same words. A question of confirm is wrapped in the same way before [y]. But a blank usage string is a ValueError, nested brackets are torn apart, quoted values are not kept with their option and lose repeated blanks, blank lines of a question are dropped, a first part that is too long leaves a line with only a backslash, one column is a ValueError and with two columns a description that begins with a blank is wrapped forever.", "quantifier": "every terminal width, subcommand, list of usage strings, list of examples and prompt (all Latin-1 texts)", "why_tests_cant": "The layout depends on the interplay of width and the lengths of all parts, and the splitters are regular expressions; tests compare a few texts at a few widths.", "anchors": ["COT/ui/cli.py: CLI.fill_usage, CLI.fill_examples, CLI.confirm"]}
{"id": "C64", "title": "What is typed reaches the command", "statement": "With v times -v and q times -q exactly the messages are logged that v-q steps from the default level allow (critical ones always), and the fields of a log line (time, module, line, function) depend on v-q alone. A command that the parser accepts, under its title or any alias, is started: never an internal lookup error; questions are suppressed exactly if --force was given or standard input or output is not a terminal. The command receives exactly the arguments that were given a value, mandatory ones (in capitals, under the name in lower case) before all options; the occurrences of an option that takes several values are joined in order (-N a b -N c is a, b, c) and every other value is unchanged. Without a command the program exits. cot help understands exactly the registered names. But it knows deploy-esxi, which cannot be typed as a command, and refuses esxi; and every command is given the number of -q as an attribute. The words that cot accepts are exactly the eleven commands' titles and aliases listed in the specification (cot help in addition the names of deploy-esxi), each leading to its command.", "quantifier": "every namespace argparse can produce, every set of commands with distinct names (and COT's own), every number of -v and -q, every kind of input and output", "why_tests_cant": "Combinations of options, repetitions and values are unbounded; tests run a few command lines.", "anchors": ["COT/ui/cli.py: CLI.adjust_verbosity, set_verbosity, add_subparser, create_subparsers, parse_args, args_to_dict, set_instance_attributes, main, CLILoggingFormatter", "COT/commands/help.py: COTHelp", "COT/commands/__init__.py"]}
{"id": "C65", "title": "A package written as .ovf is complete and opens again", "statement": "After a package with plain distinct file names has been written to DIR/name.ovf, DIR holds the new descriptor, the manifest name.mf with the checksum of the descriptor and of each file, and each file, from the disk or from an archive, with the content it had before; no other file and no archive has changed. Opening it again reports no problem and gives each file its content. Whether it succeeds or fails, only the output, its manifest and the package's files in that directory change. But a file on the disk named with a subdirectory is put beside the descriptor, so that the package written is incomplete and of two files of the same base name only one survives, without any report; a file called like the new descriptor replaces it; unrelated files in the directory are overwritten without asking; and a failure in the middle leaves the new descriptor with the old manifest.", "quantifier": "every file system, directory, package (any number of files, on the disk or in archives), descriptor text and digest function", "why_tests_cant": "Tests write a few packages whose files already lie beside the descriptor; names, places and contents are unbounded.", "anchors": ["COT/vm_description/ovf/ovf.py: OVF.write, generate_manifest, _init_check_file_entries", "COT/file_reference.py: FileOnDisk.copy_to, FileInTAR.copy_to"]}
{"id": "C66", "title": "The hardware that is written is read again as it was", "statement": "After any sequence of edits, if every device has a value for its InstanceID under each of its profiles, uses only profiles of the document and has texts that can be told from the values they mention, then the hardware section that is written can be read again, however the document is laid out: the same devices with the same numbers, and each property with the same value under each profile; devices without any value disappear. But setting the memory for a profile for which the memory device does not exist succeeds and writes an Item without InstanceID, and the package written can then not be opened any more; the same holds for a profile the document does not have.", "quantifier": "every OVF version, environment, hardware section, reachable hardware and layout of the document", "why_tests_cant": "Tests compare a few written files with expected files; the round trip concerns every history of edits and any number of devices and profiles.", "anchors": ["COT/vm_description/ovf/hardware.py: OVFHardware.__init__, update_xml, set_value_for_all_items", "COT/vm_description/ovf/item.py: OVFItem.add_item, generate_items"]}
{"id": "C67", "title": "Opening accepts exactly the well-formed packages and reads what they say", "statement": "Opening a package succeeds exactly when: its name (and the output's, if given) ends in .ovf, .ova or .box, or mentions .ovf or .ova before a character that is no letter or digit; the descriptor (the file itself, or the first .ovf in an archive none of whose names leads elsewhere) can be read and is XML; its root is an Envelope of one of the three known versions; it has exactly one References and VirtualSystem, exactly one VirtualHardwareSection in that, and at most one DiskSection, NetworkSection, DeploymentOptionSection, ProductSection and AnnotationSection; every Item has an InstanceID, names only known profiles, and the Items of one InstanceID do not contradict each other; every File has a name; the descriptor is among the files; and the size listed for a file that is there is a number. The opened package then has those sections, profiles, one device for each InstanceID as its Items say, the platform of the product class, the listed files that are there, and exactly the complaints that are due: files missing in the references, the manifest or the package, wrong checksums and wrong sizes. Otherwise an exception is raised for something that is in fact wrong: VMInitError for the name, the archive, XML, the root, unknown profiles and contradicting Items, EnvironmentError for files that cannot be read; but raw KeyError, LookupError, AttributeError, TypeError, ValueError and OVFItemDataError for missing or repeated sections, Items without InstanceID or that contradict themselves, Files without a name or with a size that is no number.", "quantifier": "all files and archives, names of input and output, working directories, XML parsers whose tags have no line break, envelopes, digest functions", "why_tests_cant": "A test opens a few good packages and a few bad ones; that every other package is told apart rightly, and that no complaint is lost or made up, ranges over all XML trees, archives and manifests.", "anchors": ["COT/vm_description/vm_description.py:VMDescription.factory", "COT/vm_description/ovf/ovf.py:OVF.detect_type_from_name", "COT/vm_description/ovf/ovf.py:OVF._ovf_descriptor_from_name", "COT/vm_description/ovf/ovf.py:OVF.__init__", "COT/vm_description/ovf/ovf.py:OVF.ovf_version", "COT/vm_description/ovf/ovf.py:OVF.untar", "COT/vm_description/ovf/hardware.py:OVFHardware.__init__", "COT/xml_file.py:XML.find_child"]}
{"id": "C68", "title": "A package that is written and opened again is the same package, without complaints", "statement": "Take any open package, whatever has been changed in its sections since it was opened, with any hardware that can be written (every device has its InstanceID under each of its profiles, known profiles, values that fit into the document), all of whose files are there with plain unique names. If it is written to X.ovf or X.ova and that is opened again, in any working directory, then opening succeeds, nothing is complained about (no missing file, wrong size or wrong checksum), and the package is what it was: version, profiles, platform, hardware (each device has the same values under each profile), ProductSection, AnnotationSection and DeploymentOptionSection with all their content, the attributes and all other content of the VirtualHardwareSection, every other section of the envelope and of the virtual system (also such as COT does not know), the Files and Disks in order with all attributes except size, capacity and units, the files with their contents; only networks that no network card uses any more are gone. Any package can be written only as .ovf or .ova: for an output named .box, which is accepted when the package is opened, writing raises NotImplementedError and nothing is written.", "quantifier": "all open packages, hardware reachable by any edits, files, working directories, output names, digest functions, XML writers and parsers that are faithful to the tree that is written", "why_tests_cant": "A test writes and reopens a few fixed packages; that no combination of devices, profiles, sections, file places and names loses something or makes the reopened package complain ranges over all packages and edits.", "anchors": ["COT/vm_description/ovf/ovf.py:OVF.write", "COT/vm_description/ovf/ovf.py:OVF.__init__", "COT/vm_description/ovf/ovf.py:OVF._refresh_file_references", "COT/vm_description/ovf/ovf.py:OVF._refresh_networks", "COT/vm_description/ovf/ovf.py:OVF.generate_manifest", "COT/vm_description/ovf/ovf.py:OVF.tar", "COT/xml_file.py:XML.write_xml", "COT/vm_description/vm_description.py:VMDescription.factory"]}
{"id": "C69", "title": "An interrupted write damages nothing else and is noticed", "statement": "Suppose writing a package stops anywhere: before, between or after any two of its changes on the disk, or in the middle of one, because of an error, a full disk or because the process is killed. Then (1) only the output's descriptor, manifest and file copies beside it (for .ovf), or the output archive and files in COT's working directory (for .ova) can differ from before; (2) the original, an archive other than the output, or a directory into which nothing is written, opens afterwards exactly as before; (3) if the archive that was read is itself overwritten, then until the overwriting begins it is unchanged, and from then on its descriptor and every file are complete on the disk, in the working directory or where they were; (4) a new archive that is not complete cannot be opened, or every file missing from it is reported when it is opened and all others have their content; (5) if a .ovf package with the sizes of its files is written to a directory that does not hold other files of these names, then every file that is missing or not complete is reported when it is opened. The changes considered are those of the complete write: they end as it does and leave the same files.", "quantifier": "all points at which writing can stop, including within a file; all packages, files, outputs, directories and digests", "why_tests_cant": "A test runs the write to its end, or at best fails it at a few chosen places; the claim is about every point between and within all changes, for all packages.", "anchors": ["COT/vm_description/ovf/ovf.py:OVF.write", "COT/vm_description/ovf/ovf.py:OVF.tar", "COT/vm_description/ovf/ovf.py:OVF.generate_manifest", "COT/file_reference.py:FileOnDisk.copy_to", "COT/file_reference.py:FileInTAR.copy_to", "COT/file_reference.py:FileInTAR.add_to_archive", "COT/vm_description/vm_description.py:VMDescription.destroy"]}
{"id": "C70", "title": "After edit-product or edit-properties the output holds what was asked for, and else what the input held", "statement": "Run `cot edit-product` or `cot edit-properties` on a package that opens and can be written, with or without --output, as .ovf or .ova. If the command succeeds, then the output opens, in any working directory, without complaints, and (edit-product) the product class and each of the seven product texts read from it are those asked for or, where none was asked for, those of the input; the platform is the one of the class; all other attributes and elements of the ProductSection and all environment properties are those of the input; (edit-properties) for every key asked for there is exactly one property, with the value, type, user-configurable flag, label and description last asked for, and the value obeys the type and the qualifiers; every property not asked for (on the command line or by the configuration file), the product class, and the other attributes and elements of the ProductSection are those of the input; the transports are those asked for, if any. In both cases everything else in the package is as in the input, in the sense of C68: hardware, profiles, disks, files with their contents, networks in use, annotation, unknown sections. If the work of the command is refused, no archive and no file outside the working directory is changed.", "quantifier": "all packages that open, all options (texts, properties, labels, descriptions, transports, configuration files), all lines the user types, all outputs, directories, digests, XML writers and parsers faithful to the tree", "why_tests_cant": "A test compares the output of a few edits of a few packages; that an edit reaches the output as asked and nothing else gets lost on the way through reading, editing, refreshing, indenting and writing ranges over all packages, edits and answers.", "anchors": ["COT/commands/command.py:ReadWriteCommand", "COT/commands/edit_product.py:COTEditProduct.run", "COT/commands/edit_properties.py:COTEditProperties.run", "COT/vm_description/ovf/ovf.py:OVF.__init__", "COT/vm_description/ovf/ovf.py:OVF.write", "COT/vm_description/ovf/ovf.py:OVF._ensure_section", "COT/vm_description/ovf/ovf.py:OVF.set_property_value"]}
{"id": "C71", "title": "After edit-hardware the output holds the hardware asked for, and else what the input held", "statement": "Run `cot edit-hardware` on a package that opens, with any options and any answers, where the edited package can be written. If the command succeeds, then the output opens, in any working directory, without complaints, and what is read from it is: the profiles of the input and those given, without those whose deletion was agreed to, none new without consent; under every profile of the input that is kept and not given, the same devices with the same values; every device of a type that no option concerns, as in the input (no profiles deleted); the CPU count and memory given, on every CPU and memory device and on at least one; the NIC, SCSI and IDE types given; under each profile concerned as many NICs and serial ports as asked for, the first ones kept; MAC addresses, networks, NIC names and serial connections handed out in turn to the devices in order of InstanceID; no network that was not in the input or agreed to; the system types given, or those of the input. Everything else is as in the input, in the sense of C68: version, product, properties, annotation, disks, files with their contents, other elements of the hardware section, unknown sections.", "quantifier": "all packages that open, all combinations of the options of edit-hardware, all answers of the user, all platforms, outputs, directories, digests, XML writers and parsers faithful to the tree", "why_tests_cant": "A test compares a few edits of a few packages; that each option reaches the file that is written as asked, that options do not disturb each other, and that nothing else is lost on the way through reading, editing, refreshing, indenting, writing and reading again ranges over all packages and combinations of options.", "anchors": ["COT/commands/command.py:ReadWriteCommand", "COT/commands/edit_hardware.py:COTEditHardware.run", "COT/vm_description/ovf/ovf.py:OVF.__init__", "COT/vm_description/ovf/ovf.py:OVF.write", "COT/vm_description/ovf/hardware.py:OVFHardware.update_xml", "COT/vm_description/ovf/hardware.py:OVFHardware.__init__"]}
{"id": "C72", "title": "What add-file, add-disk and remove-file leave in the output", "statement": "Take a package that is in order (no identifier twice, no dangling reference, each file used by one disk and one drive at most) and run add-file, add-disk or remove-file on it, writing to any output (the input itself by default). Whoever opens the output finds a package in order. After add-file, the Files with the given name or identifier are replaced by one File with that name and the given identifier (else that of the File it replaces, else its name), whose content is that of the user's file. After remove-file, the File, its content and its Disk are gone, a hard disk drive that had it is gone, and a CD-ROM drive that had it is there and empty with all its other values. After add-disk, there is the File with the content of the user's file, and a drive of the asked type on a controller of the asked type that refers to it, through a Disk if it is a hard disk. In all three cases the other Files and their contents, the other Disks, the other devices, the profiles, the product and annotation sections and all foreign elements are the same, networks are lost only if unused, and no problem is reported.", "quantifier": "all packages in order, all three commands with any arguments, answers, outputs and worlds in which the run succeeds", "why_tests_cant": "tests compare a few outputs with expected files; the claim is about every package, every other element of it and every name and content", "anchors": ["COT/commands/add_file.py:COTAddFile.run", "COT/commands/add_disk.py:add_disk_worker", "COT/commands/remove_file.py:COTRemoveFile.run", "COT/commands/command.py:ReadWriteCommand", "COT/vm_description/ovf/ovf.py:OVF.add_file", "COT/vm_description/ovf/ovf.py:OVF.write"]}
{"id": "C73", "title": "Whoever opens the output of inject-config finds the user's configuration in the drive, and all else as it was", "statement": "After a successful run of inject-config, whoever opens the package that was written finds a file with the name of the platform's configuration disk (config.iso, or config.vmdk where the platform takes a hard disk), whose content is the image made of exactly the user's files: the primary and secondary configuration under the names that the platform looks for, the other files under their own. A drive of the right kind refers to this file: the drive that held the configuration disk that was there, if the user agreed to overwrite it, or else the first empty one. The drive has the same controller, address and other values as before. No device is added or removed, all other devices report the same values, all other files of the package have the same content, and the rest of the package is the same. A run that is refused writes nothing. If every file that was given can be read and the platform takes the configurations that were given, the image is made with all of them.", "quantifier": "every package in order that can be opened and written, every platform, all files of the user outside the working directory, all answers of the user, all programs that make images, every output (descriptor or archive, in place or elsewhere)", "why_tests_cant": "It ranges over all packages, platforms, settings and file systems, and over the whole chain from opening through copying, making the image, adding the file, writing and reopening.", "anchors": ["COT/commands/inject_config.py: COTInjectConfig.run", "COT/commands/command.py: ReadWriteCommand.finished", "COT/commands/add_disk.py: add_disk_worker", "COT/vm_description/ovf/ovf.py: find_empty_drive, find_device_location, add_file, write", "COT/cli.py: CLI.main"]}
{"id": "C74", "title": "Commands run one after another", "statement": "When add-file, add-disk, remove-file, inject-config, edit-product and edit-properties are run any number of times, in any order and in any working directories, each on the package that the last one left (with or without --output), then the package stays in order (identifiers unique, no reference leading nowhere, no two drives with the same file) and COT can open it after every run. The version, profiles, annotation, deployment options and all sections and elements that COT does not know are the same at the end as at the start; so are the platform, the product and the attributes of the hardware section if no edit-product and no edit-properties was among the runs, and all those attributes but the transport if one was; no network appears. Each run changes two devices at most; all other devices report the same values at the end, and there are no others. A file whose name no command brings has at the end the content it had at the start exactly if every package in between lists it, and no other file appears. A file that a command brought has at the end exactly the content that the user supplied to that run, if no later command brings that name and all later packages list it.", "quantifier": "every package in order, every list of runs of the six commands with every arguments, answers, working directories and outputs that succeed and meet what C70, C72 and C73 ask of them, and every file", "why_tests_cant": "Tests run each command once on a fixture; damage that only builds up over several runs (an identifier that becomes ambiguous, a checksum or reference that goes stale, a file lost on the second rewrite) needs histories of unbounded length.", "anchors": ["COT/commands/command.py: ReadWriteCommand", "COT/commands/add_file.py: COTAddFile.run", "COT/commands/add_disk.py: COTAddDisk.run", "COT/commands/remove_file.py: COTRemoveFile.run", "COT/commands/inject_config.py: COTInjectConfig.run", "COT/vm_description/ovf/ovf.py: OVF.write", "COT/commands/edit_product.py: COTEditProduct.run", "COT/commands/edit_properties.py: COTEditProperties.run"]}
{"id": "C75", "title": "Subtype of the controller add-disk uses or adds", "statement": "When add-disk succeeds on a package that is in order, the new drive hangs on exactly one controller, which was there already or is new, and every device other than that controller and the drive stays as it was. If a subtype was given the controller has exactly that subtype (the text split at its spaces). If none was given, a controller that was there already stays as it was in every respect, and a new one has the subtype that the controllers of its kind share: the one they all have when they all have the same, and none when two of them have different ones. Controllers without a subtype count only when they come after one that has a subtype in InstanceID order. A new drive has the name that was given, and without one 'CD-ROM Drive' or 'Hard Disk Drive' by its kind. A new controller is named by its kind in capital letters and the word Controller ('SATA Controller').", "quantifier": "every package in order, every disk image, all arguments of add-disk and all answers of the user", "why_tests_cant": "The shared subtype depends on every controller of the kind in the package and their order, and which controller is used depends on the whole hardware section; tests fix one template.", "anchors": ["COT/vm_description/ovf/ovf.py: get_common_subtype, add_controller_device", "COT/commands/add_disk.py: add_disk_worker"]}
{"id": "C76", "title": "XML names of each OVF version, whatever was opened before", "statement": "Looking up the name of an element, attribute, namespace or item child on a package gives the name of that package's OVF version (0.9, 1.x or 2.x), whatever names were looked up before on packages of any version and in whatever order; a name the version does not have, or one starting with two underscores, is an AttributeError. A namespace prefix is found in any capitalisation, and SASD and EPASD are the RASD namespace before 2.0. Item children come in the order of the version. The names every other part of the model writes into a package are the ones such a lookup gives. Device types have their CIM numbers; only 2.x has namespaces of its own, for hard disks, CD-ROM drives and Ethernet ports, and the tag of an item always matches the namespace of its children. A Disk written by add-disk names its file and the stream-optimized VMDK format, and a DiskSection made for it has the Info text 'Virtual disk information'.", "quantifier": "every sequence of lookups of any strings on helpers of the three versions, starting from freshly loaded modules; every version number", "why_tests_cant": "The caches are shared by all objects of a class and filled in the order of use, so what a lookup returns could depend on every earlier lookup in the process; tests see few orders.", "anchors": ["COT/vm_description/ovf/name_helper.py: name_helper, OVFNameHelper1.__getattr__, OVFNameHelper0, OVFNameHelper2, namespace_for_item_tag, namespace_for_resource_type, item_tag_for_namespace", "COT/vm_description/ovf/ovf.py: OVF.__getattr__, add_disk", "COT/vm_description/ovf/item.py: OVFItem.__getattr__"]}
{"id": "C77", "title": "Exactly which commands install a helper program", "statement": "When COT installs a helper program successfully, the events on the machine are exactly these. Nothing at all is run for a helper that counts as present (found earlier, or not looked for yet and found now). Otherwise the first package manager of the helper's fixed preference list that is present is used with the helper's package for that manager: for apt-get 'dpkg -s PACKAGE' (after a question to the user if dpkg itself is missing) and, unless its text contains 'install ok installed', 'apt-get -q update' once per run of COT and 'apt-get -q install PACKAGE'; for yum 'yum --quiet install PACKAGE'; for port 'port selfupdate' once per run and 'port install PACKAGE'; for brew 'brew install PACKAGE'; each but dpkg and brew repeated at most once as superuser. fatdisk and vmdktool, without brew and MacPorts on Linux, are built: make (and for fatdisk a compiler, clang, gcc or g++, else gcc is installed; for vmdktool zlib1g-dev or zlib-devel) is got, the one source archive is fetched, the build commands run in its subdirectory, the directories PREFIX/bin (and PREFIX/man/man8), below DESTDIR if that is set, are made, the program is copied or 'make install PREFIX=... [DESTDIR=...]' is run, and the temporary directory is removed last. The version of a present helper is the first run of digits and dots after the helper's own word in the output of one version command; it is accepted exactly if it is two or three numbers. In a COT process that has just started, no package is installed with apt-get or MacPorts before the list of packages has been brought up to date.", "quantifier": "every machine (any results of lookups, commands, file operations, downloads and questions, any PREFIX and DESTDIR), every helper name, every consistent state of the helper memory, every output of a program", "why_tests_cant": "The tests mock one package manager at a time and compare the calls for one state; they cannot range over all combinations of present programs, earlier updates, refused commands and outputs.", "anchors": ["COT/helpers/helper.py: Helper.install, Helper._install, Helper.version, download_and_expand_tgz", "COT/helpers/apt_get.py: install_package", "COT/helpers/yum.py: install_package", "COT/helpers/port.py: install_package", "COT/helpers/brew.py: install_package", "COT/helpers/fatdisk.py: installable, _install", "COT/helpers/vmdktool.py: installable, _install"]}
{"id": "C78", "title": "add-file, remove-file and add-disk succeed when they should", "statement": "On a package in order (C30) whose devices that refer to a file or disk are on a controller that exists in the default profile, and whose InstanceIDs can be sorted: add-file succeeds exactly if the file's name and the identifier that was given do not lead to two different Files, and the user agrees to replace the File found, if any; a file with a new name and identifier can always be added and nothing is asked. The only failures are a mismatch of name and identifier (ValueMismatchError) and a refusal. remove-file (when every referring device is a CD-ROM drive or a hard disk) succeeds exactly if there is a File that has the name and the identifier that were given (one or both) and the user agrees; it fails with InvalidInputError exactly if neither leads to a File, with ValueMismatchError exactly if they lead to one but no File has both, and otherwise only by refusal. With --force every File can be removed by its name, its identifier or both. The file of a drive of another type (such as a floppy drive) cannot be removed. add-disk of an image whose name and identifier are new, with a capacity of more than 0 bytes and less than 8 EiB, as a hard disk or CD-ROM without a given subtype or description: without a given address it succeeds and asks nothing if some IDE, SCSI or SATA controller of the wanted type (given, or the platform's default) has a free address; if all are full, or there is none, and the user refuses a new controller, the command ends without doing anything; if the user agrees (with or without a given subtype), it succeeds provided some address of a controller of the type (0 to 3 for SCSI, 0 or 1 for IDE) is unused and no device is said to be on a controller that is not there, and ends with ValueTooHighError if all those addresses are used. With a given controller type and address (controller:disk), it succeeds and asks nothing if exactly one controller of the type that is in the default profile has the first number, no device on it has the second, and the second is at most 15 for SCSI and 1 for IDE. If no controller of the type in the default profile has the first number and the user agrees to a new one, it succeeds as well, provided the first number is at most 3 for SCSI and 1 for IDE and the second at most 15 and 1. If the user refuses, the command ends.", "quantifier": "all orderly packages with attached devices and sortable InstanceIDs, all file names, identifiers, drive types, controller types and answers of the user", "why_tests_cant": "Whether a command is accepted depends on searches through all Files, Disks and devices of the package, several of which can fail; tests try a few packages, while a user relies on acceptance for every package that is in order.", "anchors": ["COT/commands/add_file.py:COTAddFile.run", "COT/commands/remove_file.py:COTRemoveFile.run", "COT/vm_description/ovf/ovf.py:OVF.search_from_filename", "COT/vm_description/ovf/ovf.py:OVF.search_from_file_id", "COT/vm_description/ovf/ovf.py:OVF.add_file", "COT/vm_description/ovf/ovf.py:OVF.remove_file", "COT/data_validation.py:check_for_conflict", "COT/commands/add_disk.py:add_disk_worker", "COT/commands/add_disk.py:search_for_elements", "COT/vm_description/ovf/ovf.py:OVF.find_open_controller", "COT/vm_description/ovf/ovf.py:OVF.add_disk_device", "COT/vm_description/ovf/ovf.py:OVF.add_controller_device"]}
