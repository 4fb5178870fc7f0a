{"claims": [
 {"property": "C01", "status": "proved", "theorems": ["C01_both_refine_list_reading", "C01_buffer_stream_agree", "C01_failures_are_unpack_exceptions"], "note": ""},
 {"property": "C02", "status": "proved", "theorems": ["C02_buffer_exact", "C02_buffer_short", "C02_closed", "C02_closed_zero_agree_refuted", "C02_stream_exact"], "note": "C02_closed_zero_agree_refuted records that a zero-length read on a closed unpacker behaves differently for the two classes"},
 {"property": "C03", "status": "proved", "theorems": ["C03_decode_encode", "C03_encode_decode"], "note": ""},
 {"property": "C04", "status": "proved", "theorems": ["C04_code_inverse", "C04_codes_defined", "C04_layout", "C04_name_inverse"], "note": ""},
 {"property": "C05", "status": "proved", "theorems": ["C05_disassembly_tiles", "C05_offsets"], "note": ""},
 {"property": "C06", "status": "proved", "theorems": ["C06_disassemble_assemble"], "note": "the converse direction is C05_disassembly_tiles"},
 {"property": "C07", "status": "proved", "theorems": ["C07_outcome"], "note": ""},
 {"property": "C08", "status": "partial", "theorems": ["C08_bipush_refuted", "C08_bipush_shown", "C08_signedness_partial"], "note": "true for every opcode except bipush (16), which is decoded unsigned: C08_bipush_refuted"},
 {"property": "C09", "status": "proved", "theorems": ["C09_class_roundtrip", "C09_code_roundtrip", "C09_names", "C09_no_code", "C09_unpack_class"], "note": ""},
 {"property": "C10", "status": "proved", "theorems": ["C10_truncated_any", "C10_truncated_class", "C10_truncated_code"], "note": ""},
 {"property": "C11", "status": "proved", "theorems": ["C11_given_magic", "C11_given_magic_refuted", "C11_is_class", "C11_magic_absent", "C11_short", "C11_wrong_magic"], "note": "C11_given_magic_refuted goes beyond the statement: passing the magic as str/bytes, as documented, is always rejected"},
 {"property": "C12", "status": "proved", "theorems": ["C12_pool_indices"], "note": ""},
 {"property": "C13", "status": "proved", "theorems": ["C13_constants", "C13_constants_any", "C13_deref_exact", "C13_failures", "C13_other_indices", "C13_well_formed"], "note": "the Python recursion limit (about 1000 frames) is not modelled: acyclic chains longer than that raise RecursionError in the runtime"},
 {"property": "C14", "status": "partial", "theorems": ["C14_deprecated_partial", "C14_markers_refuted", "C14_synthetic_partial"], "note": "false as stated: marker attributes have no data and bool(b\"\") is False, so they are never seen (C14_markers_refuted); what holds is characterised by the _partial theorems"},
 {"property": "C15", "status": "partial", "theorems": ["C15_field", "C15_fields_split", "C15_method_partial", "C15_method_refuted"], "note": "a class name containing the character ) breaks the split of a method descriptor (C15_method_refuted); proved for all other descriptors"},
 {"property": "C16", "status": "proved", "theorems": ["C16_splitting_terminates"], "note": ""},
 {"property": "C17", "status": "partial", "theorems": ["C17_injective_partial", "C17_injective_refuted", "C17_pretty", "C17_pretty_method"], "note": "a class whose simple name is a primitive keyword prints like the primitive (C17_injective_refuted); injective otherwise"},
 {"property": "C18", "status": "proved", "theorems": ["C18_line_lookup", "C18_relative"], "note": ""},
 {"property": "C19", "status": "proved", "theorems": ["C19_grouping"], "note": ""},
 {"property": "C20", "status": "proved", "theorems": ["C20_annotations", "C20_param_annotations", "C20_terminates", "C20_value"], "note": ""},
 {"property": "C21", "status": "proved", "theorems": ["C21_equal_iff", "C21_reflexive_iff", "C21_symmetric", "C21_transitive", "C21_value_equal_iff"], "note": ""},
 {"property": "C22", "status": "proved", "theorems": ["C22_no_overlap", "C22_platform"], "note": ""},
 {"property": "C23", "status": "proved", "theorems": ["C23_continuations", "C23_default_linesep", "C23_short_lines", "C23_writes"], "note": ""},
 {"property": "C24", "status": "proved", "theorems": ["C24_ascii", "C24_straddle_refuted", "C24_unfold"], "note": "the restriction on characters across a fold is necessary: C24_straddle_refuted"},
 {"property": "C25", "status": "proved", "theorems": ["C25_empty_value_refuted", "C25_long_name_refuted", "C25_newline_refuted", "C25_round_trip"], "note": "for storable manifests; what is not storable although accepted: empty values (C25_empty_value_refuted), newlines (C25_newline_refuted), names of more than 68 bytes but at most 68 characters (C25_long_name_refuted)"},
 {"property": "C26", "status": "proved", "theorems": ["C26_order_independent", "C26_reserialise"], "note": ""},
 {"property": "C27", "status": "proved", "theorems": ["C27_exact", "C27_only_error", "C27_total"], "note": "with supported digest algorithms only; an unsupported one raises UnsupportedDigest (C27_only_error)"},
 {"property": "C28", "status": "partial", "theorems": ["C28_refuted", "C28_strict_ignored", "C28_strict_ignored_sections"], "note": "false: the strict flag has no effect at all (C28_strict_ignored, C28_strict_ignored_sections, C28_refuted)"},
 {"property": "C29", "status": "partial", "theorems": ["C29_no_linesep_refuted", "C29_refuted", "C29_same_algorithm_partial", "C29_written_order"], "note": "holds when every section has a digest of the algorithm used, or when the sections are already in written order; false in general (C29_refuted, C29_no_linesep_refuted)"},
 {"property": "C30", "status": "proved", "theorems": ["C30_binds", "C30_evidence", "C30_removal_refuted"], "note": "up to digest collisions; removal of a whole section is not covered by the statement and goes unnoticed (C30_removal_refuted)"},
 {"property": "C31", "status": "proved", "theorems": ["C31_evidence", "C31_tamper"], "note": "up to digest collisions; the signature scheme is an oracle"},
 {"property": "C32", "status": "partial", "theorems": ["C32_attributes_refuted", "C32_refuted", "C32_sign_verify_partial"], "note": "holds when every section names an entry or carries a digest of the algorithm used; false for e.g. sealed package sections (C32_refuted); other attributes of entry sections are dropped (C32_attributes_refuted)"},
 {"property": "C33", "status": "partial", "theorems": ["C33_refuted", "C33_resign_always_fails"], "note": "false: signing again with the same alias never verifies (C33_resign_always_fails, C33_refuted)"},
 {"property": "C34", "status": "proved", "theorems": ["C34_ascii", "C34_exact", "C34_unicode_refuted"], "note": "upper-casing is the Unicode mapping; non-ASCII names may be exempted by it (C34_unicode_refuted)"},
 {"property": "C35", "status": "partial", "theorems": ["C35_digests", "C35_exact_iff", "C35_strips_partial", "C35_suffix_refuted"], "note": "false in general (C35_suffix_refuted); exact condition C35_exact_iff; true for the digest names in use (C35_digests)"},
 {"property": "C36", "status": "proved", "theorems": ["C36_order", "C36_permutation", "C36_stable"], "note": ""},
 {"property": "C37", "status": "proved", "theorems": ["C37_composite", "C37_exit_status", "C37_idempotent", "C37_real"], "note": ""},
 {"property": "C38", "status": "proved", "theorems": ["C38_exact", "C38_exposed", "C38_total"], "note": ""},
 {"property": "C39", "status": "proved", "theorems": ["C39_children", "C39_clear", "C39_squash", "C39_total"], "note": "squashing a change whose description is empty turns it into the default text (hypothesis of C39_squash)"},
 {"property": "C40", "status": "partial", "theorems": ["C40_escape", "C40_hidden_refuted", "C40_newline_refuted", "C40_one_line_each", "C40_text_report"], "note": "the text is exactly as specified, and the report succeeds iff every visited node can be described (a hidden one that cannot is enough to fail: C40_hidden_refuted); one line per node holds unless a description contains a line end (C40_newline_refuted)"},
 {"property": "C41", "status": "proved", "theorems": ["C41_partition"], "note": "for ZipFile archives with non-empty names and matching CRC/size records; any set iteration order"},
 {"property": "C42", "status": "partial", "theorems": ["C42_collision", "C42_content", "C42_directory_refuted", "C42_mixed_refuted"], "note": "proved for ZipFile archives; directories in place of archives are read as text and fail or always differ (C42_directory_refuted, C42_mixed_refuted)"},
 {"property": "C43", "status": "proved", "theorems": ["C43_chunks", "C43_concat", "C43_crc", "C43_crc_standard", "C43_digests"], "note": "CRC-32 modelled in full; hash objects by the update law of hashlib"},
 {"property": "C44", "status": "partial", "theorems": ["C44_collect", "C44_directories_fail", "C44_fails", "C44_otherwise_partial", "C44_refuted"], "note": "false: the archives are closed before the generator runs (C44_refuted); exact condition proved; collecting by path is right (C44_collect)"},
 {"property": "C45", "status": "proved", "theorems": ["C45_additive", "C45_order_refuted", "C45_rollup"], "note": "the documented order of the two sizes is the reverse (C45_order_refuted)"},
 {"property": "C46", "status": "partial", "theorems": ["C46_kind_refuted", "C46_partial", "C46_times_refuted", "C46_two_subdirectories"], "note": "needs: no kind conflicts, no equal size+time with different content, at most one common subdirectory per directory; each shown necessary"},
 {"property": "C47", "status": "partial", "theorems": ["C47_copy_partial", "C47_deep_fails", "C47_refuted"], "note": "true exactly for trees with files at most one directory deep; false otherwise (C47_refuted)"},
 {"property": "C48", "status": "partial", "theorems": ["C48_identity", "C48_identity_refuted", "C48_left_refuted", "C48_lost", "C48_members_partial"], "note": "needs distinct identities on the left; what is lost otherwise is characterised (C48_lost); identity theorem for methods; two fields of one name: one is lost (C48_left_refuted)"},
 {"property": "C49", "status": "partial", "theorems": ["C49_constants", "C49_equal_refuted", "C49_multianewarray_refuted", "C49_sound_partial"], "note": "multianewarray operands are compared as raw indices (C49_multianewarray_refuted); constants equal under Python == are not told apart (C49_equal_refuted)"},
 {"property": "C50", "status": "partial", "theorems": ["C50_nan_refuted", "C50_refuted", "C50_self_partial"], "note": "needs distinct member identities; false without (C50_refuted); NaN constants excluded, false with (C50_nan_refuted)"},
 {"property": "C51", "status": "partial", "theorems": ["C51_multianewarray_refuted", "C51_renumbering_partial"], "note": "false for multianewarray (C51_multianewarray_refuted)"},
 {"property": "C52", "status": "partial", "theorems": ["C52_cover_partial", "C52_refuted"], "note": "all indices covered; once each exactly if the sizes agree; refuted otherwise (C52_refuted)"},
 {"property": "C53", "status": "partial", "theorems": ["C53_exact", "C53_kept_partial", "C53_refuted"], "note": "exact content proved (C53_exact); instructions kept if no relative line occurs twice; refuted otherwise (C53_refuted)"},
 {"property": "C54", "status": "partial", "theorems": ["C54_exit", "C54_exploded_raises", "C54_exploded_refuted", "C54_ignored_unparsable_refuted", "C54_same_content", "C54_self", "C54_unchanged"], "note": "proved for zip files whose recorded sizes and CRCs are right, with the exact condition of exit status 0; directories in place of jars raise on any changed class, manifest or signature file (C54_exploded_refuted); ignored entries must still parse (C54_ignored_unparsable_refuted)"},
 {"property": "C55", "status": "partial", "theorems": ["C55_data_silent", "C55_exit", "C55_filename_refuted", "C55_presence", "C55_refuted", "C55_reported_partial", "C55_self", "C55_shallow_silent", "C55_undecodable_refuted"], "note": "false: differences in files of no special kind are never reported (C55_refuted, C55_data_silent), with --shallow no content difference is; the exact condition of exit status 0 is proved (C55_exit) for trees that the directory comparison handles (see C46)"},
 {"property": "C56", "status": "partial", "theorems": ["C56_bounded", "C56_complete", "C56_distdiff", "C56_ends", "C56_negative_refuted", "C56_no_helpers", "C56_raises", "C56_refuted", "C56_sound", "C56_task_fails"], "note": "proved when the tasks succeed (any number of helpers, any schedule); false when a task raises or --processes is negative: the parent waits for ever (C56_refuted, C56_negative_refuted); KeyboardInterrupt not modelled"},
 {"property": "C57", "status": "partial", "theorems": ["C57_class_provides", "C57_class_requires_partial", "C57_exploded_fails", "C57_nested_array_refuted", "C57_provides_partial", "C57_requires_partial"], "note": "For zip jars: the provisions are exactly those of the specification, in entry order. So are the requirements, for jars whose classes name no array of two or more dimensions of objects (deep = true); for all others they are exactly those of the specification without the element classes of such arrays (deep = false), which the code drops: C57_nested_array_refuted. Exploded jars always fail (C57_exploded_fails)."},
 {"property": "C58", "status": "partial", "theorems": ["C58_provides_partial", "C58_requires_partial", "C58_zipped_fails"], "note": "For a directory; arrays of two or more dimensions as in C57 (exact result for every distribution with deep = false); the order among files is that of the directory listing. A distribution given as a zip file always fails (C58_zipped_fails)."},
 {"property": "C59", "status": "proved", "theorems": ["C59_monotone", "C59_package_refuted", "C59_private", "C59_public", "C59_shown"], "note": "Exactly which members are shown, in order; monotone; public always, private only on request. Finding: package-private members are hidden at --package (C59_package_refuted)."},
 {"property": "C60", "status": "partial", "theorems": ["C60_completes", "C60_escape_refuted", "C60_failed_refuted", "C60_inside", "C60_nested", "C60_protocol", "C60_requested", "C60_setup_once", "C60_unknown_refuted", "C60_writes"], "note": "A completed run and nesting are proved in full. Not so in general: unknown format names are passed over (C60_unknown_refuted), a failing format leaves the others uncleared and the next run without setup (C60_failed_refuted), sub-paths with .. or absolute ones leave the directory (C60_escape_refuted)."},
 {"property": "C61", "status": "partial", "theorems": ["C61_strings_bmp_partial", "C61_supplementary_lost", "C61_supplementary_refuted"], "note": "true for strings without supplementary characters; every supplementary character is lost (C61_supplementary_lost, C61_supplementary_refuted)"},
 {"property": "C62", "status": "partial", "theorems": ["C62_absent", "C62_annotationdefault", "C62_annotationdefault_refuted", "C62_exceptions", "C62_index_attributes", "C62_innerclasses", "C62_linenumbers", "C62_variables"], "note": "true for all listed accessors except get_annotationdefault (C62_annotationdefault_refuted)"},
 {"property": "C63", "status": "partial", "theorems": ["C63_const_arg_partial", "C63_monitorenter_refuted", "C63_multianewarray_refuted", "C63_names_jvm_partial"], "note": "two rows differ from the JVM specification: 194 is spelled monitorentry (C63_monitorenter_refuted) and 197 multianewarray is not flagged as having a constant operand (C63_multianewarray_refuted); all other codes agree"},
 {"property": "C64", "status": "proved", "theorems": ["C64_json", "C64_text_json"], "note": ""},
 {"property": "C65", "status": "proved", "theorems": ["C65_entries", "C65_names"], "note": ""},
 {"property": "C66", "status": "partial", "theorems": ["C66_attributes_refuted", "C66_dropped_refuted", "C66_exit_partial", "C66_unchanged"], "note": "exact for classes with distinct member identities; duplicates refuted (C66_dropped_refuted); uncompared attributes (C66_attributes_refuted)"},
 {"property": "C67", "status": "partial", "theorems": ["C67_dynamic_refuted", "C67_renumbered_partial", "C67_reported"], "note": "needs distinct identities and no CONST_Dynamic in the pools (C67_dynamic_refuted: raises)"},
 {"property": "C68", "status": "partial", "theorems": ["C68_case_refuted", "C68_changed", "C68_ignored", "C68_order_refuted"], "note": "exact for change and ignoring; keys are case-sensitive (C68_case_refuted), any key also ignores a reordering (C68_order_refuted)"},
 {"property": "C69", "status": "proved", "theorems": ["C69_report_status"], "note": "exit status; the files written by the reports are not modelled"},
 {"property": "C70", "status": "partial", "theorems": ["C70_json_partial", "C70_json_refuted", "C70_refuted", "C70_text_partial", "C70_text_refuted"], "note": "proved where the classes compared can be described (text) or reported (JSON); false otherwise: member types that cannot be printed (C70_text_refuted), MethodType constants (C70_json_refuted); false with --show-unchanged for jars without entries (C70_refuted)"},
 {"property": "C71", "status": "proved", "theorems": ["C71_report_status"], "note": "exit status; the files written by the reports are not modelled"},
 {"property": "C72", "status": "partial", "theorems": ["C72_fails", "C72_members", "C72_pretty", "C72_refuted"], "note": "Proved for classes, members, names with types, strings and numbers. False for method handles, method types, modules and packages, which always raise (C72_fails, C72_refuted)."},
 {"property": "C73", "status": "partial", "theorems": ["C73_json_fails", "C73_json_refuted", "C73_version_refuted"], "note": "False: JSON output raises for every shown member (C73_json_fails, C73_json_refuted), and the version labels are swapped (C73_version_refuted). The list of shown members in the printed form is C59_shown."},
 {"property": "C74", "status": "partial", "theorems": ["C74_bridges", "C74_by_name", "C74_get_method", "C74_list_fails", "C74_list_refuted"], "note": "Proved for tuples; with a list get_method_bridges finds nothing (C74_list_fails, C74_list_refuted)."},
 {"property": "C75", "status": "partial", "theorems": ["C75_refuted", "C75_zip_info"], "note": "Proved whenever the total size is not 0; otherwise ZeroDivisionError (C75_zip_info, C75_refuted)."},
 {"property": "C76", "status": "proved", "theorems": ["C76_empty", "C76_fnmatches", "C76_literal", "C76_monotone", "C76_self_refuted"], "note": "Bracket expressions included. Finding: a symbol with array types given as pattern does not match itself (C76_self_refuted)."},
 {"property": "C77", "status": "partial", "theorems": ["C77_accepts", "C77_duplicate_refuted", "C77_empty_refuted", "C77_long_names", "C77_malformed_partial", "C77_nameless_refuted", "C77_no_space_refuted", "C77_result"], "note": "For texts in UTF-8. Findings: a text without sections raises StopIteration (C77_empty_refuted), the character after the colon is dropped whatever it is (C77_no_space_refuted), nameless sections all become the section None (C77_nameless_refuted), sections of one name are not merged (C77_duplicate_refuted)."},
 {"property": "C78", "status": "proved", "theorems": ["C78_breadcrumbs", "C78_details", "C78_empty_base_refuted", "C78_target"], "note": "Links are followed as paths. Finding: an empty base directory makes sub-reporters raise ValueError (C78_empty_base_refuted); jardiff and distdiff replace it by \"./\"."},
 {"property": "C79", "status": "partial", "theorems": ["C79_content", "C79_escape_refuted", "C79_status", "C79_written"], "note": "The exact set of files, their content and the exit status are proved. Not below the report directory for entry names with .. parts (C79_escape_refuted)."},
 {"property": "C80", "status": "partial", "theorems": ["C80_link", "C80_link_refuted", "C80_text"], "note": "Text is escaped correctly; links are not escaped (C80_link_refuted). Other templates are not modelled."},
 {"property": "C81", "status": "partial", "theorems": ["C81_dash_partial", "C81_lines_refuted", "C81_list_refuted", "C81_options_partial", "C81_order", "C81_split", "C81_usage", "C81_usage_only", "C81_version_refuted"], "note": "Proved for all command lines in which no word of --ignore names a collecting option; such a word makes the run fail (C81_list_refuted). The words lines and version of --ignore set nothing (C81_lines_refuted, C81_version_refuted). Abbreviated options and --help are not modelled."},
 {"property": "C82", "status": "proved", "theorems": ["C82_class", "C82_dist", "C82_jar", "C82_show"], "note": "For distdiff --shallow must be the same on both sides (it is not an ignore option)."},
 {"property": "C83", "status": "partial", "theorems": ["C83_added_refuted", "C83_defaults_refuted", "C83_effectless", "C83_platform_refuted"], "note": "False: --ignore-platform, --ignore-added and others have no effect on any input (C83_effectless, C83_platform_refuted, C83_added_refuted), and the default options functions end the program (C83_defaults_refuted)."},
 {"property": "C84", "status": "partial", "theorems": ["C84_dist_partial", "C84_jar_partial"], "note": "For zip jars, and for directories on which the comparison of directories is right (C46_partial)."},
 {"property": "C85", "status": "partial", "theorems": ["C85_collapse_refuted", "C85_created_partial", "C85_directory_refuted", "C85_ignore_twice_fails", "C85_recursive_refuted", "C85_unsupported"], "note": "Proved for archives. For directories the names are cut wrongly (C85_directory_refuted) and can fall together (C85_collapse_refuted); -r raises FileNotFoundError (C85_recursive_refuted); -i given twice raises TypeError (C85_ignore_twice_fails)."},
 {"property": "C86", "status": "partial", "theorems": ["C86_exact", "C86_refuted"], "note": "Exact: the status is 0 iff every ignored file is one that needs no checksum (C86_exact). Other files in META-INF are always ignored by create and always required by verify (C86_refuted)."},
 {"property": "C87", "status": "partial", "theorems": ["C87_entries_partial", "C87_jar_partial", "C87_main_class_refuted", "C87_root_refuted", "C87_signable_partial", "C87_two_manifests_refuted", "C87_up_refuted"], "note": "Proved for relative paths without .. parts. Others: C87_up_refuted, C87_root_refuted; a manifest among the files is stored twice (C87_two_manifests_refuted); --main-class has no effect (C87_main_class_refuted)."},
 {"property": "C88", "status": "partial", "theorems": ["C88_commands", "C88_failures", "C88_no_manifest_refuted", "C88_sign_verify_partial", "C88_sign_writes", "C88_status", "C88_tampered", "C88_verified", "C88_verify_word_refuted"], "note": "The verify and sign statuses are proved as stated, sign-then-verify under the conditions of C32. A missing manifest escapes as an exception (C88_no_manifest_refuted); the documented command verify is not recognised by jarutil (C88_verify_word_refuted)."},
 {"property": "C89", "status": "partial", "theorems": ["C89_colon_refuted", "C89_main", "C89_section"], "note": "Proved for section names without a colon; others cannot be asked for (C89_colon_refuted)."},
 {"property": "C90", "status": "partial", "theorems": ["C90_class", "C90_determines", "C90_member", "C90_package_class_refuted"], "note": "Exact text for members and classes, and the declaration of a member determines it up to flags that have no word. A class with no modifier is printed with a leading space (C90_package_class_refuted). Flags must be among those the JVM specification defines for the kind of member."},
 {"property": "C91", "status": "partial", "theorems": ["C91_annotations_refuted", "C91_determines", "C91_listing_partial"], "note": "Exact text of the listing for classes whose shown methods have no runtime visible annotations; these are printed for methods though not for fields (C91_annotations_refuted). Signatures, line numbers and local variables (-s, -l, --locals) and verbose mode are modelled but not part of this theorem."},
 {"property": "C92", "status": "partial", "theorems": ["C92_code_partial", "C92_determines", "C92_monitorenter_refuted"], "note": "Proved for all instructions but monitorenter, whose name is misspelt (C92_monitorenter_refuted)."},
 {"property": "C93", "status": "partial", "theorems": ["C93_enclosing", "C93_verbose_refuted"], "note": "get_enclosingmethod as stated. Annotations are all numbered 0 and the heading Exceptions is printed without any (C93_verbose_refuted)."},
 {"property": "C94", "status": "partial", "theorems": ["C94_constants_partial", "C94_dynamic_fails"], "note": "Proved for pools without CONSTANT_Dynamic; with one, -p and -v raise, always (C94_dynamic_fails)."},
 {"property": "C95", "status": "partial", "theorems": ["C95_accepts_partial", "C95_code_signing_refuted", "C95_nstype_refuted", "C95_others_kept", "C95_sound_partial", "C95_usage_never_recognised"], "note": "Sound for certificates without the Netscape type extension; with one, a certificate it forbids is accepted (C95_nstype_refuted). Complete only for certificates without keyUsage: with it nothing is ever passed over, since OpenSSL prints long names and the code looks for short ones (C95_usage_never_recognised, C95_code_signing_refuted). The signature itself (PKCS7_verify) is not modelled; get_value is modelled as the long names joined by a comma."},
 {"property": "C96", "status": "proved", "theorems": ["C96_key_type"], "note": ""},
 {"property": "C97", "status": "proved", "theorems": ["C97_found", "C97_most_specific", "C97_no_template_unused", "C97_program"], "note": ""},
 {"property": "C98", "status": "partial", "theorems": ["C98_changed_partial", "C98_hidden_refuted", "C98_loop_refuted", "C98_unchanged_partial"], "note": "The exact table for both cases. All instructions have rows if no relative line occurs twice; otherwise some are missing (C98_loop_refuted). Handlers of exceptions and line tables are not shown at all (C98_hidden_refuted). Excludes code with monitorenter or multianewarray, which the opcode table gets wrong (C07, C63; hypothesis usual_codes)."},
 {"property": "C99", "status": "partial", "theorems": ["C99_added", "C99_field_refuted", "C99_method", "C99_removed"], "note": "Proved for methods that are on both sides, added and removed. Fields added or removed are not named on the page (C99_field_refuted)."},
 {"property": "C100", "status": "partial", "theorems": ["C100_class", "C100_escape_refuted", "C100_field", "C100_zero_refuted"], "note": "Exact rows for class and fields. Names of classes are not escaped (C100_escape_refuted); a constant value 0 is not listed when unchanged (C100_zero_refuted)."},
 {"property": "C101", "status": "partial", "theorems": ["C101_changed_partial", "C101_unchanged", "C101_zero_refuted"], "note": "Exact for pools of one size and for equal pools; for others every index has its row, some twice. The number 0 is shown blank where pools differ (C101_zero_refuted)."},
 {"property": "C102", "status": "partial", "theorems": ["C102_added_refuted", "C102_field_ill", "C102_jquery_ill", "C102_method_ill", "C102_pair_refuted", "C102_partial", "C102_pool_refuted"], "note": "False in general. Well-formed with html_no_jquery, equal pools, no common field and no method on the right (C102_partial); never with a method or field on both sides (C102_method_ill, C102_field_ill) nor with the jquery script (C102_jquery_ill)."},
 {"property": "C103", "status": "partial", "theorems": ["C103_symbols_partial"], "note": "The element classes of arrays of two or more dimensions are dropped (C57); with deep = false the theorem gives the exact output for every jar, with deep = true the intended one for jars without such arrays."},
 {"property": "C104", "status": "partial", "theorems": ["C104_effectless", "C104_json_partial", "C104_several_refuted", "C104_zip"], "note": "As C103 for arrays. One document per jar; the order in which dump writes the members is not modelled."},
 {"property": "C105", "status": "proved", "theorems": ["C105_manifest", "C105_missing_fails", "C105_never"], "note": "For jars with a manifest; without one the tool raises (C105_missing_fails), the message for that case is never printed."},
 {"property": "C106", "status": "proved", "theorems": ["C106_classes", "C106_zip", "C106_zip_refuted"], "note": "The text of a class is that of the model of classinfo (C91); --zip for archives with some content."},
 {"property": "C107", "status": "partial", "theorems": ["C107_dist_partial", "C107_effectless", "C107_json_partial", "C107_one_jar"], "note": "As C103 for arrays; trees without symbolic links."},
 {"property": "C108", "status": "partial", "theorems": ["C108_bytes_fails", "C108_result", "C108_rewound_refuted", "C108_stream_partial", "C108_view"], "note": "If the search raises nothing but OSError; bytes and str are refused in Python 3 (C108_bytes_fails)."},
 {"property": "C109", "status": "partial", "theorems": ["C109_empty_refuted", "C109_jar_page_partial", "C109_manifest_refuted"], "note": "Of manifests, signature files and other data that differ, what follows the name is not specified. Jars without compared entries have no page (C109_empty_refuted); the page does not show what changed in a manifest (C109_manifest_refuted)."},
 {"property": "C110", "status": "partial", "theorems": ["C110_data_refuted", "C110_dist_page_partial"], "note": "As C109. Data files that differ are shown as unchanged (C110_data_refuted)."},
 {"property": "C111", "status": "partial", "theorems": ["C111_jquery_ill", "C111_well_formed"], "note": "With jQuery left out; the default pages are never well-formed (C111_jquery_ill)."},
 {"property": "C112", "status": "partial", "theorems": ["C112_class", "C112_dist_partial", "C112_jar", "C112_overloads_refuted"], "note": "For trees the directory comparison handles (see C46) and runs that end without an exception; with methods that differ in their return type only it is false (C112_overloads_refuted)."},
 {"property": "C113", "status": "partial", "theorems": ["C113_class", "C113_dist_partial", "C113_dist_refuted", "C113_jar"], "note": "As C112; for distributions false where a pattern matches the name of a missing file but not that of a common one (C113_dist_refuted)."},
 {"property": "C114", "status": "partial", "theorems": ["C114_content", "C114_parallel", "C114_parallel_waits", "C114_status", "C114_written"], "note": "For readable jars and trees that the directory comparison handles (see C46); completion is a hypothesis for the list of files (C114_written), not for content and status. With --processes, a report that fails leaves distdiff waiting for ever (C114_parallel_waits)."},
 {"property": "C115", "status": "partial", "theorems": ["C115_distdiff", "C115_jardiff", "C115_refuted"], "note": "Exact. The help text (\"Ignore JAR signing changes\") promises more: with that option alone a jar that was only signed is reported as changed (C115_refuted)."},
 {"property": "C116", "status": "partial", "theorems": ["C116_provides", "C116_symbols_partial"], "note": "--provides in full (C116_provides); --requires exactly for every class with deep = false, and as intended (deep = true) for classes whose constants name no array of arrays (C57_nested_array_refuted)."},
 {"property": "C117", "status": "partial", "theorems": ["C117_listing_partial"], "note": "Exact text for every combination of options and every class whose annotations, descriptors and tables are readable as the specification of class files says (a class with a dynamic constant has no constant table: C67_dynamic_refuted). The labels of the two version numbers are swapped (C73_version_refuted) and the text specified says so; annotations show constants by index."},
 {"property": "C118", "status": "partial", "theorems": ["C118_changed_partial", "C118_marker_refuted", "C118_unchanged", "C118_value_refuted"], "note": "Marks and tables for every pair (C118_changed_partial, C118_unchanged). Missing: an annotation without elements is shown as a blank where the annotations changed (C118_marker_refuted), and constants are shown by pool index, so that a changed value may show the same text on both sides (C118_value_refuted)."},
 {"property": "C119", "status": "partial", "theorems": ["C119_copied", "C119_dist", "C119_fragment_refuted", "C119_jar", "C119_kept_refuted", "C119_page", "C119_parallel"], "note": "Exact for every page, file that exists and option (C119_jar, C119_dist, C119_parallel, C119_copied, C119_page). Missing: a relative name of a file that is not there is linked as given on every page, so that one meant from the report directory is found from the main page only (C119_kept_refuted), and links are not encoded (C119_fragment_refuted). No symbolic links, no errors of the file system while copying."},
 {"property": "C120", "status": "proved", "theorems": ["C120_code_refuted", "C120_native_refuted", "C120_report"], "note": "The exact text, and that there is only one such text, for every pair of classes with readable names, descriptors and annotations and every combination of options (C120_report). Two things that the text specified says, as the code does, are not so: a native method is said to be abstract (C120_native_refuted); of a method that lost its code each part of the code is said to be unchanged, and the difference is marked as ignored though no option asks for that (C120_code_refuted)."},
 {"property": "C121", "status": "partial", "theorems": ["C121_document_partial", "C121_files", "C121_header", "C121_refuted"], "note": "The exact document, or the exception, for every class and option (C121_document_partial, C121_header, C121_files); [deep] as in C57. Missing: a class with any member to be shown has no document, AttributeError is raised instead (C121_refuted, and exactly then by C121_document_partial). How json.dump writes the values is not modelled."},
 {"property": "C122", "status": "partial", "theorems": ["C122_deprecated_refuted", "C122_field", "C122_method"], "note": "Exact data for every well-formed member (C122_field, C122_method), where deprecated is said only of an attribute Deprecated with data, which no compiler writes (C122_deprecated_refuted)."},
 {"property": "C123", "status": "proved", "theorems": ["C123_report"], "note": "The lines, their order up to the order of sets, their depth and marks, for every pair of zip files with entries of recorded size and checksum whose differing classes have readable names, descriptors and annotations, and every combination of options (C123_report). With --show-unchanged and nothing to compare there is no report: C70_refuted."},
 {"property": "C124", "status": "partial", "theorems": ["C124_refuted", "C124_report"], "note": "The lines, their order up to the order of sets and listings, depth and marks, and the status (C124_report), for trees that the directory comparison handles (C46) whose differing jars are readable zip files and whose differing classes have readable names, descriptors and annotations. Files of no special kind that differ are said to be unchanged (C124_refuted)."},
 {"property": "C125", "status": "proved", "theorems": ["C125_document", "C125_refuted"], "note": "The exact document, and, for pools made of constants, that there is only one such document, for every pair of classes with readable names, descriptors and annotations and every combination of options, whenever a document is written (C125_document; when that is: C70). An object can say that there is no change and show data that differ: the code of methods with the same instructions and other operands (C125_refuted). How the encoder of the library writes the values is not modelled."},
 {"property": "C126", "status": "proved", "theorems": ["C126_document", "C126_refuted"], "note": "The document up to the order of sets, for every pair of zip files with entries of recorded size and checksum whose differing classes have readable names, descriptors and annotations, and every combination of options, whenever a document is written (C126_document; when that is: C70). For signature files the attributes shown include one that is not in the file, Manifest-Version (C126_refuted). How the encoder of the library writes the values is not modelled."},
 {"property": "C127", "status": "partial", "theorems": ["C127_document", "C127_refuted"], "note": "Proved for trees that the directory comparison handles (C46): the document up to the order of sets, for every pair of comparable directories without links whose differing classes and jars can be described (as in C125 and C126), and every combination of options, whenever a document is written; and the status (C127_document). With --ignore-trailing-whitespace an unchanged text file is marked as ignored though it matches no pattern (C127_refuted)."},
 {"property": "C128", "status": "partial", "theorems": ["C128_classes", "C128_dists", "C128_jars", "C128_refuted"], "note": "Completion, the text report and the JSON document for every pair of such classes and every combination of options (C128_classes), and for every pair of such jars when there is at least one entry to be shown (C128_jars), and for every pair of comparable directories without links whose common files are such (C128_dists). Left out are classes with method handles, method types and dynamic constants, for which it is false: C70_json_refuted, and C128_refuted (a valid class with a dynamic constant cannot be compared to one with another constant pool)."},
 {"property": "C129", "status": "partial", "theorems": ["C129_lines_partial", "C129_refuted", "C129_variables_partial"], "note": "Proved exactly when it holds: the table returned is the last one of that name, and it has the entries of all of them if and only if all but the last are empty (C129_lines_partial, C129_variables_partial). False of code with two non-empty tables: C129_refuted."},
 {"property": "C130", "status": "partial", "theorems": ["C130_effects", "C130_refuted", "C130_status", "C130_text", "C130_unique"], "note": "All of it but the last sentence: the text and the point at which a failing text report stops (C130_text, C130_unique), where it goes and what is left alone (C130_effects), the status (C130_status). What json.dump has written when it fails is not modelled. The last sentence is false: the file is opened, and so emptied, before the report is made (C130_refuted)."},
 {"property": "C131", "status": "partial", "theorems": ["C131_again", "C131_entries_partial", "C131_refuted", "C131_sections_again", "C131_sections_partial", "C131_success"], "note": "Exact: what is added is an empty section for each entry (section) that has none, in order, and nothing else changes (C131_entries_partial, C131_sections_partial); nothing is added if and only if all have one, in particular when the jar is in order (C131_success). Verifying again gives the same answer (C131_again, C131_sections_again). False otherwise: after a failed verification the manifest is written differently and its signature no longer holds (C131_refuted)."},
 {"property": "C132", "status": "partial", "theorems": ["C132_cleared_partial", "C132_forgets", "C132_stale_refuted", "C132_version_refuted"], "note": "After clear a text that starts with the version is read as by a new object (C132_cleared_partial). Reading a second text gives its manifest exactly if it has all attributes and sections that were there (C132_forgets), else the old ones stay (C132_stale_refuted). A cleared manifest has no version, so that it cannot be written and read back (C132_version_refuted). That clear also empties sections held elsewhere is not modelled."},
 {"property": "C133", "status": "partial", "theorems": ["C133_agrees", "C133_either", "C133_malformed", "C133_reached", "C133_unchanged_refuted"], "note": "All of it but the last sentence: the two kinds of text exclude each other and one applies (C133_either), the object and the exception in every case (C133_reached, C133_malformed, C133_agrees). The last sentence is false (C133_unchanged_refuted)."},
 {"property": "C134", "status": "partial", "theorems": ["C134_literal", "C134_none", "C134_text_refuted"], "note": "The first sentence is proved (C134_none, C134_literal: the result is a Python bytes literal of the content, which determines it). The second is false of every class under Python 3 (C134_text_refuted)."},
 {"property": "C135", "status": "partial", "theorems": ["C135_answers", "C135_given", "C135_given_refuted", "C135_moment", "C135_open", "C135_refresh_refuted", "C135_with"], "note": "Proved for a file that stays the same (C135_answers, C135_with) and for open archives (C135_open, C135_given); if the file changes, each answer is that of one moment, for classes one since the last close (C135_moment). That answers after close are those of the new file is false of get_requires and get_provides (C135_refresh_refuted); an object made from an open archive closes it and cannot be used then (C135_given_refuted)."},
 {"property": "C136", "status": "partial", "theorems": ["C136_answers", "C136_failing", "C136_failing_refuted", "C136_tidy"], "note": "The first sentence is proved (C136_tidy, C136_answers). The second is false: only the first question raises (C136_failing says exactly which calls do), later ones answer from what was extracted (C136_failing_refuted)."},
 {"property": "C137", "status": "partial", "theorems": ["C137_closed", "C137_confirmed", "C137_errors_refuted", "C137_sequence", "C137_sequence_refuted"], "note": "Proved for streams without a method close (C137_sequence, C137_confirmed); results and exceptions are the same for all streams (C137_closed). For a file or BytesIO it is false: both functions close it, and the documented way of confirming a class first never works (C137_sequence_refuted). is_class passes on errors of the stream itself (C137_errors_refuted)."},
 {"property": "C138", "status": "partial", "theorems": ["C138_create", "C138_create_refuted", "C138_read_only_refuted", "C138_sign_disabled", "C138_sign_done", "C138_sign_failed", "C138_sign_goes", "C138_sign_status", "C138_sign_verify_partial", "C138_verify"], "note": "Signing: all of it (C138_sign_failed, C138_sign_done, C138_sign_goes, C138_sign_status, and with the hypotheses of C32 the file written verifies: C138_sign_verify_partial, C138_sign_disabled), but for a jar that may not be written the signing into another file raises (C138_read_only_refuted). Verifying: C138_verify. Creating: only the jar is touched, with exactly what is left in it in every case (C138_create); that a failed creation leaves the previous jar is false (C138_create_refuted)."},
 {"property": "C139", "status": "partial", "theorems": ["C139_done", "C139_failed", "C139_failed_refuted", "C139_goes"], "note": "All of it but the last sentence: C139_done, C139_goes, and exactly what is left after an exception (C139_failed): the file is as it was unless the exception comes from encoding the sections. In that case the last sentence is false (C139_failed_refuted)."},
 {"property": "C140", "status": "partial", "theorems": ["C140_answers", "C140_fixed", "C140_moment", "C140_refresh_refuted", "C140_shared_refuted"], "note": "Proved for a directory that stays the same and a caller who changes only mappings obtained with patterns (C140_answers). If the directory changes, names are those of one moment since the last close (C140_moment), symbols those of the first success (C140_fixed), so that close does not refresh them (C140_refresh_refuted). Changing a mapping obtained without patterns changes later answers (C140_shared_refuted)."},
 {"property": "C141", "status": "partial", "theorems": ["C141_answers", "C141_kept", "C141_unpacked_refuted"], "note": "Proved for an object that holds the same class throughout (C141_answers). Sets found once are kept (C141_kept), so that an object that unpacks a second class answers for the first one (C141_unpacked_refuted)."}
]}
