claim('C01', 'proved', ['c01_base64_lossless'], 'all byte strings')
claim('C02', 'proved', ['c02_uuid_roundtrip', 'c02_uuid_text_injective', 'c02_uuid_hex_roundtrip'], 'all 16-byte UUIDs')
claim('C03', 'proved', ['c03_kdbx4_time_exact', 'c03_kdbx4_time_subsecond'], 'all valid datetimes whose instant lies in years 1-9999 (sub-second: up to the last second of year 9999, where the rounded value overflows)')
claim('C04', 'partial', ['c04_kdbx4_time_never_later_refuted', 'c04_kdbx4_time_never_later_partial'], 'false of the code: refuted by 2024-01-01T00:00:00.999999; holds below 999969 microseconds')
claim('C05', 'partial', ['c05_kdbx3_time_instant_refuted', 'c05_kdbx3_time_shift', 'c05_kdbx3_time_instant_partial'], 'false of the code for non-UTC datetimes (shifted by the offset); holds for UTC')
claim('C06', 'partial', ['c06_kdbx4_iso_Z_refuted', 'c06_kdbx4_iso_partial'], 'false of the code: the Z spelling always raises struct.error; holds without designator')
claim('C68', 'partial', ['c68_equality_is_uuid_equality_refuted', 'c68_equal_uuids_equal', 'c68_equality_is_uuid_equality_partial'], 'false of the code: equality is hash equality, collides modulo 2^61-1')
claim('C21', 'proved', ['c21_pkcs7_lossless', 'c21_pkcs7_shape', 'c21_pkcs7_validated'], 'unpad accepts exactly the padded texts')
claim('C22', 'proved', ['c22_cbc_decrypt_inverts', 'c22_cbc_chunking', 'c22_cbc_is_standard', 'c22_cbc_bad_sizes'], 'all keys of 16/24/32 bytes, all IVs, all data, any chunking')
claim('C23', 'proved', ['c23_twofish_encrypt', 'c23_twofish_decrypt'], 'pytwofish.py against the published Twofish definition (TwofishSpec.v)')
claim('C07', 'proved', ['c07_blocks4_lossless', 'c07_blocks4_written', 'c07_blocks4_layout'], 'all payloads; layout against the published one')
claim('C08', 'proved', ['c08_blocks3_lossless', 'c08_blocks3_written', 'c08_blocks3_layout'], 'all payloads')
claim('C09', 'proved', ['c09_save_open_kdbx4', 'c09_content_stable'], 'any edit, any credentials with the same derived key; crypto/gzip/XML libraries by the hypotheses lib_ok; size bound 2^83; documents within the limits of the XML parser (modest, see C102)')
claim('C10', 'proved', ['c10_save_open_kdbx3'], 'as C09; size bound 2^51; documents within the limits of the XML parser')
claim('C11', 'proved', ['c11_accepted_is_authentic', 'c11_tags_bind_content'], 'collision alternative explicit')
claim('C12', 'proved', ['c12_wrong_credentials'], 'tag collision alternative explicit')
claim('C13', 'proved', ['c13_truncated_kdbx4'], 'every proper prefix, any credentials')
claim('C14', 'proved', ['c14_truncated_kdbx3'], 'every prefix')
claim('C15', 'proved', ['c15_trailing_bytes'], '')
claim('C16', 'partial', ['c16_kdbx3_over_longer_stream_refuted', 'c16_kdbx3_aes_unreadable', 'c16_kdbx3_over_longer_stream_partial'], 'false of the code for AES when the old bytes are not a multiple of 16')
claim('C17', 'proved', ['c17_bad_signature', 'c17_bad_header_hash', 'c17_bad_header_mac', 'c17_bad_block4', 'c17_bad_start3', 'c17_bad_block3'], '')
claim('C18', 'proved', ['c18_header_preserved'], 'also for saves that raise')
claim('C19', 'partial', ['c19_fresh_randomness_refuted', 'c19_chacha20_two_time_pad'], 'false of the code: seed and IV are those of the opened file; consequence for ChaCha20 proved')
claim('C20', 'partial', ['c20_nodecrypt_kdbx4', 'c20_nodecrypt_kdbx3'], 'the ValueError on payload access belongs to the object model')
claim('C28', 'proved', ['c28_protected_values_survive', 'c28_protect_unprotect', 'c09_save_open_kdbx4', 'c10_save_open_kdbx3'], 'documents within the limits of the XML parser (C102)')
claim('C29', 'proved', ['c29_save_keeps_memory'], 'successful and failing saves')
claim('C30', 'proved', ['c30_sealed_in_file_kdbx4', 'c30_sealed_in_file_kdbx3'], '')
claim('C72', 'proved', ['c72_xml_lossless'], 'the XML codec of Xml.v (model of lxml)')
claim('C75', 'partial', ['c75_unsupported_version_rejected_refuted', 'c75_unsupported_version_data_loss'], 'false of the code')
claim('C24', 'proved', ['c24_raw_key', 'c24_hex_key', 'c24_hashed_file', 'c24_xml_version_1', 'c24_xml_version_2', 'c24_other_xml'], 'all key file contents')
claim('C25', 'partial', ['c25_every_file_accepted_refuted', 'c25_every_file_accepted_partial'], 'false of the code: some 64-byte files raise; the partial theorem says which')
claim('C26', 'proved', ['c26_none_is_not_empty', 'c26_distinct_passwords', 'c26_composite'], 'hash collision alternative explicit')
claim('C27', 'partial', ['c27_keyfile_stream_refuted', 'c27_keyfile_stream_partial'], 'false of the code for streams that cannot seek or are not at their start')
claim('C31', 'partial', ['c31_crash_keeps_database_refuted', 'c31_crash_keeps_database_partial', 'c31_save_completes'], 'false of the code for targets named x.tmp and where rename fails; proved otherwise for every crash point')
claim('C32', 'partial', ['c32_failing_save_refuted', 'c32_failing_save_partial', 'c32_build_errors_raise'], 'false of the code for targets named x.tmp')
claim('C33', 'partial', ['c33_other_files_untouched', 'c33_sibling_not_a_user_file_refuted'], 'an existing sibling x.tmp is destroyed; no other file is touched')
claim('C37', 'proved', ['c37_find_entries_exact', 'c37_first', 'c37_none_ignored', 'c37_none_uuid_raises', 'c37_none_tags_raises'], 'also for regex searches, relative to the regular expression library')
claim('C38', 'partial', ['c38_search_value_is_data_refuted', 'c38_search_value_is_data_partial'], 'false of the code for values containing a double quote (XPath injection); proved for all others')
claim('C39', 'proved', ['c39_history_only_on_request'], '')
claim('C40', 'proved', ['c40_find_groups_exact'], '')
claim('C42', 'partial', ['c42_tag_search_exact_refuted', 'c42_tag_search_partial'], 'false of the code: substrings of tags match; completeness and the exact substring meaning are proved')
claim('C76', 'partial', ['c76_find_attachments_exact_partial', 'c76_unrestricted_search_refuted'], 'an unrestricted search raises on KDBX3 documents with binaries; searches whose results are all in entries are exact')
claim('C41', 'partial', ['c41_entry_by_path', 'c41_group_by_path'], 'search by path is exact; relation to the path property to follow')
claim('C43', 'partial', ['c43_property_assignment_partial', 'c43_custom_property_assignment_partial', 'c43_duplicate_keys_refuted'], 'proved for entries whose string keys are distinct (and each String has one Key and one Value); with duplicate keys false of the code')
claim('C44', 'proved', ['c44_flag_kept', 'c44_new_secret_protected', 'c44_custom_flag'], 'entries with distinct keys')
claim('C45', 'partial', ['c45_rejected_assignment_refuted', 'c45_rejected_assignment_partial', 'c45_rejected_new_field_partial'], 'false of the code: the old value is lost; at most that one field is lost')
claim('C46', 'proved', ['c46_custom_properties', 'c46_set', 'c46_get', 'c46_delete', 'c46_delete_missing', 'c46_reserved'], 'entries with distinct keys, keys without double quotes')
claim('C47', 'proved', ['c47_tags'], '')
claim('C48', 'proved', ['c48_icon', 'c48_name', 'c48_group_notes', 'c48_uuid', 'c48_time', 'c48_time_kdbx4', 'c48_time_kdbx3', 'c48_expires'], 'the time element must exist; times up to what the text form can hold (C03 to C05)')
claim('C49', 'proved', ['c49_touch', 'c49_touch_modify'], '')
claim('C50', 'proved', ['c50_not_expiring', 'c50_expiring', 'c50_set_and_read'], '')
claim('C74', 'proved', ['c74_enabled', 'c74_sequence', 'c74_window'], 'entries having the auto-type elements')
claim('C51', 'partial', ['c51_raise_changes_nothing', 'c51_one_entry_appended', 'c51_given_fields_partial', 'c51_duplicate_raises_partial', 'c51_quotes_refuted'], 'raise-or-append holds for all arguments; the duplicate rule holds for titles and usernames without double quotes and is false with them (the title becomes part of the search expression)')
claim('C52', 'partial', ['c52_none_refuted'], 'false of the code: every combination with a None raises TypeError')
claim('C53', 'proved', ['c53_delete'], '')
claim('C54', 'proved', ['c54_move', 'c54_into_itself_refused'], '')
claim('C55', 'partial', ['c55_root_refused', 'c55_bin_refused', 'c55_moved_to_bin_partial', 'c55_around_bin_refused', 'c55_bin_created_partial', 'c55_one_after_another_partial', 'c55_one_bin_for_all_partial', 'c55_collision_refuted', 'c55_around_bin_refuted'], 'false of the code in two points: an element whose UUID collides with that of the root group (comparisons go through a hash, C68) is refused, and a group containing the bin is refused with ValueError. Proved otherwise for each situation and for any sequence of calls, with or without a bin at the start, in documents with one root group and one RecycleBinUUID element')
claim('C56', 'proved', ['c56_empty_group'], '')
claim('C57', 'proved', ['c57_reindex'], '')
claim('C58', 'partial', ['c58_index_contiguous_partial', 'c58_index_distance', 'c58_index_refuted'], 'false of the code when a subgroup stands between entries; exact meaning of index proved')
claim('C59', 'proved', ['c59_save_history', 'c59_edits_keep_snapshots'], 'entries with at most one History element')
claim('C60', 'proved', ['c60_delete_one', 'c60_delete_all', 'c60_raise_changes_nothing'], '')
claim('C61', 'proved', ['c61_add_binary', 'c61_binaries', 'c61_histories', 'c61_attachment_data', 'c61_attach'], 'KDBX4, and KDBX3 databases whose k-th binary has an ID not less than k; compression that can be undone (zlib_ok)')
claim('C62', 'partial', ['c62_delete_binary_partial', 'c62_delete_binary_exact', 'c62_no_such_binary', 'c62_history_refuted', 'c62_negative_refuted'], 'false of the code for attachments of history entries that referred to the deleted binary, and for negative ids; proved for live attachments and for every attachment (history included) of another binary')
claim('C63', 'partial', ['c63_ids_without_deletes_partial', 'c63_after_delete_refuted'], 'false of the code after a deletion; holds as long as nothing is deleted')
claim('C64', 'partial', ['c64_snapshot_attachments_partial', 'c64_attachments_refuted'], 'false of the code: HistoryEntry.attachments is empty; the snapshot element does contain copies of the attachments')
claim('C70', 'proved', ['c70_due', 'c70_no_date', 'c70_assigned', 'c70_no_days'], 'databases that store each setting once; when no number of days is stored the code raises TypeError (c70_no_days)')
claim('C77', 'partial', ['c77_days', 'c77_date', 'c77_date_kdbx3', 'c77_text', 'c77_none_refuted'], 'databases that store the setting once; dates of whole seconds (KDBX4) or in UTC (KDBX3); text the XML library accepts. None is read back as the text None (c77_none_refuted)')
claim('C65', 'partial', ['c65_roundtrip', 'c65_text_around_kept_partial', 'c65_text_around_refuted', 'c65_dangling', 'c65_no_references', 'c65_missing_field_raises'], 'the round trip, dangling references and values without references are proved in full; text around references is kept when no {REF: (or a beginning of it cut off by a reference or the end of a text) stands outside references, and is not kept in general (replaced text can complete half a reference)')
claim('C66', 'partial', ['c66_self_reference_refuted', 'c66_every_self_reference', 'c66_terminates_partial', 'c66_circular', 'c66_ends_or_circular', 'c66_nothing_left', 'c66_only_reads', 'c66_limit'], 'false of the code for circular references. In texts without {REF: (or a cut-off beginning of it) outside references: not circular implies a result (within k + 2 calls for k references), circular implies that no recursion limit suffices. For every text: a result has no references left, nothing is changed, more recursion changes no result')
claim('C67', 'partial', ['c67_uuid_reference_refuted', 'c67_every_uuid_reference'], 'false of the code: every reference to a UUID raises TypeError')
claim('C41', 'proved', ['c41_entry_by_path', 'c41_group_by_path', 'c41_entry_by_pattern', 'c41_group_by_pattern', 'c41_path_leads_back', 'c41_same_path', 'c41_group_path_leads_back'], 'names without double quotes and control characters; each group stores its name once (one_name) and entry fields are stored once (tidy), as KeePass writes them')
claim('C73', 'proved', ['c73_parent', 'c73_parent_unique', 'c73_entries', 'c73_subgroups'], 'for documents laid out as KeePass writes them (neat: entries and groups stand directly in groups)')
claim('C78', 'proved', ['c78_reads_kdbx4', 'c78_reads_kdbx3', 'c78_header_values'], 'header settings of every type (signed and unsigned numbers, booleans, text, bytes) are read with the values vd_means gives them; against the independent description of the format in FormatSpec.v; header fields each once, KDBX3 protected stream Salsa20/ChaCha20/none; cryptographic functions, gzip and XML as in lib_ok')
claim('C79', 'proved', ['c79_writes_kdbx4', 'c79_writes_kdbx3'], 'view_for: what the XML library gives back for the document (empty texts absent); documents within the limits of the XML parser (C102)')
claim('C68', 'partial', ['c68_equality_is_uuid_equality_refuted', 'c68_equal_uuids_equal', 'c68_equality_is_uuid_equality_partial', 'c68_history_equality', 'c68_history_reflexive'], 'false of the code: equality is hash equality, collides modulo 2^61-1')
claim('C71', 'partial', ['c71_nothing_lost_refuted', 'c71_well_formed_partial', 'c71_nothing_lost_partial', 'c71_stays_partial', 'c71_nothing_returns_partial', 'c71_nothing_appears_partial', 'c71_root_group_partial'], 'false of the code for custom property keys containing a double quote (an XPath injection that drops the history); proved for every history of 32 kinds of calls, also failing ones, with keys free of quotes and arguments of their kind; the elements followed are groups, entries and histories')
claim('C20', 'proved', ['c20_nodecrypt_kdbx4', 'c20_nodecrypt_kdbx3', 'c20_no_credential_error', 'c20_no_payload', 'c20_header_properties'], 'for KDBX 3 and 4 (other major versions have no body, and asking for the payload raises AttributeError); the Argon2 and XML libraries raise only their own exceptions (libs_calm)')
claim('C34', 'partial', ['c34_create_opens_partial', 'c34_transformed_key_never', 'c34_create_refuted'], 'false of the code with a transformed_key, which is passed to save as the file name and raises TypeError; proved for password and key file')
claim('C35', 'partial', ['c35_saved_with_own_key_refuted', 'c35_explicit_key_partial'], 'false of the code: save() derives the key from the missing password again; proved for save(transformed_key=k)')
claim('C36', 'partial', ['c36_failed_read_partial', 'c36_failed_reload', 'c36_failed_read_refuted'], 'false of the code for read(): file name and credentials are replaced before reading, so that a following save() overwrites the other file; proved for reload(), and for contents and files')
claim('C69', 'proved', ['c69_password', 'c69_keyfile'], 'databases that record the date of change once, clock in UTC before the year 9999; the time is recorded to the second; refusal of other keys for KDBX 4, up to collisions of the keyed hash')
claim('C80', 'proved', ['c80_saved_opens', 'c80_same_credentials', 'c80_reload', 'c80_save_returns', 'c80_keyfile_refuted'], 'c80_keyfile_refuted shows that the condition on the key file is needed; sizes below the limits of the block formats (2^51 bytes) and, for opening, documents within the limits of the XML parser (C102)')
claim('C81', 'proved', ['c81_transformed_key_opens'], '')
claim('C82', 'partial', ['c82_after_save_partial', 'c82_after_save_refuted'], 'false of the code after a change of credentials: the attribute is not updated by save; proved while they are unchanged')
claim('C83', 'proved', ['c83_entries', 'c83_groups', 'c83_attachments', 'c83_entry_attachments'], 'attachments: documents as KeePass writes them (Key and Value together, one reference each), and dot-star matching every text; entry.attachments of history entries is excluded (see C64)')
claim('C84', 'proved', ['c84_filename', 'c84_filename_refused', 'c84_number'], 'documents as KeePass writes attachments')
claim('C85', 'proved', ['c85_add_group', 'c85_raise_changes_nothing'], 'read back for text XML can hold and a clock whose time can be written')
claim('C86', 'partial', ['c86_append_copies_refuted', 'c86_append_moves_partial'], 'false of the code: the entries are moved; proved: all are moved in order to the end of the group, nothing else changes')
claim('C87', 'proved', ['c87_history', 'c87_no_history', 'c87_marked', 'c87_history_entry', 'c87_never_listed'], 'entries with at most one History element')
claim('C88', 'partial', ['c88_entry_partial', 'c88_alike', 'c88_group_partial', 'c88_attachment', 'c88_changes_nothing', 'c88_always_prints_refuted'], 'false of the code that it never raises: a deleted entry or group cannot be printed; the text is proved for entries and groups in the document')
claim('C64', 'partial', ['c64_snapshot_attachments_partial', 'c64_attachments_empty', 'c64_attachments_refuted'], 'false of the code: HistoryEntry.attachments is always empty, because the search leaves out everything in histories; proved: the snapshot contains a copy of each attachment')
claim('C89', 'proved', ['c89_entries_by_field', 'c89_entries_by_none', 'c89_entries_by_uuid', 'c89_entries_by_string', 'c89_entries_by_path', 'c89_groups_by_field', 'c89_groups_by_uuid', 'c89_groups_by_path', 'c89_groups_by_no_path'], 'values and patterns without double quotes and control characters; paths without regular expressions')
claim('C90', 'proved', ['c90_ledger'], 'entries whose string keys are distinct and free of double quotes (see C43, C71 for the others)')
claim('C91', 'partial', ['c91_written', 'c91_reads_back_partial', 'c91_reads_back_refuted', 'c91_one_after_another', 'c91_replaces_partial', 'c91_replaces_refuted'], 'false of the code in two points: a KDBX 3 database saved over longer contents cannot be opened again (c91_reads_back_refuted); a database opened from a stream is not replaced by save, the new one is written behind it and reload raises (c91_replaces_refuted, c91_replaces_partial). Proved: the frame for all outcomes, reading back for KDBX 4 with anything following and for KDBX 3 with nothing following, sequences of KDBX 4 databases; key files that are not the stream itself')
claim('C92', 'proved', ['c92_reads_back', 'c92_in_the_clear', 'c92_dump', 'c92_dump_fails', 'c92_dump_not_atomic_refuted', 'c92_element', 'c92_element_pretty'], 'pretty printing and escaping of libxml2 modelled for UTF-8 output; c92_in_the_clear: texts without the characters that XML escapes; dump_xml of an element with pretty_print=False (the default); c92_dump_not_atomic_refuted is a witness that an older file is lost on a full device')
claim('C93', 'proved', ['c93_same_elements', 'c93_parts', 'c93_fields', 'c93_custom', 'c93_custom_properties', 'c93_common', 'c93_tags', 'c93_uuid', 'c93_times', 'c93_expires', 'c93_autotype', 'c93_place', 'c93_paths', 'c93_below', 'c93_find_entries', 'c93_find_groups', 'c93_find_attachments', 'c93_find_path', 'c93_listings', 'c93_attachments', 'c93_attachment', 'c93_binaries', 'c93_database', 'c93_empty_refuted'], 'the exception for empty strings is real (c93_empty_refuted); no white space in front of child elements (dropped by the parser when a file is read); UUIDs, times and flags that can be read before; custom keys without double quotes; attachments in the shape KeePass writes (att_shape); paths up to empty names')
claim('C94', 'proved', ['c94_locality', 'c94_untouched', 'c94_readings', 'c94_snapshots'], 'elements handed to calls are of the right kind (kinds); keys of custom properties are arbitrary, also with double quotes; the database settings setter is covered for whatever element its path finds')
claim('C95', 'partial', ['c95_header_properties_refuted', 'c95_kdbx4_partial', 'c95_kdbx3_partial'], 'false of the code: kdf_algorithm is None for KDBX 4.1 (and later minor versions) and for KDBX 3.0, where database_salt raises AttributeError. Proved for everything else: version and encryption_algorithm always, database_salt for all KDBX 4, both for 4.0 and 3.1')
claim('C96', 'partial', ['c96_cut_off_refuted', 'c96_kdbx4_partial', 'c96_kdbx3_partial'], 'false of the code: after a value that was cut off so that it is not base64 any more, the key stream position is wrong and all later values come out as other text without an error. Proved for values that still are base64 of the same number of bytes but no text, and for texts that are not base64 and were never sealed')
claim('C97', 'proved', ['c97_document_order', 'c97_first', 'c97_cast', 'c97_all_named', 'c97_all_below', 'c97_text_owner', 'c97_attribute_owner', 'c97_text_compared', 'c97_numbers_compared'], 'the part of XPath 1.0 that XPath.v models (paths, predicates, unions, comparisons, the functions pykeepass uses); queries with other functions or axes are errors in the model')
claim('C98', 'partial', ['c98_attachments_partial', 'c98_attached_data', 'c98_history_refuted'], 'false of the code for attachments of history entries: they stay when their binary is deleted and yield the data of another one. Proved for all others; attachments in the shape KeePass writes (regular)')
claim('C99', 'proved', ['c99_same_bytes', 'c99_compact', 'c99_settles', 'c99_round_trips', 'c99_first_save_refuted'], 'the exception for empty texts is real: after add_entry (empty auto-type sequences) the first two saves differ (c99_first_save_refuted)')
claim('C100', 'proved', ['c100_save_alone', 'c100_other_reload', 'c100_lost_update_refuted'], 'c100_lost_update_refuted is the witness for the last sentence (a merging or warning save is false of the code)')
claim('C101', 'proved', ['c101_premises', 'c101_round_trip'], 'compression writes stored blocks (any DEFLATE stream is read). Besides the theorems the sample databases and unit tests of the project are run on the model while building (Eval vm_compute in RealOpen.v and Conform*.v; the build fails if a result is not as expected): 13 files of test_open_save, 56 tests of tests.py on the document, 5 that save and reload; these runs are no theorems. Argon2 is run on small memory sizes; for samples with 64 MiB the transformed key was computed outside Coq')
claim('C102', 'partial', ['c102_too_deep', 'c102_any_depth', 'c102_refuted', 'c80_saved_opens', 'c80_save_returns'], 'false of the code: a document nested deeper than the XML parser allows (256 in lxml; the theorem holds for any limit) is saved without error and cannot be opened again. c80_saved_opens is the claim within the limits. That saving returns for the witness is under the size bound of c80_save_returns')
claim('C103', 'proved', ['c103_outline', 'c103_readings', 'c103_call', 'c103_history', 'c103_lists'], 'documents laid out as KeePass does (laid: groups in groups or Root, entries in groups or histories); kp.entries and kp.groups for documents with one root group (rooted)')
claim('C104', 'proved', ['c104_kept', 'c104_last', 'c104_version'], 'documents laid out as KeePass does; arguments of the right kind (typed), keys of custom properties without quotes, settings of the database named as in the API. c104_last is for values the property can hold (takes: one element of the tag, legal text, times as C03 to C05 allow); rejected values are in C45')
claim('C105', 'proved', ['c105_ledger', 'c105_reads'], 'documents laid out as KeePass does; entries as KeePass writes them (tidy: every String one Key and one Value, no key twice); keys without double quotes (C46 shows what happens with them); arguments of the right kind; the ledger is that of C90')
claim('C106', 'proved', ['c106_kept', 'c106_last', 'c106_due'], 'documents laid out as KeePass does; c106_last is for settings present once and values they can hold (legal text, times as C03 to C05 allow); assigning None to a text is in C77')
claim('C107', 'proved', ['c107_distinct', 'c107_newcomers', 'c107_entry_found', 'c107_group_found', 'c107_snapshot_refuted', 'c107_assigned_refuted'], 'documents laid out as KeePass does; the entries and groups of the tree without the snapshots in histories (these have the UUIDs of their entries). That uuid1() draws UUIDs that are not there is a condition on the clock, not proved; the two refuted theorems are the witnesses of the last sentence')
claim('C108', 'proved', ['c108_encoding', 'c108_decoding', 'c108_password', 'c108_passwords_apart', 'c108_texts', 'c108_surrogate_opens_nothing', 'c108_surrogate_saves_nothing'], 'the last two are without a transformed key of the caller')
claim('C109', 'proved', ['c109_leads_back', 'c109_shape'], 'elements whose tags, and those of the elements they are in, are words of ASCII letters, as all tags of KeePass are')
claim('C110', 'proved', ['c110_asking', 'c110_object', 'c110_sessions'], 'the 51 reading calls of ReadSpec.v, which are all of the API that the model has; that an XPath evaluation of lxml leaves the document alone is part of the model (Db.v)')
claim('C111', 'partial', ['c111_no_trace_partial', 'c111_saved_partial', 'c111_trash', 'c111_add_binary', 'c111_append_refuted', 'c111_binary_refuted'], 'proved for the calls of careful (FailSpec.v): adding entries, groups, attachments (add_binary in KDBX 4), moving, deleting, reindex, save_history and empty_group in the document, sending to a recycle bin that is there, delete_history, delete_custom_property, touch, times, expiry, auto-type, settings, attachment ids and names. False for Group.append with a list and for delete_binary (refuted), and for the assignments that remove the old element first (C45). c111_trash: entries and groups of documents with the usual skeleton while there is no bin, UUIDs of 16 bytes from uuid1(); c111_add_binary: add_binary in KDBX 3 in any document, if decompressing undoes compressing')
claim('C112', 'proved', ['c112_nothing_left', 'c112_saved', 'c112_binary_stays'], 'documents whose root is KeePassFile with groups, entries and histories where they belong (laid, an invariant by C71); the calls in between have arguments of the right kind, touch no element that was in the document before, and write neither binaries nor settings (trash writes one); c112_binary_stays shows that a binary stored meanwhile stays')
claim('C113', 'partial', ['c113_attachment', 'c113_snapshot', 'c113_first_snapshot', 'c113_custom', 'c113_move_partial', 'c113_move_refuted', 'c113_snapshot_refuted'], 'proved for attachments, for snapshots of an entry that has a history, for the first snapshot when the whole history is deleted, for new custom properties with keys without quotes, and for moving the last child of a group. False in general for moving (the element comes back as the last child of its group) and for deleting the only snapshot by itself (an empty History stays)')
claim('C114', 'partial', ['c114_again_partial', 'c114_setting', 'c114_attachment', 'c114_password_refuted', 'c114_tags_refuted'], 'settings of the database and attachments in full; properties of entries and groups proved for documents laid out as KeePass does (no key of a field twice, one element for each property), for keys without quotes. False for a password or TOTP that was not marked as protected and is assigned the empty string twice: the second assignment marks it; and with two elements of the same tag each assignment takes away one')
claim('C115', 'partial', ['c115_last_partial', 'c115_setting', 'c115_attachment', 'c115_password_refuted'], 'settings of the database and attachments in full; properties of entries and groups proved for documents laid out as KeePass does (no key of a field twice, one element for each property), for keys without quotes. False for a password or TOTP that was not marked as protected and is emptied first: the next assignment finds it marked, the direct one does not')
claim('C116', 'partial', ['c116_in_place', 'c116_apart_partial', 'c116_setting', 'c116_inside', 'c116_nested', 'c116_fields_refuted'], 'proved for any two assignments that write in place (times, expiry, auto-type, attachments, settings of the database) to different elements, and for all properties of two entries, groups or attachments of which neither is in the other, laid out as KeePass does, for a setting of the database and any such property, and for any such property and one written in place in the same entry or group or in something inside it, and for two not written in place of different entries or groups, be one inside the other. False for two string fields of one entry, which are stored in the order of the assignments.')
claim('C117', 'proved', ['c117_deletes', 'c117_delete_assign', 'c117_assign_delete', 'c117_property'], '')
