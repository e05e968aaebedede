{
 "claims": [
  {
   "property": "C01",
   "status": "proved",
   "theorems": [
    "c01_base64_lossless"
   ],
   "note": "all byte strings"
  },
  {
   "property": "C02",
   "status": "proved",
   "theorems": [
    "c02_uuid_roundtrip",
    "c02_uuid_text_injective",
    "c02_uuid_hex_roundtrip"
   ],
   "note": "all 16-byte UUIDs"
  },
  {
   "property": "C03",
   "status": "proved",
   "theorems": [
    "c03_kdbx4_time_exact",
    "c03_kdbx4_time_subsecond"
   ],
   "note": "all valid datetimes whose instant lies in years 1-9999 (sub-second: up to the last second of year 9999, where the rounded value overflows)"
  },
  {
   "property": "C04",
   "status": "partial",
   "theorems": [
    "c04_kdbx4_time_never_later_refuted",
    "c04_kdbx4_time_never_later_partial"
   ],
   "note": "false of the code: refuted by 2024-01-01T00:00:00.999999; holds below 999969 microseconds"
  },
  {
   "property": "C05",
   "status": "partial",
   "theorems": [
    "c05_kdbx3_time_instant_refuted",
    "c05_kdbx3_time_shift",
    "c05_kdbx3_time_instant_partial"
   ],
   "note": "false of the code for non-UTC datetimes (shifted by the offset); holds for UTC"
  },
  {
   "property": "C06",
   "status": "partial",
   "theorems": [
    "c06_kdbx4_iso_Z_refuted",
    "c06_kdbx4_iso_partial"
   ],
   "note": "false of the code: the Z spelling always raises struct.error; holds without designator"
  },
  {
   "property": "C07",
   "status": "proved",
   "theorems": [
    "c07_blocks4_lossless",
    "c07_blocks4_written",
    "c07_blocks4_layout"
   ],
   "note": "all payloads; layout against the published one"
  },
  {
   "property": "C08",
   "status": "proved",
   "theorems": [
    "c08_blocks3_lossless",
    "c08_blocks3_written",
    "c08_blocks3_layout"
   ],
   "note": "all payloads"
  },
  {
   "property": "C09",
   "status": "proved",
   "theorems": [
    "c09_save_open_kdbx4",
    "c09_content_stable"
   ],
   "note": "any edit, any credentials with the same derived key; crypto/gzip/XML libraries by the hypotheses lib_ok; size bound 2^83; documents within the limits of the XML parser (modest, see C102)"
  },
  {
   "property": "C10",
   "status": "proved",
   "theorems": [
    "c10_save_open_kdbx3"
   ],
   "note": "as C09; size bound 2^51; documents within the limits of the XML parser"
  },
  {
   "property": "C11",
   "status": "proved",
   "theorems": [
    "c11_accepted_is_authentic",
    "c11_tags_bind_content"
   ],
   "note": "collision alternative explicit"
  },
  {
   "property": "C12",
   "status": "proved",
   "theorems": [
    "c12_wrong_credentials"
   ],
   "note": "tag collision alternative explicit"
  },
  {
   "property": "C13",
   "status": "proved",
   "theorems": [
    "c13_truncated_kdbx4"
   ],
   "note": "every proper prefix, any credentials"
  },
  {
   "property": "C14",
   "status": "proved",
   "theorems": [
    "c14_truncated_kdbx3"
   ],
   "note": "every prefix"
  },
  {
   "property": "C15",
   "status": "proved",
   "theorems": [
    "c15_trailing_bytes"
   ],
   "note": ""
  },
  {
   "property": "C16",
   "status": "partial",
   "theorems": [
    "c16_kdbx3_over_longer_stream_refuted",
    "c16_kdbx3_aes_unreadable",
    "c16_kdbx3_over_longer_stream_partial"
   ],
   "note": "false of the code for AES when the old bytes are not a multiple of 16"
  },
  {
   "property": "C17",
   "status": "proved",
   "theorems": [
    "c17_bad_signature",
    "c17_bad_header_hash",
    "c17_bad_header_mac",
    "c17_bad_block4",
    "c17_bad_start3",
    "c17_bad_block3"
   ],
   "note": ""
  },
  {
   "property": "C18",
   "status": "proved",
   "theorems": [
    "c18_header_preserved"
   ],
   "note": "also for saves that raise"
  },
  {
   "property": "C19",
   "status": "partial",
   "theorems": [
    "c19_fresh_randomness_refuted",
    "c19_chacha20_two_time_pad"
   ],
   "note": "false of the code: seed and IV are those of the opened file; consequence for ChaCha20 proved"
  },
  {
   "property": "C20",
   "status": "proved",
   "theorems": [
    "c20_nodecrypt_kdbx4",
    "c20_nodecrypt_kdbx3",
    "c20_no_credential_error",
    "c20_no_payload",
    "c20_header_properties"
   ],
   "note": "for KDBX 3 and 4 (other major versions have no body, and asking for the payload raises AttributeError); the Argon2 and XML libraries raise only their own exceptions (libs_calm)"
  },
  {
   "property": "C21",
   "status": "proved",
   "theorems": [
    "c21_pkcs7_lossless",
    "c21_pkcs7_shape",
    "c21_pkcs7_validated"
   ],
   "note": "unpad accepts exactly the padded texts"
  },
  {
   "property": "C22",
   "status": "proved",
   "theorems": [
    "c22_cbc_decrypt_inverts",
    "c22_cbc_chunking",
    "c22_cbc_is_standard",
    "c22_cbc_bad_sizes"
   ],
   "note": "all keys of 16/24/32 bytes, all IVs, all data, any chunking"
  },
  {
   "property": "C23",
   "status": "proved",
   "theorems": [
    "c23_twofish_encrypt",
    "c23_twofish_decrypt"
   ],
   "note": "pytwofish.py against the published Twofish definition (TwofishSpec.v)"
  },
  {
   "property": "C24",
   "status": "proved",
   "theorems": [
    "c24_raw_key",
    "c24_hex_key",
    "c24_hashed_file",
    "c24_xml_version_1",
    "c24_xml_version_2",
    "c24_other_xml"
   ],
   "note": "all key file contents"
  },
  {
   "property": "C25",
   "status": "partial",
   "theorems": [
    "c25_every_file_accepted_refuted",
    "c25_every_file_accepted_partial"
   ],
   "note": "false of the code: some 64-byte files raise; the partial theorem says which"
  },
  {
   "property": "C26",
   "status": "proved",
   "theorems": [
    "c26_none_is_not_empty",
    "c26_distinct_passwords",
    "c26_composite"
   ],
   "note": "hash collision alternative explicit"
  },
  {
   "property": "C27",
   "status": "partial",
   "theorems": [
    "c27_keyfile_stream_refuted",
    "c27_keyfile_stream_partial"
   ],
   "note": "false of the code for streams that cannot seek or are not at their start"
  },
  {
   "property": "C28",
   "status": "proved",
   "theorems": [
    "c28_protected_values_survive",
    "c28_protect_unprotect",
    "c09_save_open_kdbx4",
    "c10_save_open_kdbx3"
   ],
   "note": "documents within the limits of the XML parser (C102)"
  },
  {
   "property": "C29",
   "status": "proved",
   "theorems": [
    "c29_save_keeps_memory"
   ],
   "note": "successful and failing saves"
  },
  {
   "property": "C30",
   "status": "proved",
   "theorems": [
    "c30_sealed_in_file_kdbx4",
    "c30_sealed_in_file_kdbx3"
   ],
   "note": ""
  },
  {
   "property": "C31",
   "status": "partial",
   "theorems": [
    "c31_crash_keeps_database_refuted",
    "c31_crash_keeps_database_partial",
    "c31_save_completes"
   ],
   "note": "false of the code for targets named x.tmp and where rename fails; proved otherwise for every crash point"
  },
  {
   "property": "C32",
   "status": "partial",
   "theorems": [
    "c32_failing_save_refuted",
    "c32_failing_save_partial",
    "c32_build_errors_raise"
   ],
   "note": "false of the code for targets named x.tmp"
  },
  {
   "property": "C33",
   "status": "partial",
   "theorems": [
    "c33_other_files_untouched",
    "c33_sibling_not_a_user_file_refuted"
   ],
   "note": "an existing sibling x.tmp is destroyed; no other file is touched"
  },
  {
   "property": "C34",
   "status": "partial",
   "theorems": [
    "c34_create_opens_partial",
    "c34_transformed_key_never",
    "c34_create_refuted"
   ],
   "note": "false of the code with a transformed_key, which is passed to save as the file name and raises TypeError; proved for password and key file"
  },
  {
   "property": "C35",
   "status": "partial",
   "theorems": [
    "c35_saved_with_own_key_refuted",
    "c35_explicit_key_partial"
   ],
   "note": "false of the code: save() derives the key from the missing password again; proved for save(transformed_key=k)"
  },
  {
   "property": "C36",
   "status": "partial",
   "theorems": [
    "c36_failed_read_partial",
    "c36_failed_reload",
    "c36_failed_read_refuted"
   ],
   "note": "false of the code for read(): file name and credentials are replaced before reading, so that a following save() overwrites the other file; proved for reload(), and for contents and files"
  },
  {
   "property": "C37",
   "status": "proved",
   "theorems": [
    "c37_find_entries_exact",
    "c37_first",
    "c37_none_ignored",
    "c37_none_uuid_raises",
    "c37_none_tags_raises"
   ],
   "note": "also for regex searches, relative to the regular expression library"
  },
  {
   "property": "C38",
   "status": "partial",
   "theorems": [
    "c38_search_value_is_data_refuted",
    "c38_search_value_is_data_partial"
   ],
   "note": "false of the code for values containing a double quote (XPath injection); proved for all others"
  },
  {
   "property": "C39",
   "status": "proved",
   "theorems": [
    "c39_history_only_on_request"
   ],
   "note": ""
  },
  {
   "property": "C40",
   "status": "proved",
   "theorems": [
    "c40_find_groups_exact"
   ],
   "note": ""
  },
  {
   "property": "C41",
   "status": "proved",
   "theorems": [
    "c41_entry_by_path",
    "c41_group_by_path",
    "c41_entry_by_pattern",
    "c41_group_by_pattern",
    "c41_path_leads_back",
    "c41_same_path",
    "c41_group_path_leads_back"
   ],
   "note": "names without double quotes and control characters; each group stores its name once (one_name) and entry fields are stored once (tidy), as KeePass writes them"
  },
  {
   "property": "C42",
   "status": "partial",
   "theorems": [
    "c42_tag_search_exact_refuted",
    "c42_tag_search_partial"
   ],
   "note": "false of the code: substrings of tags match; completeness and the exact substring meaning are proved"
  },
  {
   "property": "C43",
   "status": "partial",
   "theorems": [
    "c43_property_assignment_partial",
    "c43_custom_property_assignment_partial",
    "c43_duplicate_keys_refuted"
   ],
   "note": "proved for entries whose string keys are distinct (and each String has one Key and one Value); with duplicate keys false of the code"
  },
  {
   "property": "C44",
   "status": "proved",
   "theorems": [
    "c44_flag_kept",
    "c44_new_secret_protected",
    "c44_custom_flag"
   ],
   "note": "entries with distinct keys"
  },
  {
   "property": "C45",
   "status": "partial",
   "theorems": [
    "c45_rejected_assignment_refuted",
    "c45_rejected_assignment_partial",
    "c45_rejected_new_field_partial"
   ],
   "note": "false of the code: the old value is lost; at most that one field is lost"
  },
  {
   "property": "C46",
   "status": "proved",
   "theorems": [
    "c46_custom_properties",
    "c46_set",
    "c46_get",
    "c46_delete",
    "c46_delete_missing",
    "c46_reserved"
   ],
   "note": "entries with distinct keys, keys without double quotes"
  },
  {
   "property": "C47",
   "status": "proved",
   "theorems": [
    "c47_tags"
   ],
   "note": ""
  },
  {
   "property": "C48",
   "status": "proved",
   "theorems": [
    "c48_icon",
    "c48_name",
    "c48_group_notes",
    "c48_uuid",
    "c48_time",
    "c48_time_kdbx4",
    "c48_time_kdbx3",
    "c48_expires"
   ],
   "note": "the time element must exist; times up to what the text form can hold (C03 to C05)"
  },
  {
   "property": "C49",
   "status": "proved",
   "theorems": [
    "c49_touch",
    "c49_touch_modify"
   ],
   "note": ""
  },
  {
   "property": "C50",
   "status": "proved",
   "theorems": [
    "c50_not_expiring",
    "c50_expiring",
    "c50_set_and_read"
   ],
   "note": ""
  },
  {
   "property": "C51",
   "status": "partial",
   "theorems": [
    "c51_raise_changes_nothing",
    "c51_one_entry_appended",
    "c51_given_fields_partial",
    "c51_duplicate_raises_partial",
    "c51_quotes_refuted"
   ],
   "note": "raise-or-append holds for all arguments; the duplicate rule holds for titles and usernames without double quotes and is false with them (the title becomes part of the search expression)"
  },
  {
   "property": "C52",
   "status": "partial",
   "theorems": [
    "c52_none_refuted"
   ],
   "note": "false of the code: every combination with a None raises TypeError"
  },
  {
   "property": "C53",
   "status": "proved",
   "theorems": [
    "c53_delete"
   ],
   "note": ""
  },
  {
   "property": "C54",
   "status": "proved",
   "theorems": [
    "c54_move",
    "c54_into_itself_refused"
   ],
   "note": ""
  },
  {
   "property": "C55",
   "status": "partial",
   "theorems": [
    "c55_root_refused",
    "c55_bin_refused",
    "c55_moved_to_bin_partial",
    "c55_around_bin_refused",
    "c55_bin_created_partial",
    "c55_one_after_another_partial",
    "c55_one_bin_for_all_partial",
    "c55_collision_refuted",
    "c55_around_bin_refuted"
   ],
   "note": "false of the code in two points: an element whose UUID collides with that of the root group (comparisons go through a hash, C68) is refused, and a group containing the bin is refused with ValueError. Proved otherwise for each situation and for any sequence of calls, with or without a bin at the start, in documents with one root group and one RecycleBinUUID element"
  },
  {
   "property": "C56",
   "status": "proved",
   "theorems": [
    "c56_empty_group"
   ],
   "note": ""
  },
  {
   "property": "C57",
   "status": "proved",
   "theorems": [
    "c57_reindex"
   ],
   "note": ""
  },
  {
   "property": "C58",
   "status": "partial",
   "theorems": [
    "c58_index_contiguous_partial",
    "c58_index_distance",
    "c58_index_refuted"
   ],
   "note": "false of the code when a subgroup stands between entries; exact meaning of index proved"
  },
  {
   "property": "C59",
   "status": "proved",
   "theorems": [
    "c59_save_history",
    "c59_edits_keep_snapshots"
   ],
   "note": "entries with at most one History element"
  },
  {
   "property": "C60",
   "status": "proved",
   "theorems": [
    "c60_delete_one",
    "c60_delete_all",
    "c60_raise_changes_nothing"
   ],
   "note": ""
  },
  {
   "property": "C61",
   "status": "proved",
   "theorems": [
    "c61_add_binary",
    "c61_binaries",
    "c61_histories",
    "c61_attachment_data",
    "c61_attach"
   ],
   "note": "KDBX4, and KDBX3 databases whose k-th binary has an ID not less than k; compression that can be undone (zlib_ok)"
  },
  {
   "property": "C62",
   "status": "partial",
   "theorems": [
    "c62_delete_binary_partial",
    "c62_delete_binary_exact",
    "c62_no_such_binary",
    "c62_history_refuted",
    "c62_negative_refuted"
   ],
   "note": "false of the code for attachments of history entries that referred to the deleted binary, and for negative ids; proved for live attachments and for every attachment (history included) of another binary"
  },
  {
   "property": "C63",
   "status": "partial",
   "theorems": [
    "c63_ids_without_deletes_partial",
    "c63_after_delete_refuted"
   ],
   "note": "false of the code after a deletion; holds as long as nothing is deleted"
  },
  {
   "property": "C64",
   "status": "partial",
   "theorems": [
    "c64_snapshot_attachments_partial",
    "c64_attachments_empty",
    "c64_attachments_refuted"
   ],
   "note": "false of the code: HistoryEntry.attachments is always empty, because the search leaves out everything in histories; proved: the snapshot contains a copy of each attachment"
  },
  {
   "property": "C65",
   "status": "partial",
   "theorems": [
    "c65_roundtrip",
    "c65_text_around_kept_partial",
    "c65_text_around_refuted",
    "c65_dangling",
    "c65_no_references",
    "c65_missing_field_raises"
   ],
   "note": "the round trip, dangling references and values without references are proved in full; text around references is kept when no {REF: (or a beginning of it cut off by a reference or the end of a text) stands outside references, and is not kept in general (replaced text can complete half a reference)"
  },
  {
   "property": "C66",
   "status": "partial",
   "theorems": [
    "c66_self_reference_refuted",
    "c66_every_self_reference",
    "c66_terminates_partial",
    "c66_circular",
    "c66_ends_or_circular",
    "c66_nothing_left",
    "c66_only_reads",
    "c66_limit"
   ],
   "note": "false of the code for circular references. In texts without {REF: (or a cut-off beginning of it) outside references: not circular implies a result (within k + 2 calls for k references), circular implies that no recursion limit suffices. For every text: a result has no references left, nothing is changed, more recursion changes no result"
  },
  {
   "property": "C67",
   "status": "partial",
   "theorems": [
    "c67_uuid_reference_refuted",
    "c67_every_uuid_reference"
   ],
   "note": "false of the code: every reference to a UUID raises TypeError"
  },
  {
   "property": "C68",
   "status": "partial",
   "theorems": [
    "c68_equality_is_uuid_equality_refuted",
    "c68_equal_uuids_equal",
    "c68_equality_is_uuid_equality_partial",
    "c68_history_equality",
    "c68_history_reflexive"
   ],
   "note": "false of the code: equality is hash equality, collides modulo 2^61-1"
  },
  {
   "property": "C69",
   "status": "proved",
   "theorems": [
    "c69_password",
    "c69_keyfile"
   ],
   "note": "databases that record the date of change once, clock in UTC before the year 9999; the time is recorded to the second; refusal of other keys for KDBX 4, up to collisions of the keyed hash"
  },
  {
   "property": "C70",
   "status": "proved",
   "theorems": [
    "c70_due",
    "c70_no_date",
    "c70_assigned",
    "c70_no_days"
   ],
   "note": "databases that store each setting once; when no number of days is stored the code raises TypeError (c70_no_days)"
  },
  {
   "property": "C71",
   "status": "partial",
   "theorems": [
    "c71_nothing_lost_refuted",
    "c71_well_formed_partial",
    "c71_nothing_lost_partial",
    "c71_stays_partial",
    "c71_nothing_returns_partial",
    "c71_nothing_appears_partial",
    "c71_root_group_partial"
   ],
   "note": "false of the code for custom property keys containing a double quote (an XPath injection that drops the history); proved for every history of 32 kinds of calls, also failing ones, with keys free of quotes and arguments of their kind; the elements followed are groups, entries and histories"
  },
  {
   "property": "C72",
   "status": "proved",
   "theorems": [
    "c72_xml_lossless"
   ],
   "note": "the XML codec of Xml.v (model of lxml)"
  },
  {
   "property": "C73",
   "status": "proved",
   "theorems": [
    "c73_parent",
    "c73_parent_unique",
    "c73_entries",
    "c73_subgroups"
   ],
   "note": "for documents laid out as KeePass writes them (neat: entries and groups stand directly in groups)"
  },
  {
   "property": "C74",
   "status": "proved",
   "theorems": [
    "c74_enabled",
    "c74_sequence",
    "c74_window"
   ],
   "note": "entries having the auto-type elements"
  },
  {
   "property": "C75",
   "status": "partial",
   "theorems": [
    "c75_unsupported_version_rejected_refuted",
    "c75_unsupported_version_data_loss"
   ],
   "note": "false of the code"
  },
  {
   "property": "C76",
   "status": "partial",
   "theorems": [
    "c76_find_attachments_exact_partial",
    "c76_unrestricted_search_refuted"
   ],
   "note": "an unrestricted search raises on KDBX3 documents with binaries; searches whose results are all in entries are exact"
  },
  {
   "property": "C77",
   "status": "partial",
   "theorems": [
    "c77_days",
    "c77_date",
    "c77_date_kdbx3",
    "c77_text",
    "c77_none_refuted"
   ],
   "note": "databases that store the setting once; dates of whole seconds (KDBX4) or in UTC (KDBX3); text the XML library accepts. None is read back as the text None (c77_none_refuted)"
  },
  {
   "property": "C78",
   "status": "proved",
   "theorems": [
    "c78_reads_kdbx4",
    "c78_reads_kdbx3",
    "c78_header_values"
   ],
   "note": "header settings of every type (signed and unsigned numbers, booleans, text, bytes) are read with the values vd_means gives them; against the independent description of the format in FormatSpec.v; header fields each once, KDBX3 protected stream Salsa20/ChaCha20/none; cryptographic functions, gzip and XML as in lib_ok"
  },
  {
   "property": "C79",
   "status": "proved",
   "theorems": [
    "c79_writes_kdbx4",
    "c79_writes_kdbx3"
   ],
   "note": "view_for: what the XML library gives back for the document (empty texts absent); documents within the limits of the XML parser (C102)"
  },
  {
   "property": "C80",
   "status": "proved",
   "theorems": [
    "c80_saved_opens",
    "c80_same_credentials",
    "c80_reload",
    "c80_save_returns",
    "c80_keyfile_refuted"
   ],
   "note": "c80_keyfile_refuted shows that the condition on the key file is needed; sizes below the limits of the block formats (2^51 bytes) and, for opening, documents within the limits of the XML parser (C102)"
  },
  {
   "property": "C81",
   "status": "proved",
   "theorems": [
    "c81_transformed_key_opens"
   ],
   "note": ""
  },
  {
   "property": "C82",
   "status": "partial",
   "theorems": [
    "c82_after_save_partial",
    "c82_after_save_refuted"
   ],
   "note": "false of the code after a change of credentials: the attribute is not updated by save; proved while they are unchanged"
  },
  {
   "property": "C83",
   "status": "proved",
   "theorems": [
    "c83_entries",
    "c83_groups",
    "c83_attachments",
    "c83_entry_attachments"
   ],
   "note": "attachments: documents as KeePass writes them (Key and Value together, one reference each), and dot-star matching every text; entry.attachments of history entries is excluded (see C64)"
  },
  {
   "property": "C84",
   "status": "proved",
   "theorems": [
    "c84_filename",
    "c84_filename_refused",
    "c84_number"
   ],
   "note": "documents as KeePass writes attachments"
  },
  {
   "property": "C85",
   "status": "proved",
   "theorems": [
    "c85_add_group",
    "c85_raise_changes_nothing"
   ],
   "note": "read back for text XML can hold and a clock whose time can be written"
  },
  {
   "property": "C86",
   "status": "partial",
   "theorems": [
    "c86_append_copies_refuted",
    "c86_append_moves_partial"
   ],
   "note": "false of the code: the entries are moved; proved: all are moved in order to the end of the group, nothing else changes"
  },
  {
   "property": "C87",
   "status": "proved",
   "theorems": [
    "c87_history",
    "c87_no_history",
    "c87_marked",
    "c87_history_entry",
    "c87_never_listed"
   ],
   "note": "entries with at most one History element"
  },
  {
   "property": "C88",
   "status": "partial",
   "theorems": [
    "c88_entry_partial",
    "c88_alike",
    "c88_group_partial",
    "c88_attachment",
    "c88_changes_nothing",
    "c88_always_prints_refuted"
   ],
   "note": "false of the code that it never raises: a deleted entry or group cannot be printed; the text is proved for entries and groups in the document"
  },
  {
   "property": "C89",
   "status": "proved",
   "theorems": [
    "c89_entries_by_field",
    "c89_entries_by_none",
    "c89_entries_by_uuid",
    "c89_entries_by_string",
    "c89_entries_by_path",
    "c89_groups_by_field",
    "c89_groups_by_uuid",
    "c89_groups_by_path",
    "c89_groups_by_no_path"
   ],
   "note": "values and patterns without double quotes and control characters; paths without regular expressions"
  },
  {
   "property": "C90",
   "status": "proved",
   "theorems": [
    "c90_ledger"
   ],
   "note": "entries whose string keys are distinct and free of double quotes (see C43, C71 for the others)"
  },
  {
   "property": "C91",
   "status": "partial",
   "theorems": [
    "c91_written",
    "c91_reads_back_partial",
    "c91_reads_back_refuted",
    "c91_one_after_another",
    "c91_replaces_partial",
    "c91_replaces_refuted"
   ],
   "note": "false of the code in two points: a KDBX 3 database saved over longer contents cannot be opened again (c91_reads_back_refuted); a database opened from a stream is not replaced by save, the new one is written behind it and reload raises (c91_replaces_refuted, c91_replaces_partial). Proved: the frame for all outcomes, reading back for KDBX 4 with anything following and for KDBX 3 with nothing following, sequences of KDBX 4 databases; key files that are not the stream itself"
  },
  {
   "property": "C92",
   "status": "proved",
   "theorems": [
    "c92_reads_back",
    "c92_in_the_clear",
    "c92_dump",
    "c92_dump_fails",
    "c92_dump_not_atomic_refuted",
    "c92_element",
    "c92_element_pretty"
   ],
   "note": "pretty printing and escaping of libxml2 modelled for UTF-8 output; c92_in_the_clear: texts without the characters that XML escapes; dump_xml of an element with pretty_print=False (the default); c92_dump_not_atomic_refuted is a witness that an older file is lost on a full device"
  },
  {
   "property": "C93",
   "status": "proved",
   "theorems": [
    "c93_same_elements",
    "c93_parts",
    "c93_fields",
    "c93_custom",
    "c93_custom_properties",
    "c93_common",
    "c93_tags",
    "c93_uuid",
    "c93_times",
    "c93_expires",
    "c93_autotype",
    "c93_place",
    "c93_paths",
    "c93_below",
    "c93_find_entries",
    "c93_find_groups",
    "c93_find_attachments",
    "c93_find_path",
    "c93_listings",
    "c93_attachments",
    "c93_attachment",
    "c93_binaries",
    "c93_database",
    "c93_empty_refuted"
   ],
   "note": "the exception for empty strings is real (c93_empty_refuted); no white space in front of child elements (dropped by the parser when a file is read); UUIDs, times and flags that can be read before; custom keys without double quotes; attachments in the shape KeePass writes (att_shape); paths up to empty names"
  },
  {
   "property": "C94",
   "status": "proved",
   "theorems": [
    "c94_locality",
    "c94_untouched",
    "c94_readings",
    "c94_snapshots"
   ],
   "note": "elements handed to calls are of the right kind (kinds); keys of custom properties are arbitrary, also with double quotes; the database settings setter is covered for whatever element its path finds"
  },
  {
   "property": "C95",
   "status": "partial",
   "theorems": [
    "c95_header_properties_refuted",
    "c95_kdbx4_partial",
    "c95_kdbx3_partial"
   ],
   "note": "false of the code: kdf_algorithm is None for KDBX 4.1 (and later minor versions) and for KDBX 3.0, where database_salt raises AttributeError. Proved for everything else: version and encryption_algorithm always, database_salt for all KDBX 4, both for 4.0 and 3.1"
  },
  {
   "property": "C96",
   "status": "partial",
   "theorems": [
    "c96_cut_off_refuted",
    "c96_kdbx4_partial",
    "c96_kdbx3_partial"
   ],
   "note": "false of the code: after a value that was cut off so that it is not base64 any more, the key stream position is wrong and all later values come out as other text without an error. Proved for values that still are base64 of the same number of bytes but no text, and for texts that are not base64 and were never sealed"
  },
  {
   "property": "C97",
   "status": "proved",
   "theorems": [
    "c97_document_order",
    "c97_first",
    "c97_cast",
    "c97_all_named",
    "c97_all_below",
    "c97_text_owner",
    "c97_attribute_owner",
    "c97_text_compared",
    "c97_numbers_compared"
   ],
   "note": "the part of XPath 1.0 that XPath.v models (paths, predicates, unions, comparisons, the functions pykeepass uses); queries with other functions or axes are errors in the model"
  },
  {
   "property": "C98",
   "status": "partial",
   "theorems": [
    "c98_attachments_partial",
    "c98_attached_data",
    "c98_history_refuted"
   ],
   "note": "false of the code for attachments of history entries: they stay when their binary is deleted and yield the data of another one. Proved for all others; attachments in the shape KeePass writes (regular)"
  },
  {
   "property": "C99",
   "status": "proved",
   "theorems": [
    "c99_same_bytes",
    "c99_compact",
    "c99_settles",
    "c99_round_trips",
    "c99_first_save_refuted"
   ],
   "note": "the exception for empty texts is real: after add_entry (empty auto-type sequences) the first two saves differ (c99_first_save_refuted)"
  },
  {
   "property": "C100",
   "status": "proved",
   "theorems": [
    "c100_save_alone",
    "c100_other_reload",
    "c100_lost_update_refuted"
   ],
   "note": "c100_lost_update_refuted is the witness for the last sentence (a merging or warning save is false of the code)"
  },
  {
   "property": "C101",
   "status": "proved",
   "theorems": [
    "c101_premises",
    "c101_round_trip"
   ],
   "note": "compression writes stored blocks (any DEFLATE stream is read). Besides the theorems the sample databases and unit tests of the project are run on the model while building (Eval vm_compute in RealOpen.v and Conform*.v; the build fails if a result is not as expected): 13 files of test_open_save, 56 tests of tests.py on the document, 5 that save and reload; these runs are no theorems. Argon2 is run on small memory sizes; for samples with 64 MiB the transformed key was computed outside Coq"
  },
  {
   "property": "C102",
   "status": "partial",
   "theorems": [
    "c102_too_deep",
    "c102_any_depth",
    "c102_refuted",
    "c80_saved_opens",
    "c80_save_returns"
   ],
   "note": "false of the code: a document nested deeper than the XML parser allows (256 in lxml; the theorem holds for any limit) is saved without error and cannot be opened again. c80_saved_opens is the claim within the limits. That saving returns for the witness is under the size bound of c80_save_returns"
  },
  {
   "property": "C103",
   "status": "proved",
   "theorems": [
    "c103_outline",
    "c103_readings",
    "c103_call",
    "c103_history",
    "c103_lists"
   ],
   "note": "documents laid out as KeePass does (laid: groups in groups or Root, entries in groups or histories); kp.entries and kp.groups for documents with one root group (rooted)"
  },
  {
   "property": "C104",
   "status": "proved",
   "theorems": [
    "c104_kept",
    "c104_last",
    "c104_version"
   ],
   "note": "documents laid out as KeePass does; arguments of the right kind (typed), keys of custom properties without quotes, settings of the database named as in the API. c104_last is for values the property can hold (takes: one element of the tag, legal text, times as C03 to C05 allow); rejected values are in C45"
  },
  {
   "property": "C105",
   "status": "proved",
   "theorems": [
    "c105_ledger",
    "c105_reads"
   ],
   "note": "documents laid out as KeePass does; entries as KeePass writes them (tidy: every String one Key and one Value, no key twice); keys without double quotes (C46 shows what happens with them); arguments of the right kind; the ledger is that of C90"
  },
  {
   "property": "C106",
   "status": "proved",
   "theorems": [
    "c106_kept",
    "c106_last",
    "c106_due"
   ],
   "note": "documents laid out as KeePass does; c106_last is for settings present once and values they can hold (legal text, times as C03 to C05 allow); assigning None to a text is in C77"
  },
  {
   "property": "C107",
   "status": "proved",
   "theorems": [
    "c107_distinct",
    "c107_newcomers",
    "c107_entry_found",
    "c107_group_found",
    "c107_snapshot_refuted",
    "c107_assigned_refuted"
   ],
   "note": "documents laid out as KeePass does; the entries and groups of the tree without the snapshots in histories (these have the UUIDs of their entries). That uuid1() draws UUIDs that are not there is a condition on the clock, not proved; the two refuted theorems are the witnesses of the last sentence"
  },
  {
   "property": "C108",
   "status": "proved",
   "theorems": [
    "c108_encoding",
    "c108_decoding",
    "c108_password",
    "c108_passwords_apart",
    "c108_texts",
    "c108_surrogate_opens_nothing",
    "c108_surrogate_saves_nothing"
   ],
   "note": "the last two are without a transformed key of the caller"
  },
  {
   "property": "C109",
   "status": "proved",
   "theorems": [
    "c109_leads_back",
    "c109_shape"
   ],
   "note": "elements whose tags, and those of the elements they are in, are words of ASCII letters, as all tags of KeePass are"
  },
  {
   "property": "C110",
   "status": "proved",
   "theorems": [
    "c110_asking",
    "c110_object",
    "c110_sessions"
   ],
   "note": "the 51 reading calls of ReadSpec.v, which are all of the API that the model has; that an XPath evaluation of lxml leaves the document alone is part of the model (Db.v)"
  },
  {
   "property": "C111",
   "status": "partial",
   "theorems": [
    "c111_no_trace_partial",
    "c111_saved_partial",
    "c111_trash",
    "c111_add_binary",
    "c111_append_refuted",
    "c111_binary_refuted"
   ],
   "note": "proved for the calls of careful (FailSpec.v): adding entries, groups, attachments (add_binary in KDBX 4), moving, deleting, reindex, save_history and empty_group in the document, sending to a recycle bin that is there, delete_history, delete_custom_property, touch, times, expiry, auto-type, settings, attachment ids and names. False for Group.append with a list and for delete_binary (refuted), and for the assignments that remove the old element first (C45). c111_trash: entries and groups of documents with the usual skeleton while there is no bin, UUIDs of 16 bytes from uuid1(); c111_add_binary: add_binary in KDBX 3 in any document, if decompressing undoes compressing"
  },
  {
   "property": "C112",
   "status": "proved",
   "theorems": [
    "c112_nothing_left",
    "c112_saved",
    "c112_binary_stays"
   ],
   "note": "documents whose root is KeePassFile with groups, entries and histories where they belong (laid, an invariant by C71); the calls in between have arguments of the right kind, touch no element that was in the document before, and write neither binaries nor settings (trash writes one); c112_binary_stays shows that a binary stored meanwhile stays"
  },
  {
   "property": "C113",
   "status": "partial",
   "theorems": [
    "c113_attachment",
    "c113_snapshot",
    "c113_first_snapshot",
    "c113_custom",
    "c113_move_partial",
    "c113_move_refuted",
    "c113_snapshot_refuted"
   ],
   "note": "proved for attachments, for snapshots of an entry that has a history, for the first snapshot when the whole history is deleted, for new custom properties with keys without quotes, and for moving the last child of a group. False in general for moving (the element comes back as the last child of its group) and for deleting the only snapshot by itself (an empty History stays)"
  },
  {
   "property": "C114",
   "status": "partial",
   "theorems": [
    "c114_again_partial",
    "c114_setting",
    "c114_attachment",
    "c114_password_refuted",
    "c114_tags_refuted"
   ],
   "note": "settings of the database and attachments in full; properties of entries and groups proved for documents laid out as KeePass does (no key of a field twice, one element for each property), for keys without quotes. False for a password or TOTP that was not marked as protected and is assigned the empty string twice: the second assignment marks it; and with two elements of the same tag each assignment takes away one"
  },
  {
   "property": "C115",
   "status": "partial",
   "theorems": [
    "c115_last_partial",
    "c115_setting",
    "c115_attachment",
    "c115_password_refuted"
   ],
   "note": "settings of the database and attachments in full; properties of entries and groups proved for documents laid out as KeePass does (no key of a field twice, one element for each property), for keys without quotes. False for a password or TOTP that was not marked as protected and is emptied first: the next assignment finds it marked, the direct one does not"
  },
  {
   "property": "C116",
   "status": "partial",
   "theorems": [
    "c116_in_place",
    "c116_apart_partial",
    "c116_setting",
    "c116_inside",
    "c116_nested",
    "c116_fields_refuted"
   ],
   "note": "proved for any two assignments that write in place (times, expiry, auto-type, attachments, settings of the database) to different elements, and for all properties of two entries, groups or attachments of which neither is in the other, laid out as KeePass does, for a setting of the database and any such property, and for any such property and one written in place in the same entry or group or in something inside it, and for two not written in place of different entries or groups, be one inside the other. False for two string fields of one entry, which are stored in the order of the assignments."
  },
  {
   "property": "C117",
   "status": "proved",
   "theorems": [
    "c117_deletes",
    "c117_delete_assign",
    "c117_assign_delete",
    "c117_property"
   ],
   "note": ""
  }
 ]
}