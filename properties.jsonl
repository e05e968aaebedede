{"id": "C01", "title": "Base64 text fields are lossless", "statement": "Every byte string written into the database as base64 text (UUIDs, KDBX4 timestamps, KDBX3 binaries, protected values) is read back as exactly the same byte string.", "quantifier": "all byte strings of any length", "why_tests_cant": "the space of byte strings is infinite; tests sample a few lengths", "anchors": ["pykeepass/pykeepass.py:_encode_time", "pykeepass/pykeepass.py:add_binary", "pykeepass/baseelement.py:uuid", "pykeepass/kdbx_parsing/common.py:UnprotectedStream"]}
{"id": "C02", "title": "UUIDs survive storage and search conversion", "statement": "For every UUID, setting it on an entry or group and reading it back gives the same UUID, and the text stored is the one find_*(uuid=...) searches for, so two different UUIDs never share a stored text.", "quantifier": "all 128-bit UUIDs", "why_tests_cant": "2^128 values", "anchors": ["pykeepass/baseelement.py:uuid", "pykeepass/pykeepass.py:_find"]}
{"id": "C03", "title": "KDBX4 timestamps keep their second", "statement": "In a KDBX4 database any timezone-aware datetime with whole seconds that is assigned to a time property is read back as the same instant in UTC; with microseconds the stored instant differs from the given one by less than one second.", "quantifier": "all representable datetimes and UTC offsets", "why_tests_cant": "years 1..9999 at microsecond resolution in every offset", "anchors": ["pykeepass/pykeepass.py:_encode_time", "pykeepass/pykeepass.py:_decode_time"]}
{"id": "C04", "title": "KDBX4 timestamps never round up", "statement": "In a KDBX4 database the stored time of a datetime is never later than the datetime that was assigned (sub-second parts are dropped, not rounded up).", "quantifier": "all datetimes with microseconds", "why_tests_cant": "only 3 microsecond values in a million misbehave, random tests miss them", "anchors": ["pykeepass/pykeepass.py:_encode_time"]}
{"id": "C05", "title": "KDBX3 timestamps denote the instant that was assigned", "statement": "In a KDBX3 database a timezone-aware datetime assigned to a time property is read back as the same instant.", "quantifier": "all datetimes and UTC offsets", "why_tests_cant": "tests only use UTC datetimes with the setter", "anchors": ["pykeepass/pykeepass.py:_encode_time", "pykeepass/pykeepass.py:_decode_time", "pykeepass/baseelement.py:_set_times_property"]}
{"id": "C06", "title": "ISO-8601 timestamps inside a KDBX4 file are readable", "statement": "If a KDBX4 file holds a time as ISO text (YYYY-MM-DDTHH:MM:SSZ) the time property returns that instant instead of raising.", "quantifier": "all ISO timestamp texts", "why_tests_cant": "depends on the interaction of lenient base64 with every text", "anchors": ["pykeepass/pykeepass.py:_decode_time"]}
{"id": "C07", "title": "KDBX4 payload block framing is lossless", "statement": "For every encrypted payload, writing it as 1 MiB HMAC-authenticated blocks and reading the blocks back under the same key returns exactly the payload, whatever its size, and leaves the following bytes unread.", "quantifier": "all payload byte strings, all keys and seeds", "why_tests_cant": "payload lengths around every multiple of 2^20; unbounded sizes", "anchors": ["pykeepass/kdbx_parsing/common.py:Concatenated", "pykeepass/kdbx_parsing/kdbx4.py:EncryptedPayloadBlock", "pykeepass/kdbx_parsing/kdbx4.py:compute_payload_block_hash"]}
{"id": "C08", "title": "KDBX3 payload block framing is lossless", "statement": "For every KDBX3 payload, writing it as indexed SHA-256 blocks and reading them back returns exactly the payload.", "quantifier": "all payload byte strings", "why_tests_cant": "payload lengths around every multiple of 2^20; unbounded sizes", "anchors": ["pykeepass/kdbx_parsing/common.py:Concatenated", "pykeepass/kdbx_parsing/kdbx3.py:PayloadBlock"]}
{"id": "C09", "title": "KDBX4 save/open round trip", "statement": "If a KDBX4 database was opened successfully, then after any change to its XML content and binaries, saving it and opening the saved file with the same credentials succeeds and yields the same header, the same binaries in the same order and the same XML content.", "quantifier": "all database contents, credentials, ciphers (AES, ChaCha20, Twofish), compression flags and KDFs", "why_tests_cant": "the product of contents, sizes and format options cannot be enumerated", "anchors": ["pykeepass/kdbx_parsing/kdbx4.py:Body", "pykeepass/kdbx_parsing/kdbx.py:KDBX", "pykeepass/pykeepass.py:save", "pykeepass/pykeepass.py:read"]}
{"id": "C10", "title": "KDBX3 save/open round trip", "statement": "Same as C09 for KDBX3 databases.", "quantifier": "all database contents, credentials, ciphers and compression flags", "why_tests_cant": "the product of contents, sizes and format options cannot be enumerated", "anchors": ["pykeepass/kdbx_parsing/kdbx3.py:Body", "pykeepass/kdbx_parsing/kdbx.py:KDBX", "pykeepass/pykeepass.py:save", "pykeepass/pykeepass.py:read"]}
{"id": "C11", "title": "An accepted KDBX4 file is authenticated", "statement": "If opening a KDBX4 file succeeds then the stored header hash, the header HMAC and the HMAC of every payload block (bound to its index and length) are the ones computed from the supplied credentials; hence two accepted files with the same header and the same block tags either have the same payload or exhibit an HMAC collision.", "quantifier": "all byte strings offered as a file and all credentials", "why_tests_cant": "adversarial files are unbounded", "anchors": ["pykeepass/kdbx_parsing/kdbx4.py:Body", "pykeepass/kdbx_parsing/kdbx4.py:EncryptedPayloadBlock", "pykeepass/kdbx_parsing/kdbx4.py:compute_header_hmac_hash"]}
{"id": "C12", "title": "Wrong credentials never open a KDBX4 database", "statement": "Opening a saved KDBX4 database with credentials whose derived key differs raises CredentialsError; the only alternative is an explicit HMAC collision between the two derived keys.", "quantifier": "all databases, all pairs of credentials", "why_tests_cant": "credential space is infinite", "anchors": ["pykeepass/kdbx_parsing/kdbx4.py:Body", "pykeepass/pykeepass.py:read"]}
{"id": "C13", "title": "A truncated KDBX4 file never opens", "statement": "For every successfully saved KDBX4 database, opening any proper prefix of the file raises an exception; it never yields a database.", "quantifier": "every cut point of every saved file", "why_tests_cant": "a cut at each byte of files of any size (crash during copy)", "anchors": ["pykeepass/kdbx_parsing/kdbx4.py:Body", "pykeepass/kdbx_parsing/kdbx4.py:EncryptedPayload", "pykeepass/kdbx_parsing/kdbx.py:KDBX"]}
{"id": "C14", "title": "A truncated KDBX3 file never yields different content", "statement": "Opening a prefix of a saved KDBX3 database either raises or yields exactly the content that was saved.", "quantifier": "every cut point of every saved file", "why_tests_cant": "a cut at each byte of files of any size", "anchors": ["pykeepass/kdbx_parsing/kdbx3.py:Body", "pykeepass/kdbx_parsing/kdbx3.py:PayloadBlock", "pykeepass/kdbx_parsing/common.py:DecryptedPayload"]}
{"id": "C15", "title": "Trailing bytes after a KDBX4 database are harmless", "statement": "Bytes that follow a complete KDBX4 database (e.g. saving into a longer existing stream) do not change what opening it yields.", "quantifier": "all databases, all trailing byte strings", "why_tests_cant": "unbounded suffixes", "anchors": ["pykeepass/kdbx_parsing/kdbx4.py:EncryptedPayload", "pykeepass/pykeepass.py:save"]}
{"id": "C16", "title": "Saving a KDBX3 database into a stream that held a longer one leaves it readable", "statement": "After save(stream) the stream can be opened again, even if the stream previously held more bytes.", "quantifier": "all stream contents", "why_tests_cant": "needs particular old contents", "anchors": ["pykeepass/pykeepass.py:save", "pykeepass/kdbx_parsing/kdbx3.py:Body"]}
{"id": "C17", "title": "Open errors are classified as documented", "statement": "A file whose signature is wrong raises HeaderChecksumError; a KDBX4 file whose header hash is wrong raises HeaderChecksumError; a KDBX4 file with an intact header hash and a wrong header HMAC raises CredentialsError; with both intact, the first block with a wrong HMAC raises PayloadChecksumError. For KDBX3, wrong stream start bytes raise CredentialsError and a wrong block hash raises PayloadChecksumError. The classes do not depend on the payload contents.", "quantifier": "all byte strings offered as files, all credentials", "why_tests_cant": "corruptions of every byte position", "anchors": ["pykeepass/pykeepass.py:read", "pykeepass/kdbx_parsing/kdbx.py:check_signature", "pykeepass/kdbx_parsing/kdbx4.py:Body", "pykeepass/kdbx_parsing/kdbx3.py:UnpackedPayload"]}
{"id": "C18", "title": "Saving preserves the outer header byte for byte", "statement": "Every save writes exactly the outer header bytes that were read when the database was opened: cipher, KDF parameters, salts and version of the file cannot change by saving.", "quantifier": "all databases and all edits between open and save", "why_tests_cant": "all histories of edits", "anchors": ["pykeepass/kdbx_parsing/kdbx.py:KDBX", "pykeepass/pykeepass.py:save"]}
{"id": "C19", "title": "Each save uses fresh encryption randomness", "statement": "Two successive saves of different contents are not encrypted with the same master seed and IV (nonce).", "quantifier": "all pairs of successive saves", "why_tests_cant": "a unit test compares ciphertexts, not keystreams", "anchors": ["pykeepass/kdbx_parsing/kdbx.py:KDBX", "pykeepass/pykeepass.py:save"]}
{"id": "C20", "title": "Opening without decryption exposes only the header", "statement": "With decrypt=False, opening never raises CredentialsError or PayloadChecksumError whatever the credentials and payload bytes, the header properties equal those of a full open, and accessing the payload raises ValueError.", "quantifier": "all files and credentials", "why_tests_cant": "all payload bytes", "anchors": ["pykeepass/pykeepass.py:payload", "pykeepass/kdbx_parsing/kdbx4.py:Body", "pykeepass/kdbx_parsing/kdbx3.py:Body"]}
{"id": "C21", "title": "PKCS#7 padding is lossless and validated", "statement": "For every plaintext, unpadding the padded text gives the plaintext; a padded text is a non-empty multiple of 16 bytes.", "quantifier": "all plaintexts", "why_tests_cant": "all lengths and trailing bytes", "anchors": ["pykeepass/kdbx_parsing/common.py:AES256Payload", "pykeepass/kdbx_parsing/common.py:TwoFishPayload"]}
{"id": "C22", "title": "Twofish-CBC decryption inverts encryption", "statement": "For every key of 16, 24 or 32 bytes, IV of 16 bytes and plaintext whose length is a multiple of 16, decrypting the ciphertext gives the plaintext, and feeding data in any chunking gives the same output as feeding it at once.", "quantifier": "all keys, IVs, plaintexts and chunkings", "why_tests_cant": "2^256 keys, unbounded plaintexts", "anchors": ["pykeepass/kdbx_parsing/twofish.py:CBC", "pykeepass/kdbx_parsing/pytwofish.py:encrypt", "pykeepass/kdbx_parsing/pytwofish.py:decrypt"]}
{"id": "C23", "title": "The pure-Python Twofish block cipher is Twofish", "statement": "For every key of 16, 24 or 32 bytes and every block the cipher computes exactly the Twofish function of the published specification (q permutations, MDS and RS matrices over GF(2^8), PHT, key schedule, 16 rounds).", "quantifier": "all keys and blocks", "why_tests_cant": "2^128 blocks x 2^256 keys; the module self-test checks one vector", "anchors": ["pykeepass/kdbx_parsing/pytwofish.py:set_key", "pykeepass/kdbx_parsing/pytwofish.py:encrypt", "pykeepass/kdbx_parsing/pytwofish.py:gen_mk_tab", "pykeepass/kdbx_parsing/pytwofish.py:mds_rem"]}
{"id": "C24", "title": "Key file interpretation", "statement": "The key derived from a key file depends only on its bytes: a non-XML file of 32 bytes is used as is, a non-XML file of 64 hexadecimal digits is decoded, an XML key file (1.0/2.0) contributes its decoded data (2.0 only if its hash matches), and anything else contributes its SHA-256.", "quantifier": "all key file byte strings", "why_tests_cant": "all byte strings", "anchors": ["pykeepass/kdbx_parsing/common.py:compute_key_composite"]}
{"id": "C25", "title": "Every non-XML file can serve as a key file", "statement": "No non-XML byte string is rejected as key file.", "quantifier": "all byte strings of any length", "why_tests_cant": "only special 64-byte files fail", "anchors": ["pykeepass/kdbx_parsing/common.py:compute_key_composite"]}
{"id": "C26", "title": "A missing password is not an empty password", "statement": "None and the empty string are different passwords: they produce different inputs to the final composite hash for every key file; with no key file, distinct passwords yield the same composite only through an explicit SHA-256 collision.", "quantifier": "all passwords and key files", "why_tests_cant": "infinite credential space", "anchors": ["pykeepass/kdbx_parsing/common.py:compute_key_composite"]}
{"id": "C27", "title": "Key file streams behave like key file paths", "statement": "Passing an open key file stream gives the same key as passing its path, at every use (open, save, reload).", "quantifier": "all stream positions, seekable or not, both formats and KDFs", "why_tests_cant": "stream state and call history", "anchors": ["pykeepass/kdbx_parsing/common.py:compute_key_composite", "pykeepass/kdbx_parsing/kdbx4.py:compute_transformed"]}
{"id": "C28", "title": "Protected values survive save and open", "statement": "Every value marked Protected in the document comes back unchanged after save and open (up to the documented stripping of characters that are illegal in XML and empty text becoming absent), for any number and order of protected values sharing the one inner keystream.", "quantifier": "all documents, all protected texts, all inner stream keys", "why_tests_cant": "keystream offsets depend on all previous values", "anchors": ["pykeepass/kdbx_parsing/common.py:UnprotectedStream", "pykeepass/kdbx_parsing/common.py:ChaCha20Stream", "pykeepass/kdbx_parsing/common.py:Salsa20Stream"]}
{"id": "C29", "title": "Saving does not alter the open database", "statement": "save() leaves the in-memory database unchanged: all values readable before are readable and equal afterwards (protected values are not left encrypted in memory), whether the save succeeds or raises.", "quantifier": "all databases", "why_tests_cant": "all contents", "anchors": ["pykeepass/kdbx_parsing/common.py:UnprotectedStream", "pykeepass/pykeepass.py:save"]}
{"id": "C30", "title": "No protected value is written in the clear", "statement": "In a saved file's inner XML every Protected value's text is the base64 of the value xored with a keystream segment; segments used by different values never overlap; unprotected nodes are written unchanged.", "quantifier": "all documents", "why_tests_cant": "keystream offsets for all values", "anchors": ["pykeepass/kdbx_parsing/common.py:UnprotectedStream"]}
{"id": "C31", "title": "Crash during save keeps a complete database", "statement": "If the process stops at any point of save(path), the file at path afterwards holds either the complete old contents or the complete new contents.", "quantifier": "every crash point, every old and new content, every path", "why_tests_cant": "crash points cannot be enumerated by tests", "anchors": ["pykeepass/pykeepass.py:save"]}
{"id": "C32", "title": "A failing save keeps the old file", "statement": "If building the database fails, save(path) raises, the file at path keeps its old contents and no temporary file is left.", "quantifier": "every failure point during the build, every path", "why_tests_cant": "failure points cannot be enumerated", "anchors": ["pykeepass/pykeepass.py:save"]}
{"id": "C33", "title": "Saving touches no other file", "statement": "save(path) changes no file other than path and its temporary sibling, and the sibling is not a user file.", "quantifier": "all file systems and paths", "why_tests_cant": "needs particular sibling names", "anchors": ["pykeepass/pykeepass.py:save"]}
{"id": "C34", "title": "create_database honours its arguments", "statement": "create_database(filename, password, keyfile, transformed_key) writes a database to filename that opens with those credentials.", "quantifier": "all arguments", "why_tests_cant": "tests never pass transformed_key", "anchors": ["pykeepass/pykeepass.py:create_database"]}
{"id": "C35", "title": "A database opened with a transformed key can be saved and reopened with it", "statement": "After opening with transformed_key=k and calling save(), opening the result with transformed_key=k succeeds.", "quantifier": "all databases and keys", "why_tests_cant": "tests always pass the key to save explicitly", "anchors": ["pykeepass/pykeepass.py:save", "pykeepass/pykeepass.py:reload", "pykeepass/kdbx_parsing/kdbx4.py:compute_transformed", "pykeepass/kdbx_parsing/kdbx3.py:compute_transformed"]}
{"id": "C36", "title": "A failed read leaves the object usable", "statement": "If read() or reload() raises, the object still refers to its previous file, credentials and contents, so a following save() does not overwrite another file or change credentials.", "quantifier": "all histories of read/save", "why_tests_cant": "call histories", "anchors": ["pykeepass/pykeepass.py:read"]}
{"id": "C37", "title": "find_entries returns exactly the matching entries", "statement": "find_entries with any combination of title, username, password, url, notes, otp, uuid, string, autotype_* criteria (regex off, values without double quotes) returns exactly the entries under the search root which satisfy all criteria, each once, in document order; text criteria given as None are ignored, uuid=None and tags=None raise.", "quantifier": "all documents, all criteria values, all search roots", "why_tests_cant": "documents and criteria are infinite", "anchors": ["pykeepass/pykeepass.py:_find", "pykeepass/pykeepass.py:find_entries", "pykeepass/xpath.py:entry_xp"]}
{"id": "C38", "title": "Searches are safe for every search string", "statement": "The search value is treated as data: find_entries(title=t) returns only entries whose title is t, for every string t.", "quantifier": "all strings t", "why_tests_cant": "tests use benign strings", "anchors": ["pykeepass/pykeepass.py:_find", "pykeepass/xpath.py:entry_xp"]}
{"id": "C39", "title": "History entries are excluded unless requested", "statement": "Without history=True no search result is (or lies below) a history entry; with history=True the result additionally contains exactly the matching history entries.", "quantifier": "all documents and criteria", "why_tests_cant": "all document shapes", "anchors": ["pykeepass/pykeepass.py:_find"]}
{"id": "C40", "title": "find_groups returns exactly the matching groups", "statement": "find_groups by name, notes, uuid (values without double quotes, regex off), recursive or not, under any group, returns exactly the matching groups each once in document order; first=True returns the first of them or None.", "quantifier": "all documents and criteria", "why_tests_cant": "infinite", "anchors": ["pykeepass/pykeepass.py:find_groups", "pykeepass/xpath.py:group_xp"]}
{"id": "C41", "title": "Paths lead back to elements", "statement": "For every entry (group) whose ancestors and itself have non-empty names without double quotes, find_entries(path=e.path) (find_groups) returns the first entry in document order having that path; it is e itself when no other element has the same path.", "quantifier": "all documents and elements", "why_tests_cant": "all tree shapes, depths and names", "anchors": ["pykeepass/entry.py:path", "pykeepass/group.py:path", "pykeepass/pykeepass.py:_find", "pykeepass/xpath.py:path_xp"]}
{"id": "C42", "title": "Tag search finds entries having all tags", "statement": "find_entries(tags=ts) returns exactly the entries having every tag of ts.", "quantifier": "all tag lists", "why_tests_cant": "substring coincidences", "anchors": ["pykeepass/pykeepass.py:_find", "pykeepass/xpath.py:entry_xp"]}
{"id": "C43", "title": "Field assignment is read back and isolated", "statement": "After assigning a string to title, username, password, url, notes, otp or a custom property of an entry, that property reads back the assigned string, every other property of the entry and every other element of the database is unchanged.", "quantifier": "all databases, entries, keys and values", "why_tests_cant": "all states and values", "anchors": ["pykeepass/entry.py:_set_string_field", "pykeepass/entry.py:_get_string_field"]}
{"id": "C44", "title": "Protection flag is preserved", "statement": "Assigning a string field keeps the field's protection flag; a password or OTP that was absent or empty becomes protected; set_custom_property(protect=b) sets exactly b.", "quantifier": "all histories of assignments", "why_tests_cant": "histories", "anchors": ["pykeepass/entry.py:_set_string_field", "pykeepass/entry.py:password", "pykeepass/entry.py:otp", "pykeepass/entry.py:is_custom_property_protected"]}
{"id": "C45", "title": "A rejected assignment changes nothing", "statement": "If assigning a field raises (e.g. None or a string with control characters) the entry keeps its old value.", "quantifier": "all values", "why_tests_cant": "tests never assert state after a failure", "anchors": ["pykeepass/entry.py:_set_string_field", "pykeepass/baseelement.py:_set_subelement_text"]}
{"id": "C46", "title": "Custom properties behave like a dictionary", "statement": "custom_properties maps exactly the non-reserved keys to their values; set/get/delete act on it like dictionary update, lookup and delete; deleting a missing key raises and changes nothing; reserved keys are rejected.", "quantifier": "all sequences of operations and keys", "why_tests_cant": "operation histories", "anchors": ["pykeepass/entry.py:set_custom_property", "pykeepass/entry.py:delete_custom_property", "pykeepass/entry.py:custom_properties"]}
{"id": "C47", "title": "Tags round-trip", "statement": "Assigning a list of non-empty tags containing neither ',' nor ';' is read back as the same list.", "quantifier": "all tag lists", "why_tests_cant": "infinite", "anchors": ["pykeepass/entry.py:tags"]}
{"id": "C48", "title": "Sub-element properties (icon, name, notes, uuid, times, expires) read back", "statement": "Assigning icon, uuid, group name/notes, a time property, or expires reads back the assigned value and leaves other properties of that element and all other elements unchanged.", "quantifier": "all databases and values", "why_tests_cant": "all states", "anchors": ["pykeepass/baseelement.py:_set_subelement_text", "pykeepass/baseelement.py:_set_times_property", "pykeepass/baseelement.py:expires"]}
{"id": "C49", "title": "touch updates exactly the access (and modification) time", "statement": "touch() sets the access time to now, touch(modify=True) also the modification time, and nothing else changes.", "quantifier": "all elements and instants", "why_tests_cant": "all states", "anchors": ["pykeepass/baseelement.py:touch"]}
{"id": "C50", "title": "expired is consistent with expires and expiry_time", "statement": "expired is False when expires is False or unset, and otherwise tells whether now is after expiry_time.", "quantifier": "all states and clocks", "why_tests_cant": "clock values", "anchors": ["pykeepass/baseelement.py:expired"]}
{"id": "C51", "title": "add_entry adds exactly one entry", "statement": "add_entry to a group of the database either raises leaving the document unchanged, or appends exactly one new entry with the given fields as last child of the group; all other elements are unchanged. It raises for a duplicate exactly when force_creation is off and an entry directly in the group has the same title and username (None ignored).", "quantifier": "all databases, groups and arguments", "why_tests_cant": "all states", "anchors": ["pykeepass/pykeepass.py:add_entry", "pykeepass/entry.py:__init__"]}
{"id": "C52", "title": "Documented None arguments of add_entry are accepted", "statement": "add_entry accepts None for title, username and password as documented.", "quantifier": "the argument combinations with None", "why_tests_cant": "no test passes None", "anchors": ["pykeepass/pykeepass.py:add_entry", "pykeepass/entry.py:__init__"]}
{"id": "C53", "title": "delete removes exactly the element and its subtree", "statement": "After delete_entry / delete_group the element and its descendants are no longer found by any search, and every other entry and group, their order and fields are unchanged.", "quantifier": "all databases and elements", "why_tests_cant": "all states", "anchors": ["pykeepass/baseelement.py:delete", "pykeepass/pykeepass.py:delete_entry", "pykeepass/pykeepass.py:delete_group"]}
{"id": "C54", "title": "move relocates without loss or duplication", "statement": "move_entry/move_group makes the element the last child of the destination, keeps its subtree and UUID, leaves all other elements unchanged; moving a group into itself or a descendant raises and changes nothing.", "quantifier": "all databases, elements and destinations", "why_tests_cant": "all states", "anchors": ["pykeepass/pykeepass.py:move_entry", "pykeepass/pykeepass.py:move_group", "pykeepass/group.py:append"]}
{"id": "C55", "title": "Recycle bin", "statement": "trash_entry/trash_group moves the element below the recycle bin group, creating the bin (once) under the root group and recording its UUID when missing; the root group and the bin itself are refused with UnableToSendToRecycleBin and nothing changes; trashed content is never lost.", "quantifier": "all databases and histories of trash operations", "why_tests_cant": "histories", "anchors": ["pykeepass/pykeepass.py:trash_entry", "pykeepass/pykeepass.py:trash_group", "pykeepass/pykeepass.py:_create_or_get_recyclebin_group", "pykeepass/pykeepass.py:_can_be_moved_to_recyclebin"]}
{"id": "C56", "title": "empty_group terminates and empties", "statement": "empty_group terminates for every group; afterwards the group has no entries and no subgroups, its own properties and every element outside it are unchanged.", "quantifier": "all groups of any size and depth", "why_tests_cant": "unbounded loop", "anchors": ["pykeepass/pykeepass.py:empty_group"]}
{"id": "C57", "title": "reindex puts the entry at the requested position", "statement": "If the entries of a group are contiguous, e.reindex(i) for 0 <= i < n makes e.index == i and keeps the relative order of the other entries.", "quantifier": "all groups and positions", "why_tests_cant": "all sizes and positions", "anchors": ["pykeepass/entry.py:reindex", "pykeepass/entry.py:index", "pykeepass/group.py:_first_entry"]}
{"id": "C58", "title": "index counts entries", "statement": "e.index is the number of entries preceding e in its group.", "quantifier": "all groups, including ones with subgroups between entries", "why_tests_cant": "layout histories", "anchors": ["pykeepass/entry.py:index", "pykeepass/group.py:_first_entry"]}
{"id": "C59", "title": "History snapshots are faithful and flat", "statement": "save_history appends to the history exactly one snapshot with the entry's current fields; snapshots never contain history themselves; existing snapshots and the live fields are unchanged; later edits of the entry do not change snapshots.", "quantifier": "all entries and edit histories", "why_tests_cant": "histories", "anchors": ["pykeepass/entry.py:save_history", "pykeepass/entry.py:history"]}
{"id": "C60", "title": "delete_history removes exactly what was asked", "statement": "delete_history(h) removes exactly h; delete_history(all=True) removes all snapshots; the live entry is unchanged.", "quantifier": "all entries", "why_tests_cant": "states", "anchors": ["pykeepass/entry.py:delete_history"]}
{"id": "C61", "title": "Binary ids are stable positions", "statement": "add_binary returns an id under which the data is read back, and existing ids keep their data; this holds after any history of add_binary and delete_binary on a database whose binary IDs start in order.", "quantifier": "all histories of binary operations (KDBX3 and KDBX4)", "why_tests_cant": "histories", "anchors": ["pykeepass/pykeepass.py:add_binary", "pykeepass/pykeepass.py:binaries", "pykeepass/pykeepass.py:delete_binary"]}
{"id": "C62", "title": "delete_binary keeps every other attachment's data", "statement": "After delete_binary(id) every attachment that referred to the deleted binary is gone and every other attachment (including those of history entries) still yields the same data as before.", "quantifier": "all databases and ids", "why_tests_cant": "needs attachments in history or negative ids", "anchors": ["pykeepass/pykeepass.py:delete_binary"]}
{"id": "C63", "title": "KDBX3 binary IDs in the file match references", "statement": "In a KDBX3 file written by the library every attachment reference equals the ID attribute of the binary it denotes (as the format requires).", "quantifier": "all histories", "why_tests_cant": "histories", "anchors": ["pykeepass/pykeepass.py:delete_binary", "pykeepass/pykeepass.py:add_binary"]}
{"id": "C64", "title": "Attachments of a history entry are visible", "statement": "The attachments of a history snapshot are those the entry had when it was archived.", "quantifier": "all entries", "why_tests_cant": "states", "anchors": ["pykeepass/entry.py:attachments", "pykeepass/pykeepass.py:find_attachments"]}
{"id": "C65", "title": "ref/deref round trip", "statement": "For an entry with unique UUID and a string field without reference syntax, deref(e.ref(field)) equals the field; text around references is kept; a dangling reference yields None; a value without references is returned unchanged.", "quantifier": "all databases and field values", "why_tests_cant": "infinite", "anchors": ["pykeepass/pykeepass.py:deref", "pykeepass/entry.py:ref"]}
{"id": "C66", "title": "deref terminates", "statement": "deref returns for every value and database.", "quantifier": "all databases including cyclic references", "why_tests_cant": "cycles", "anchors": ["pykeepass/pykeepass.py:deref"]}
{"id": "C67", "title": "deref supports UUID references", "statement": "A reference that asks for the UUID field ({REF:I@...}) is resolved as documented.", "quantifier": "all such references", "why_tests_cant": "never tested", "anchors": ["pykeepass/pykeepass.py:deref"]}
{"id": "C68", "title": "Equality of entries and groups is UUID equality", "statement": "Two elements compare equal exactly if their UUIDs are equal.", "quantifier": "all pairs of UUIDs", "why_tests_cant": "hash collisions", "anchors": ["pykeepass/baseelement.py:__eq__", "pykeepass/baseelement.py:__hash__"]}
{"id": "C69", "title": "Changing credentials takes effect on save", "statement": "After assigning password (or keyfile) and saving, the saved file is keyed by the new credentials and records the time of change.", "quantifier": "all databases and credentials", "why_tests_cant": "infinite", "anchors": ["pykeepass/pykeepass.py:password", "pykeepass/pykeepass.py:keyfile", "pykeepass/pykeepass.py:save"]}
{"id": "C70", "title": "Credential expiry rule", "statement": "credchange_required (recommended) is True exactly when a change date is recorded, the configured number of days is not -1, and more than that many whole days have passed.", "quantifier": "all dates, day counts and clocks", "why_tests_cant": "all clock values", "anchors": ["pykeepass/pykeepass.py:credchange_required", "pykeepass/pykeepass.py:credchange_recommended"]}
{"id": "C71", "title": "Document integrity under every operation history", "statement": "After any finite sequence of API operations on a well-formed database (adding, deleting, moving, trashing, editing, history, attachments) the document is still well formed: every element occurs once, the root group is in place and no element was lost except by an explicit delete.", "quantifier": "all finite operation histories", "why_tests_cant": "unbounded histories", "anchors": ["pykeepass/pykeepass.py:PyKeePass", "pykeepass/entry.py:Entry", "pykeepass/group.py:Group"]}
{"id": "C72", "title": "XML text is lossless", "statement": "Every document whose texts are XML-legal is read back unchanged from its serialised form (carriage returns, quotes, ampersands, non-ASCII included), except that empty text becomes absent text.", "quantifier": "all documents", "why_tests_cant": "infinite", "anchors": ["pykeepass/kdbx_parsing/common.py:XML"]}
{"id": "C73", "title": "Group/entry parent, path and listing agree", "statement": "g.entries and g.subgroups are exactly the entries/groups whose parent group is g, and find_*(group=g, recursive=False) agrees with them.", "quantifier": "all documents", "why_tests_cant": "all shapes", "anchors": ["pykeepass/group.py:entries", "pykeepass/group.py:subgroups", "pykeepass/baseelement.py:group", "pykeepass/pykeepass.py:find_entries"]}
{"id": "C74", "title": "Auto-type settings read back", "statement": "Assigning autotype_enabled, autotype_sequence or autotype_window on an entry created by the library reads back the assigned value (the empty string as None) and changes nothing else.", "quantifier": "all entries and values", "why_tests_cant": "states", "anchors": ["pykeepass/entry.py:autotype_enabled", "pykeepass/entry.py:autotype_sequence", "pykeepass/entry.py:autotype_window"]}
{"id": "C75", "title": "Files of an unsupported format version are rejected", "statement": "Opening a file with a valid signature whose major version is neither 3 nor 4 raises; in particular it can never be opened and then overwritten by save() with anything less than its full content.", "quantifier": "all byte strings offered as files", "why_tests_cant": "all version numbers and contents", "anchors": ["pykeepass/kdbx_parsing/kdbx.py:KDBX", "pykeepass/pykeepass.py:read", "pykeepass/pykeepass.py:save"]}
{"id": "C76", "title": "find_attachments returns exactly the matching attachments", "statement": "find_attachments by filename and id (values without double quotes), recursive or not, under any entry or group, returns exactly the matching attachments each once in document order; a search without criteria lists all attachments.", "quantifier": "all documents and criteria", "why_tests_cant": "documents and criteria are infinite", "anchors": ["pykeepass/pykeepass.py:find_attachments", "pykeepass/pykeepass.py:_find", "pykeepass/xpath.py:attachment_xp"]}
{"id": "C77", "title": "Database settings read back", "statement": "Assigning the database name, description, default user name, the credential change date or the two day counts reads back the assigned value and changes nothing else in the document.", "quantifier": "all databases that store the setting once, all values", "why_tests_cant": "values and documents are infinite", "anchors": ["pykeepass/pykeepass.py:database_name", "pykeepass/pykeepass.py:database_description", "pykeepass/pykeepass.py:default_username", "pykeepass/pykeepass.py:credchange_date", "pykeepass/pykeepass.py:credchange_required_days", "pykeepass/pykeepass.py:credchange_recommended_days"]}
{"id": "C78", "title": "Every conforming file opens to what it says", "statement": "Every file laid out as the KDBX 3.1/4 format prescribes (any program, any block sizes, field order, compression output, AES/Twofish/ChaCha20, AES-KDF/Argon2d/Argon2id, Salsa20/ChaCha20/no inner stream) opens under matching credentials to exactly its document, protected values included, and attachments; its outer header is kept byte for byte.", "quantifier": "all conforming files, all credentials", "why_tests_cant": "the files are infinite, and samples come from few programs", "anchors": ["pykeepass/kdbx_parsing/kdbx.py:KDBX", "pykeepass/pykeepass.py:read", "pykeepass/kdbx_parsing/common.py:compute_key_composite", "pykeepass/kdbx_parsing/common.py:aes_kdf", "pykeepass/kdbx_parsing/common.py:UnprotectedStream"]}
{"id": "C79", "title": "Every saved file is conforming", "statement": "A conforming file that is opened, changed at will and saved, under the same or new credentials, is again laid out as the format prescribes, keyed by the new credentials, with the same outer header and exactly the new document and attachments, so that any program following the format reads it.", "quantifier": "all conforming files, documents, attachments and credentials", "why_tests_cant": "reopening with the same library cannot show that other programs can read the file", "anchors": ["pykeepass/kdbx_parsing/kdbx.py:KDBX", "pykeepass/pykeepass.py:save", "pykeepass/kdbx_parsing/common.py:aes_kdf", "pykeepass/kdbx_parsing/common.py:UnprotectedStream"]}
{"id": "C80", "title": "A saved database opens to what was in memory", "statement": "After any history of opens, reads, reloads, calls, credential changes and saves, a save() that returns has written a file which opens with the credentials in use (and every other combination of credentials deriving the same key) to the document and attachments in memory, and reload() shows the same; save() does return if the directory is writable, there is room and the credentials give a key. The key file must be readable again: a seekable stream, or a file that is neither the database nor its .tmp sibling.", "quantifier": "all histories, worlds of files and streams, credentials", "why_tests_cant": "histories and contents are unbounded", "anchors": ["pykeepass/pykeepass.py:save", "pykeepass/pykeepass.py:read", "pykeepass/pykeepass.py:reload", "pykeepass/kdbx_parsing/common.py:compute_key_composite"]}
{"id": "C81", "title": "The transformed key opens the file it was read from", "statement": "db.transformed_key of an opened database, given alone as transformed_key, opens the same file to the same contents.", "quantifier": "all files and credentials", "why_tests_cant": "infinite", "anchors": ["pykeepass/pykeepass.py:transformed_key", "pykeepass/pykeepass.py:read"]}
{"id": "C82", "title": "The transformed key stays valid across save", "statement": "After save(), db.transformed_key opens the saved file.", "quantifier": "all histories", "why_tests_cant": "histories of credential changes", "anchors": ["pykeepass/pykeepass.py:transformed_key", "pykeepass/pykeepass.py:save"]}
{"id": "C83", "title": "entries, groups and attachments list everything that is live", "statement": "db.entries, db.groups and db.attachments list exactly the entries, groups and attachments of the document that are not inside a history, in document order; entry.attachments lists exactly the attachments of a live entry, and attachment.entry of each gives that entry back.", "quantifier": "all documents", "why_tests_cant": "document trees are unbounded", "anchors": ["pykeepass/pykeepass.py:entries", "pykeepass/pykeepass.py:groups", "pykeepass/pykeepass.py:attachments", "pykeepass/entry.py:attachments", "pykeepass/attachment.py:entry"]}
{"id": "C84", "title": "Assigning filename or id of an attachment changes only that attachment", "statement": "After attachment.filename = x it reads x, its data is the same and nothing else in the database changed; after attachment.id = n it reads n, attachment.binary gives binary n (BinaryError if there is none), and the data of every other attachment is the same. A file name XML cannot hold raises and changes nothing.", "quantifier": "all documents of both versions, attachments, names, numbers", "why_tests_cant": "document trees and values are unbounded", "anchors": ["pykeepass/attachment.py:filename", "pykeepass/attachment.py:id", "pykeepass/attachment.py:binary"]}
{"id": "C85", "title": "add_group adds exactly one group", "statement": "add_group appends one new, empty group to the destination; its name, icon, notes, uuid and times read back as given; subgroups of the destination has it last; nothing else changes; if it raises the database is unchanged.", "quantifier": "all documents, destinations, names, icons, notes", "why_tests_cant": "document trees and strings are unbounded", "anchors": ["pykeepass/pykeepass.py:add_group", "pykeepass/group.py:__init__"]}
{"id": "C86", "title": "Group.append adds copies", "statement": "group.append(entries) adds copies of the entries to the group, as its documentation says: the entries stay where they were.", "quantifier": "all documents, groups and lists of entries", "why_tests_cant": "document trees and lists are unbounded", "anchors": ["pykeepass/group.py:append"]}
{"id": "C87", "title": "History entries are exactly what the history property lists", "statement": "entry.history lists the snapshots of the entry in document order; is_a_history_entry is true of these and false of everything db.entries lists.", "quantifier": "all documents", "why_tests_cant": "document trees are unbounded", "anchors": ["pykeepass/entry.py:history", "pykeepass/entry.py:is_a_history_entry", "pykeepass/pykeepass.py:entries"]}
{"id": "C88", "title": "Printing shows path and user name only", "statement": "str() of an entry is determined by its path and user name (so never shows the password or other fields), that of a group by its path, that of an attachment by its file name and number; printing changes nothing and never raises.", "quantifier": "all documents and elements", "why_tests_cant": "document trees and strings are unbounded", "anchors": ["pykeepass/entry.py:__str__", "pykeepass/group.py:__str__", "pykeepass/attachment.py:__repr__"]}
{"id": "C89", "title": "The older search functions agree with the general ones", "statement": "find_entries_by_title/username/password/url/notes/uuid/string/path and find_groups_by_name/notes/uuid/path return exactly the entries (groups) with that value, below the given group, histories only when asked for, in document order, or the first of them with first=True; a path gives one result.", "quantifier": "all documents, values without double quotes, options", "why_tests_cant": "documents, values and option combinations are unbounded", "anchors": ["pykeepass/deprecated.py"]}
{"id": "C90", "title": "The string fields of an entry behave as an ordered ledger under every sequence of calls", "statement": "For every sequence of assignments (accepted or rejected), deletions and reads of the built-in and custom string properties of an entry, every call answers as a simple ordered list of (key, value, protection flag) would, in which writing a key strikes out its old line and appends the new one; nothing outside the entry changes.", "quantifier": "all documents, entries without duplicate keys, all finite sequences of calls with keys free of double quotes", "why_tests_cant": "sequences of calls and their arguments are unbounded", "anchors": ["pykeepass/entry.py:_set_string_field", "pykeepass/entry.py:set_custom_property", "pykeepass/entry.py:delete_custom_property", "pykeepass/entry.py:custom_properties"]}
{"id": "C91", "title": "Databases in streams", "statement": "Saving to a stream writes at the stream's position: bytes before it, bytes after what is written, files and other streams keep their contents, also when saving raises. Reading from where the database starts gives the contents saved and leaves the stream behind it, so any number of databases can be written and read one after another. Saving a database opened from a stream replaces it there, and reload after save returns.", "quantifier": "all databases, stream contents and positions, and sequences of databases", "why_tests_cant": "stream contents, positions and numbers of databases are unbounded", "anchors": ["pykeepass/pykeepass.py:save", "pykeepass/pykeepass.py:read", "pykeepass/pykeepass.py:reload"]}
{"id": "C92", "title": "xml() and dump_xml show the document in memory, in the clear", "statement": "Whatever calls led to the object, xml() returns, and reading the result as XML gives the document in memory (up to empty texts and white space between elements). Every text in the document, including protected values such as passwords, stands in it unencrypted. dump_xml writes exactly these bytes to the named file and no other file; if it fails the file holds a beginning of them (an older file is not kept), or is untouched if it could not be opened. dump_xml of an entry or group reads back as that element.", "quantifier": "all databases reached by any calls, all texts, all failure points", "why_tests_cant": "documents, texts and failure points are unbounded", "anchors": ["pykeepass/pykeepass.py:xml", "pykeepass/pykeepass.py:dump_xml", "pykeepass/baseelement.py:dump_xml"]}
{"id": "C93", "title": "What the API reads before saving, it reads after saving and opening again", "statement": "Whatever calls led to the database, after a save that returned and opening the file (or reload, or reading the stream) every element is at its place, and every property of entries, groups and attachments, every list, path, search and attached binary, and the database's own properties read as before, except that an empty string reads as None and is no longer found by searching for an empty value.", "quantifier": "all databases reached by any calls, all elements, all properties, searches with non-empty values, both versions", "why_tests_cant": "databases, call sequences and queries are unbounded", "anchors": ["pykeepass/pykeepass.py:save", "pykeepass/pykeepass.py:read", "pykeepass/pykeepass.py:find_entries", "pykeepass/entry.py", "pykeepass/group.py", "pykeepass/attachment.py"]}
{"id": "C94", "title": "Calls change nothing in entries, groups and snapshots they are not about", "statement": "Through any sequence of calls, an entry or group that no call was made on, into or out of (nor on anything in it) keeps every field, time, attachment, child and history snapshot exactly; in particular snapshots in an entry's history never change through edits of the entry, however the history grows. Removing a binary is about every entry that has attachments.", "quantifier": "all databases, all sequences of the 32 kinds of calls (returning or raising), all parts made of entries and groups", "why_tests_cant": "sequences of calls and databases are unbounded; tests look at the element a call is about, not at all others", "anchors": ["pykeepass/pykeepass.py:add_entry", "pykeepass/pykeepass.py:trash_group", "pykeepass/pykeepass.py:empty_group", "pykeepass/pykeepass.py:delete_binary", "pykeepass/entry.py:save_history", "pykeepass/entry.py:_set_string_field", "pykeepass/group.py:append"]}
{"id": "C95", "title": "version, encryption_algorithm, kdf_algorithm and database_salt are what the file's header says", "statement": "For every file with a conforming KDBX 3 or 4 header that opens, with any credentials and decrypt either way, version is the file's, encryption_algorithm names the cipher of the header, kdf_algorithm its key derivation function and database_salt is its salt.", "quantifier": "all files with conforming headers, all versions, ciphers and key derivation settings", "why_tests_cant": "headers and versions are unbounded; sample files cover a few settings and two versions", "anchors": ["pykeepass/pykeepass.py:version", "pykeepass/pykeepass.py:encryption_algorithm", "pykeepass/pykeepass.py:kdf_algorithm", "pykeepass/pykeepass.py:database_salt"]}
{"id": "C96", "title": "A damaged protected value costs nothing but itself", "statement": "If the text of some protected values in an otherwise conforming file was damaged, the file still opens, the damaged values are shown as they are stored or as what they decrypt to, and every other value is shown as it was.", "quantifier": "all files, all damaged values, Salsa20 and ChaCha20", "why_tests_cant": "files, places and kinds of damage are unbounded; a wrong key stream position shows as wrong text only", "anchors": ["pykeepass/kdbx_parsing/common.py:UnprotectedStream", "pykeepass/kdbx_parsing/common.py:Salsa20Stream", "pykeepass/kdbx_parsing/common.py:ChaCha20Stream"]}
{"id": "C97", "title": "xpath() with a query of the user", "statement": "Elements found by xpath() are elements of the tree searched, each at most once and in document order; with first=True the result is the first of them or None; with cast=True they are the Entry, Group and Attachment objects for these elements, in the same order, and an exception is raised if one of the results is none of these; '//Tag' finds all elements with that tag and './/Tag' with tree= all of them below that element. The database is not changed.", "quantifier": "all documents, query strings, trees and options", "why_tests_cant": "queries and documents are unbounded", "anchors": ["pykeepass/pykeepass.py:xpath"]}
{"id": "C98", "title": "An attachment yields the data it was made with, through any calls", "statement": "Through any sequence of add_binary, delete_binary, add_attachment and delete_attachment calls (also ones that raise), every attachment, however its reference is renumbered, yields the data it was made with as long as neither it nor its binary is deleted; when its binary is deleted it leaves the document, and it never comes back.", "quantifier": "all documents of both versions, all sequences of these calls, all attachments and data", "why_tests_cant": "sequences of calls are unbounded; ids shift with every deletion", "anchors": ["pykeepass/pykeepass.py:add_binary", "pykeepass/pykeepass.py:delete_binary", "pykeepass/entry.py:add_attachment", "pykeepass/entry.py:delete_attachment", "pykeepass/attachment.py:binary"]}
{"id": "C99", "title": "Saving again what was opened writes the same file", "statement": "Whatever calls led to a database in memory: once it was saved, opening the file and saving without changes writes the same bytes, at once if the document had no empty texts and no white space between elements in memory, and otherwise from the second save on; nothing random or time dependent enters a saved file, wherever it is saved and with whatever credentials deriving the same key.", "quantifier": "all databases reachable by calls, both versions, all credentials, paths and file systems", "why_tests_cant": "comparing files over every history of calls needs quantification over all documents", "anchors": ["pykeepass/pykeepass.py:save", "pykeepass/pykeepass.py:read", "pykeepass/kdbx_parsing/kdbx4.py:Body", "pykeepass/kdbx_parsing/kdbx3.py:Body", "pykeepass/kdbx_parsing/common.py:XML"]}
{"id": "C100", "title": "Several objects on one file: the last save wins, reload takes over", "statement": "What save writes is determined by the object and the derived key alone: the bytes at the target before, saves of other objects in between and the path do not matter. After another object saved to the path, reload with credentials that derive the key gives exactly what was saved, replacing all unsaved changes. Changes that another object saved since this one was opened are not merged: a save silently replaces them.", "quantifier": "all objects reachable by calls, all file systems, paths and credentials", "why_tests_cant": "interleavings of several objects' calls are unbounded", "anchors": ["pykeepass/pykeepass.py:save", "pykeepass/pykeepass.py:reload", "pykeepass/pykeepass.py:read"]}
{"id": "C101", "title": "With the published algorithms nothing more need be assumed: a saved database opens to what was in memory", "statement": "With SHA-2, HMAC, AES, ChaCha20, Salsa20, Argon2, DEFLATE and XML as published, decryption undoes encryption, decompression undoes compression and parsing undoes printing for all inputs. So after any calls a database that was saved without error opens, with the credentials in use, to the contents in memory, without any assumption about the libraries.", "quantifier": "all inputs of the algorithms, all objects reachable by calls, all environments that do not lose writes", "why_tests_cant": "that decryption undoes encryption, decompression compression and parsing printing is a claim about all inputs", "anchors": ["pykeepass/pykeepass.py:PyKeePass", "pykeepass/pykeepass.py:save", "pykeepass/pykeepass.py:read"]}
{"id": "C102", "title": "What can be saved can be opened again, however large", "statement": "If save() returns without raising, opening the file with the same credentials gives back the contents, however deeply groups are nested and however long texts are.", "quantifier": "all objects reachable by calls, all environments that do not lose writes", "why_tests_cant": "nesting and lengths are unbounded and the limit lies in another library", "anchors": ["pykeepass/pykeepass.py:save", "pykeepass/pykeepass.py:read", "pykeepass/pykeepass.py:add_group"]}
{"id": "C103", "title": "Groups and entries form a tree, and each call changes it as its name says", "statement": "Every group has one outline: the tree of the groups and entries in it, in order. add_entry and add_group put one new leaf at the end of the destination; move_entry, move_group and Group.append take the moved item with everything in it from where it was and put it at the end of the destination; delete_entry, delete_group take it away with everything in it; trash moves it to the recycle bin, made at the end of the root group if there is none; empty_group clears the group; Entry.reindex puts the entry elsewhere among the members of its group; every other call leaves outlines as they are. A call that raises leaves them as they are too, except that a bin may have been made and that append has moved the members before the one refused. After any history of calls Group.entries, Group.subgroups, .group, kp.entries and kp.groups are what the outline so computed shows.", "quantifier": "all documents laid out as KeePass does, all histories of the 32 kinds of calls, all groups and entries", "why_tests_cant": "the state after a history is the composition of many changes to nested structure", "anchors": ["pykeepass/pykeepass.py:add_entry", "pykeepass/pykeepass.py:add_group", "pykeepass/pykeepass.py:move_entry", "pykeepass/pykeepass.py:move_group", "pykeepass/pykeepass.py:delete_entry", "pykeepass/pykeepass.py:delete_group", "pykeepass/pykeepass.py:trash_entry", "pykeepass/pykeepass.py:trash_group", "pykeepass/pykeepass.py:empty_group", "pykeepass/pykeepass.py:entries", "pykeepass/pykeepass.py:groups", "pykeepass/group.py:append", "pykeepass/entry.py:reindex"]}
{"id": "C104", "title": "A property reads as last assigned, whatever else was called since", "statement": "The UUID, icon, tags, name, notes, creation, access, modification and expiry time, expiry flag and auto-type settings of an entry or group behave as variables: through any history of calls on the database -- edits of other properties, moves, snapshots, trashing, deletions, changes of other entries and of binaries and settings -- reading one gives the value last assigned to it (touch assigns the access time, and the modification time when modifying), or what it was at the start.", "quantifier": "all documents laid out as KeePass does, all entries and groups, all ten kinds of properties, all histories of the 32 kinds of calls", "why_tests_cant": "every kind of call would have to be tried against every property of every element, in all orders", "anchors": ["pykeepass/baseelement.py:uuid", "pykeepass/baseelement.py:icon", "pykeepass/baseelement.py:expires", "pykeepass/baseelement.py:mtime", "pykeepass/baseelement.py:touch", "pykeepass/entry.py:tags", "pykeepass/entry.py:autotype_enabled", "pykeepass/group.py:name", "pykeepass/group.py:notes"]}
{"id": "C105", "title": "The string fields of an entry are written by its own calls only, whatever else happens", "statement": "Through any history of calls on the database -- snapshots, moves, trashing, deletions, edits of other entries, of attachments, binaries and settings -- the title, user name, password, URL, notes, OTP and custom properties of an entry, with their protection flags, are exactly what the assignments and deletions made on this entry give when played alone on an ordered list of keys, values and flags; each of these calls ends as it does there (accepted, or with the same exception), and all readers (properties, get_custom_property, is_custom_property_protected, custom_properties) answer from that list.", "quantifier": "all documents laid out as KeePass does, all entries without duplicate keys, in or out of the document, all histories of the 32 kinds of calls with keys free of double quotes", "why_tests_cant": "every interleaving of calls on one entry with calls on the rest of the database", "anchors": ["pykeepass/entry.py:_set_string_field", "pykeepass/entry.py:_get_string_field", "pykeepass/entry.py:set_custom_property", "pykeepass/entry.py:delete_custom_property", "pykeepass/entry.py:custom_properties", "pykeepass/entry.py:is_custom_property_protected"]}
{"id": "C106", "title": "A setting of the database reads as last assigned, whatever else was called since", "statement": "database_name, database_description, default_username, the days after which credentials should or must be changed and the date of their last change behave as variables: through any history of calls, reading one gives what was last assigned to it, or what it was at the start; whether a change is due at a given time depends on the date and the days only.", "quantifier": "all documents laid out as KeePass does, all settings, all histories of the 32 kinds of calls", "why_tests_cant": "every kind of call would have to be tried against every setting, in all orders", "anchors": ["pykeepass/pykeepass.py:database_name", "pykeepass/pykeepass.py:database_description", "pykeepass/pykeepass.py:default_username", "pykeepass/pykeepass.py:credchange_required_days", "pykeepass/pykeepass.py:credchange_recommended_days", "pykeepass/pykeepass.py:credchange_date", "pykeepass/pykeepass.py:credchange_required"]}
{"id": "C107", "title": "UUIDs stay different", "statement": "If no two of a group and the groups and entries in it have one UUID, this holds after any history of calls in which the UUIDs drawn for new entries, groups and the bin and those assigned are not there already and only what is in the group is moved or thrown away; searching by UUID then finds at most one entry and one group. Without these conditions it can fail: a snapshot moved out of a history has the UUID of its entry, and assigning a UUID that another entry has is not refused.", "quantifier": "all documents laid out as KeePass does, all groups, all histories of the 32 kinds of calls, all UUIDs drawn", "why_tests_cant": "tests draw a few UUIDs and look at a few entries; uniqueness is about all pairs after all histories", "anchors": ["pykeepass/baseelement.py:uuid", "pykeepass/pykeepass.py:add_entry", "pykeepass/pykeepass.py:add_group", "pykeepass/pykeepass.py:trash_entry", "pykeepass/pykeepass.py:find_entries", "pykeepass/group.py:append"]}
{"id": "C108", "title": "Texts are written as UTF-8, and only texts that have it", "statement": "A text is written as the UTF-8 bytes of RFC 3629 and bytes are read as the text they spell, no others being accepted; without a key file the key is made of exactly the bytes of the password, so different passwords are different bytes. A password with a lone surrogate opens no file and saves none (UnicodeEncodeError), and the database in memory stays as it was.", "quantifier": "all texts, all byte strings, all passwords, all databases", "why_tests_cant": "passwords in tests are ASCII; the encoding has boundaries at every length of sequence and at the surrogates", "anchors": ["pykeepass/kdbx_parsing/common.py:compute_key_composite", "pykeepass/kdbx_parsing/common.py:UnprotectedStream"]}
{"id": "C109", "title": "The location of an element leads back to it", "statement": "The XPath expression an entry, group or attachment reports as its location, given to xpath(), finds that element and nothing else, wherever it is in the document and however many siblings it has.", "quantifier": "all documents, all elements", "why_tests_cant": "positions among siblings of equal tag have boundaries at one, at the first and at the last; tests look at one entry", "anchors": ["pykeepass/baseelement.py:_path", "pykeepass/pykeepass.py:xpath"]}
{"id": "C110", "title": "Asking changes nothing", "statement": "Reading properties, searching, following references, printing and listing leave the database, its credentials and its header exactly as they were, whether they return or raise; so a session ends with the same database, and each of its changes has the same outcome, wherever such calls are made in between.", "quantifier": "all databases, all arguments, all sessions of changing and asking calls", "why_tests_cant": "a getter that creates what it misses, or converts what it finds, shows only in a comparison of whole databases after sequences nobody tests", "anchors": ["pykeepass/baseelement.py:group", "pykeepass/entry.py:custom_properties", "pykeepass/pykeepass.py:find_entries", "pykeepass/pykeepass.py:deref", "pykeepass/attachment.py:data"]}
{"id": "C111", "title": "A call that raises leaves no trace", "statement": "When a call that changes the database raises an exception, the document, the attached binaries and the version are as they were before it, so that saving afterwards writes what it would have written without the call.", "quantifier": "all databases, all calls, all arguments that make them raise", "why_tests_cant": "the ways a call can fail half-way are not enumerable by tests: each depends on a text, an element or a place in the tree that is wrong in its own way", "anchors": ["pykeepass/pykeepass.py:add_entry", "pykeepass/pykeepass.py:add_group", "pykeepass/pykeepass.py:move_entry", "pykeepass/baseelement.py:touch", "pykeepass/entry.py:delete_history", "pykeepass/entry.py:add_attachment", "pykeepass/group.py:append"]}
{"id": "C112", "title": "What is added and deleted again leaves nothing behind", "statement": "When an entry or group is added, worked on in any way that only concerns it and what is put into it, and deleted again, the document, the attached binaries and the version are exactly as before, so that saving afterwards writes what it would have written if it had never been there. (Binaries stored in the database meanwhile do stay.)", "quantifier": "all databases, all new entries and groups, all sequences of calls in between, whether they raise or not", "why_tests_cant": "the calls in between can be any number and in any order; tests try a few and compare a few values, not the whole document", "anchors": ["pykeepass/pykeepass.py:add_entry", "pykeepass/pykeepass.py:add_group", "pykeepass/pykeepass.py:delete_entry", "pykeepass/pykeepass.py:delete_group", "pykeepass/baseelement.py:delete", "pykeepass/entry.py:save_history"]}
{"id": "C113", "title": "What is done and taken back leaves the document as it was", "statement": "An attachment added and deleted, a snapshot taken and deleted, a new custom property set and deleted, an entry or group moved to another group and back: afterwards the document, the attached binaries and the version are exactly as before.", "quantifier": "all databases, entries, groups, file names, keys and values", "why_tests_cant": "tests read back single values; that nothing else of the document differs, down to the order of elements, needs all documents", "anchors": ["pykeepass/entry.py:add_attachment", "pykeepass/entry.py:delete_attachment", "pykeepass/entry.py:save_history", "pykeepass/entry.py:delete_history", "pykeepass/entry.py:set_custom_property", "pykeepass/entry.py:delete_custom_property", "pykeepass/pykeepass.py:move_entry", "pykeepass/pykeepass.py:move_group"]}
{"id": "C114", "title": "Assigning the same value again changes nothing", "statement": "After a property of an entry or group (title, user name, password, URL, notes, TOTP, custom properties, UUID, icon, tags, name, times, expiry, auto-type), the file name or number of an attachment, or a setting of the database (name, description, default user name, days and date of the change of credentials) was assigned, assigning the same value once more succeeds and leaves the document, the attached binaries and the version exactly as they were.", "quantifier": "all databases, entries, groups, properties and values that were accepted the first time", "why_tests_cant": "tests assign once; that a second assignment neither reorders, duplicates nor re-marks anything needs all documents and values", "anchors": ["pykeepass/entry.py:_set_string_field", "pykeepass/entry.py:set_custom_property", "pykeepass/entry.py:password", "pykeepass/entry.py:otp", "pykeepass/entry.py:tags", "pykeepass/baseelement.py:_set_subelement_text", "pykeepass/baseelement.py:_set_times_property", "pykeepass/baseelement.py:expires", "pykeepass/group.py:name", "pykeepass/group.py:notes", "pykeepass/pykeepass.py:database_name", "pykeepass/pykeepass.py:credchange_date", "pykeepass/pykeepass.py:credchange_required_days", "pykeepass/attachment.py:id", "pykeepass/attachment.py:filename"]}
{"id": "C115", "title": "Of several assignments to a property only the last counts", "statement": "Assigning a property of an entry or group (title, user name, password, URL, notes, TOTP, custom properties, UUID, icon, tags, name, times, expiry, auto-type), the file name or number of an attachment, or a setting of the database (name, description, default user name, days and date of the change of credentials) and then assigning it another value leaves the same document, the same attached binaries and the same version as assigning the second value alone.", "quantifier": "all databases, entries, groups, properties and pairs of values that are accepted", "why_tests_cant": "tests assign one value and read it back; that no trace of an earlier value remains anywhere in the document needs all documents and pairs of values", "anchors": ["pykeepass/entry.py:_set_string_field", "pykeepass/entry.py:set_custom_property", "pykeepass/entry.py:password", "pykeepass/entry.py:otp", "pykeepass/entry.py:tags", "pykeepass/baseelement.py:_set_subelement_text", "pykeepass/baseelement.py:_set_times_property", "pykeepass/baseelement.py:expires", "pykeepass/group.py:name", "pykeepass/group.py:notes", "pykeepass/pykeepass.py:database_name", "pykeepass/pykeepass.py:credchange_date", "pykeepass/pykeepass.py:credchange_required_days", "pykeepass/attachment.py:id", "pykeepass/attachment.py:filename"]}
{"id": "C116", "title": "Assignments to different things may be made in either order", "statement": "When two assignments (properties of entries and groups, file names and numbers of attachments, settings of the database) are to different things and succeed in one order, they succeed in the other order and leave the same document, the same attached binaries and the same version.", "quantifier": "all databases, pairs of assignments and values", "why_tests_cant": "tests make assignments in one order; that no assignment depends on or disturbs another needs all pairs and all documents", "anchors": ["pykeepass/entry.py:_set_string_field", "pykeepass/entry.py:set_custom_property", "pykeepass/entry.py:autotype_enabled", "pykeepass/entry.py:tags", "pykeepass/baseelement.py:_set_subelement_text", "pykeepass/baseelement.py:_set_times_property", "pykeepass/baseelement.py:expires", "pykeepass/group.py:name", "pykeepass/pykeepass.py:database_name", "pykeepass/pykeepass.py:credchange_date", "pykeepass/attachment.py:id", "pykeepass/attachment.py:filename"]}
{"id": "C117", "title": "Deletions may be made in either order, and before or after assignments", "statement": "When two entries, groups or attachments (be one inside the other) are deleted in one order without an exception, deleting them in the other order succeeds too and leaves the same document, attached binaries and version. The same holds for deleting one of them and assigning a time, the expiry, an auto-type setting, the file name or number of an attachment or a setting of the database, whichever comes first; and its string fields, UUID, icon, tags, name or notes, for an entry or group laid out as KeePass does, when what is deleted has a parent and is not inside what the property is stored in.", "quantifier": "all databases, pairs of elements, assignments and values", "why_tests_cant": "tests delete in one order; that no deletion depends on or disturbs another needs all pairs and all documents", "anchors": ["pykeepass/baseelement.py:delete", "pykeepass/attachment.py:delete", "pykeepass/baseelement.py:_set_times_property", "pykeepass/baseelement.py:expires", "pykeepass/entry.py:autotype_enabled", "pykeepass/pykeepass.py:database_name", "pykeepass/attachment.py:id", "pykeepass/attachment.py:filename"]}
