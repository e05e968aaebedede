#!/usr/bin/env python3
"""Writes /verif/properties.jsonl (source of truth for the property list)."""
import json, os
P = []
def p(id, title, statement, quantifier, why, anchors):
    P.append(dict(id=id, title=title, statement=statement, quantifier=quantifier,
                  why_tests_cant=why, anchors=anchors))

PK="pykeepass/pykeepass.py"; EN="pykeepass/entry.py"; GR="pykeepass/group.py"; BE="pykeepass/baseelement.py"
AT="pykeepass/attachment.py"; XP="pykeepass/xpath.py"; CO="pykeepass/kdbx_parsing/common.py"
K3="pykeepass/kdbx_parsing/kdbx3.py"; K4="pykeepass/kdbx_parsing/kdbx4.py"; KX="pykeepass/kdbx_parsing/kdbx.py"
TF="pykeepass/kdbx_parsing/twofish.py"; PT="pykeepass/kdbx_parsing/pytwofish.py"

# ---------- codecs ----------
p("C01","Base64 text fields are lossless",
  "Every byte string written into the database as base64 text (UUIDs, KDBX4 timestamps, KDBX3 binaries, protected values) is read back as exactly the same byte string.",
  "all byte strings of any length","the space of byte strings is infinite; tests sample a few lengths",
  [f"{PK}:_encode_time",f"{PK}:add_binary",f"{BE}:uuid",f"{CO}:UnprotectedStream"])
p("C02","UUIDs survive storage and search conversion",
  "For every UUID, setting it on an entry or group and reading it back gives the same UUID, and the text stored is the one find_*(uuid=...) searches for, so two different UUIDs never share a stored text.",
  "all 128-bit UUIDs","2^128 values",[f"{BE}:uuid",f"{PK}:_find"])
p("C03","KDBX4 timestamps keep their second",
  "In a KDBX4 database any timezone-aware datetime with whole seconds that is assigned to a time property is read back as the same instant in UTC; with microseconds the stored instant differs from the given one by less than one second.",
  "all representable datetimes and UTC offsets","years 1..9999 at microsecond resolution in every offset",[f"{PK}:_encode_time",f"{PK}:_decode_time"])
p("C04","KDBX4 timestamps never round up",
  "In a KDBX4 database the stored time of a datetime is never later than the datetime that was assigned (sub-second parts are dropped, not rounded up).",
  "all datetimes with microseconds","only 3 microsecond values in a million misbehave, random tests miss them",[f"{PK}:_encode_time"])
p("C05","KDBX3 timestamps denote the instant that was assigned",
  "In a KDBX3 database a timezone-aware datetime assigned to a time property is read back as the same instant.",
  "all datetimes and UTC offsets","tests only use UTC datetimes with the setter",[f"{PK}:_encode_time",f"{PK}:_decode_time",f"{BE}:_set_times_property"])
p("C06","ISO-8601 timestamps inside a KDBX4 file are readable",
  "If a KDBX4 file holds a time as ISO text (YYYY-MM-DDTHH:MM:SSZ) the time property returns that instant instead of raising.",
  "all ISO timestamp texts","depends on the interaction of lenient base64 with every text",[f"{PK}:_decode_time"])
# ---------- container format ----------
p("C07","KDBX4 payload block framing is lossless",
  "For every encrypted payload, writing it as 1 MiB HMAC-authenticated blocks and reading the blocks back under the same key returns exactly the payload, whatever its size, and leaves the following bytes unread.",
  "all payload byte strings, all keys and seeds","payload lengths around every multiple of 2^20; unbounded sizes",[f"{CO}:Concatenated",f"{K4}:EncryptedPayloadBlock",f"{K4}:compute_payload_block_hash"])
p("C08","KDBX3 payload block framing is lossless",
  "For every KDBX3 payload, writing it as indexed SHA-256 blocks and reading them back returns exactly the payload.",
  "all payload byte strings","payload lengths around every multiple of 2^20; unbounded sizes",[f"{CO}:Concatenated",f"{K3}:PayloadBlock"])
p("C09","KDBX4 save/open round trip",
  "If a KDBX4 database was opened successfully, then after any change to its XML content and binaries, saving it and opening the saved file with the same credentials succeeds and yields the same header, the same binaries in the same order and the same XML content.",
  "all database contents, credentials, ciphers (AES, ChaCha20, Twofish), compression flags and KDFs","the product of contents, sizes and format options cannot be enumerated",[f"{K4}:Body",f"{KX}:KDBX",f"{PK}:save",f"{PK}:read"])
p("C10","KDBX3 save/open round trip",
  "Same as C09 for KDBX3 databases.",
  "all database contents, credentials, ciphers and compression flags","the product of contents, sizes and format options cannot be enumerated",[f"{K3}:Body",f"{KX}:KDBX",f"{PK}:save",f"{PK}:read"])
p("C11","An accepted KDBX4 file is authenticated",
  "If opening a KDBX4 file succeeds then the stored header hash, the header HMAC and the HMAC of every payload block (bound to its index and length) are the ones computed from the supplied credentials; hence two accepted files with the same header and the same block tags either have the same payload or exhibit an HMAC collision.",
  "all byte strings offered as a file and all credentials","adversarial files are unbounded",[f"{K4}:Body",f"{K4}:EncryptedPayloadBlock",f"{K4}:compute_header_hmac_hash"])
p("C12","Wrong credentials never open a KDBX4 database",
  "Opening a saved KDBX4 database with credentials whose derived key differs raises CredentialsError; the only alternative is an explicit HMAC collision between the two derived keys.",
  "all databases, all pairs of credentials","credential space is infinite",[f"{K4}:Body",f"{PK}:read"])
p("C13","A truncated KDBX4 file never opens",
  "For every successfully saved KDBX4 database, opening any proper prefix of the file raises an exception; it never yields a database.",
  "every cut point of every saved file","a cut at each byte of files of any size (crash during copy)",[f"{K4}:Body",f"{K4}:EncryptedPayload",f"{KX}:KDBX"])
p("C14","A truncated KDBX3 file never yields different content",
  "Opening a prefix of a saved KDBX3 database either raises or yields exactly the content that was saved.",
  "every cut point of every saved file","a cut at each byte of files of any size",[f"{K3}:Body",f"{K3}:PayloadBlock",f"{CO}:DecryptedPayload"])
p("C15","Trailing bytes after a KDBX4 database are harmless",
  "Bytes that follow a complete KDBX4 database (e.g. saving into a longer existing stream) do not change what opening it yields.",
  "all databases, all trailing byte strings","unbounded suffixes",[f"{K4}:EncryptedPayload",f"{PK}:save"])
p("C16","Saving a KDBX3 database into a stream that held a longer one leaves it readable",
  "After save(stream) the stream can be opened again, even if the stream previously held more bytes.",
  "all stream contents","needs particular old contents",[f"{PK}:save",f"{K3}:Body"])
p("C17","Open errors are classified as documented",
  "A file whose signature is wrong raises HeaderChecksumError; a KDBX4 file whose header hash is wrong raises HeaderChecksumError; a KDBX4 file with an intact header hash and a wrong header HMAC raises CredentialsError; with both intact, the first block with a wrong HMAC raises PayloadChecksumError. For KDBX3, wrong stream start bytes raise CredentialsError and a wrong block hash raises PayloadChecksumError. The classes do not depend on the payload contents.",
  "all byte strings offered as files, all credentials","corruptions of every byte position",[f"{PK}:read",f"{KX}:check_signature",f"{K4}:Body",f"{K3}:UnpackedPayload"])
p("C18","Saving preserves the outer header byte for byte",
  "Every save writes exactly the outer header bytes that were read when the database was opened: cipher, KDF parameters, salts and version of the file cannot change by saving.",
  "all databases and all edits between open and save","all histories of edits",[f"{KX}:KDBX",f"{PK}:save"])
p("C19","Each save uses fresh encryption randomness",
  "Two successive saves of different contents are not encrypted with the same master seed and IV (nonce).",
  "all pairs of successive saves","a unit test compares ciphertexts, not keystreams",[f"{KX}:KDBX",f"{PK}:save"])
p("C20","Opening without decryption exposes only the header",
  "With decrypt=False, opening never raises CredentialsError or PayloadChecksumError whatever the credentials and payload bytes, the header properties equal those of a full open, and accessing the payload raises ValueError.",
  "all files and credentials","all payload bytes",[f"{PK}:payload",f"{K4}:Body",f"{K3}:Body"])
p("C21","PKCS#7 padding is lossless and validated",
  "For every plaintext, unpadding the padded text gives the plaintext; a padded text is a non-empty multiple of 16 bytes.",
  "all plaintexts","all lengths and trailing bytes",[f"{CO}:AES256Payload",f"{CO}:TwoFishPayload"])
p("C22","Twofish-CBC decryption inverts encryption",
  "For every key of 16, 24 or 32 bytes, IV of 16 bytes and plaintext whose length is a multiple of 16, decrypting the ciphertext gives the plaintext, and feeding data in any chunking gives the same output as feeding it at once.",
  "all keys, IVs, plaintexts and chunkings","2^256 keys, unbounded plaintexts",[f"{TF}:CBC",f"{PT}:encrypt",f"{PT}:decrypt"])
p("C23","The pure-Python Twofish block cipher is Twofish",
  "For every key of 16, 24 or 32 bytes and every block the cipher computes exactly the Twofish function of the published specification (q permutations, MDS and RS matrices over GF(2^8), PHT, key schedule, 16 rounds).",
  "all keys and blocks","2^128 blocks x 2^256 keys; the module self-test checks one vector",[f"{PT}:set_key",f"{PT}:encrypt",f"{PT}:gen_mk_tab",f"{PT}:mds_rem"])
p("C24","Key file interpretation",
  "The key derived from a key file depends only on its bytes: a non-XML file of 32 bytes is used as is, a non-XML file of 64 hexadecimal digits is decoded, an XML key file (1.0/2.0) contributes its decoded data (2.0 only if its hash matches), and anything else contributes its SHA-256.",
  "all key file byte strings","all byte strings",[f"{CO}:compute_key_composite"])
p("C25","Every non-XML file can serve as a key file",
  "No non-XML byte string is rejected as key file.",
  "all byte strings of any length","only special 64-byte files fail",[f"{CO}:compute_key_composite"])
p("C26","A missing password is not an empty password",
  "None and the empty string are different passwords: they produce different inputs to the final composite hash for every key file; with no key file, distinct passwords yield the same composite only through an explicit SHA-256 collision.",
  "all passwords and key files","infinite credential space",[f"{CO}:compute_key_composite"])
p("C27","Key file streams behave like key file paths",
  "Passing an open key file stream gives the same key as passing its path, at every use (open, save, reload).",
  "all stream positions, seekable or not, both formats and KDFs","stream state and call history",[f"{CO}:compute_key_composite",f"{K4}:compute_transformed"])
p("C28","Protected values survive save and open",
  "Every value marked Protected in the document comes back unchanged after save and open (up to the documented stripping of characters that are illegal in XML and empty text becoming absent), for any number and order of protected values sharing the one inner keystream.",
  "all documents, all protected texts, all inner stream keys","keystream offsets depend on all previous values",[f"{CO}:UnprotectedStream",f"{CO}:ChaCha20Stream",f"{CO}:Salsa20Stream"])
p("C29","Saving does not alter the open database",
  "save() leaves the in-memory database unchanged: all values readable before are readable and equal afterwards (protected values are not left encrypted in memory), whether the save succeeds or raises.",
  "all databases","all contents",[f"{CO}:UnprotectedStream",f"{PK}:save"])
p("C30","No protected value is written in the clear",
  "In a saved file's inner XML every Protected value's text is the base64 of the value xored with a keystream segment; segments used by different values never overlap; unprotected nodes are written unchanged.",
  "all documents","keystream offsets for all values",[f"{CO}:UnprotectedStream"])
p("C31","Crash during save keeps a complete database",
  "If the process stops at any point of save(path), the file at path afterwards holds either the complete old contents or the complete new contents.",
  "every crash point, every old and new content, every path","crash points cannot be enumerated by tests",[f"{PK}:save"])
p("C32","A failing save keeps the old file",
  "If building the database fails, save(path) raises, the file at path keeps its old contents and no temporary file is left.",
  "every failure point during the build, every path","failure points cannot be enumerated",[f"{PK}:save"])
p("C33","Saving touches no other file",
  "save(path) changes no file other than path and its temporary sibling, and the sibling is not a user file.",
  "all file systems and paths","needs particular sibling names",[f"{PK}:save"])
p("C34","create_database honours its arguments",
  "create_database(filename, password, keyfile, transformed_key) writes a database to filename that opens with those credentials.",
  "all arguments","tests never pass transformed_key",[f"{PK}:create_database"])
p("C35","A database opened with a transformed key can be saved and reopened with it",
  "After opening with transformed_key=k and calling save(), opening the result with transformed_key=k succeeds.",
  "all databases and keys","tests always pass the key to save explicitly",[f"{PK}:save",f"{PK}:reload",f"{K4}:compute_transformed",f"{K3}:compute_transformed"])
p("C36","A failed read leaves the object usable",
  "If read() or reload() raises, the object still refers to its previous file, credentials and contents, so a following save() does not overwrite another file or change credentials.",
  "all histories of read/save","call histories",[f"{PK}:read"])
# ---------- search ----------
p("C37","find_entries returns exactly the matching entries",
  "find_entries with any combination of title, username, password, url, notes, otp, uuid, string, autotype_* criteria (regex off, values without double quotes) returns exactly the entries under the search root which satisfy all criteria, each once, in document order; text criteria given as None are ignored, uuid=None and tags=None raise.",
  "all documents, all criteria values, all search roots","documents and criteria are infinite",[f"{PK}:_find",f"{PK}:find_entries",f"{XP}:entry_xp"])
p("C38","Searches are safe for every search string",
  "The search value is treated as data: find_entries(title=t) returns only entries whose title is t, for every string t.",
  "all strings t","tests use benign strings",[f"{PK}:_find",f"{XP}:entry_xp"])
p("C39","History entries are excluded unless requested",
  "Without history=True no search result is (or lies below) a history entry; with history=True the result additionally contains exactly the matching history entries.",
  "all documents and criteria","all document shapes",[f"{PK}:_find"])
p("C40","find_groups returns exactly the matching groups",
  "find_groups by name, notes, uuid (values without double quotes, regex off), recursive or not, under any group, returns exactly the matching groups each once in document order; first=True returns the first of them or None.",
  "all documents and criteria","infinite",[f"{PK}:find_groups",f"{XP}:group_xp"])
p("C41","Paths lead back to elements",
  "For every entry (group) whose ancestors and itself have non-empty names without double quotes, find_entries(path=e.path) (find_groups) returns the first entry in document order having that path; it is e itself when no other element has the same path.",
  "all documents and elements","all tree shapes, depths and names",[f"{EN}:path",f"{GR}:path",f"{PK}:_find",f"{XP}:path_xp"])
p("C42","Tag search finds entries having all tags",
  "find_entries(tags=ts) returns exactly the entries having every tag of ts.",
  "all tag lists","substring coincidences",[f"{PK}:_find",f"{XP}:entry_xp"])
# ---------- entry fields ----------
p("C43","Field assignment is read back and isolated",
  "After assigning a string to title, username, password, url, notes, otp or a custom property of an entry, that property reads back the assigned string, every other property of the entry and every other element of the database is unchanged.",
  "all databases, entries, keys and values","all states and values",[f"{EN}:_set_string_field",f"{EN}:_get_string_field"])
p("C44","Protection flag is preserved",
  "Assigning a string field keeps the field's protection flag; a password or OTP that was absent or empty becomes protected; set_custom_property(protect=b) sets exactly b.",
  "all histories of assignments","histories",[f"{EN}:_set_string_field",f"{EN}:password",f"{EN}:otp",f"{EN}:is_custom_property_protected"])
p("C45","A rejected assignment changes nothing",
  "If assigning a field raises (e.g. None or a string with control characters) the entry keeps its old value.",
  "all values","tests never assert state after a failure",[f"{EN}:_set_string_field",f"{BE}:_set_subelement_text"])
p("C46","Custom properties behave like a dictionary",
  "custom_properties maps exactly the non-reserved keys to their values; set/get/delete act on it like dictionary update, lookup and delete; deleting a missing key raises and changes nothing; reserved keys are rejected.",
  "all sequences of operations and keys","operation histories",[f"{EN}:set_custom_property",f"{EN}:delete_custom_property",f"{EN}:custom_properties"])
p("C47","Tags round-trip",
  "Assigning a list of non-empty tags containing neither ',' nor ';' is read back as the same list.",
  "all tag lists","infinite",[f"{EN}:tags"])
p("C48","Sub-element properties (icon, name, notes, uuid, times, expires) read back",
  "Assigning icon, uuid, group name/notes, a time property, or expires reads back the assigned value and leaves other properties of that element and all other elements unchanged.",
  "all databases and values","all states",[f"{BE}:_set_subelement_text",f"{BE}:_set_times_property",f"{BE}:expires"])
p("C49","touch updates exactly the access (and modification) time",
  "touch() sets the access time to now, touch(modify=True) also the modification time, and nothing else changes.",
  "all elements and instants","all states",[f"{BE}:touch"])
p("C50","expired is consistent with expires and expiry_time",
  "expired is False when expires is False or unset, and otherwise tells whether now is after expiry_time.",
  "all states and clocks","clock values",[f"{BE}:expired"])
# ---------- structure ----------
p("C51","add_entry adds exactly one entry",
  "add_entry to a group of the database either raises leaving the document unchanged, or appends exactly one new entry with the given fields as last child of the group; all other elements are unchanged. It raises for a duplicate exactly when force_creation is off and an entry directly in the group has the same title and username (None ignored).",
  "all databases, groups and arguments","all states",[f"{PK}:add_entry",f"{EN}:__init__"])
p("C52","Documented None arguments of add_entry are accepted",
  "add_entry accepts None for title, username and password as documented.",
  "the argument combinations with None","no test passes None",[f"{PK}:add_entry",f"{EN}:__init__"])
p("C53","delete removes exactly the element and its subtree",
  "After delete_entry / delete_group the element and its descendants are no longer found by any search, and every other entry and group, their order and fields are unchanged.",
  "all databases and elements","all states",[f"{BE}:delete",f"{PK}:delete_entry",f"{PK}:delete_group"])
p("C54","move relocates without loss or duplication",
  "move_entry/move_group makes the element the last child of the destination, keeps its subtree and UUID, leaves all other elements unchanged; moving a group into itself or a descendant raises and changes nothing.",
  "all databases, elements and destinations","all states",[f"{PK}:move_entry",f"{PK}:move_group",f"{GR}:append"])
p("C55","Recycle bin",
  "trash_entry/trash_group moves the element below the recycle bin group, creating the bin (once) under the root group and recording its UUID when missing; the root group and the bin itself are refused with UnableToSendToRecycleBin and nothing changes; trashed content is never lost.",
  "all databases and histories of trash operations","histories",[f"{PK}:trash_entry",f"{PK}:trash_group",f"{PK}:_create_or_get_recyclebin_group",f"{PK}:_can_be_moved_to_recyclebin"])
p("C56","empty_group terminates and empties",
  "empty_group terminates for every group; afterwards the group has no entries and no subgroups, its own properties and every element outside it are unchanged.",
  "all groups of any size and depth","unbounded loop",[f"{PK}:empty_group"])
p("C57","reindex puts the entry at the requested position",
  "If the entries of a group are contiguous, e.reindex(i) for 0 <= i < n makes e.index == i and keeps the relative order of the other entries.",
  "all groups and positions","all sizes and positions",[f"{EN}:reindex",f"{EN}:index",f"{GR}:_first_entry"])
p("C58","index counts entries",
  "e.index is the number of entries preceding e in its group.",
  "all groups, including ones with subgroups between entries","layout histories",[f"{EN}:index",f"{GR}:_first_entry"])
p("C59","History snapshots are faithful and flat",
  "save_history appends to the history exactly one snapshot with the entry's current fields; snapshots never contain history themselves; existing snapshots and the live fields are unchanged; later edits of the entry do not change snapshots.",
  "all entries and edit histories","histories",[f"{EN}:save_history",f"{EN}:history"])
p("C60","delete_history removes exactly what was asked",
  "delete_history(h) removes exactly h; delete_history(all=True) removes all snapshots; the live entry is unchanged.",
  "all entries","states",[f"{EN}:delete_history"])
# ---------- attachments ----------
p("C61","Binary ids are stable positions",
  "add_binary returns an id under which the data is read back, and existing ids keep their data; this holds after any history of add_binary and delete_binary on a database whose binary IDs start in order.",
  "all histories of binary operations (KDBX3 and KDBX4)","histories",[f"{PK}:add_binary",f"{PK}:binaries",f"{PK}:delete_binary"])
p("C62","delete_binary keeps every other attachment's data",
  "After delete_binary(id) every attachment that referred to the deleted binary is gone and every other attachment (including those of history entries) still yields the same data as before.",
  "all databases and ids","needs attachments in history or negative ids",[f"{PK}:delete_binary"])
p("C63","KDBX3 binary IDs in the file match references",
  "In a KDBX3 file written by the library every attachment reference equals the ID attribute of the binary it denotes (as the format requires).",
  "all histories","histories",[f"{PK}:delete_binary",f"{PK}:add_binary"])
p("C64","Attachments of a history entry are visible",
  "The attachments of a history snapshot are those the entry had when it was archived.",
  "all entries","states",[f"{EN}:attachments",f"{PK}:find_attachments"])
# ---------- references ----------
p("C65","ref/deref round trip",
  "For an entry with unique UUID and a string field without reference syntax, deref(e.ref(field)) equals the field; text around references is kept; a dangling reference yields None; a value without references is returned unchanged.",
  "all databases and field values","infinite",[f"{PK}:deref",f"{EN}:ref"])
p("C66","deref terminates",
  "deref returns for every value and database.",
  "all databases including cyclic references","cycles",[f"{PK}:deref"])
p("C67","deref supports UUID references",
  "A reference that asks for the UUID field ({REF:I@...}) is resolved as documented.",
  "all such references","never tested",[f"{PK}:deref"])
# ---------- identity, credentials ----------
p("C68","Equality of entries and groups is UUID equality",
  "Two elements compare equal exactly if their UUIDs are equal.",
  "all pairs of UUIDs","hash collisions",[f"{BE}:__eq__",f"{BE}:__hash__"])
p("C69","Changing credentials takes effect on save",
  "After assigning password (or keyfile) and saving, the saved file is keyed by the new credentials and records the time of change.",
  "all databases and credentials","infinite",[f"{PK}:password",f"{PK}:keyfile",f"{PK}:save"])
p("C70","Credential expiry rule",
  "credchange_required (recommended) is True exactly when a change date is recorded, the configured number of days is not -1, and more than that many whole days have passed.",
  "all dates, day counts and clocks","all clock values",[f"{PK}:credchange_required",f"{PK}:credchange_recommended"])
# ---------- whole histories ----------
p("C71","Document integrity under every operation history",
  "After any finite sequence of API operations on a well-formed database (adding, deleting, moving, trashing, editing, history, attachments) the document is still well formed: every element occurs once, the root group is in place and no element was lost except by an explicit delete.",
  "all finite operation histories","unbounded histories",[f"{PK}:PyKeePass",f"{EN}:Entry",f"{GR}:Group"])
p("C72","XML text is lossless",
  "Every document whose texts are XML-legal is read back unchanged from its serialised form (carriage returns, quotes, ampersands, non-ASCII included), except that empty text becomes absent text.",
  "all documents","infinite",[f"{CO}:XML"])
p("C73","Group/entry parent, path and listing agree",
  "g.entries and g.subgroups are exactly the entries/groups whose parent group is g, and find_*(group=g, recursive=False) agrees with them.",
  "all documents","all shapes",[f"{GR}:entries",f"{GR}:subgroups",f"{BE}:group",f"{PK}:find_entries"])
p("C74","Auto-type settings read back",
  "Assigning autotype_enabled, autotype_sequence or autotype_window on an entry created by the library reads back the assigned value (the empty string as None) and changes nothing else.",
  "all entries and values","states",[f"{EN}:autotype_enabled",f"{EN}:autotype_sequence",f"{EN}:autotype_window"])
# ---------- added while modelling ----------
p("C75","Files of an unsupported format version are rejected",
  "Opening a file with a valid signature whose major version is neither 3 nor 4 raises; in particular it can never be opened and then overwritten by save() with anything less than its full content.",
  "all byte strings offered as files","all version numbers and contents",[f"{KX}:KDBX",f"{PK}:read",f"{PK}:save"])
p("C76","find_attachments returns exactly the matching attachments",
  "find_attachments by filename and id (values without double quotes), recursive or not, under any entry or group, returns exactly the matching attachments each once in document order; a search without criteria lists all attachments.",
  "all documents and criteria","documents and criteria are infinite",[f"{PK}:find_attachments",f"{PK}:_find",f"{XP}:attachment_xp"])
p("C77","Database settings read back",
  "Assigning the database name, description, default user name, the credential change date or the two day counts reads back the assigned value and changes nothing else in the document.",
  "all databases that store the setting once, all values","values and documents are infinite",[f"{PK}:database_name",f"{PK}:database_description",f"{PK}:default_username",f"{PK}:credchange_date",f"{PK}:credchange_required_days",f"{PK}:credchange_recommended_days"])

p("C78","Every conforming file opens to what it says",
  "Every file laid out as the KDBX 3.1/4 format prescribes (any program, any block sizes, field order, compression output, AES/Twofish/ChaCha20, AES-KDF/Argon2d/Argon2id, Salsa20/ChaCha20/no inner stream) opens under matching credentials to exactly its document, protected values included, and attachments; its outer header is kept byte for byte.",
  "all conforming files, all credentials","the files are infinite, and samples come from few programs",[f"{KX}:KDBX",f"{PK}:read",f"{CO}:compute_key_composite",f"{CO}:aes_kdf",f"{CO}:UnprotectedStream"])
p("C79","Every saved file is conforming",
  "A conforming file that is opened, changed at will and saved, under the same or new credentials, is again laid out as the format prescribes, keyed by the new credentials, with the same outer header and exactly the new document and attachments, so that any program following the format reads it.",
  "all conforming files, documents, attachments and credentials","reopening with the same library cannot show that other programs can read the file",[f"{KX}:KDBX",f"{PK}:save",f"{CO}:aes_kdf",f"{CO}:UnprotectedStream"])

p("C80","A saved database opens to what was in memory",
  "After any history of opens, reads, reloads, calls, credential changes and saves, a save() that returns has written a file which opens with the credentials in use (and every other combination of credentials deriving the same key) to the document and attachments in memory, and reload() shows the same; save() does return if the directory is writable, there is room and the credentials give a key. The key file must be readable again: a seekable stream, or a file that is neither the database nor its .tmp sibling.",
  "all histories, worlds of files and streams, credentials","histories and contents are unbounded",[f"{PK}:save",f"{PK}:read",f"{PK}:reload",f"{CO}:compute_key_composite"])
p("C81","The transformed key opens the file it was read from",
  "db.transformed_key of an opened database, given alone as transformed_key, opens the same file to the same contents.",
  "all files and credentials","infinite",[f"{PK}:transformed_key",f"{PK}:read"])
p("C82","The transformed key stays valid across save",
  "After save(), db.transformed_key opens the saved file.",
  "all histories","histories of credential changes",[f"{PK}:transformed_key",f"{PK}:save"])

p("C83","entries, groups and attachments list everything that is live",
  "db.entries, db.groups and db.attachments list exactly the entries, groups and attachments of the document that are not inside a history, in document order; entry.attachments lists exactly the attachments of a live entry, and attachment.entry of each gives that entry back.",
  "all documents","document trees are unbounded",[f"{PK}:entries",f"{PK}:groups",f"{PK}:attachments","pykeepass/entry.py:attachments","pykeepass/attachment.py:entry"])
p("C84","Assigning filename or id of an attachment changes only that attachment",
  "After attachment.filename = x it reads x, its data is the same and nothing else in the database changed; after attachment.id = n it reads n, attachment.binary gives binary n (BinaryError if there is none), and the data of every other attachment is the same. A file name XML cannot hold raises and changes nothing.",
  "all documents of both versions, attachments, names, numbers","document trees and values are unbounded",["pykeepass/attachment.py:filename","pykeepass/attachment.py:id","pykeepass/attachment.py:binary"])
p("C85","add_group adds exactly one group",
  "add_group appends one new, empty group to the destination; its name, icon, notes, uuid and times read back as given; subgroups of the destination has it last; nothing else changes; if it raises the database is unchanged.",
  "all documents, destinations, names, icons, notes","document trees and strings are unbounded",[f"{PK}:add_group","pykeepass/group.py:__init__"])
p("C86","Group.append adds copies",
  "group.append(entries) adds copies of the entries to the group, as its documentation says: the entries stay where they were.",
  "all documents, groups and lists of entries","document trees and lists are unbounded",["pykeepass/group.py:append"])
p("C87","History entries are exactly what the history property lists",
  "entry.history lists the snapshots of the entry in document order; is_a_history_entry is true of these and false of everything db.entries lists.",
  "all documents","document trees are unbounded",["pykeepass/entry.py:history","pykeepass/entry.py:is_a_history_entry",f"{PK}:entries"])
p("C88","Printing shows path and user name only",
  "str() of an entry is determined by its path and user name (so never shows the password or other fields), that of a group by its path, that of an attachment by its file name and number; printing changes nothing and never raises.",
  "all documents and elements","document trees and strings are unbounded",["pykeepass/entry.py:__str__","pykeepass/group.py:__str__","pykeepass/attachment.py:__repr__"])
p("C89","The older search functions agree with the general ones",
  "find_entries_by_title/username/password/url/notes/uuid/string/path and find_groups_by_name/notes/uuid/path return exactly the entries (groups) with that value, below the given group, histories only when asked for, in document order, or the first of them with first=True; a path gives one result.",
  "all documents, values without double quotes, options","documents, values and option combinations are unbounded",["pykeepass/deprecated.py"])
p("C90","The string fields of an entry behave as an ordered ledger under every sequence of calls",
  "For every sequence of assignments (accepted or rejected), deletions and reads of the built-in and custom string properties of an entry, every call answers as a simple ordered list of (key, value, protection flag) would, in which writing a key strikes out its old line and appends the new one; nothing outside the entry changes.",
  "all documents, entries without duplicate keys, all finite sequences of calls with keys free of double quotes","sequences of calls and their arguments are unbounded",["pykeepass/entry.py:_set_string_field","pykeepass/entry.py:set_custom_property","pykeepass/entry.py:delete_custom_property","pykeepass/entry.py:custom_properties"])
p("C91","Databases in streams",
  "Saving to a stream writes at the stream's position: bytes before it, bytes after what is written, files and other streams keep their contents, also when saving raises. Reading from where the database starts gives the contents saved and leaves the stream behind it, so any number of databases can be written and read one after another. Saving a database opened from a stream replaces it there, and reload after save returns.",
  "all databases, stream contents and positions, and sequences of databases","stream contents, positions and numbers of databases are unbounded",[f"{PK}:save",f"{PK}:read",f"{PK}:reload"])
p("C92","xml() and dump_xml show the document in memory, in the clear",
  "Whatever calls led to the object, xml() returns, and reading the result as XML gives the document in memory (up to empty texts and white space between elements). Every text in the document, including protected values such as passwords, stands in it unencrypted. dump_xml writes exactly these bytes to the named file and no other file; if it fails the file holds a beginning of them (an older file is not kept), or is untouched if it could not be opened. dump_xml of an entry or group reads back as that element.",
  "all databases reached by any calls, all texts, all failure points","documents, texts and failure points are unbounded",[f"{PK}:xml",f"{PK}:dump_xml","pykeepass/baseelement.py:dump_xml"])
p("C93","What the API reads before saving, it reads after saving and opening again",
  "Whatever calls led to the database, after a save that returned and opening the file (or reload, or reading the stream) every element is at its place, and every property of entries, groups and attachments, every list, path, search and attached binary, and the database's own properties read as before, except that an empty string reads as None and is no longer found by searching for an empty value.",
  "all databases reached by any calls, all elements, all properties, searches with non-empty values, both versions","databases, call sequences and queries are unbounded",[f"{PK}:save",f"{PK}:read",f"{PK}:find_entries","pykeepass/entry.py","pykeepass/group.py","pykeepass/attachment.py"])
p("C94","Calls change nothing in entries, groups and snapshots they are not about",
  "Through any sequence of calls, an entry or group that no call was made on, into or out of (nor on anything in it) keeps every field, time, attachment, child and history snapshot exactly; in particular snapshots in an entry's history never change through edits of the entry, however the history grows. Removing a binary is about every entry that has attachments.",
  "all databases, all sequences of the 32 kinds of calls (returning or raising), all parts made of entries and groups","sequences of calls and databases are unbounded; tests look at the element a call is about, not at all others",[f"{PK}:add_entry",f"{PK}:trash_group",f"{PK}:empty_group",f"{PK}:delete_binary","pykeepass/entry.py:save_history","pykeepass/entry.py:_set_string_field","pykeepass/group.py:append"])
p("C95","version, encryption_algorithm, kdf_algorithm and database_salt are what the file's header says",
  "For every file with a conforming KDBX 3 or 4 header that opens, with any credentials and decrypt either way, version is the file's, encryption_algorithm names the cipher of the header, kdf_algorithm its key derivation function and database_salt is its salt.",
  "all files with conforming headers, all versions, ciphers and key derivation settings","headers and versions are unbounded; sample files cover a few settings and two versions",[f"{PK}:version",f"{PK}:encryption_algorithm",f"{PK}:kdf_algorithm",f"{PK}:database_salt"])
p("C96","A damaged protected value costs nothing but itself",
  "If the text of some protected values in an otherwise conforming file was damaged, the file still opens, the damaged values are shown as they are stored or as what they decrypt to, and every other value is shown as it was.",
  "all files, all damaged values, Salsa20 and ChaCha20","files, places and kinds of damage are unbounded; a wrong key stream position shows as wrong text only",["pykeepass/kdbx_parsing/common.py:UnprotectedStream","pykeepass/kdbx_parsing/common.py:Salsa20Stream","pykeepass/kdbx_parsing/common.py:ChaCha20Stream"])
p("C97","xpath() with a query of the user",
  "Elements found by xpath() are elements of the tree searched, each at most once and in document order; with first=True the result is the first of them or None; with cast=True they are the Entry, Group and Attachment objects for these elements, in the same order, and an exception is raised if one of the results is none of these; '//Tag' finds all elements with that tag and './/Tag' with tree= all of them below that element. The database is not changed.",
  "all documents, query strings, trees and options","queries and documents are unbounded",[f"{PK}:xpath"])
p("C98","An attachment yields the data it was made with, through any calls",
  "Through any sequence of add_binary, delete_binary, add_attachment and delete_attachment calls (also ones that raise), every attachment, however its reference is renumbered, yields the data it was made with as long as neither it nor its binary is deleted; when its binary is deleted it leaves the document, and it never comes back.",
  "all documents of both versions, all sequences of these calls, all attachments and data","sequences of calls are unbounded; ids shift with every deletion",[f"{PK}:add_binary",f"{PK}:delete_binary","pykeepass/entry.py:add_attachment","pykeepass/entry.py:delete_attachment","pykeepass/attachment.py:binary"])

p("C99","Saving again what was opened writes the same file",
  "Whatever calls led to a database in memory: once it was saved, opening the file and saving without changes writes the same bytes, at once if the document had no empty texts and no white space between elements in memory, and otherwise from the second save on; nothing random or time dependent enters a saved file, wherever it is saved and with whatever credentials deriving the same key.",
  "all databases reachable by calls, both versions, all credentials, paths and file systems","comparing files over every history of calls needs quantification over all documents",[f"{PK}:save",f"{PK}:read","pykeepass/kdbx_parsing/kdbx4.py:Body","pykeepass/kdbx_parsing/kdbx3.py:Body","pykeepass/kdbx_parsing/common.py:XML"])
p("C100","Several objects on one file: the last save wins, reload takes over",
  "What save writes is determined by the object and the derived key alone: the bytes at the target before, saves of other objects in between and the path do not matter. After another object saved to the path, reload with credentials that derive the key gives exactly what was saved, replacing all unsaved changes. Changes that another object saved since this one was opened are not merged: a save silently replaces them.",
  "all objects reachable by calls, all file systems, paths and credentials","interleavings of several objects' calls are unbounded",[f"{PK}:save",f"{PK}:reload",f"{PK}:read"])

p("C101","With the published algorithms nothing more need be assumed: a saved database opens to what was in memory",
  "With SHA-2, HMAC, AES, ChaCha20, Salsa20, Argon2, DEFLATE and XML as published, decryption undoes encryption, decompression undoes compression and parsing undoes printing for all inputs. So after any calls a database that was saved without error opens, with the credentials in use, to the contents in memory, without any assumption about the libraries.",
  "all inputs of the algorithms, all objects reachable by calls, all environments that do not lose writes","that decryption undoes encryption, decompression compression and parsing printing is a claim about all inputs",[f"{PK}:PyKeePass",f"{PK}:save",f"{PK}:read"])
p("C102","What can be saved can be opened again, however large",
  "If save() returns without raising, opening the file with the same credentials gives back the contents, however deeply groups are nested and however long texts are.",
  "all objects reachable by calls, all environments that do not lose writes","nesting and lengths are unbounded and the limit lies in another library",[f"{PK}:save",f"{PK}:read",f"{PK}:add_group"])
p("C103","Groups and entries form a tree, and each call changes it as its name says",
  "Every group has one outline: the tree of the groups and entries in it, in order. add_entry and add_group put one new leaf at the end of the destination; move_entry, move_group and Group.append take the moved item with everything in it from where it was and put it at the end of the destination; delete_entry, delete_group take it away with everything in it; trash moves it to the recycle bin, made at the end of the root group if there is none; empty_group clears the group; Entry.reindex puts the entry elsewhere among the members of its group; every other call leaves outlines as they are. A call that raises leaves them as they are too, except that a bin may have been made and that append has moved the members before the one refused. After any history of calls Group.entries, Group.subgroups, .group, kp.entries and kp.groups are what the outline so computed shows.",
  "all documents laid out as KeePass does, all histories of the 32 kinds of calls, all groups and entries","the state after a history is the composition of many changes to nested structure",[f"{PK}:add_entry",f"{PK}:add_group",f"{PK}:move_entry",f"{PK}:move_group",f"{PK}:delete_entry",f"{PK}:delete_group",f"{PK}:trash_entry",f"{PK}:trash_group",f"{PK}:empty_group",f"{PK}:entries",f"{PK}:groups","pykeepass/group.py:append","pykeepass/entry.py:reindex"])

p("C104","A property reads as last assigned, whatever else was called since",
  "The UUID, icon, tags, name, notes, creation, access, modification and expiry time, expiry flag and auto-type settings of an entry or group behave as variables: through any history of calls on the database -- edits of other properties, moves, snapshots, trashing, deletions, changes of other entries and of binaries and settings -- reading one gives the value last assigned to it (touch assigns the access time, and the modification time when modifying), or what it was at the start.",
  "all documents laid out as KeePass does, all entries and groups, all ten kinds of properties, all histories of the 32 kinds of calls","every kind of call would have to be tried against every property of every element, in all orders",["pykeepass/baseelement.py:uuid","pykeepass/baseelement.py:icon","pykeepass/baseelement.py:expires","pykeepass/baseelement.py:mtime","pykeepass/baseelement.py:touch","pykeepass/entry.py:tags","pykeepass/entry.py:autotype_enabled","pykeepass/group.py:name","pykeepass/group.py:notes"])

p("C105","The string fields of an entry are written by its own calls only, whatever else happens",
  "Through any history of calls on the database -- snapshots, moves, trashing, deletions, edits of other entries, of attachments, binaries and settings -- the title, user name, password, URL, notes, OTP and custom properties of an entry, with their protection flags, are exactly what the assignments and deletions made on this entry give when played alone on an ordered list of keys, values and flags; each of these calls ends as it does there (accepted, or with the same exception), and all readers (properties, get_custom_property, is_custom_property_protected, custom_properties) answer from that list.",
  "all documents laid out as KeePass does, all entries without duplicate keys, in or out of the document, all histories of the 32 kinds of calls with keys free of double quotes","every interleaving of calls on one entry with calls on the rest of the database",["pykeepass/entry.py:_set_string_field","pykeepass/entry.py:_get_string_field","pykeepass/entry.py:set_custom_property","pykeepass/entry.py:delete_custom_property","pykeepass/entry.py:custom_properties","pykeepass/entry.py:is_custom_property_protected"])
p("C106","A setting of the database reads as last assigned, whatever else was called since",
  "database_name, database_description, default_username, the days after which credentials should or must be changed and the date of their last change behave as variables: through any history of calls, reading one gives what was last assigned to it, or what it was at the start; whether a change is due at a given time depends on the date and the days only.",
  "all documents laid out as KeePass does, all settings, all histories of the 32 kinds of calls","every kind of call would have to be tried against every setting, in all orders",[f"{PK}:database_name",f"{PK}:database_description",f"{PK}:default_username",f"{PK}:credchange_required_days",f"{PK}:credchange_recommended_days",f"{PK}:credchange_date",f"{PK}:credchange_required"])
p("C107","UUIDs stay different",
  "If no two of a group and the groups and entries in it have one UUID, this holds after any history of calls in which the UUIDs drawn for new entries, groups and the bin and those assigned are not there already and only what is in the group is moved or thrown away; searching by UUID then finds at most one entry and one group. Without these conditions it can fail: a snapshot moved out of a history has the UUID of its entry, and assigning a UUID that another entry has is not refused.",
  "all documents laid out as KeePass does, all groups, all histories of the 32 kinds of calls, all UUIDs drawn","tests draw a few UUIDs and look at a few entries; uniqueness is about all pairs after all histories",[f"{BE}:uuid",f"{PK}:add_entry",f"{PK}:add_group",f"{PK}:trash_entry",f"{PK}:find_entries",f"{GR}:append"])
p("C108","Texts are written as UTF-8, and only texts that have it",
  "A text is written as the UTF-8 bytes of RFC 3629 and bytes are read as the text they spell, no others being accepted; without a key file the key is made of exactly the bytes of the password, so different passwords are different bytes. A password with a lone surrogate opens no file and saves none (UnicodeEncodeError), and the database in memory stays as it was.",
  "all texts, all byte strings, all passwords, all databases","passwords in tests are ASCII; the encoding has boundaries at every length of sequence and at the surrogates",[f"{CO}:compute_key_composite",f"{CO}:UnprotectedStream"])
p("C109","The location of an element leads back to it",
  "The XPath expression an entry, group or attachment reports as its location, given to xpath(), finds that element and nothing else, wherever it is in the document and however many siblings it has.",
  "all documents, all elements","positions among siblings of equal tag have boundaries at one, at the first and at the last; tests look at one entry",[f"{BE}:_path",f"{PK}:xpath"])

p("C110","Asking changes nothing",
  "Reading properties, searching, following references, printing and listing leave the database, its credentials and its header exactly as they were, whether they return or raise; so a session ends with the same database, and each of its changes has the same outcome, wherever such calls are made in between.",
  "all databases, all arguments, all sessions of changing and asking calls","a getter that creates what it misses, or converts what it finds, shows only in a comparison of whole databases after sequences nobody tests",[f"{BE}:group",f"{EN}:custom_properties",f"{PK}:find_entries",f"{PK}:deref",f"{AT}:data"])

p("C111","A call that raises leaves no trace",
  "When a call that changes the database raises an exception, the document, the attached binaries and the version are as they were before it, so that saving afterwards writes what it would have written without the call.",
  "all databases, all calls, all arguments that make them raise","the ways a call can fail half-way are not enumerable by tests: each depends on a text, an element or a place in the tree that is wrong in its own way",[f"{PK}:add_entry",f"{PK}:add_group",f"{PK}:move_entry",f"{BE}:touch",f"{EN}:delete_history",f"{EN}:add_attachment","pykeepass/group.py:append"])

p("C112","What is added and deleted again leaves nothing behind",
  "When an entry or group is added, worked on in any way that only concerns it and what is put into it, and deleted again, the document, the attached binaries and the version are exactly as before, so that saving afterwards writes what it would have written if it had never been there. (Binaries stored in the database meanwhile do stay.)",
  "all databases, all new entries and groups, all sequences of calls in between, whether they raise or not","the calls in between can be any number and in any order; tests try a few and compare a few values, not the whole document",[f"{PK}:add_entry",f"{PK}:add_group",f"{PK}:delete_entry",f"{PK}:delete_group",f"{BE}:delete",f"{EN}:save_history"])

p("C113","What is done and taken back leaves the document as it was",
  "An attachment added and deleted, a snapshot taken and deleted, a new custom property set and deleted, an entry or group moved to another group and back: afterwards the document, the attached binaries and the version are exactly as before.",
  "all databases, entries, groups, file names, keys and values","tests read back single values; that nothing else of the document differs, down to the order of elements, needs all documents",[f"{EN}:add_attachment",f"{EN}:delete_attachment",f"{EN}:save_history",f"{EN}:delete_history",f"{EN}:set_custom_property",f"{EN}:delete_custom_property",f"{PK}:move_entry",f"{PK}:move_group"])

p("C114","Assigning the same value again changes nothing",
  "After a property of an entry or group (title, user name, password, URL, notes, TOTP, custom properties, UUID, icon, tags, name, times, expiry, auto-type), the file name or number of an attachment, or a setting of the database (name, description, default user name, days and date of the change of credentials) was assigned, assigning the same value once more succeeds and leaves the document, the attached binaries and the version exactly as they were.",
  "all databases, entries, groups, properties and values that were accepted the first time","tests assign once; that a second assignment neither reorders, duplicates nor re-marks anything needs all documents and values",[f"{EN}:_set_string_field",f"{EN}:set_custom_property",f"{EN}:password",f"{EN}:otp",f"{EN}:tags",f"{BE}:_set_subelement_text",f"{BE}:_set_times_property",f"{BE}:expires",f"{GR}:name",f"{GR}:notes",f"{PK}:database_name",f"{PK}:credchange_date",f"{PK}:credchange_required_days",f"{AT}:id",f"{AT}:filename"])

p("C115","Of several assignments to a property only the last counts",
  "Assigning a property of an entry or group (title, user name, password, URL, notes, TOTP, custom properties, UUID, icon, tags, name, times, expiry, auto-type), the file name or number of an attachment, or a setting of the database (name, description, default user name, days and date of the change of credentials) and then assigning it another value leaves the same document, the same attached binaries and the same version as assigning the second value alone.",
  "all databases, entries, groups, properties and pairs of values that are accepted","tests assign one value and read it back; that no trace of an earlier value remains anywhere in the document needs all documents and pairs of values",[f"{EN}:_set_string_field",f"{EN}:set_custom_property",f"{EN}:password",f"{EN}:otp",f"{EN}:tags",f"{BE}:_set_subelement_text",f"{BE}:_set_times_property",f"{BE}:expires",f"{GR}:name",f"{GR}:notes",f"{PK}:database_name",f"{PK}:credchange_date",f"{PK}:credchange_required_days",f"{AT}:id",f"{AT}:filename"])

p("C116","Assignments to different things may be made in either order",
  "When two assignments (properties of entries and groups, file names and numbers of attachments, settings of the database) are to different things and succeed in one order, they succeed in the other order and leave the same document, the same attached binaries and the same version.",
  "all databases, pairs of assignments and values","tests make assignments in one order; that no assignment depends on or disturbs another needs all pairs and all documents",[f"{EN}:_set_string_field",f"{EN}:set_custom_property",f"{EN}:autotype_enabled",f"{EN}:tags",f"{BE}:_set_subelement_text",f"{BE}:_set_times_property",f"{BE}:expires",f"{GR}:name",f"{PK}:database_name",f"{PK}:credchange_date",f"{AT}:id",f"{AT}:filename"])
p("C117","Deletions may be made in either order, and before or after assignments",
  "When two entries, groups or attachments (be one inside the other) are deleted in one order without an exception, deleting them in the other order succeeds too and leaves the same document, attached binaries and version. The same holds for deleting one of them and assigning a time, the expiry, an auto-type setting, the file name or number of an attachment or a setting of the database, whichever comes first; and its string fields, UUID, icon, tags, name or notes, for an entry or group laid out as KeePass does, when what is deleted has a parent and is not inside what the property is stored in.",
  "all databases, pairs of elements, assignments and values","tests delete in one order; that no deletion depends on or disturbs another needs all pairs and all documents",[f"{BE}:delete",f"{AT}:delete",f"{BE}:_set_times_property",f"{BE}:expires",f"{EN}:autotype_enabled",f"{PK}:database_name",f"{AT}:id",f"{AT}:filename"])

out=os.path.join(os.path.dirname(os.path.abspath(__file__)),"..","properties.jsonl")
with open(out,"w") as f:
    for q in P: f.write(json.dumps(q,ensure_ascii=False)+"\n")
print(len(P))
