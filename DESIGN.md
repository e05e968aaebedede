# A Rocq model of pykeepass

The repository is read as text; nothing of it was run.  The model is in `rocq/theories`, the properties
in `properties.jsonl`, their status in `MANIFEST.json`, the wrong programs the theorems were tried on
in `seeded/LOG.jsonl`.  This file is put together by `tools/gen_design.py`.

In the log `theorems_failed` names the lemmas at which a rebuild was seen to stop.  `theorems_depending`
names the theorems that use them, read off the sources at the time of the run: they were not reached by
the rebuild, and none is recorded for the earliest runs.  Rebuilds that ran out of time or memory are
marked inconclusive (`files_stopped`), and two attempts that tried no theorem are marked as not valid.
An edit tried more than once has one line, with the last run; `survived_first_run` is about the first.
Earlier versions of the log had both kinds of names in `theorems_failed`, counted the inconclusive runs
as failures and left out the two invalid ones.

## Method

Executable Gallina functions mirror the Python functions branch by branch; each carries a comment with
the file and lines it models and what it simplifies.

* Exceptions are values (`res A := Ok a | Err exn`).  Calls that change the object run in a monad
  `M A := db -> res A * db`: the state survives an exception, as in Python.
* Text (`str`) and bytes are lists of `N` (code points, octets).
* lxml trees are forests of elements with identity: detached elements stay in the forest, as Python
  objects referring to them do.  The primitives (`append`, `insert`, `remove`, `text=`, `attrib[..]=`)
  raise where lxml raises (illegal characters, non-children, an ancestor appended to a descendant).
* The XPath strings the code builds are built as strings, then lexed, parsed and evaluated by a model of
  the XPath subset, so that quoting errors of the code are errors of the model.
* Recursion without a structural measure (deref) takes fuel; running out of fuel is a separate error value
  which the statements exclude or, for divergence, show for every amount of fuel.

Specifications are separate (`*Spec.v`): they describe the document as a map from element numbers to
rows (tag, attributes, text, children), the file format as published (`FormatSpec.v`), Twofish as
published (`TwofishSpec.v`), and so on, without the functions of the model.  `Prop_*.v` contain the
property theorems, each closed by `exact` of a lemma, followed by `Print Assumptions` and an `Example`
with a concrete, non-trivial case that meets the hypotheses.

A property false of the code is kept as stated; `…_refuted` gives a witness computed by `vm_compute`, and
`…_partial` says for which inputs it does hold.

## Trusted base

* Coq 8.16.1's kernel (with its `vm_compute`).
* `Print Assumptions` says "Closed under the global context" for every theorem listed in
  `MANIFEST.json`: no axioms, neither own nor of the standard library.  (The seven `ssrunder` constants a
  checker may list come with Coq's own ssreflect plugin library; no theorem depends on them.)
* That the model is the code: it was written from the text of /repo and from what is known of the behaviour of
  CPython 3, lxml, construct 2.10 and pycryptodome (none of them available here, none of them run).
  Evidence (C101): with the published algorithms in place of the libraries (`Real.v`) the model opens the
  project's sample databases and passes the project's unit tests transcribed in `Conform.v`, `Conform_save.v`.
  These files, and `RealFiles.v` (the bytes of the samples), model no code of /repo.  Their results are computed
  by `Eval vm_compute` while building and the build fails if one is not as expected; they are not theorems
  (`coqchk` has no virtual machine by default and would need hours for them).
* External libraries are records of functions over which the theorems quantify.  What is assumed of them
  is a premise of each theorem and is satisfied by a small concrete instance (`Toy.v`, `BinEx.v`) and by the
  published algorithms (`Real.v`, `Real_facts.v`):
  - `lib_ok`: hash and MAC outputs have the right size; AES decryption undoes encryption on a block;
    keystreams are bytes; gunzip undoes gzip; parsing a serialised document gives the document back (with
    empty texts absent) if it is within the limits of lxml's parser (`lxml_reads`: nesting 256, texts and names of
    10 MB and 50 kB; beyond them see C102; the step limits of XPath evaluation are left out).  No cryptographic strength is assumed: where the property is about
    forgery, the theorem's conclusion has the alternative "or here are two different messages with the same
    tag".
  - `xml_sound`: what the XML parser returns can be serialised again.  Proved for the XML codec of `Xml.v`
    (`Xml_sound.v`), assumed of lxml.
  - `libs_calm`: the libraries raise none of the exceptions that `read` turns into credential or checksum errors.
  - `zlib_ok`: compressed binaries decompress to themselves.
  - regular expressions (`regex`), the clock, `uuid1` and the local time zone are arbitrary functions; where
    "dot-star matches everything" or "the clock shows UTC" is needed it is a premise.

## What is modelled

| code | model | left out or simplified |
|---|---|---|
| `kdbx_parsing/pytwofish.py`, `twofish.py` | Twofish.v, Cbc.v | modes other than CBC (unused by the code) |
| `kdbx_parsing/common.py` | Keyfile.v (106-177), Kdbx.v (46-103, 180-409), Lib.v | ARCFour stream: raises as the code does; logging |
| `kdbx_parsing/kdbx.py`, `kdbx3.py`, `kdbx4.py` | Construct.v, Kdbx.v | construct combinators as used; lazy containers |
| `pykeepass.py:65-182` open, read, reload, save | Kdbx.v, Save.v (file system, crash points), Object.v | `with` blocks (enter and exit do nothing) |
| `pykeepass.py:184-240` header properties, payload | Object.v | `encryption_algorithm`, `kdf_algorithm`: the names as stored |
| `pykeepass.py:242-301` tree, groups, entries, names | Api.v | |
| `pykeepass.py:303-323` xml, dump_xml | Dump.v (pretty printing), Dump_obj.v | the target of dump_xml is a path; non-ASCII in attribute values is written raw |
| `pykeepass.py:325-445, 461-508, 589-648, 744-763`, `xpath.py` | XPath.v, Db.v, UserXPath.v | XPath functions, axes and operators pykeepass itself does not use (in a user's query they are errors in the model) |
| `pykeepass.py:441-459, 510-587, 650-742` | Api.v | logging |
| `pykeepass.py:765-875` binaries | Api.v | |
| `pykeepass.py:877-913` deref | Api.v (fuelled) | |
| `pykeepass.py:915-990` credentials and dates | Api.v, Object.v | |
| `pykeepass.py:994-1030` times | Time.v | |
| `pykeepass.py:1032-1060` create_database | Object.v | the blank database is an arbitrary file |
| `baseelement.py` | Api.v, Uuid.v (identity and hash), Dump.v, DumpPretty.v (`dump_xml`), ElementPath.v (`_path`) | |
| `entry.py`, `group.py`, `attachment.py` | Api.v, Shown.v (printing) | |
| `deprecated.py` | its functions pass their arguments on to `find_*`; Deprecated.v | |
| `icons.py`, `exceptions.py`, `version.py`, `debug_setup` | constants; exceptions are the type `exn` | |

Numbers: Python integers are `Z`/`N`; floats occur only in the total-seconds division and are modelled
exactly (correctly rounded division, Time.v).  Byte and word sizes of the formats are explicit, theorems
about saving carry the size limits of the block formats.

## Files

| file | contents |
|---|---|
| Aes.v | AES (FIPS 197) for keys of 16, 24 and 32 bytes: the block cipher behind Crypto.Cipher.AES in kdbx_parsing/common.py |
| Again.v | Assigning the same value again changes nothing |
| AgainSpec.v | Assigning the same value again: vocabulary of C114 |
| Apart.v | Assignments to different entries and groups may be made in either order |
| Api.v | The element API: baseelement.py, entry.py, group.py, attachment.py and the document part of pykeepass.py, function by function, in the effect monad of Db.v (an exception keeps the changes made before it) |
| ApiEx.v | A small document for the examples of Prop_Api*.v, and checkers for the hypotheses |
| ApiSpec.v | The document as a store of rows: what is observable of an element, without the tree operations of the model |
| Api_claims.v | From the lemmas of Api_fields, Api_custom and Api_sub to the statements of Prop_Api |
| Api_custom.v | Custom properties of entries as a dictionary |
| Api_fields.v | String fields and sub-elements of entries and groups: reading and assigning |
| Api_sub.v | Sub-element properties, times, expiry, tags and auto-type settings |
| Api_xpath.v | The fixed queries of entry.py, baseelement.py and pykeepass.py, read as functions on trees |
| Argon.v | BLAKE2b (RFC 7693) and Argon2d/Argon2id (RFC 9106, versions 0x10 and 0x13): the key derivation behind argon2.low_level.hash_secret_raw in kdbx_parsing/kdbx4.py:75-84, with hash_len=32 and without secret and associated da |
| Base.v | Common vocabulary of the model: Python values, exceptions, little-endian integers (Python [struct] and construct's IntXXul) |
| Base64.v | Model of Python's [base64.b64encode] / [base64.b64decode] (CPython 3.11, Modules/binascii.c: b2a_base64, a2b_base64 with strict_mode=False), as used at baseelement.py:18,71,76, pykeepass.py:255,417,447,546,783,787,827,10 |
| Bin.v | Deleting a binary: the attachments that refer to it, and the renumbering of the others |
| BinEx.v | Examples and checkers for Prop_Bin.v |
| BinLedger.v | Attachments through sequences of add_binary, delete_binary, add_attachment and delete_attachment (C98) |
| BinSpec.v | Binaries and attachments, described on the rows of the store |
| BinStore.v | The stored binaries: reading, adding, deleting |
| Bin_xpath.v | The query of delete_binary for attachments with a greater reference (pykeepass.py:865-868) |
| Calm.v | Calls on entries, groups and attachments leave the binaries, the version and the place of the document alone |
| Cbc.v | Model of kdbx_parsing/twofish.py (Twofish object in CBC mode, the only mode used by common.py:360-366) and of Cryptodome.Util.Padding.pad/unpad (style pkcs7) as called at common.py:345-348,363-366 |
| Cbc_facts.v | Loops do not depend on the fuel once it is at least the length |
| Chacha.v | Key streams of ChaCha20 (RFC 8439, with nonces of 12 bytes; the original one with nonces of 8 bytes; XChaCha20 with nonces of 24 bytes) and of Salsa20 (32-byte keys, 8-byte nonces), byte by byte: the ciphers behind Crypt |
| Clean.v | Every call keeps all elements serialisable: texts and attribute values are legal XML, names are names, attributes are distinct; and the document keeps its place, with every element in it once |
| Codec_facts.v | Lemmas behind Prop_Codec.v |
| Conform.v | The project's unit tests (tests/tests.py), transcribed as programs over the model and run on the project's own databases (RealOpen.v): the model behaves on them as the developers expect of the code |
| Conform3.v | The unit tests of Conform.v on tests/test3.kdbx as opened by the model (tests.py:43-62 sets the tests up on the sample files) |
| Conform4.v | The unit tests of Conform.v on tests/test4.kdbx as opened by the model (tests.py:43-62 sets the tests up on the sample files) |
| ConformA.v | tests.py:1149-1325, test_open_save of Conform_save.v on some of the sample files |
| ConformB.v | tests.py:1149-1325, test_open_save of Conform_save.v on some of the sample files |
| ConformC.v | tests.py:1149-1325, test_open_save of Conform_save.v on some of the sample files |
| ConformR.v | tests.py:1319-1400 (wrong credentials, files that are no database) and header data without decrypting, on the sample files |
| ConformS.v | The unit tests that save and reload (Conform_save.v), on a copy of tests/test3.kdbx |
| Conform_save.v | The unit tests that open, save and reload (tests/tests.py), transcribed and run as in Conform.v |
| Construct.v | The construct combinators used by kdbx_parsing (construct 2.10): parsers consume a byte string and return the rest |
| Cred.v | Database settings: credential change dates and names |
| CredSpec.v | The database settings stored in the Meta section, described on the rows of the store |
| Db.v | The PyKeePass object's document and its searches (pykeepass.py:325-439, xpath.py) |
| Deprecated.v | Model of deprecated.py: the find_..._by_... functions, and what they return |
| Drop.v | Deletions may be made in either order, and before or after assignments in place |
| DropMore.v | Deleting something, and assigning to a property that is not written in place, may be done in either order |
| DropSpec.v | What C117 says |
| Dump.v | Looking at the document: [xml()] (pykeepass.py:303-313); see Dump_obj.v for [dump_xml] |
| DumpPretty.v | [dump_xml(pretty_print=True)] of an entry, a group or an attachment (baseelement.py:64-65): as in Dump.v, with the characters outside ASCII as references (Xml.v) |
| Dump_obj.v | [xml()] and [dump_xml] of the database object (pykeepass.py:303-323), and facts about them |
| ElementPath.v | The location of an element as an XPath expression (baseelement.py:87-89): [getroottree().getpath(element)] is libxml2's xmlGetNodePath; and its use as a query (C109) |
| Fail.v | Calls that raise leave no trace: proofs of C111 |
| FailBin.v | Sending to the recycle bin while there is none, and storing a binary in KDBX 3: raising leaves no trace |
| FailSpec.v | Calls that raise: vocabulary of C111 |
| FindEx.v | A small document for the examples of Prop_Find.v |
| FindSpec.v | What a search should return, stated on plain trees (independently of XPath and of the query strings) |
| Find_facts.v | The queries built by pykeepass.py evaluate to what FindSpec.v asks for |
| Find_more.v | Consequences of the search specification |
| Find_path.v | Searches by path, and the searches of FindSpec.v for entries, groups and attachments |
| Find_rpath.v | Searches by path where the names are patterns (regex=True, pykeepass.py:386-400 with xpath.py:12-21), and without |
| Format.v | Files laid out as in FormatSpec.v are read, and written files are laid out so |
| FormatEx.v | Conforming files for the toy library: the sample databases of Toy.v |
| FormatSpec.v | KDBX files as published (keepass.info/help/kb/kdbx.html and KeePass' KdbxFile.cs), written without the model's reading and writing functions |
| Format_more.v | Damaged protected values, and what the header properties of an opened database say (C95, C96) |
| Hash.v | SHA-256, SHA-512 (FIPS 180-4) and HMAC-SHA-256 (RFC 2104): the algorithms behind hashlib.sha256, hashlib.sha512 and hmac.new(_, _, sha256) in kdbx_parsing/common.py, kdbx3.py and kdbx4.py |
| HeaderEx.v | Files for the examples of Prop_Header.v: conforming headers of several versions, and documents with damaged protected values |
| Heap.v | Facts about the row view of forests |
| Inflate.v | The gzip format (RFC 1952) around DEFLATE (RFC 1951): a decoder for all three kinds of blocks, and an encoder that stores |
| Inside.v | An assignment that puts an element at the end, and one that writes in place elsewhere (be it inside the same entry or group), may be made in either order |
| Integrity.v | Every primitive step keeps the layout of the document, and moves only what it is about |
| IntegrityEx.v | Checkers and an example history for Prop_Integrity.v |
| IntegritySpec.v | Histories of calls, and what they may do to the document, on the rows of the store (ApiSpec.v, StructSpec.v) |
| Integrity_calls.v | The calls that change the structure, and what remains in the document |
| Integrity_hist.v | Every call, and every history of calls |
| Integrity_ops.v | The calls of the API, as sequences of the steps of Integrity.v |
| Integrity_step.v | One call, and histories of calls |
| Kdbx.v | Model of the file formats: kdbx_parsing/kdbx.py, kdbx3.py, kdbx4.py, the adapters of common.py, and PyKeePass.read's error classification (pykeepass.py:97-136) |
| KdbxSpec.v | What a reader of the saved file is expected to see; written without the model's file-format functions |
| Kdbx_auth.v | Authentication, truncation, error classes, header preservation, protected values in the written file |
| Kdbx_claims.v | The statements of Prop_Kdbx.v in the vocabulary "opened / saved", derived from the lemmas |
| Kdbx_facts.v | Locality, framing, cipher and round-trip lemmas for the Kdbx model |
| Kdbx_file.v | Whole files: saving and opening again |
| Kdbx_inner.v | Decrypted data is a byte string; the KDBX4 inner header survives building and parsing |
| Kdbx_keyfile.v | Key file streams in the key transformation |
| Kdbx_rt.v | Protected values, inner header, whole-file round trips |
| Kdbx_v3.v | KDBX3 files: saving and opening again, prefixes and trailing bytes |
| Keyfile.v | Model of kdbx_parsing/common.py:106-177: key derivation inputs |
| KeyfileSpec.v | Hexadecimal spelling and key-file documents, as used in the statements of Prop_Keyfile.v |
| Keyfile_facts.v | Lemmas about Keyfile.v |
| Last.v | Only the last assignment counts |
| LastAtt.v | Attachments: only the last file name and the last number count, and assigning them again changes nothing |
| LastSet.v | Settings of the database: only the last assignment counts, and assigning again changes nothing |
| LastSpec.v | Only the last assignment counts: vocabulary of C115 |
| Ledger.v | The string fields of an entry under every sequence of calls: a simple ledger with the same answers |
| Level.v | No call changes the version of the format |
| Lib.v | External libraries used by kdbx_parsing/*.py, as a record of functions |
| Limits.v | Documents that the XML parser refuses: a file saved with one does not open |
| Line.v | The string fields of an entry through histories of calls |
| LineSpec.v | The string fields of one entry within histories of all kinds of calls: which calls of the history write to the ledger of the entry (Ledger.v) |
| Listing.v | Listings of entries, groups and attachments, attachment properties, histories and the lists given to Group.append (pykeepass.py:258-268, 765-768, entry.py:152-160, 271-277, 322-328, attachment.py:22-44, group.py:90-101) |
| ListingEx.v | Checkers and a regular-expression oracle for the examples about listings |
| Local.v | Calls change nothing in the parts they are not about |
| LocalEx.v | Checkers for Prop_Local.v |
| LocalSpec.v | What a call is about, and parts of the document it is not about; on the rows of the store (StructSpec.v) |
| Local_step.v | One call and histories of calls, for parts they are not about |
| Nested.v | Two assignments that put elements at the end of different entries and groups, be one inside the other, may be made in either order |
| NoDecrypt.v | Opening with decrypt=False never blames the credentials or the payload (C20) |
| Object.v | The PyKeePass object and its surroundings: opening, reading, saving, credentials, new databases (pykeepass.py:38-242, 912-933, 1031-1060) |
| ObjectEx.v | Files, streams and objects for the examples of Prop_Object.v; a checker for [moderate] |
| ObjectSpec.v | Vocabulary for the statements about the database object (Prop_Object.v) |
| Object_claims.v | The statements of Prop_Object.v, derived |
| Object_facts.v | Lemmas about Object.v: what calls can produce, saving and opening again |
| Object_meta.v | Settings of the Meta section across saving and opening; changes of credentials |
| OutlineEx.v | Outlines computed, and a history of calls on the sample database |
| OutlineSpec.v | The outline of a group: the tree of the groups and entries in it, without their contents; what calls do to it |
| Outline_calm.v | Calls that leave the members of every group as they are |
| Outline_list.v | The lists of all entries and of all groups are the outline of the root group, read from above |
| Outline_step.v | Every call changes the outline of every group as [effect] says; histories of calls |
| Outline_tree.v | Outlines: one for every group and entry; how they follow the lists of members |
| Path.v | Parent groups, listings and paths |
| PathEx.v | Example databases for parents, listings and paths |
| PathSpec.v | Parent groups and listings, on the rows of the store |
| Prim.v | What the lxml primitives of Api.v do to the rows of a state |
| Prop_Again.v | C114: assigning the same value again changes nothing |
| Prop_Api.v | Theorems about assigning properties of entries and groups: C43 to C50, C74 |
| Prop_Bin.v | Binaries and attachments (C61-C64) |
| Prop_BinSeq.v | Attachments through sequences of calls (C98) |
| Prop_Cipher.v | Property theorems C21-C23 (statements; proofs in Cbc_facts.v, Twofish_facts.v) |
| Prop_Codec.v | Property theorems C01-C06, C68 (statements only; proofs in Codec_facts.v and the model files) |
| Prop_Cred.v | Database settings (C70, C77) |
| Prop_Drop.v | C117: deletions may be made in either order, and before or after assignments that write in place |
| Prop_DropMore.v | C117, the rest: deletions before or after assignments to the properties that are not written in place |
| Prop_Dump.v | Property theorems about looking at the document (C92): [xml()], [dump_xml] and [dump_xml] of an element (statements; proofs in Dump.v, Dump_obj.v) |
| Prop_ElementPath.v | C109: the location of an element leads back to it |
| Prop_Fail.v | C111: calls that raise leave no trace |
| Prop_Find.v | Searches: C37-C42, C76 (spec in FindSpec.v) |
| Prop_Format.v | Conforming KDBX files are read as what they say, and only conforming files are written (C78, C79) |
| Prop_Header.v | What an opened database says about its file (C95), and files with damaged protected values (C96) |
| Prop_Integrity.v | Histories of calls (C71) |
| Prop_Kdbx.v | Property theorems about the file formats: C07-C20, C28-C30, C72, C75 (statements; proofs in Kdbx_claims.v and the files it imports) |
| Prop_Keyfile.v | Property theorems C24-C27 (statements; proofs in Keyfile_facts.v) |
| Prop_Last.v | C115: of several assignments to a property only the last counts |
| Prop_Limits.v | C102: what can be saved can be opened again, however deeply its groups are nested |
| Prop_Line.v | C105: the string fields of an entry, through histories of all kinds of calls, are a ledger only its own calls write to |
| Prop_Listing.v | Listings, attachment properties, new groups, Group.append, histories, printing (C83-C88) |
| Prop_Local.v | C94: calls change nothing in the parts of a database they are not about |
| Prop_More.v | The deprecated search functions: C89 (spec and model in Deprecated.v) |
| Prop_Object.v | Property theorems about opening, saving, reloading, credentials and new databases: C20, C34-C36, C69, C80-C82 (statements; proofs in Object_facts.v, Object_claims.v, Object_meta.v, NoDecrypt.v) |
| Prop_Outline.v | C103: groups and entries form a tree, and each call changes it as the call says |
| Prop_Path.v | Parents, listings and paths (C41, C73) |
| Prop_Read.v | C110: asking changes nothing |
| Prop_Real.v | Property theorems about the published algorithms and the project's own databases and tests: C101 (statements; proofs in Real.v, Real_facts.v) |
| Prop_Ref.v | Field references (C65-C67) |
| Prop_Register.v | C104: what is read of a property is what was last assigned to it |
| Prop_Reopen.v | Property theorems about reading a database after saving and opening it again (C93; statements, proofs in Reopen.v) |
| Prop_Save.v | Property theorems C31-C33 (statements; proofs in Save_facts.v) |
| Prop_Scratch.v | C112: what is put into a database and deleted again leaves nothing behind |
| Prop_Setting.v | C106: the settings of the database read as last assigned, whatever else was called |
| Prop_Shared.v | Property theorems about several objects on one file: C100 (statements; proofs in Shared.v) |
| Prop_Stable.v | Property theorems about saving what was saved and opened: C99 (statements; proofs in Stable.v) |
| Prop_Streams.v | Property theorems about databases in streams: C91 (proofs and vocabulary in Streams.v: [goes_into], [put_at], [stored], [fetched], [storable], [holds]) |
| Prop_Struct.v | Theorems about adding, deleting, moving and trashing elements, positions and histories: C51 to C60 |
| Prop_Swap.v | C116: assignments to different things may be made in either order |
| Prop_Trash.v | Theorems about several uses of the recycle bin: C55 |
| Prop_Undo.v | C113: what is done and taken back leaves the document as it was |
| Prop_Unicode.v | C108: what a text is written as, and which master passwords there are |
| Prop_Unique.v | C107: no UUID comes to be there twice |
| Prop_XPath.v | C97: xpath() as called by users |
| PyStr.v | The Python [str] methods used by the code: replace, split, join, strip, prefix test, substring test, decimal [str(int)] / [int(str)], hexadecimal |
| Read.v | Calls that ask change nothing: proofs of C110 |
| ReadSpec.v | The calls that only ask, and mixed sequences of calls: vocabulary of C110 |
| Real.v | The external libraries as the published algorithms: SHA-2, HMAC, AES, ChaCha20, Salsa20, Argon2, DEFLATE and the XML codec of Xml.v |
| RealFiles.v | The sample databases and key files of the project's own test suite, byte for byte (tests/, pykeepass/blank_database.kdbx): what the conformance examples (Conform*.v) open |
| RealOpen.v | The sample databases of the project's test suite (RealFiles.v), opened by the model with the real algorithms (Real.v) |
| Real_facts.v | The remaining premises on libraries hold of the published algorithms too: documents read can be written, exceptions are the libraries' own |
| Ref.v | Field references: deref follows every acyclic reference, in whatever order it replaces them |
| RefEx.v | A database with references for the examples of Prop_Ref.v |
| RefSpec.v | Field references: their syntax, what they point at, and what a text with references stands for |
| Ref_loop.v | deref for every text: what it returns has no references left; circular references; the recursion limit |
| Register.v | Properties kept in elements of their own, through histories of calls |
| RegisterSpec.v | The properties of entries and groups that are kept in elements of their own, as registers: what reads them and which calls assign to them |
| Register_calls.v | The tags each call may change something under |
| Register_mute.v | Calls leave the children with certain tags, and the texts of the elements with these tags, as they are |
| Relabel.v | Assigning the file name and the number of an attachment (attachment.py:22-38); histories (entry.py:271-277, 322-328); lists given to Group.append (group.py:90-101) |
| Reopen.v | Reading before saving and after opening again (ReopenSpec.v): corresponding elements and what is read from them |
| ReopenSpec.v | What the API reads from a database and what it reads from it after saving and opening again |
| Save.v | Model of the file-system side of PyKeePass.save (pykeepass.py:143-182) and of construct's build_file, pathlib's with_suffix and shutil.move as used there |
| Save_facts.v | Lemmas about Save.v |
| Scratch.v | What is put into the document, worked on and deleted again leaves nothing behind |
| ScratchSpec.v | Scratch entries and groups: vocabulary of C112 |
| Setting.v | The settings of the database through histories of calls |
| SettingSpec.v | The settings of the database as registers: what reads them and which calls assign to them |
| Shared.v | Several objects on one file: what save writes does not depend on the file it replaces; reload takes over what is there |
| Shown.v | Printing entries, groups and attachments |
| Spare.v | Local.v for parts that take in the whole document: the calls that write neither to its header part nor to the binaries |
| Stable.v | Saving again what was saved and opened writes the same bytes |
| Streams.v | Databases in streams: vocabulary and lemmas for C91 (Prop_More.v) about the stream branch of PyKeePass.read and save (pykeepass.py:98-106, 157-165; modelled in Object.v) |
| Struct.v | Structural operations: delete, move, add |
| StructEx.v | Examples and checkers for Prop_Struct.v |
| StructSpec.v | Structural operations described on the rows of the store (ApiSpec.v) |
| Struct_add.v | Adding entries and groups |
| Struct_bin.v | The fixed parts of the document, and the recycle bin |
| Struct_claims.v | Statements of Prop_Struct.v put together from the lemmas of the Struct files |
| Struct_empty.v | Emptying a group |
| Struct_find.v | What searches can return at all, and the fixed queries for the root group and the recycle bin |
| Struct_hist.v | Entry histories |
| Struct_index.v | Positions of entries in their group |
| Struct_trash.v | Trashing |
| Swap.v | Assignments that write in place may be made in either order |
| SwapSpec.v | Assignments in either order: vocabulary of C116 |
| Time.v | [PyKeePass._encode_time] / [_decode_time] (pykeepass.py:994-1030) over a model of [datetime.datetime] (CPython datetime.py): calendar fields, optional UTC offset |
| Toy.v | A small concrete instance of the external libraries satisfying [lib_ok], and sample databases: used to show that the hypotheses of the theorems are met |
| Toy_facts.v | The sample databases of Toy.v meet the hypotheses of the theorems in Prop_Kdbx.v |
| Trash_seq.v | Several calls of trash_entry and trash_group, one after another |
| Tree.v | The in-memory document: lxml elements with identity, as the API of pykeepass.py, entry.py, group.py, baseelement.py and attachment.py manipulates them through [_element] |
| Twofish.v | Model of kdbx_parsing/pytwofish.py (the pure-Python Twofish block cipher) |
| TwofishSpec.v | The Twofish block cipher, written from the published specification (B. Schneier et al., "Twofish: A 128-Bit Block Cipher", 1998, sections 4.1-4.3), independently of pytwofish.py: no look-up tables beyond the 4-bit ones o |
| Twofish_facts.v | pytwofish computes the published Twofish cipher |
| Twofish_inv.v | pytwofish: decryption inverts encryption |
| Undo.v | What is done and taken back leaves the document as it was |
| Unicode.v | The codec of Utf8.v is that of UnicodeSpec.v; what a master password is hashed as |
| UnicodeSpec.v | UTF-8 as RFC 3629 describes it, independently of the codec of Utf8.v: the bits of a code point are spread over one to four bytes, the shortest form only, surrogates excluded |
| Unique.v | No UUID comes to be there twice: histories of calls |
| UniqueSpec.v | UUIDs in the tree of a group: whose UUIDs differ, and which calls may repeat one |
| UserXPath.v | xpath() as called by users (pykeepass.py:325-375): model, vocabulary and lemmas for C97 |
| Utf8.v | Python's strict UTF-8 codec, as used by [str.encode('utf-8')] / [bytes.decode('utf-8')] at common.py:125 (password), common.py:221,243 (protected values), kdbx4.py:122,133 (GreedyString) |
| Uuid.v | UUIDs: storage as base64 text (baseelement.py:17-19, 67-77), the text searched by [find_*(uuid=...)] (pykeepass.py:546, xpath.py), hexadecimal form (entry.py:412, pykeepass.py:906) and hashing/equality of elements (basee |
| XPath.v | XPath 1.0 as evaluated by lxml/libxml2 for PyKeePass.xpath (pykeepass.py:325-375): the query *string* is lexed, parsed and evaluated, so that the templates of xpath.py are used as they are |
| XPath_eval.v | Evaluation of the query shapes of xpath.py |
| XPath_facts.v | Lemmas about Tree.v (positions) and XPath.v (evaluation as sets in document order) |
| XPath_number.v | Numbers in queries: which texts count as numbers, and comparisons by them (C97) |
| XPath_owner.v | The parents of texts and attributes, for xpath() with a query of the user (C97) |
| XPath_parse.v | Lexing and parsing of the queries built from the templates of xpath.py |
| Xml.v | XML documents as stored in the file: model of what [etree.parse(..., XMLParser(remove_blank_text=True))] and [etree.tostring(tree)] (kdbx_parsing/common.py:194-202) do on KeePass documents |
| Xml_facts.v | Parsing what was serialised gives the same document, up to [norm] |
| Xml_sound.v | Every document the parser (Xml.v) accepts can be serialised again |

## Properties

proved: all of the statement, under the conditions in the note.  partial: false of the code or proved for part; see the note.

| | property | model and proof | status | theorems | note |
|---|---|---|---|---|---|
| C01 | Base64 text fields are lossless | codec model of b64encode and of the lenient a2b_base64; induction over 3-byte groups | proved | c01_base64_lossless | all byte strings |
| C02 | UUIDs survive storage and search conversion | codec model of b64encode and of the lenient a2b_base64; induction over 3-byte groups | proved | c02_uuid_roundtrip, c02_uuid_text_injective, c02_uuid_hex_roundtrip | all 16-byte UUIDs |
| C03 | KDBX4 timestamps keep their second | integer model of datetimes and of the correctly rounded division; arithmetic, witnesses | proved | c03_kdbx4_time_exact, c03_kdbx4_time_subsecond | all valid datetimes whose instant lies in years 1-9999 (sub-second: up to the last second of year 9999, where the rounded value overflows) |
| C04 | KDBX4 timestamps never round up | integer model of datetimes and of the correctly rounded division; arithmetic, witnesses | partial | c04_kdbx4_time_never_later_refuted, c04_kdbx4_time_never_later_partial | false of the code: refuted by 2024-01-01T00:00:00.999999; holds below 999969 microseconds |
| C05 | KDBX3 timestamps denote the instant that was assigned | integer model of datetimes and of the correctly rounded division; arithmetic, witnesses | partial | c05_kdbx3_time_instant_refuted, c05_kdbx3_time_shift, c05_kdbx3_time_instant_partial | false of the code for non-UTC datetimes (shifted by the offset); holds for UTC |
| C06 | ISO-8601 timestamps inside a KDBX4 file are readable | integer model of datetimes and of the correctly rounded division; arithmetic, witnesses | partial | c06_kdbx4_iso_Z_refuted, c06_kdbx4_iso_partial | false of the code: the Z spelling always raises struct.error; holds without designator |
| C07 | KDBX4 payload block framing is lossless | block writer and parser; induction on the payload with the block index as invariant | proved | c07_blocks4_lossless, c07_blocks4_written, c07_blocks4_layout | all payloads; layout against the published one |
| C08 | KDBX3 payload block framing is lossless | block writer and parser; induction on the payload with the block index as invariant | proved | c08_blocks3_lossless, c08_blocks3_written, c08_blocks3_layout | all payloads |
| C09 | KDBX4 save/open round trip | locality of parsers (success does not depend on what follows) and inversion of each adapter | proved | c09_save_open_kdbx4, c09_content_stable | any edit, any credentials with the same derived key; crypto/gzip/XML libraries by the hypotheses lib_ok; size bound 2^83; documents within the limits of the XML parser (modest, see C102) |
| C10 | KDBX3 save/open round trip | locality of parsers (success does not depend on what follows) and inversion of each adapter | proved | c10_save_open_kdbx3 | as C09; size bound 2^51; documents within the limits of the XML parser |
| C11 | An accepted KDBX4 file is authenticated | success of the parser implies the tag equations; a forgery yields a collision | proved | c11_accepted_is_authentic, c11_tags_bind_content | collision alternative explicit |
| C12 | Wrong credentials never open a KDBX4 database | success of the parser implies the tag equations; a forgery yields a collision | proved | c12_wrong_credentials | tag collision alternative explicit |
| C13 | A truncated KDBX4 file never opens | locality of parsers; prefix argument; witness | proved | c13_truncated_kdbx4 | every proper prefix, any credentials |
| C14 | A truncated KDBX3 file never yields different content | locality of parsers; prefix argument; witness | proved | c14_truncated_kdbx3 | every prefix |
| C15 | Trailing bytes after a KDBX4 database are harmless | locality of parsers; prefix argument; witness | proved | c15_trailing_bytes |  |
| C16 | Saving a KDBX3 database into a stream that held a longer one leaves it readable | locality of parsers; prefix argument; witness | partial | c16_kdbx3_over_longer_stream_refuted, c16_kdbx3_aes_unreadable, c16_kdbx3_over_longer_stream_partial | false of the code for AES when the old bytes are not a multiple of 16 |
| C17 | Open errors are classified as documented | error paths of construct through the classification in read | proved | c17_bad_signature, c17_bad_header_hash, c17_bad_header_mac, c17_bad_block4, c17_bad_start3, c17_bad_block3 |  |
| C18 | Saving preserves the outer header byte for byte | header kept as raw copy by the model of save; consequence for the keystream | proved | c18_header_preserved | also for saves that raise |
| C19 | Each save uses fresh encryption randomness | header kept as raw copy by the model of save; consequence for the keystream | partial | c19_fresh_randomness_refuted, c19_chacha20_two_time_pad | false of the code: seed and IV are those of the opened file; consequence for ChaCha20 proved |
| C20 | Opening without decryption exposes only the header | object model with the payload left unparsed; case analysis over the parsers | proved | c20_nodecrypt_kdbx4, c20_nodecrypt_kdbx3, c20_no_credential_error, c20_no_payload, c20_header_properties | for KDBX 3 and 4 (other major versions have no body, and asking for the payload raises AttributeError); the Argon2 and XML libraries raise only their own exceptions (libs_calm) |
| C21 | PKCS#7 padding is lossless and validated | list induction; Feistel inversion; finite sweeps over bytes and linearity against TwofishSpec.v | proved | c21_pkcs7_lossless, c21_pkcs7_shape, c21_pkcs7_validated | unpad accepts exactly the padded texts |
| C22 | Twofish-CBC decryption inverts encryption | list induction; Feistel inversion; finite sweeps over bytes and linearity against TwofishSpec.v | proved | c22_cbc_decrypt_inverts, c22_cbc_chunking, c22_cbc_is_standard, c22_cbc_bad_sizes | all keys of 16/24/32 bytes, all IVs, all data, any chunking |
| C23 | The pure-Python Twofish block cipher is Twofish | list induction; Feistel inversion; finite sweeps over bytes and linearity against TwofishSpec.v | proved | c23_twofish_encrypt, c23_twofish_decrypt | pytwofish.py against the published Twofish definition (TwofishSpec.v) |
| C24 | Key file interpretation | case analysis over the key file readers; streams with position | proved | c24_raw_key, c24_hex_key, c24_hashed_file, c24_xml_version_1, c24_xml_version_2, c24_other_xml | all key file contents |
| C25 | Every non-XML file can serve as a key file | case analysis over the key file readers; streams with position | partial | c25_every_file_accepted_refuted, c25_every_file_accepted_partial | false of the code: some 64-byte files raise; the partial theorem says which |
| C26 | A missing password is not an empty password | case analysis over the key file readers; streams with position | proved | c26_none_is_not_empty, c26_distinct_passwords, c26_composite | hash collision alternative explicit |
| C27 | Key file streams behave like key file paths | case analysis over the key file readers; streams with position | partial | c27_keyfile_stream_refuted, c27_keyfile_stream_partial | false of the code for streams that cannot seek or are not at their start |
| C28 | Protected values survive save and open | keystream position as invariant over document order | proved | c28_protected_values_survive, c28_protect_unprotect, c09_save_open_kdbx4, c10_save_open_kdbx3 | documents within the limits of the XML parser (C102) |
| C29 | Saving does not alter the open database | keystream position as invariant over document order | proved | c29_save_keeps_memory | successful and failing saves |
| C30 | No protected value is written in the clear | keystream position as invariant over document order | proved | c30_sealed_in_file_kdbx4, c30_sealed_in_file_kdbx3 |  |
| C31 | Crash during save keeps a complete database | save as a list of file-system effects; every prefix is a crash point | partial | c31_crash_keeps_database_refuted, c31_crash_keeps_database_partial, c31_save_completes | false of the code for targets named x.tmp and where rename fails; proved otherwise for every crash point |
| C32 | A failing save keeps the old file | save as a list of file-system effects; every prefix is a crash point | partial | c32_failing_save_refuted, c32_failing_save_partial, c32_build_errors_raise | false of the code for targets named x.tmp |
| C33 | Saving touches no other file | save as a list of file-system effects; every prefix is a crash point | partial | c33_other_files_untouched, c33_sibling_not_a_user_file_refuted | an existing sibling x.tmp is destroyed; no other file is touched |
| C34 | create_database honours its arguments | object and file-system model; invariants of the object over every call; composition with C09/C10 | partial | c34_create_opens_partial, c34_transformed_key_never, c34_create_refuted | false of the code with a transformed_key, which is passed to save as the file name and raises TypeError; proved for password and key file |
| C35 | A database opened with a transformed key can be saved and reopened with it | object and file-system model; invariants of the object over every call; composition with C09/C10 | partial | c35_saved_with_own_key_refuted, c35_explicit_key_partial | false of the code: save() derives the key from the missing password again; proved for save(transformed_key=k) |
| C36 | A failed read leaves the object usable | object and file-system model; invariants of the object over every call; composition with C09/C10 | partial | c36_failed_read_partial, c36_failed_reload, c36_failed_read_refuted | false of the code for read(): file name and credentials are replaced before reading, so that a following save() overwrites the other file; proved for reload(), and for contents and files |
| C37 | find_entries returns exactly the matching entries | query strings lexed, parsed and evaluated; equal to a filter of the document order | proved | c37_find_entries_exact, c37_first, c37_none_ignored, c37_none_uuid_raises, c37_none_tags_raises | also for regex searches, relative to the regular expression library |
| C38 | Searches are safe for every search string | query strings lexed, parsed and evaluated; equal to a filter of the document order | partial | c38_search_value_is_data_refuted, c38_search_value_is_data_partial | false of the code for values containing a double quote (XPath injection); proved for all others |
| C39 | History entries are excluded unless requested | query strings lexed, parsed and evaluated; equal to a filter of the document order | proved | c39_history_only_on_request |  |
| C40 | find_groups returns exactly the matching groups | query strings lexed, parsed and evaluated; equal to a filter of the document order | proved | c40_find_groups_exact |  |
| C41 | Paths lead back to elements | paths and parents by induction on the depth; searches by path via C37 | proved | c41_entry_by_path, c41_group_by_path, c41_entry_by_pattern, c41_group_by_pattern, c41_path_leads_back, c41_same_path, c41_group_path_leads_back | names without double quotes and control characters; each group stores its name once (one_name) and entry fields are stored once (tidy), as KeePass writes them |
| C42 | Tag search finds entries having all tags | query strings lexed, parsed and evaluated; equal to a filter of the document order | partial | c42_tag_search_exact_refuted, c42_tag_search_partial | false of the code: substrings of tags match; completeness and the exact substring meaning are proved |
| C43 | Field assignment is read back and isolated | assignments as row updates with frame; fields as an ordered list | partial | c43_property_assignment_partial, c43_custom_property_assignment_partial, c43_duplicate_keys_refuted | proved for entries whose string keys are distinct (and each String has one Key and one Value); with duplicate keys false of the code |
| C44 | Protection flag is preserved | assignments as row updates with frame; fields as an ordered list | proved | c44_flag_kept, c44_new_secret_protected, c44_custom_flag | entries with distinct keys |
| C45 | A rejected assignment changes nothing | assignments as row updates with frame; fields as an ordered list | partial | c45_rejected_assignment_refuted, c45_rejected_assignment_partial, c45_rejected_new_field_partial | false of the code: the old value is lost; at most that one field is lost |
| C46 | Custom properties behave like a dictionary | assignments as row updates with frame; fields as an ordered list | proved | c46_custom_properties, c46_set, c46_get, c46_delete, c46_delete_missing, c46_reserved | entries with distinct keys, keys without double quotes |
| C47 | Tags round-trip | assignments as row updates with frame; fields as an ordered list | proved | c47_tags |  |
| C48 | Sub-element properties (icon, name, notes, uuid, times, expires) read back | assignments as row updates with frame; fields as an ordered list | proved | c48_icon, c48_name, c48_group_notes, c48_uuid, c48_time, c48_time_kdbx4, c48_time_kdbx3, c48_expires | the time element must exist; times up to what the text form can hold (C03 to C05) |
| C49 | touch updates exactly the access (and modification) time | assignments as row updates with frame; fields as an ordered list | proved | c49_touch, c49_touch_modify |  |
| C50 | expired is consistent with expires and expiry_time | assignments as row updates with frame; fields as an ordered list | proved | c50_not_expiring, c50_expiring, c50_set_and_read |  |
| C51 | add_entry adds exactly one entry | structural calls as row updates; reachability in the document | partial | c51_raise_changes_nothing, c51_one_entry_appended, c51_given_fields_partial, c51_duplicate_raises_partial, c51_quotes_refuted | raise-or-append holds for all arguments; the duplicate rule holds for titles and usernames without double quotes and is false with them (the title becomes part of the search expression) |
| C52 | Documented None arguments of add_entry are accepted | structural calls as row updates; reachability in the document | partial | c52_none_refuted | false of the code: every combination with a None raises TypeError |
| C53 | delete removes exactly the element and its subtree | structural calls as row updates; reachability in the document | proved | c53_delete |  |
| C54 | move relocates without loss or duplication | structural calls as row updates; reachability in the document | proved | c54_move, c54_into_itself_refused |  |
| C55 | Recycle bin | structural calls as row updates; reachability in the document | partial | c55_root_refused, c55_bin_refused, c55_moved_to_bin_partial, c55_around_bin_refused, c55_bin_created_partial, c55_one_after_another_partial, c55_one_bin_for_all_partial, c55_collision_refuted, c55_around_bin_refuted | false of the code in two points: an element whose UUID collides with that of the root group (comparisons go through a hash, C68) is refused, and a group containing the bin is refused with ValueError. Proved otherwise for each situation and for any sequence of calls, with or without a bin at the start, in documents with one root group and one RecycleBinUUID element |
| C56 | empty_group terminates and empties | structural calls as row updates; reachability in the document | proved | c56_empty_group |  |
| C57 | reindex puts the entry at the requested position | structural calls as row updates; reachability in the document | proved | c57_reindex |  |
| C58 | index counts entries | structural calls as row updates; reachability in the document | partial | c58_index_contiguous_partial, c58_index_distance, c58_index_refuted | false of the code when a subgroup stands between entries; exact meaning of index proved |
| C59 | History snapshots are faithful and flat | histories as lists of snapshots; frame over later edits | proved | c59_save_history, c59_edits_keep_snapshots | entries with at most one History element |
| C60 | delete_history removes exactly what was asked | histories as lists of snapshots; frame over later edits | proved | c60_delete_one, c60_delete_all, c60_raise_changes_nothing |  |
| C61 | Binary ids are stable positions | the list of binaries refined by the store of either version; induction over histories of calls | proved | c61_add_binary, c61_binaries, c61_histories, c61_attachment_data, c61_attach | KDBX4, and KDBX3 databases whose k-th binary has an ID not less than k; compression that can be undone (zlib_ok) |
| C62 | delete_binary keeps every other attachment's data | the list of binaries refined by the store of either version; induction over histories of calls | partial | c62_delete_binary_partial, c62_delete_binary_exact, c62_no_such_binary, c62_history_refuted, c62_negative_refuted | false of the code for attachments of history entries that referred to the deleted binary, and for negative ids; proved for live attachments and for every attachment (history included) of another binary |
| C63 | KDBX3 binary IDs in the file match references | the list of binaries refined by the store of either version; induction over histories of calls | partial | c63_ids_without_deletes_partial, c63_after_delete_refuted | false of the code after a deletion; holds as long as nothing is deleted |
| C64 | Attachments of a history entry are visible | histories as lists of snapshots; frame over later edits | partial | c64_snapshot_attachments_partial, c64_attachments_empty, c64_attachments_refuted | false of the code: HistoryEntry.attachments is always empty, because the search leaves out everything in histories; proved: the snapshot contains a copy of each attachment |
| C65 | ref/deref round trip | scanner for references; recursion with fuel, divergence for all fuel; a finite set of references is split into those that can be expanded and a circular rest (counting argument, Ref_loop.v) | partial | c65_roundtrip, c65_text_around_kept_partial, c65_text_around_refuted, c65_dangling, c65_no_references, c65_missing_field_raises | the round trip, dangling references and values without references are proved in full; text around references is kept when no {REF: (or a beginning of it cut off by a reference or the end of a text) stands outside references, and is not kept in general (replaced text can complete half a reference) |
| C66 | deref terminates | scanner for references; recursion with fuel, divergence for all fuel; a finite set of references is split into those that can be expanded and a circular rest (counting argument, Ref_loop.v) | partial | c66_self_reference_refuted, c66_every_self_reference, c66_terminates_partial, c66_circular, c66_ends_or_circular, c66_nothing_left, c66_only_reads, c66_limit | false of the code for circular references. In texts without {REF: (or a cut-off beginning of it) outside references: not circular implies a result (within k + 2 calls for k references), circular implies that no recursion limit suffices. For every text: a result has no references left, nothing is changed, more recursion changes no result |
| C67 | deref supports UUID references | scanner for references; recursion with fuel, divergence for all fuel; a finite set of references is split into those that can be expanded and a circular rest (counting argument, Ref_loop.v) | partial | c67_uuid_reference_refuted, c67_every_uuid_reference | false of the code: every reference to a UUID raises TypeError |
| C68 | Equality of entries and groups is UUID equality | exact model of CPython hashes of ints and tuples | partial | c68_equality_is_uuid_equality_refuted, c68_equal_uuids_equal, c68_equality_is_uuid_equality_partial, c68_history_equality, c68_history_reflexive | false of the code: equality is hash equality, collides modulo 2^61-1 |
| C69 | Changing credentials takes effect on save | object and file-system model; invariants of the object over every call; composition with C09/C10 | proved | c69_password, c69_keyfile | databases that record the date of change once, clock in UTC before the year 9999; the time is recorded to the second; refusal of other keys for KDBX 4, up to collisions of the keyed hash |
| C70 | Credential expiry rule | settings of Meta as rows | proved | c70_due, c70_no_date, c70_assigned, c70_no_days | databases that store each setting once; when no number of days is stored the code raises TypeError (c70_no_days) |
| C71 | Document integrity under every operation history | invariants and frame of every call, induction over histories of calls | partial | c71_nothing_lost_refuted, c71_well_formed_partial, c71_nothing_lost_partial, c71_stays_partial, c71_nothing_returns_partial, c71_nothing_appears_partial, c71_root_group_partial | false of the code for custom property keys containing a double quote (an XPath injection that drops the history); proved for every history of 32 kinds of calls, also failing ones, with keys free of quotes and arguments of their kind; the elements followed are groups, entries and histories |
| C72 | XML text is lossless | serialiser and parser of Xml.v, induction on trees | proved | c72_xml_lossless | the XML codec of Xml.v (model of lxml) |
| C73 | Group/entry parent, path and listing agree | paths and parents by induction on the depth; searches by path via C37 | proved | c73_parent, c73_parent_unique, c73_entries, c73_subgroups | for documents laid out as KeePass writes them (neat: entries and groups stand directly in groups) |
| C74 | Auto-type settings read back | assignments as row updates with frame; fields as an ordered list | proved | c74_enabled, c74_sequence, c74_window | entries having the auto-type elements |
| C75 | Files of an unsupported format version are rejected | witness | partial | c75_unsupported_version_rejected_refuted, c75_unsupported_version_data_loss | false of the code |
| C76 | find_attachments returns exactly the matching attachments | query strings lexed, parsed and evaluated; equal to a filter of the document order | partial | c76_find_attachments_exact_partial, c76_unrestricted_search_refuted | an unrestricted search raises on KDBX3 documents with binaries; searches whose results are all in entries are exact |
| C77 | Database settings read back | settings of Meta as rows | partial | c77_days, c77_date, c77_date_kdbx3, c77_text, c77_none_refuted | databases that store the setting once; dates of whole seconds (KDBX4) or in UTC (KDBX3); text the XML library accepts. None is read back as the text None (c77_none_refuted) |
| C78 | Every conforming file opens to what it says | independent description of the format (FormatSpec.v); both directions by induction over its parts | proved | c78_reads_kdbx4, c78_reads_kdbx3, c78_header_values | header settings of every type (signed and unsigned numbers, booleans, text, bytes) are read with the values vd_means gives them; against the independent description of the format in FormatSpec.v; header fields each once, KDBX3 protected stream Salsa20/ChaCha20/none; cryptographic functions, gzip and XML as in lib_ok |
| C79 | Every saved file is conforming | independent description of the format (FormatSpec.v); both directions by induction over its parts | proved | c79_writes_kdbx4, c79_writes_kdbx3 | view_for: what the XML library gives back for the document (empty texts absent); documents within the limits of the XML parser (C102) |
| C80 | A saved database opens to what was in memory | object and file-system model; invariants of the object over every call; composition with C09/C10 | proved | c80_saved_opens, c80_same_credentials, c80_reload, c80_save_returns, c80_keyfile_refuted | c80_keyfile_refuted shows that the condition on the key file is needed; sizes below the limits of the block formats (2^51 bytes) and, for opening, documents within the limits of the XML parser (C102) |
| C81 | The transformed key opens the file it was read from | object and file-system model; invariants of the object over every call; composition with C09/C10 | proved | c81_transformed_key_opens |  |
| C82 | The transformed key stays valid across save | object and file-system model; invariants of the object over every call; composition with C09/C10 | partial | c82_after_save_partial, c82_after_save_refuted | false of the code after a change of credentials: the attribute is not updated by save; proved while they are unchanged |
| C83 | entries, groups and attachments list everything that is live | listings as searches, via C37-C40 | proved | c83_entries, c83_groups, c83_attachments, c83_entry_attachments | attachments: documents as KeePass writes them (Key and Value together, one reference each), and dot-star matching every text; entry.attachments of history entries is excluded (see C64) |
| C84 | Assigning filename or id of an attachment changes only that attachment | the list of binaries refined by the store of either version; induction over histories of calls | proved | c84_filename, c84_filename_refused, c84_number | documents as KeePass writes attachments |
| C85 | add_group adds exactly one group | row updates; induction over the list | proved | c85_add_group, c85_raise_changes_nothing | read back for text XML can hold and a clock whose time can be written |
| C86 | Group.append adds copies | row updates; induction over the list | partial | c86_append_copies_refuted, c86_append_moves_partial | false of the code: the entries are moved; proved: all are moved in order to the end of the group, nothing else changes |
| C87 | History entries are exactly what the history property lists | histories as lists of snapshots; frame over later edits | proved | c87_history, c87_no_history, c87_marked, c87_history_entry, c87_never_listed | entries with at most one History element |
| C88 | Printing shows path and user name only | printing composed from path and field theorems | partial | c88_entry_partial, c88_alike, c88_group_partial, c88_attachment, c88_changes_nothing, c88_always_prints_refuted | false of the code that it never raises: a deleted entry or group cannot be printed; the text is proved for entries and groups in the document |
| C89 | The older search functions agree with the general ones | the deprecated wrappers as queries, via C37, C40, C41 | proved | c89_entries_by_field, c89_entries_by_none, c89_entries_by_uuid, c89_entries_by_string, c89_entries_by_path, c89_groups_by_field, c89_groups_by_uuid, c89_groups_by_path, c89_groups_by_no_path | values and patterns without double quotes and control characters; paths without regular expressions |
| C90 | The string fields of an entry behave as an ordered ledger under every sequence of calls | simulation by an abstract list of fields; induction over the sequence of calls | proved | c90_ledger | entries whose string keys are distinct and free of double quotes (see C43, C71 for the others) |
| C91 | Databases in streams | bytes written at a position; round trip with trailing bytes; induction over the databases in a stream | partial | c91_written, c91_reads_back_partial, c91_reads_back_refuted, c91_one_after_another, c91_replaces_partial, c91_replaces_refuted | false of the code in two points: a KDBX 3 database saved over longer contents cannot be opened again (c91_reads_back_refuted); a database opened from a stream is not replaced by save, the new one is written behind it and reload raises (c91_replaces_refuted, c91_replaces_partial). Proved: the frame for all outcomes, reading back for KDBX 4 with anything following and for KDBX 3 with nothing following, sequences of KDBX 4 databases; key files that are not the stream itself |
| C92 | xml() and dump_xml show the document in memory, in the clear | round trip of the pretty printer through the parser by induction over documents; substring argument for the values | proved | c92_reads_back, c92_in_the_clear, c92_dump, c92_dump_fails, c92_dump_not_atomic_refuted, c92_element, c92_element_pretty | pretty printing and escaping of libxml2 modelled for UTF-8 output; c92_in_the_clear: texts without the characters that XML escapes; dump_xml of an element with pretty_print=False (the default); c92_dump_not_atomic_refuted is a witness that an older file is lost on a full device |
| C93 | What the API reads before saving, it reads after saving and opening again | the two documents are related element by element (same route from the root); every reading function of Api.v and every search shown to respect the relation | proved | c93_same_elements, c93_parts, c93_fields, c93_custom, c93_custom_properties, c93_common, c93_tags, c93_uuid, c93_times, c93_expires, c93_autotype, c93_place, c93_paths, c93_below, c93_find_entries, c93_find_groups, c93_find_attachments, c93_find_path, c93_listings, c93_attachments, c93_attachment, c93_binaries, c93_database, c93_empty_refuted | the exception for empty strings is real (c93_empty_refuted); no white space in front of child elements (dropped by the parser when a file is read); UUIDs, times and flags that can be read before; custom keys without double quotes; attachments in the shape KeePass writes (att_shape); paths up to empty names |
| C94 | Calls change nothing in entries, groups and snapshots they are not about | a Hoare-style predicate on the effect monad: each primitive step leaves the rows of the part alone when the element written is outside; outsiders are closed under children that are no entries or groups; induction over the sequence | proved | c94_locality, c94_untouched, c94_readings, c94_snapshots | elements handed to calls are of the right kind (kinds); keys of custom properties are arbitrary, also with double quotes; the database settings setter is covered for whatever element its path finds |
| C95 | version, encryption_algorithm, kdf_algorithm and database_salt are what the file's header says | the header facts of Format.v (fields found by number, dictionary values by name) carried to the object returned by opening | partial | c95_header_properties_refuted, c95_kdbx4_partial, c95_kdbx3_partial | false of the code: kdf_algorithm is None for KDBX 4.1 (and later minor versions) and for KDBX 3.0, where database_salt raises AttributeError. Proved for everything else: version and encryption_algorithm always, database_salt for all KDBX 4, both for 4.0 and 3.1 |
| C96 | A damaged protected value costs nothing but itself | the relation of a document and its sealed form takes a parameter for tolerated texts; such texts are left as they are (base64 and UTF-8 decoders fail), with the right key stream position after them; witness for values cut off | partial | c96_cut_off_refuted, c96_kdbx4_partial, c96_kdbx3_partial | false of the code: after a value that was cut off so that it is not base64 any more, the key stream position is wrong and all later values come out as other text without an error. Proved for values that still are base64 of the same number of bytes but no text, and for texts that are not base64 and were never sealed |
| C97 | xpath() with a query of the user | induction over XPath expressions: every node set is a subsequence of all nodes in document order; lexer and parser run symbolically on the two usual queries | proved | c97_document_order, c97_first, c97_cast, c97_all_named, c97_all_below, c97_text_owner, c97_attribute_owner, c97_text_compared, c97_numbers_compared | the part of XPath 1.0 that XPath.v models (paths, predicates, unions, comparisons, the functions pykeepass uses); queries with other functions or axes are errors in the model |
| C98 | An attachment yields the data it was made with, through any calls | the number an attachment refers to is followed through the calls by a small function (fate); induction over the sequence with the invariants of C61; what has left the document is not linked again | partial | c98_attachments_partial, c98_attached_data, c98_history_refuted | false of the code for attachments of history entries: they stay when their binary is deleted and yield the data of another one. Proved for all others; attachments in the shape KeePass writes (regular) |
| C99 | Saving again what was opened writes the same file | the bytes built depend on header, contents and derived key only; what a saved file opens as has the contents of the document read back, which reading back leaves alone | proved | c99_same_bytes, c99_compact, c99_settles, c99_round_trips, c99_first_save_refuted | the exception for empty texts is real: after add_entry (empty auto-type sequences) the first two saves differ (c99_first_save_refuted) |
| C100 | Several objects on one file: the last save wins, reload takes over | the bytes built depend on contents and derived key only (as in C99); the file replaced by rename does not enter; witness for the lost update by computation | proved | c100_save_alone, c100_other_reload, c100_lost_update_refuted | c100_lost_update_refuted is the witness for the last sentence (a merging or warning save is false of the code) |
| C101 | With the published algorithms nothing more need be assumed: a saved database opens to what was in memory | Hash.v, Aes.v, Chacha.v, Argon.v, Inflate.v define the algorithms (checked against published test vectors) and prove the inverse laws; the sample files are embedded as bytes (RealFiles.v) and opened, saved and tested by the virtual machine while building (RealOpen.v, Conform*.v), not as theorems | proved | c101_premises, c101_round_trip | compression writes stored blocks (any DEFLATE stream is read). Besides the theorems the sample databases and unit tests of the project are run on the model while building (Eval vm_compute in RealOpen.v and Conform*.v; the build fails if a result is not as expected): 13 files of test_open_save, 56 tests of tests.py on the document, 5 that save and reload; these runs are no theorems. Argon2 is run on small memory sizes; for samples with 64 MiB the transformed key was computed outside Coq |
| C102 | What can be saved can be opened again, however large | the parser refuses what lies beyond its limit, protecting values keeps the nesting, so the file written is refused at its last step; nesting by induction on the number of add_group calls (Limits.v) | partial | c102_too_deep, c102_any_depth, c102_refuted, c80_saved_opens, c80_save_returns | false of the code: a document nested deeper than the XML parser allows (256 in lxml; the theorem holds for any limit) is saved without error and cannot be opened again. c80_saved_opens is the claim within the limits. That saving returns for the witness is under the size bound of c80_save_returns |
| C103 | Groups and entries form a tree, and each call changes it as its name says | OutlineSpec.v defines outlines, the changes to them (put, drop, clear, arrange) and the effect of each kind of call; Outline_tree.v proves existence and uniqueness of outlines and how changed rows change them; Outline_calm.v and Outline_step.v go through the 32 kinds of calls; Outline_list.v reads the document from above | proved | c103_outline, c103_readings, c103_call, c103_history, c103_lists | documents laid out as KeePass does (laid: groups in groups or Root, entries in groups or histories); kp.entries and kp.groups for documents with one root group (rooted) |
| C104 | A property reads as last assigned, whatever else was called since | Register_mute.v: steps that keep the children with given tags and the texts of elements with these tags; Register_calls.v: for every kind of call the tags it may change something under; Register.v: what is found along the path of tags of a property is kept, either because the call minds other tags or because it is about another entry or group (C94); read-back from C48 and C74; Level.v for the version | proved | c104_kept, c104_last, c104_version | documents laid out as KeePass does; arguments of the right kind (typed), keys of custom properties without quotes, settings of the database named as in the API. c104_last is for values the property can hold (takes: one element of the tag, legal text, times as C03 to C05 allow); rejected values are in C45 |
| C105 | The string fields of an entry are written by its own calls only, whatever else happens | Line.v: the rows of an entry and its string fields are kept by every call that is not one of its own on string fields, because the call minds other tags (Register_calls.v, which also keeps the Protected attribute) or is about another element (C94); its own calls run on the ledger of C90; induction over the history | proved | c105_ledger, c105_reads | documents laid out as KeePass does; entries as KeePass writes them (tidy: every String one Key and one Value, no key twice); keys without double quotes (C46 shows what happens with them); arguments of the right kind; the ledger is that of C90 |
| C106 | A setting of the database reads as last assigned, whatever else was called since | Setting.v: what is found under Meta along the tag of a setting is kept by every call that minds other tags (Register_calls.v); read-back from C77; induction over the history | proved | c106_kept, c106_last, c106_due | documents laid out as KeePass does; c106_last is for settings present once and values they can hold (legal text, times as C03 to C05 allow); assigning None to a text is in C77 |
| C107 | UUIDs stay different | Unique.v: the outline after a call (C103) has no members but those before and the new element, whose first child is the UUID drawn (Outline_calm.v:linked); UUIDs of the others are kept (C104); moves by sets closed under membership; the search by C37 over the lists of C103 | proved | c107_distinct, c107_newcomers, c107_entry_found, c107_group_found, c107_snapshot_refuted, c107_assigned_refuted | documents laid out as KeePass does; the entries and groups of the tree without the snapshots in histories (these have the UUIDs of their entries). That uuid1() draws UUIDs that are not there is a condition on the clock, not proved; the two refuted theorems are the witnesses of the last sentence |
| C108 | Texts are written as UTF-8, and only texts that have it | UnicodeSpec.v states UTF-8 as a relation (shortest form, no surrogates); Unicode.v: the codec of Utf8.v computes it both ways; then through key_composite, open_kdbx and build_kdbx | proved | c108_encoding, c108_decoding, c108_password, c108_passwords_apart, c108_texts, c108_surrogate_opens_nothing, c108_surrogate_saves_nothing | the last two are without a transformed key of the caller |
| C109 | The location of an element leads back to it | ElementPath.v: the expression is lexed, parsed and evaluated by the XPath model, step by step down the ancestors; the ordinal picks one of the siblings of equal tag | proved | c109_leads_back, c109_shape | elements whose tags, and those of the elements they are in, are words of ASCII letters, as all tags of KeePass are |
| C110 | Asking changes nothing | ReadSpec.v lists the calls and defines sessions; Read.v: each call returns the database it was given, then induction over the session | proved | c110_asking, c110_object, c110_sessions | the 51 reading calls of ReadSpec.v, which are all of the API that the model has; that an XPath evaluation of lxml leaves the document alone is part of the model (Db.v) |
| C111 | A call that raises leaves no trace | Fail.v: a call that only reads before its one change, and whose change raises before it takes effect, leaves the state; a new element that could not be linked stays outside the document; touch sets its second time to the same text, which cannot raise after the first; FailBin.v: a bin is only made when moving into it succeeds, and the binaries of KDBX 3 can be read again once the new one is among them | partial | c111_no_trace_partial, c111_saved_partial, c111_trash, c111_add_binary, c111_append_refuted, c111_binary_refuted | proved for the calls of careful (FailSpec.v): adding entries, groups, attachments (add_binary in KDBX 4), moving, deleting, reindex, save_history and empty_group in the document, sending to a recycle bin that is there, delete_history, delete_custom_property, touch, times, expiry, auto-type, settings, attachment ids and names. False for Group.append with a list and for delete_binary (refuted), and for the assignments that remove the old element first (C45). c111_trash: entries and groups of documents with the usual skeleton while there is no bin, UUIDs of 16 bytes from uuid1(); c111_add_binary: add_binary in KDBX 3 in any document, if decompressing undoes compressing |
| C112 | What is added and deleted again leaves nothing behind | Spare.v: every call keeps the rows of a part it does not touch, where the part may be the whole old document; Calm.v: binaries, version and document element are kept; Scratch.v: the group then has its old children plus the new one, deleting it gives back every row, and equal rows are equal trees | proved | c112_nothing_left, c112_saved, c112_binary_stays | documents whose root is KeePassFile with groups, entries and histories where they belong (laid, an invariant by C71); the calls in between have arguments of the right kind, touch no element that was in the document before, and write neither binaries nor settings (trash writes one); c112_binary_stays shows that a binary stored meanwhile stays |
| C113 | What is done and taken back leaves the document as it was | Undo.v: a new child appended to an element of the document and cut out again gives back every row, and equal rows are equal trees (Scratch.v); that the deleting call finds the new child is shown by running it on the entry with the child appended | partial | c113_attachment, c113_snapshot, c113_first_snapshot, c113_custom, c113_move_partial, c113_move_refuted, c113_snapshot_refuted | proved for attachments, for snapshots of an entry that has a history, for the first snapshot when the whole history is deleted, for new custom properties with keys without quotes, and for moving the last child of a group. False in general for moving (the element comes back as the last child of its group) and for deleting the only snapshot by itself (an empty History stays) |
| C114 | Assigning the same value again changes nothing | Again.v: the assignment takes out the one element that matches and appends a new one; doing so again gives an element that looks the same at the same place, and by induction over the tree the documents are equal; texts set twice give equal rows | partial | c114_again_partial, c114_setting, c114_attachment, c114_password_refuted, c114_tags_refuted | settings of the database and attachments in full; properties of entries and groups proved for documents laid out as KeePass does (no key of a field twice, one element for each property), for keys without quotes. False for a password or TOTP that was not marked as protected and is assigned the empty string twice: the second assignment marks it; and with two elements of the same tag each assignment takes away one |
| C115 | Of several assignments to a property only the last counts | Last.v: both ways lead from the same database to one in which the children of the item are the same but for the last, which looks the same; by induction over the tree of the first database the two documents are equal | partial | c115_last_partial, c115_setting, c115_attachment, c115_password_refuted | settings of the database and attachments in full; properties of entries and groups proved for documents laid out as KeePass does (no key of a field twice, one element for each property), for keys without quotes. False for a password or TOTP that was not marked as protected and is emptied first: the next assignment finds it marked, the direct one does not |
| C116 | Assignments to different things may be made in either order | Swap.v: the element an assignment writes in place is found by the tags on the way to it, which no such assignment changes; the rows agree in either order. Apart.v: a call on an entry or group gives the same looks in any database that has that tree; both orders change the same two elements, and by induction over the tree the documents are equal; for a setting, the way to it from the top keeps its tags. Inside.v: a call that puts an element at the end reads only the children of its tag, which a call in place elsewhere leaves alone. Nested.v: nor does a call that puts an element at the end of another element touch them | partial | c116_in_place, c116_apart_partial, c116_setting, c116_inside, c116_nested, c116_fields_refuted | proved for any two assignments that write in place (times, expiry, auto-type, attachments, settings of the database) to different elements, and for all properties of two entries, groups or attachments of which neither is in the other, laid out as KeePass does, for a setting of the database and any such property, and for any such property and one written in place in the same entry or group or in something inside it, and for two not written in place of different entries or groups, be one inside the other. False for two string fields of one entry, which are stored in the order of the assignments. |
| C117 | Deletions may be made in either order, and before or after assignments | Drop.v: a deletion takes one number out of the children of every row and changes nothing else, so two of them commute; the way to what is written in place has no Entry, Group or Binary as a step that could go. DropMore.v: any other property is read from the children it is stored in, which the deletion leaves as they are | proved | c117_deletes, c117_delete_assign, c117_assign_delete, c117_property |  |
