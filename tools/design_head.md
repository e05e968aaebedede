# A Rocq model of pykeepass

The repository is read as text; nothing of it was run.  The model is in `rocq/theories`, the properties
in `properties.jsonl`, their status in `MANIFEST.json`, the wrong programs the theorems were tried on
in `seeded/LOG.jsonl`.  This file is put together by `tools/gen_design.py`.

In the log `theorems_failed` names the lemmas at which a rebuild was seen to stop.  `theorems_depending`
names the theorems that use them, read off the sources at the time of the run: they were not reached by
the rebuild, and none is recorded for the earliest runs.  Rebuilds that ran out of time or memory are
marked inconclusive (`files_stopped`), and two attempts that tried no theorem are marked as not valid.
An edit tried more than once has one line, with the last run; `survived_first_run` is about the first.
Earlier versions of the log had both kinds of names in `theorems_failed`, counted the inconclusive runs
as failures and left out the two invalid ones.

## Method

Executable Gallina functions mirror the Python functions branch by branch; each carries a comment with
the file and lines it models and what it simplifies.

* Exceptions are values (`res A := Ok a | Err exn`).  Calls that change the object run in a monad
  `M A := db -> res A * db`: the state survives an exception, as in Python.
* Text (`str`) and bytes are lists of `N` (code points, octets).
* lxml trees are forests of elements with identity: detached elements stay in the forest, as Python
  objects referring to them do.  The primitives (`append`, `insert`, `remove`, `text=`, `attrib[..]=`)
  raise where lxml raises (illegal characters, non-children, an ancestor appended to a descendant).
* The XPath strings the code builds are built as strings, then lexed, parsed and evaluated by a model of
  the XPath subset, so that quoting errors of the code are errors of the model.
* Recursion without a structural measure (deref) takes fuel; running out of fuel is a separate error value
  which the statements exclude or, for divergence, show for every amount of fuel.

Specifications are separate (`*Spec.v`): they describe the document as a map from element numbers to
rows (tag, attributes, text, children), the file format as published (`FormatSpec.v`), Twofish as
published (`TwofishSpec.v`), and so on, without the functions of the model.  `Prop_*.v` contain the
property theorems, each closed by `exact` of a lemma, followed by `Print Assumptions` and an `Example`
with a concrete, non-trivial case that meets the hypotheses.

A property false of the code is kept as stated; `…_refuted` gives a witness computed by `vm_compute`, and
`…_partial` says for which inputs it does hold.

## Trusted base

* Coq 8.16.1's kernel (with its `vm_compute`).
* `Print Assumptions` says "Closed under the global context" for every theorem listed in
  `MANIFEST.json`: no axioms, neither own nor of the standard library.  (The seven `ssrunder` constants a
  checker may list come with Coq's own ssreflect plugin library; no theorem depends on them.)
* That the model is the code: it was written from the text of /repo and from what is known of the behaviour of
  CPython 3, lxml, construct 2.10 and pycryptodome (none of them available here, none of them run).
  Evidence (C101): with the published algorithms in place of the libraries (`Real.v`) the model opens the
  project's sample databases and passes the project's unit tests transcribed in `Conform.v`, `Conform_save.v`.
  These files, and `RealFiles.v` (the bytes of the samples), model no code of /repo.  Their results are computed
  by `Eval vm_compute` while building and the build fails if one is not as expected; they are not theorems
  (`coqchk` has no virtual machine by default and would need hours for them).
* External libraries are records of functions over which the theorems quantify.  What is assumed of them
  is a premise of each theorem and is satisfied by a small concrete instance (`Toy.v`, `BinEx.v`) and by the
  published algorithms (`Real.v`, `Real_facts.v`):
  - `lib_ok`: hash and MAC outputs have the right size; AES decryption undoes encryption on a block;
    keystreams are bytes; gunzip undoes gzip; parsing a serialised document gives the document back (with
    empty texts absent) if it is within the limits of lxml's parser (`lxml_reads`: nesting 256, texts and names of
    10 MB and 50 kB; beyond them see C102; the step limits of XPath evaluation are left out).  No cryptographic strength is assumed: where the property is about
    forgery, the theorem's conclusion has the alternative "or here are two different messages with the same
    tag".
  - `xml_sound`: what the XML parser returns can be serialised again.  Proved for the XML codec of `Xml.v`
    (`Xml_sound.v`), assumed of lxml.
  - `libs_calm`: the libraries raise none of the exceptions that `read` turns into credential or checksum errors.
  - `zlib_ok`: compressed binaries decompress to themselves.
  - regular expressions (`regex`), the clock, `uuid1` and the local time zone are arbitrary functions; where
    "dot-star matches everything" or "the clock shows UTC" is needed it is a premise.

## What is modelled

| code | model | left out or simplified |
|---|---|---|
| `kdbx_parsing/pytwofish.py`, `twofish.py` | Twofish.v, Cbc.v | modes other than CBC (unused by the code) |
| `kdbx_parsing/common.py` | Keyfile.v (106-177), Kdbx.v (46-103, 180-409), Lib.v | ARCFour stream: raises as the code does; logging |
| `kdbx_parsing/kdbx.py`, `kdbx3.py`, `kdbx4.py` | Construct.v, Kdbx.v | construct combinators as used; lazy containers |
| `pykeepass.py:65-182` open, read, reload, save | Kdbx.v, Save.v (file system, crash points), Object.v | `with` blocks (enter and exit do nothing) |
| `pykeepass.py:184-240` header properties, payload | Object.v | `encryption_algorithm`, `kdf_algorithm`: the names as stored |
| `pykeepass.py:242-301` tree, groups, entries, names | Api.v | |
| `pykeepass.py:303-323` xml, dump_xml | Dump.v (pretty printing), Dump_obj.v | the target of dump_xml is a path; non-ASCII in attribute values is written raw |
| `pykeepass.py:325-445, 461-508, 589-648, 744-763`, `xpath.py` | XPath.v, Db.v, UserXPath.v | XPath functions, axes and operators pykeepass itself does not use (in a user's query they are errors in the model) |
| `pykeepass.py:441-459, 510-587, 650-742` | Api.v | logging |
| `pykeepass.py:765-875` binaries | Api.v | |
| `pykeepass.py:877-913` deref | Api.v (fuelled) | |
| `pykeepass.py:915-990` credentials and dates | Api.v, Object.v | |
| `pykeepass.py:994-1030` times | Time.v | |
| `pykeepass.py:1032-1060` create_database | Object.v | the blank database is an arbitrary file |
| `baseelement.py` | Api.v, Uuid.v (identity and hash), Dump.v, DumpPretty.v (`dump_xml`), ElementPath.v (`_path`) | |
| `entry.py`, `group.py`, `attachment.py` | Api.v, Shown.v (printing) | |
| `deprecated.py` | its functions pass their arguments on to `find_*`; Deprecated.v | |
| `icons.py`, `exceptions.py`, `version.py`, `debug_setup` | constants; exceptions are the type `exn` | |

Numbers: Python integers are `Z`/`N`; floats occur only in the total-seconds division and are modelled
exactly (correctly rounded division, Time.v).  Byte and word sizes of the formats are explicit, theorems
about saving carry the size limits of the block formats.

## Files

