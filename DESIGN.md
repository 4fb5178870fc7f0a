# Formal model of python-javatools: design

Source: `/repo` (obriencj/python-javatools at the pinned commit), read as text, never
executed, never changed.  Model and proofs: `/verif/rocq/theories` (Coq 8.16.1, logical
name `Verif`).  Properties: `/verif/properties.jsonl`.  Status: `/verif/MANIFEST.json`.
Edits of the model that the theorems were tried against: `/verif/seeded/LOG.jsonl`.

## Conventions of the model

* Python 3 semantics (the repository supports 2.7 and 3.7-3.11; where they differ the
  Python 3 behaviour is modelled and the comment says so).  POSIX paths and line ends.
* `bytes` and `str` are `list Z` (byte values, resp. code points).
* Exceptions are values: `res A := Ok a | Err e`, one constructor per exception class.
  A generator that may raise is the list of values yielded plus an optional exception.
* `dict`/`OrderedDict` are association lists in insertion order; iteration over a `set`
  goes through a section variable `order` of which the theorems assume only that it
  permutes its argument.
* Loops without evident bound take fuel; running out of it is a separate error
  (`OutOfFuel`) that the theorems exclude.  Python's recursion limit is not modelled.
* Floats in constant pools are their IEEE bit patterns, with Python's `==` (NaN, signed
  zero) written out.
* A comparison of classes, jars or distributions is a tree of change objects
  (`Change_Model.node`) holding what each object's methods compute when called.
* What is a parameter (a `Variable` of a closed `Section`, so universally quantified in
  the theorems): digest functions, creation and checking of CMS signature blocks, upper
  case of one character, decoding of text files, `repr`/`%`-formatting of floats and
  strings, set order, the file system, the reading of zip containers, the HTML renderer.
* Files: `X_Model.v` definitions (each cites file and lines); `X_Spec.v` the vocabulary in
  which properties are stated, without use of the model's functions; other `X_*.v` lemmas;
  `P_X.v` the property theorems, each with `Print Assumptions` and an `Example` meeting its
  hypotheses.

## Trusted base

* The Coq 8.16.1 kernel, with `vm_compute` (used in examples, in refutations and in finite
  sweeps over the opcode table).
* `Print Assumptions` of every theorem in the `P_*.v` files answers `Closed under the
  global context`: no axioms, neither own ones nor any of the standard library.
* The reading of the cited lines, i.e. that the definitions of `*_Model.v` say what the
  code does, including what they say of the Python runtime (`struct`, `str.splitlines`,
  `fnmatch`, `argparse`, `zipfile`, `filecmp.dircmp`, `os.path`, `multiprocessing`).
* The specifications (`*_Spec.v`), which say what the property means.

## What is modelled

| code | lines | file |
|------|-------|------|
| `pack.py` | all: compile_struct, both unpackers, struct arrays | `Pack_Model` |
| `opcodes.py` | all: the table, helpers, disassemble | `Opcodes_Model` |
| `__init__.py` | constants and tags 82-99; constant pool 176-445, 2115-2231; attributes 103-121, 448-540; class 621-798, 936-1038; members 1096-1253, 1341-1434; code 1606-1898; inner classes etc. 2401-2456 | `ConstPool_Model`, `ClassFile_Model`, `Info_Model` |
| `__init__.py` | annotations 1909-2080 | `Anno_Model`, `Classdiff_Model` |
| `__init__.py` | descriptors, identifiers, pretty types, line tables, platforms 1437-1482, 1681-1775, 2085-2108, 2250-2394 | `Descr_Model` |
| `change.py` | all: Change, GenericChange, SuperChange, Addition, Removal, squash, sorting by type | `Change_Model` |
| `classdiff.py` | all comparisons 90-975; merge_code, pretty_merge_constants; options 985-1151 | `Classdiff_Model`, `Opts_Model` |
| `jardiff.py` | all comparisons 57-545; reports; options 554-628 | `Jardiff_Model`, `Report_Model`, `Opts_Model` |
| `distdiff.py` | all comparisons 61-410; sequential and parallel check 392-585; options 593-669 | `Distdiff_Model`, `Parallel_Model`, `Opts_Model` |
| `manifest.py` | sections, manifests, signature files 230-641; parsing and writing 696-801; digests 804-846; exemptions 878-900; changes 123-227; command line 841-1060 | `Manifest_Model`, `Sign_Model`, `Jardiff_Model`, `Zip_Model`, `Tool_Model` |
| `jarutil.py` | verify, sign, create_jar, command line 47-372 | `Sign_Model`, `Tool_Model` |
| `ziputils.py` | comparison, chunks, CRC, exploded archives, totals 47-178, 215-379 | `Zip_Model`; is_zipstream `Jinfo_Model` |
| `dirutils.py` | all | `Dir_Model`, `Glob_Model` |
| `jarinfo.py`, `distinfo.py` | requirements, provisions, totals | `Info_Model`; the tools' output `Jinfo_Model` |
| `classinfo.py` | which members are shown, version lines, JSON of members 51-70, 246-283, 326-339; printing (see C90 and later) | `Info_Model`, `Print_Model` |
| `report.py` | Reporter, ReportFormat, text and JSON formats, breadcrumbs 58-398; option parsing | `Change_Model`, `Report_Model`, `Opts_Model` |
| `cheetah/__init__.py`, templates | escaping; the links of `report.tmpl` and `change_SquashedChange.tmpl`; the pages of class comparisons (`report.tmpl`, `change.tmpl`, `classdiff_*.tmpl`), of jars and of distributions (`Page_Model`) | `Report_Model`, `Html_Model` |

## What is not modelled

* The compiled template classes; style sheets and scripts; how Cheetah runs a template.
* The container format of zip files (`zipfile`): an archive is its list of entries with
  recorded sizes and CRCs.  Encrypted entries, comments and times do not occur.
* OpenSSL (through M2Crypto): a signature block is accepted or not by an oracle;
  certificates and keys are not parsed.  Of `crypto.py` the decisions around the calls of
  OpenSSL are modelled (`Crypto_Model`), the calls themselves are oracles.
* `argparse` abbreviations of long options, `--help` output, configuration files.
* `StackMapTable` and the type annotations' target information, as far as the library
  itself does not read them.
* Python's recursion limit, memory, `KeyboardInterrupt`, operating system errors other
  than a missing file.
* `setup.py`, the setuptools command, deprecated aliases.

## Property by property

Each entry: where it is modelled, how it is proved, status.  The theorem names are in
`MANIFEST.json`; the theorems are in the `P_*.v` file named here.

**C01 Buffer and stream unpackers agree** (proved)
Modelled: pack.py as a free monad of unpack requests run by two readers.  Proof (`P_Pack.v`): both readers simulate reading from a list; induction on the program.

**C02 Unpackers consume exactly what they return** (proved)
Modelled: both unpackers, open and closed, at every position.  Proof (`P_Pack.v`): case analysis on the remaining bytes.
Scope: C02_closed_zero_agree_refuted records that a zero-length read on a closed unpacker behaves differently for the two classes.

**C03 Big-endian fields decode to the encoded integers** (proved)
Modelled: struct formats of the library.  Proof (`P_Pack.v`): induction on the format; arithmetic of base 256.

**C04 Opcode table is a complete bijection** (proved)
Modelled: the opcode table as data.  Proof (`P_Opcodes.v`): sweep over the 256 codes, inverse by computation.

**C05 Disassembly tiles the bytecode** (proved)
Modelled: disassemble and the unpack helpers.  Proof (`P_Opcodes.v`): induction over the byte string; each step consumes what the encoder writes.

**C06 Disassembly inverts assembly** (proved)
Modelled: the same, with an independent assembler in the specification.  Proof (`P_Opcodes.v`): induction over the instruction list at every alignment.
Scope: the converse direction is C05_disassembly_tiles.

**C07 Disassembly always terminates and never reads past the end** (proved)
Modelled: the same.  Proof (`P_Opcodes.v`): strong induction on the remaining length; the only exceptions are those listed.

**C08 Operands are decoded with the JVM's signedness** (partial)
Modelled: the operand formats of the table.  Proof (`P_Opcodes.v`): sweep over the table against the JVM specification.
Scope: true for every opcode except bipush (16), which is decoded unsigned: C08_bipush_refuted.

**C09 Class files round-trip through the parser** (proved)
Modelled: the class file parser as a program of unpack requests.  Proof (`P_ClassFile.v`): independent encoder of abstract class files; decode after encode, compositionally.

**C10 Truncated class files are always rejected** (proved)
Modelled: the same.  Proof (`P_ClassFile.v`): every proper prefix of an encoding makes some request fail: prefix lemma on request programs.

**C11 Class file detection matches the magic number** (proved)
Modelled: is_class, unpack_class.  Proof (`P_ClassFile.v`): case analysis on the first four bytes.
Scope: C11_given_magic_refuted goes beyond the statement: passing the magic as str/bytes, as documented, is always rejected.

**C12 Constant pool indices are stable** (proved)
Modelled: constant pool parsing with double slots.  Proof (`P_ClassFile.v`): induction on the entries.

**C13 Constant dereferencing is total on well-formed pools** (proved)
Modelled: deref_const with fuel on an arbitrary pool.  Proof (`P_ClassFile.v`): exactness against an inductive relation; termination by a rank of the reference graph; cycles.
Scope: the Python recursion limit (about 1000 frames) is not modelled: acyclic chains longer than that raise RecursionError in the runtime.

**C14 Marker attributes are detected** (partial)
Modelled: attribute table look-up.  Proof (`P_ClassFile.v`): characterisation; witness for the marker attributes.
Scope: false as stated: marker attributes have no data and bool(b"") is False, so they are never seen (C14_markers_refuted); what holds is characterised by the _partial theorems.

**C15 Type descriptors are split exactly** (partial)
Modelled: _next_argsig, _typeseq.  Proof (`P_Descr.v`): induction on the syntax of descriptors.
Scope: a class name containing the character ) breaks the split of a method descriptor (C15_method_refuted); proved for all other descriptors.

**C16 Descriptor splitting terminates on every string** (proved)
Modelled: the same on arbitrary strings.  Proof (`P_Descr.v`): every step shortens the string.

**C17 Pretty type names are faithful** (partial)
Modelled: _pretty_type, _pretty_class.  Proof (`P_Descr.v`): induction on types; injectivity by inversion of the printed form.
Scope: a class whose simple name is a primitive keyword prints like the primitive (C17_injective_refuted); injective otherwise.

**C18 Line lookup returns the covering line** (proved)
Modelled: get_line_for_offset and relative tables.  Proof (`P_Descr.v`): induction over the table.

**C19 Grouping code by line loses nothing** (proved)
Modelled: iter_code_by_lines.  Proof (`P_Descr.v`): induction over the disassembly.

**C20 Annotations decode exactly at any nesting depth** (proved)
Modelled: JavaAnnotation.unpack.  Proof (`P_Anno.v`): encoder in the specification; nested induction on values.

**C21 Annotation equality ignores pool numbering** (proved)
Modelled: annotation equality.  Proof (`P_Anno.v`): nested induction; equality of what the indices name.

**C22 Platform names follow the version** (proved)
Modelled: the platform table.  Proof (`P_Descr.v`): case analysis.

**C23 Manifest lines never exceed 72 bytes** (proved)
Modelled: write_key_val.  Proof (`P_Manifest.v`, `P_Manifest2.v`): induction over the folded remainder.

**C24 Folding is undone by reading** (proved)
Modelled: write_key_val and parse_sections.  Proof (`P_Manifest.v`): unfolding after folding; UTF-8 decoding across folds.
Scope: the restriction on characters across a fold is necessary: C24_straddle_refuted.

**C25 Manifests round-trip** (proved)
Modelled: Manifest.parse, store.  Proof (`P_Manifest.v`): round trip of items, sections, manifests; sorting is a permutation.
Scope: for storable manifests; what is not storable although accepted: empty values (C25_empty_value_refuted), newlines (C25_newline_refuted), names of more than 68 bytes but at most 68 characters (C25_long_name_refuted).

**C26 Manifest serialisation is canonical** (proved)
Modelled: Manifest.store.  Proof (`P_Manifest.v`): sorting of permuted lists of distinct sections is equal.

**C27 Jar checksum verification is exact** (proved)
Modelled: verify_jar_checksums.  Proof (`P_Sign.v`): induction over the entries against an independent relation.
Scope: with supported digest algorithms only; an unsupported one raises UnsupportedDigest (C27_only_error).

**C28 Non-strict verification tolerates missing digests** (partial)
Modelled: the strict flag.  Proof (`P_Sign.v`): the two settings are extensionally equal.
Scope: false: the strict flag has no effect at all (C28_strict_ignored, C28_strict_ignored_sections, C28_refuted).

**C29 Signature file generation and verification agree** (partial)
Modelled: digest_manifest, verify_manifest.  Proof (`P_Sign.v`): the digests recorded are those verified when serialisation agrees.
Scope: holds when every section has a digest of the algorithm used, or when the sections are already in written order; false in general (C29_refuted, C29_no_linesep_refuted).

**C30 Signature verification binds the manifest** (proved)
Modelled: verify_manifest.  Proof (`P_Sign.v`): inversion: each section has a matching digest; collision-freeness.
Scope: up to digest collisions; removal of a whole section is not covered by the statement and goes unnoticed (C30_removal_refuted).

**C31 A verified jar has unmodified content** (proved)
Modelled: jarutil.verify.  Proof (`P_Sign.v`): inversion of a successful run down to the entries; tampering by contradiction.
Scope: up to digest collisions; the signature scheme is an oracle.

**C32 Signing then verifying succeeds** (partial)
Modelled: jarutil.sign and verify.  Proof (`P_Sign.v`): composition of C25, C27, C29 over the new archive.
Scope: holds when every section names an entry or carries a digest of the algorithm used; false for e.g. sealed package sections (C32_refuted); other attributes of entry sections are dropped (C32_attributes_refuted).

**C33 Re-signing with the same alias replaces the signature** (partial)
Modelled: the same.  Proof (`P_Sign.v`): the old block is found first and fails.
Scope: false: signing again with the same alias never verifies (C33_resign_always_fails, C33_refuted).

**C34 Exactly the signature related entries are exempt from checksums** (proved)
Modelled: file_skips_verification.  Proof (`P_Sign.v`): equivalence with the stated form of names, given upper-casing laws.
Scope: upper-casing is the Unicode mapping; non-ASCII names may be exempted by it (C34_unicode_refuted).

**C35 Digest attribute names are recovered exactly** (partial)
Modelled: keys_with_suffix (str.rstrip semantics).  Proof (`P_Manifest.v`): characterisation of rstrip.
Scope: false in general (C35_suffix_refuted); exact condition C35_exact_iff; true for the digest names in use (C35_digests).

**C36 Child changes are grouped by type without loss** (proved)
Modelled: iterate_by_type and friends.  Proof (`P_Change.v`): partition into types is a stable permutation.

**C37 A composite change is a change iff a part is** (proved)
Modelled: check of generic and composite changes.  Proof (`P_Change.v`): nested induction on the tree.

**C38 Ignoring is exactly coverage of all changes** (proved)
Modelled: is_ignored.  Proof (`P_Change.v`): nested induction on the tree.

**C39 Squashing preserves verdict and description** (proved)
Modelled: squash, clear; get_description with the exceptions it raises.  Proof (`P_Change.v`): nested induction on the tree.
Scope: squashing a change whose description is empty turns it into the default text (hypothesis of C39_squash).

**C40 The text report shows exactly the relevant changes** (partial)
Modelled: _indent_change.  Proof (`P_Change.v`): nested induction; exact text.
Scope: the text is exactly as specified, and the report succeeds iff every visited node can be described (a hidden one that cannot is enough to fail: C40_hidden_refuted); one line per node holds unless a description contains a line end (C40_newline_refuted).

**C41 Zip comparison classifies every entry exactly once** (proved)
Modelled: compare_zips.  Proof (`P_Zip.v`): event lists against name sets; duplicates removed.
Scope: for ZipFile archives with non-empty names and matching CRC/size records; any set iteration order.

**C42 Zip comparison decides content equality** (partial)
Modelled: _different, _deep_different.  Proof (`P_Zip.v`): chunk-wise comparison decides equality; CRC collision case.
Scope: proved for ZipFile archives; directories in place of archives are read as text and fail or always differ (C42_directory_refuted, C42_mixed_refuted).

**C43 Chunked processing is independent of the chunk size** (proved)
Modelled: file_crc32, chunks, digest_chunks.  Proof (`P_Zip.v`): polynomial CRC in the specification; induction on bytes.
Scope: CRC-32 modelled in full; hash objects by the update law of hashlib.

**C44 Comparing zip files by path works** (partial)
Modelled: compare, collect_compare by path.  Proof (`P_Zip.v`): state of the closed archives.
Scope: false: the archives are closed before the generator runs (C44_refuted); exact condition proved; collecting by path is right (C44_collect).

**C45 Archive totals add up** (proved)
Modelled: zip_entry_rollup.  Proof (`P_Zip.v`): induction on entries.
Scope: the documented order of the two sizes is the reverse (C45_order_refuted).

**C46 Directory comparison covers both trees** (partial)
Modelled: dircmp and _gen_from_dircmp.  Proof (`P_Dir.v`): nested induction on trees; exact conditions.
Scope: needs: no kind conflicts, no equal size+time with different content, at most one common subdirectory per directory; each shown necessary.

**C47 Directory copy reproduces the tree** (partial)
Modelled: copydir.  Proof (`P_Dir.v`): induction on trees.
Scope: true exactly for trees with files at most one directory deep; false otherwise (C47_refuted).

**C48 Every class member is accounted for** (partial)
Modelled: ClassMembersChange.collect_impl.  Proof (`P_Classdiff.v`): identity maps of both sides; what is dropped.
Scope: needs distinct identities on the left; what is lost otherwise is characterised (C48_lost); identity theorem for methods; two fields of one name: one is lost (C48_left_refuted).

**C49 Unreported code changes are no changes** (partial)
Modelled: code changes.  Proof (`P_Classdiff.v`): unchanged implies instructions equal up to dereferenced constants.
Scope: multianewarray operands are compared as raw indices (C49_multianewarray_refuted); constants equal under Python == are not told apart (C49_equal_refuted).

**C50 A class is unchanged with respect to itself** (partial)
Modelled: JavaClassChange of a class with itself.  Proof (`P_Classdiff.v`): every part is unchanged.
Scope: needs distinct member identities; false without (C50_refuted); NaN constants excluded, false with (C50_nan_refuted).

**C51 Constant pool renumbering is not a code change** (partial)
Modelled: CodeConstantsChange.  Proof (`P_Classdiff.v`): renumbering relation between pools.
Scope: false for multianewarray (C51_multianewarray_refuted).

**C52 The merged constant listing covers both pools once** (partial)
Modelled: pretty_merge_constants.  Proof (`P_Classdiff.v`): induction over the two pools.
Scope: all indices covered; once each exactly if the sizes agree; refuted otherwise (C52_refuted).

**C53 The merged code listing keeps all instructions** (partial)
Modelled: merge_code.  Proof (`P_Classdiff.v`): exact content of the merged dictionary.
Scope: exact content proved (C53_exact); instructions kept if no relative line occurs twice; refuted otherwise (C53_refuted).

**C54 Identical jars have no differences** (partial)
Modelled: JarChange with all content changes.  Proof (`P_Jardiff.v`): exact exit status by C41/C42; raising cases.
Scope: proved for zip files whose recorded sizes and CRCs are right, with the exact condition of exit status 0; directories in place of jars raise on any changed class, manifest or signature file (C54_exploded_refuted); ignored entries must still parse (C54_ignored_unparsable_refuted).

**C55 Changed files in a distribution are reported** (partial)
Modelled: DistChange with all content changes.  Proof (`P_Distdiff.v`): exact exit status by C46; silent cases.
Scope: false: differences in files of no special kind are never reported (C55_refuted, C55_data_silent), with --shallow no content difference is; the exact condition of exit status 0 is proved (C55_exit) for trees that the directory comparison handles (see C46).

**C56 Parallel distribution check is schedule independent** (partial)
Modelled: the parallel check as a transition system.  Proof (`P_Parallel.v`): invariants over all schedules; progress measure; counterexample runs.
Scope: proved when the tasks succeed (any number of helpers, any schedule); false when a task raises or --processes is negative: the parent waits for ever (C56_refuted, C56_negative_refuted); KeyboardInterrupt not modelled.

**C57 Jar requirements exclude what the jar provides** (partial)
Modelled: get_requires, get_provides of classes and jars.  Proof (`P_Info.v`): set-level specifications; induction on entries.
Scope: For zip jars: the provisions are exactly those of the specification, in entry order. So are the requirements, for jars whose classes name no array of two or more dimensions of objects (deep = true); for all others they are exactly those of the specification without the element classes of such arrays (deep = false), which the code drops: C57_nested_array_refuted. Exploded jars always fail (C57_exploded_fails).

**C58 Distribution requirements exclude what the distribution provides** (partial)
Modelled: the same for distributions.  Proof (`P_Info.v`): set-level specifications.
Scope: For a directory; arrays of two or more dimensions as in C57 (exact result for every distribution with deep = false); the order among files is that of the directory listing. A distribution given as a zip file always fails (C58_zipped_fails).

**C59 Visibility filtering is monotone** (proved)
Modelled: should_show.  Proof (`P_Info.v`): case analysis; filter lemmas.
Scope: Exactly which members are shown, in order; monotone; public always, private only on request. Finding: package-private members are hidden at --package (C59_package_refuted).

**C60 Reports run each format once** (partial)
Modelled: Reporter, ReportFormat.run.  Proof (`P_Report.v`): trace of effects; induction on formats and sub-reporters.
Scope: A completed run and nesting are proved in full. Not so in general: unknown format names are passed over (C60_unknown_refuted), a failing format leaves the others uncleared and the next run without setup (C60_failed_refuted), sub-paths with .. or absolute ones leave the directory (C60_escape_refuted).

**C61 Constant strings decode to the Java string** (partial)
Modelled: decoding of CONST_Utf8.  Proof (`P_ClassFile.v`): modified UTF-8 encoder in the specification.
Scope: true for strings without supplementary characters; every supplementary character is lost (C61_supplementary_lost, C61_supplementary_refuted).

**C62 Attribute accessors return the encoded attribute** (partial)
Modelled: attribute accessors.  Proof (`P_ClassFile.v`): encoder per attribute; decode after encode.
Scope: true for all listed accessors except get_annotationdefault (C62_annotationdefault_refuted).

**C63 Opcode mnemonics and constant operands agree with the JVM specification** (partial)
Modelled: the opcode table.  Proof (`P_Opcodes.v`): sweep against a table written from the JVM specification.
Scope: two rows differ from the JVM specification: 194 is spelled monitorentry (C63_monitorenter_refuted) and 197 multianewarray is not flagged as having a constant operand (C63_multianewarray_refuted); all other codes agree.

**C64 The JSON report shows the same changes as the text report** (proved)
Modelled: JSON report: every field Change.simplify stores, old_data and new_data included.  Proof (`P_Change.v`): nested induction; same rows as text.

**C65 A directory presented as an archive lists its tree** (proved)
Modelled: exploded archives.  Proof (`P_Zip.v`): induction on directory trees.

**C66 The exit status of classdiff tells whether the classes differ** (partial)
Modelled: classdiff as a program.  Proof (`P_Classdiff.v`): exact exit status by parts.
Scope: exact for classes with distinct member identities; duplicates refuted (C66_dropped_refuted); uncompared attributes (C66_attributes_refuted).

**C67 Recompiled classes with another constant pool numbering pass** (partial)
Modelled: the same under renumbering.  Proof (`P_Classdiff.v`): renumbering relation lifted to the whole class.
Scope: needs distinct identities and no CONST_Dynamic in the pools (C67_dynamic_refuted: raises).

**C68 Manifest comparison reports exactly the attributes and sections that differ** (partial)
Modelled: manifest changes.  Proof (`P_Jardiff.v`): exactness of the attribute comparison.
Scope: exact for change and ignoring; keys are case-sensitive (C68_case_refuted), any key also ignores a reordering (C68_order_refuted).

**C69 Writing reports does not alter the verdict of jardiff** (proved)
Modelled: the report side of jardiff.  Proof (`P_Jardiff.v`): squashing preserves the verdict along the run.
Scope: exit status; the files written by the reports are not modelled.

**C70 A completed jar comparison can be reported** (partial)
Modelled: get_description, old_data and new_data of every change of a jar comparison, with the exceptions they raise.  Proof (`P_Jardiff.v`): tellable and storable trees, node by node; the classes compared are given to the hypotheses as the pairs of entries both jars hold.
Scope: proved where the classes compared can be described (text) or reported (JSON); false otherwise: member types that cannot be printed (C70_text_refuted), MethodType constants (C70_json_refuted); false with --show-unchanged for jars without entries (C70_refuted).

**C71 Writing reports does not alter the verdict of distdiff** (proved)
Modelled: the report side of distdiff.  Proof (`P_Distdiff.v`): as C69.
Scope: exit status; the files written by the reports are not modelled.

**C72 Constants as text name what the class file names** (partial)
Modelled: pretty_deref_const.  Proof (`P_Info.v`): case analysis on dereferenced values.
Scope: Proved for classes, members, names with types, strings and numbers. False for method handles, method types, modules and packages, which always raise (C72_fails, C72_refuted).

**C73 classinfo output is complete and correctly labelled** (partial)
Modelled: classinfo JSON and version lines.  Proof (`P_Info.v`): all inputs of the kind.
Scope: False: JSON output raises for every shown member (C73_json_fails, C73_json_refuted), and the version labels are swapped (C73_version_refuted). The list of shown members in the printed form is C59_shown.

**C74 Members are found by name and argument types** (partial)
Modelled: get_method and bridges.  Proof (`P_Info.v`): filter lemmas.
Scope: Proved for tuples; with a list get_method_bridges finds nothing (C74_list_fails, C74_list_refuted).

**C75 jarinfo summarises every jar** (partial)
Modelled: cli_jar_zip_info.  Proof (`P_Info.v`): by C45.
Scope: Proved whenever the total size is not 0; otherwise ZeroDivisionError (C75_zip_info, C75_refuted).

**C76 Ignore patterns follow the shell pattern language** (proved)
Modelled: fnmatch translation.  Proof (`P_Glob.v`): equivalence of the matcher with an inductive pattern language.
Scope: Bracket expressions included. Finding: a symbol with array types given as pattern does not match itself (C76_self_refuted).

**C77 Manifests are accepted exactly when well formed** (partial)
Modelled: Manifest.parse.  Proof (`P_Manifest2.v`): grammar as inductive relation; both directions.
Scope: For texts in UTF-8. Findings: a text without sections raises StopIteration (C77_empty_refuted), the character after the colon is dropped whatever it is (C77_no_space_refuted), nameless sections all become the section None (C77_nameless_refuted), sections of one name are not merged (C77_duplicate_refuted).

**C78 Links between reports lead to the reports** (proved)
Modelled: breadcrumbs and details links.  Proof (`P_Report.v`): resolution of relative paths.
Scope: Links are followed as paths. Finding: an empty base directory makes sub-reporters raise ValueError (C78_empty_base_refuted); jardiff and distdiff replace it by "./".

**C79 jardiff --report writes one report for the jar and one for each changed class** (partial)
Modelled: jardiff --report.  Proof (`P_Report.v`): trace of written files against the class entries that differ.
Scope: The exact set of files, their content and the exit status are proved. Not below the report directory for entry names with .. parts (C79_escape_refuted).

**C80 Names appear in HTML reports as they are** (partial)
Modelled: xml_entity_escape and link text.  Proof (`P_Report.v`): un-escaping in the specification; induction.
Scope: Text is escaped correctly; links are not escaped (C80_link_refuted). Other templates are not modelled.

**C81 Command line options mean what they say** (partial)
Modelled: argparse tables and callbacks.  Proof (`P_Opts.v`): induction over the command line.
Scope: Proved for all command lines in which no word of --ignore names a collecting option; such a word makes the run fail (C81_list_refuted). The words lines and version of --ignore set nothing (C81_lines_refuted, C81_version_refuted). Abbreviated options and --help are not modelled.

**C82 More options never report more** (proved)
Modelled: options and comparison together.  Proof (`P_Opts.v`): monotonicity of every is_ignored.
Scope: For distdiff --shallow must be the same on both sides (it is not an ignore option).

**C83 Every documented ignore option has an effect** (partial)
Modelled: the same.  Proof (`P_Opts.v`): equality of runs with and without the option.
Scope: False: --ignore-platform, --ignore-added and others have no effect on any input (C83_effectless, C83_platform_refuted, C83_added_refuted), and the default options functions end the program (C83_defaults_refuted).

**C84 Every entry is listed once, under the right heading and in the documented order** (partial)
Modelled: JarContentsChange and DistChange.  Proof (`P_Kinds.v`): rows of the comparison paired with the changes.
Scope: For zip jars, and for directories on which the comparison of directories is right (C46_partial).

**C85 The manifest created for an archive lists its files with the requested digests** (partial)
Modelled: manifest create.  Proof (`P_Tool.v`): invariant of the loop; then C25.
Scope: Proved for archives. For directories the names are cut wrongly (C85_directory_refuted) and can fall together (C85_collapse_refuted); -r raises FileNotFoundError (C85_recursive_refuted); -i given twice raises TypeError (C85_ignore_twice_fails).

**C86 A manifest created for an archive verifies in that archive** (partial)
Modelled: manifest create and verify.  Proof (`P_Tool.v`): C85, then C27.
Scope: Exact: the status is 0 iff every ignored file is one that needs no checksum (C86_exact). Other files in META-INF are always ignored by create and always required by verify (C86_refuted).

**C87 A created jar has the given files, once each, and a manifest; it can be signed** (partial)
Modelled: jarutil create.  Proof (`P_Tool.v`): walk of trees, normalisation of paths.
Scope: Proved for relative paths without .. parts. Others: C87_up_refuted, C87_root_refuted; a manifest among the files is stored twice (C87_two_manifests_refuted); --main-class has no effect (C87_main_class_refuted).

**C88 jarutil sign and verify return honest statuses** (partial)
Modelled: jarutil and manifest main programs.  Proof (`P_Tool.v`): C31, C32; error analysis of sign.
Scope: The verify and sign statuses are proved as stated, sign-then-verify under the conditions of C32. A missing manifest escapes as an exception (C88_no_manifest_refuted); the documented command verify is not recognised by jarutil (C88_verify_word_refuted).

**C89 A query of a manifest gives the attribute of the section named** (partial)
Modelled: manifest query.  Proof (`P_Tool.v`): C25, then look-up.
Scope: Proved for section names without a colon; others cannot be asked for (C89_colon_refuted).

**C90 Declarations are written in full and say what the class file says** (partial)
Modelled: declarations of classes and members.  Proof (`P_Print.v`): case analysis on flags; unique splitting of the text.
Scope: Exact text for members and classes, and the declaration of a member determines it up to flags that have no word. A class with no modifier is printed with a leading space (C90_package_class_refuted). Flags must be among those the JVM specification defines for the kind of member.

**C91 classinfo lists exactly the members of the visibility asked for** (partial)
Modelled: the text classinfo prints.  Proof (`P_Print.v`): induction on the members; C90, C03.
Scope: Exact text of the listing for classes whose shown methods have no runtime visible annotations; these are printed for methods though not for fields (C91_annotations_refuted). Signatures, line numbers and local variables (-s, -l, --locals) and verbose mode are modelled but not part of this theorem.

**C92 A code listing shows every instruction and determines the code** (partial)
Modelled: code listings.  Proof (`P_Print.v`): C03; numbers read back from the text.
Scope: Proved for all instructions but monitorenter, whose name is misspelt (C92_monitorenter_refuted).

**C93 Enclosing method and verbose output** (partial)
Modelled: EnclosingMethod and verbose output.  Proof (`P_Print.v`): parsing of the attribute.
Scope: get_enclosingmethod as stated. Annotations are all numbered 0 and the heading Exceptions is printed without any (C93_verbose_refuted).

**C94 The listing of constants shows each constant with its index and type** (partial)
Modelled: the constants listed.  Proof (`P_Print.v`): induction on the pool.
Scope: Proved for pools without CONSTANT_Dynamic; with one, -p and -v raise, always (C94_dynamic_fails).

**C95 Only the missing e-mail usage of a signing certificate is passed over** (partial)
Modelled: the verification callback and what OpenSSL prints for keyUsage.  Proof (`P_Crypto.v`): case analysis; all 512 sets of usages computed.
Scope: Sound for certificates without the Netscape type extension; with one, a certificate it forbids is accepted (C95_nstype_refuted). Complete only for certificates without keyUsage: with it nothing is ever passed over, since OpenSSL prints long names and the code looks for short ones (C95_usage_never_recognised, C95_code_signing_refuted). The signature itself (PKCS7_verify) is not modelled; get_value is modelled as the long names joined by a comma.

**C96 The type of a private key is found** (proved)
Modelled: private_key_type over three loaders.  Proof (`P_Crypto.v`): case analysis.

**C97 Each change is shown by the most specific template** (proved)
Modelled: linearisation of classes (C3), the template map, the class table of the program.  Proof (`P_Tmpl.v`): invariant of the linearisation: parents come after children; then vm_compute over the class table.

**C98 The page of a class comparison shows the code of every method on both sides** (partial)
Modelled: the templates of method and code changes, as functions from the change objects to a sequence of tags and texts.  Proof (`P_Html.v`): the table read back by a reader of tables (`shows_table`) is the expected grid; induction over lines and instructions.
Scope: The exact table for both cases. All instructions have rows if no relative line occurs twice; otherwise some are missing (C98_loop_refuted). Handlers of exceptions and line tables are not shown at all (C98_hidden_refuted). Excludes code with monitorenter or multianewarray, which the opcode table gets wrong (C07, C63; hypothesis usual_codes).

**C99 The page of a class comparison shows every method added, removed or changed, with its values** (partial)
Modelled: the templates of methods and fields on the page of the class.  Proof (`P_Html.v`): the page contains the section of each event of collect_members; rows by case analysis on each value.
Scope: Proved for methods that are on both sides, added and removed. Fields added or removed are not named on the page (C99_field_refuted).

**C100 The page of a class comparison shows the data of the class and of its fields** (partial)
Modelled: the templates of class info and fields.  Proof (`P_Html.v`): rows by case analysis on each value.
Scope: Exact rows for class and fields. Names of classes are not escaped (C100_escape_refuted); a constant value 0 is not listed when unchanged (C100_zero_refuted).

**C101 The page of a class comparison shows every constant of both pools** (partial)
Modelled: the template of the constant pool over pretty_merge_constants.  Proof (`P_Html.v`): induction over the merged pool, from the theorems of C52.
Scope: Exact for pools of one size and for equal pools; for others every index has its row, some twice. The number 0 is shown blank where pools differ (C101_zero_refuted).

**C102 The pages of class comparisons are well-formed XHTML** (partial)
Modelled: all classdiff templates and report.tmpl.  Proof (`P_Html.v`): an invariant on balanced pieces; for the negative part, the surplus of opened over closed tags of each piece.
Scope: False in general. Well-formed with html_no_jquery, equal pools, no common field and no method on the right (C102_partial); never with a method or field on both sides (C102_method_ill, C102_field_ill) nor with the jquery script (C102_jquery_ill).

**C103 jarinfo lists exactly the symbols a jar provides and requires** (partial)
Modelled: `Jinfo_Model.jarinfo_cli`, `print_jar`, `print_jar_provides`, `print_jar_requires`.  Proof (`P_Jinfo.v`): the dictionaries of C57 give the set of symbols, sorting and the order of keys the listing.
Scope: The element classes of arrays of two or more dimensions are dropped (C57); with deep = false the theorem gives the exact output for every jar, with deep = true the intended one for jars without such arrays.

**C104 jarinfo --json holds the same symbols with the entries concerned** (partial)
Modelled: `Jinfo_Model.json_jar`.  Proof (`P_Jinfo.v`): the dictionaries of C57.
Scope: As C103 for arrays. One document per jar; the order in which dump writes the members is not modelled.

**C105 jarinfo --manifest prints the whole manifest in order** (proved)
Modelled: `Jinfo_Model.print_manifest` over the parser of `Manifest_Model`.  Proof (`P_Jinfo.v`): insertion sort of the items; every parsed manifest has a main section with at least one attribute.
Scope: For jars with a manifest; without one the tool raises (C105_missing_fails), the message for that case is never printed.

**C106 jarinfo prints the classes in the order of the entries and the totals of the archive** (proved)
Modelled: `Jinfo_Model.print_classes`, `print_zip`.  Proof (`P_Jinfo.v`): induction on the entries; the totals of C75.
Scope: The text of a class is that of the model of classinfo (C91); --zip for archives with some content.

**C107 distinfo lists exactly the symbols a distribution provides and requires** (partial)
Modelled: `Jinfo_Model.distinfo_cli`.  Proof (`P_Jinfo.v`): the dictionaries of C58, C59 as for C103.
Scope: As C103 for arrays; trees without symbolic links.

**C108 is_zipstream leaves a stream where it was** (partial)
Modelled: `Jinfo_Model.is_zipstream`; the search for the record is an arbitrary function of content and position.  Proof (`P_Jinfo.v`): case analysis.
Scope: If the search raises nothing but OSError; bytes and str are refused in Python 3 (C108_bytes_fails).

**C109 HTML page of a jar comparison** (partial)
Modelled: `Page_Model.page`: the templates of a jar report and of the changes below it.  Proof (`P_Page.v`): the listing of any children with an entry, a class and a kind gives groups (`Page_Listing.listing_ok`); each entry of a jar renders as an item, by case analysis on event and kind.
Scope: Of manifests, signature files and other data that differ, what follows the name is not specified. Jars without compared entries have no page (C109_empty_refuted); the page does not show what changed in a manifest (C109_manifest_refuted).

**C110 HTML page of a distribution comparison** (partial)
Modelled: `Page_Model.page`: the template of a distribution report.  Proof (`P_Page.v`): as C109, over the walk of C43.
Scope: As C109. Data files that differ are shown as unchanged (C110_data_refuted).

**C111 Pages of jars and distributions are well-formed** (partial)
Modelled: `Page_Model.page`.  Proof (`P_Page.v`): an invariant on balanced pieces, by induction on the change tree.
Scope: With jQuery left out; the default pages are never well-formed (C111_jquery_ill).

**C112 The verdict does not depend on the order of the arguments** (partial)
Modelled: `classdiff`, `jardiff`, `distdiff` with the sides exchanged.  Proof (`P_Verdict.v`): the exact condition of exit status 0 (C66, C54, C55) is symmetric; relational equality of annotations.
Scope: For trees the directory comparison handles (see C46) and runs that end without an exception; with methods that differ in their return type only it is false (C112_overloads_refuted).

**C113 Verdicts of no change chain** (partial)
Modelled: the same.  Proof (`P_Verdict.v`): the exact condition is transitive.
Scope: As C112; for distributions false where a pattern matches the name of a missing file but not that of a common one (C113_dist_refuted).

**C114 distdiff --report writes exactly the reports that are due** (partial)
Modelled: DistReport, DistJarReport and DistClassReport with their sub-reporters as computations that write (Drep_Model), on top of the jar reports of C79; the helpers of C56.  Proof (`P_Drep.v`): the events of the directory comparison are matched with the reports due on their files (Drep_Spec.due); each report is found in the output of exactly one of them.
Scope: For readable jars and trees that the directory comparison handles (see C46); completion is a hypothesis for the list of files (C114_written), not for content and status. With --processes, a report that fails leaves distdiff waiting for ever (C114_parallel_waits).

**C115 Comparing a jar with its signed copy** (partial)
Modelled: no new model: sign of C32, jardiff of C54, distdiff of C55, on the archives with the same entries (Signdiff_Spec.archive_of).  Proof (`P_Signdiff.v`): the output of sign is taken apart: only the manifest differs in content, only signature entries are added; the new manifest is parsed back with the round trip of C23; then the exact conditions of C54 and C55.
Scope: Exact. The help text ("Ignore JAR signing changes") promises more: with that option alone a jar that was only signed is reported as changed (C115_refuted).

**C116 classinfo --provides and --requires list exactly the symbols of the class** (partial)
Modelled: `Print_Model.cli_print` with --provides/--requires.  Proof (`P_Verbose.v`): the symbols of C57 filtered and sorted; any order of the sets.
Scope: --provides in full (C116_provides); --requires exactly for every class with deep = false, and as intended (deep = true) for classes whose constants name no array of arrays (C57_nested_array_refuted).

**C117 The verbose listing of classinfo is complete and exact** (partial)
Modelled: `Print_Model.cli_print` and everything it calls (`field_lines`, `method_lines`, `pretty_annotation`, `disassemble`).  Proof (`P_Verbose.v`): an independent text (Verbose_Spec.full_listing) written from the class file; each part by a lemma that decodes the attribute concerned.
Scope: Exact text for every combination of options and every class whose annotations, descriptors and tables are readable as the specification of class files says (a class with a dynamic constant has no constant table: C67_dynamic_refuted). The labels of the two version numbers are swapped (C73_version_refuted) and the text specified says so; annotations show constants by index.

**C118 The page of a class comparison shows which annotations changed** (partial)
Modelled: `Html_Model.annos_html` and its two tables, within `class_html`.  Proof (`P_Annopage.v`): the meaning of annotations (Anno_Spec.jmeaning, independent of the pool) and their text (Verbose_Spec.anno_text) taken from the class file; the part of the page found by position in `class_html`.
Scope: Marks and tables for every pair (C118_changed_partial, C118_unchanged). Missing: an annotation without elements is shown as a blank where the annotations changed (C118_marker_refuted), and constants are shown by pool index, so that a changed value may show the same text on both sides (C118_value_refuted).

**C119 Style sheets and scripts are reachable from every page of a report** (partial)
Modelled: `Resource_Model`: setup, _relative, _relative_uris and the hand-over to the template, along the events of Report_Model and Drep_Model; the heads of `class_html` and `Page_Model.page`.  Proof (`P_Resource.v`): where names lead is Report_Spec.leads, a relation on names from the root; which links are wanted, what must be reachable and what a head refers to are stated in Resource_Spec without the model.
Scope: Exact for every page, file that exists and option (C119_jar, C119_dist, C119_parallel, C119_copied, C119_page). Missing: a relative name of a file that is not there is linked as given on every page, so that one meant from the report directory is found from the main page only (C119_kept_refuted), and links are not encoded (C119_fragment_refuted). No symbolic links, no errors of the file system while copying.

**C120 The text report of classdiff, line by line** (proved)
Modelled: `Classdiff_Model.class_change` and everything below it, checked, then `Change_Model.text_report`.  Proof (`P_Text.v`): Text_Spec describes the lines from the two class files alone: which members correspond (by name; by name, parameters and, for bridges, the type returned), what is the same, what an option hides, how values are shown; no change tree occurs in it.
Scope: The exact text, and that there is only one such text, for every pair of classes with readable names, descriptors and annotations and every combination of options (C120_report). Two things that the text specified says, as the code does, are not so: a native method is said to be abstract (C120_native_refuted); of a method that lost its code each part of the code is said to be unchanged, and the difference is marked as ignored though no option asks for that (C120_code_refuted).

**C121 The JSON document of classinfo** (partial)
Modelled: `Cjson_Model.classinfo_cli` with --json: `unpack_class`, `simplify_classinfo`, sorted by `dumped`; the members are handled as the code does, with the options passed in place of the member.  Proof (`P_Cjson.v`): Cjson_Spec gives the document as a table of entries computed from the class file; the two agree by reading back the encoding of the class.
Scope: The exact document, or the exception, for every class and option (C121_document_partial, C121_header, C121_files); [deep] as in C57. Missing: a class with any member to be shown has no document, AttributeError is raised instead (C121_refuted, and exactly then by C121_document_partial). How json.dump writes the values is not modelled.

**C122 The data of a field or method** (partial)
Modelled: `Cjson_Model.simplify_field`, `simplify_method` of a member of an unpacked class.  Proof (`P_Cjson.v`): Cjson_Spec gives the entries from the class file.
Scope: Exact data for every well-formed member (C122_field, C122_method), where deprecated is said only of an attribute Deprecated with data, which no compiler writes (C122_deprecated_refuted).

**C123 The text report of jardiff, line by line** (proved)
Modelled: `Jardiff_Model.jar_change` and everything below it, checked, then `Change_Model.text_report`.  Proof (`P_Jtext.v`): Jtext_Spec describes the lines from the entries of the two jars: a list with every entry of either jar once (`classified`, the specification of C42), cut into the fourteen kinds; the sections of parsed manifests; the classes by Text_Spec one level further in; what options hide; no change tree occurs in it.
Scope: The lines, their order up to the order of sets, their depth and marks, for every pair of zip files with entries of recorded size and checksum whose differing classes have readable names, descriptors and annotations, and every combination of options (C123_report). With --show-unchanged and nothing to compare there is no report: C70_refuted.

**C124 The text report of distdiff, line by line** (partial)
Modelled: `Dtext_Model.dist_change_at` (the change of Distdiff_Model with the names of the directories in its description) and everything below it, checked, then `Change_Model.text_report` and the status.  Proof (`P_Dtext.v`): Dtext_Spec describes the lines from the files of the two trees: a list with every file of either tree once (`dclass`, the specification of C46), cut into the eleven kinds; jars by Jtext_Spec and classes by Text_Spec further in; no change tree occurs in it.
Scope: The lines, their order up to the order of sets and listings, depth and marks, and the status (C124_report), for trees that the directory comparison handles (C46) whose differing jars are readable zip files and whose differing classes have readable names, descriptors and annotations. Files of no special kind that differ are said to be unchanged (C124_refuted).

**C125 The JSON document of classdiff, object by object** (proved)
Modelled: `Classdiff_Model.class_change` and everything below it, checked, then `Change_Model.json_of`.  Proof (`P_Doc.v`): Doc_Spec describes the objects from the two class files alone: the entries of C120 (Text_Spec) each with the data before and after; instructions by Opcodes_Spec.jvm_name, constants by the entries of the pool; which constants are shown is said of pairs of instructions in the same place; no change tree occurs in it.
Scope: The exact document, and, for pools made of constants, that there is only one such document, for every pair of classes with readable names, descriptors and annotations and every combination of options, whenever a document is written (C125_document; when that is: C70). An object can say that there is no change and show data that differ: the code of methods with the same instructions and other operands (C125_refuted). How the encoder of the library writes the values is not modelled.

**C126 The JSON document of jardiff, object by object** (proved)
Modelled: `Jardiff_Model.jar_change` and everything below it, checked, then `Change_Model.json_of`.  Proof (`P_Jdoc.v`): Jdoc_Spec describes the objects from the entries of the two jars: the list of entries, the kinds and what options hide as in C123 (Jtext_Spec), the attributes of parsed manifests as data, the classes by Doc_Spec; no change tree occurs in it.
Scope: The document up to the order of sets, for every pair of zip files with entries of recorded size and checksum whose differing classes have readable names, descriptors and annotations, and every combination of options, whenever a document is written (C126_document; when that is: C70). For signature files the attributes shown include one that is not in the file, Manifest-Version (C126_refuted). How the encoder of the library writes the values is not modelled.

**C127 The JSON document of distdiff, object by object** (partial)
Modelled: `Ddoc_Model.distdiff_json`: `Distdiff_Model.dist_change` with the description of the two directories, and everything below it, checked, then `Change_Model.json_of`; the status as in `distdiff`.  Proof (`P_Ddoc.v`): Ddoc_Spec describes the objects from the files of the two directories: the list of files, the kinds and what options hide as in C124 (Dtext_Spec), texts as data, jars by Jdoc_Spec, classes by Doc_Spec; no change tree occurs in it.
Scope: Proved for trees that the directory comparison handles (C46): the document up to the order of sets, for every pair of comparable directories without links whose differing classes and jars can be described (as in C125 and C126), and every combination of options, whenever a document is written; and the status (C127_document). With --ignore-trailing-whitespace an unchanged text file is marked as ignored though it matches no pattern (C127_refuted).

**C128 classdiff, jardiff and distdiff complete, and can be reported, for all valid classes** (partial)
Modelled: `Classdiff_Model`, `Jardiff_Model` and `Distdiff_Model` whole, with `Change_Model.json_of` and the text report.  Proof (`P_Wdist.v`, `P_Written.v`): Written_Spec and Written_Dspec state the conditions on the classes, entries and files alone (which constants, what annotations refer to); the conclusion is that the model functions return a value and that the reports are those of C123 to C127.
Scope: Completion, the text report and the JSON document for every pair of such classes and every combination of options (C128_classes), and for every pair of such jars when there is at least one entry to be shown (C128_jars), and for every pair of comparable directories without links whose common files are such (C128_dists). Left out are classes with method handles, method types and dynamic constants, for which it is false: C70_json_refuted, and C128_refuted (a valid class with a dynamic constant cannot be compared to one with another constant pool).

**C129 Tables spread over several attributes of the code are read whole** (partial)
Modelled: `ClassFile_Model.get_linenumbertable`, `var_table` and the reading of attributes.  Proof (`P_Tables.v`): Tables_Spec.all_named lists the contents of all attributes of a name from the encoded code; the result is compared with the concatenation of the tables encoded there.
Scope: Proved exactly when it holds: the table returned is the last one of that name, and it has the entries of all of them if and only if all but the last are empty (C129_lines_partial, C129_variables_partial). False of code with two non-empty tables: C129_refuted.

**C130 A report written with -o is all of the report or what came before the failure, and touches nothing else** (partial)
Modelled: `Quick_Model.put`, `quick_report`, `one_shot`: the writes of the text report up to an exception, and where they go.  Proof (`P_Quick.v`): Quick_Spec.told says which lines are written and how the report ends, from the chains of Change_Spec; Quick_Spec.delivered says what becomes of files and standard output; induction on the tree of changes.
Scope: All of it but the last sentence: the text and the point at which a failing text report stops (C130_text, C130_unique), where it goes and what is left alone (C130_effects), the status (C130_status). What json.dump has written when it fails is not modelled. The last sentence is false: the file is opened, and so emptied, before the report is made (C130_refuted).

**C131 Verifying leaves the manifest as it is** (partial)
Modelled: `Sign_Model.verify_jar_checksums`, `verify_manifest_entry_checksums` with the object afterwards.  Proof (`P_Reuse.v`): Reuse_Spec.newly lists the names that get a section from the names alone, with_empty is the object with them; induction on the entries.
Scope: Exact: what is added is an empty section for each entry (section) that has none, in order, and nothing else changes (C131_entries_partial, C131_sections_partial); nothing is added if and only if all have one, in particular when the jar is in order (C131_success). Verifying again gives the same answer (C131_again, C131_sections_again). False otherwise: after a failed verification the manifest is written differently and its signature no longer holds (C131_refuted).

**C132 A manifest object can be used for another manifest** (partial)
Modelled: `Reuse_Model.man_clear`, `Manifest_Model.man_parse`.  Proof (`P_Reuse.v`): stated with the sections of the text (Manifest_Grammar.Sections) and the values looked up afterwards.
Scope: After clear a text that starts with the version is read as by a new object (C132_cleared_partial). Reading a second text gives its manifest exactly if it has all attributes and sections that were there (C132_forgets), else the old ones stay (C132_stale_refuted). A cleared manifest has no version, so that it cannot be written and read back (C132_version_refuted). That clear also empties sections held elsewhere is not modelled.

**C133 A manifest that cannot be read: which error, and what the object holds** (partial)
Modelled: `Upto_Model.parse_upto`: `Manifest_Model.man_parse` with the object at the point of the exception.  Proof (`P_Upto.v`): Upto_Spec.Broken says at which line a text stops being a manifest and which sections are complete by then, in the grammar of C77; Upto_Spec.Reached gives the object and the exception from the sections alone; the parser is shown equivalent to both.
Scope: All of it but the last sentence: the two kinds of text exclude each other and one applies (C133_either), the object and the exception in every case (C133_reached, C133_malformed, C133_agrees). The last sentence is false (C133_unchanged_refuted).

**C134 The source debug extension is the text of the attribute** (partial)
Modelled: `Debug_Model.get_source_debug_extension` and `str_bytes` (str of a bytes object in Python 3).  Proof (`P_Debug.v`): Debug_Spec.Denotes is the grammar of bytes literals of the Python reference; proved that the text is a literal of the bytes and that the grammar is unambiguous.
Scope: The first sentence is proved (C134_none, C134_literal: the result is a Python bytes literal of the content, which determines it). The second is false of every class under Python 3 (C134_text_refuted).

**C135 A JarInfo object answers from its file and leaves nothing open** (partial)
Modelled: `Session_Model`: the object with its open archive, what it has collected and the archives open in the process; one step per call; the with statement.  Proof (`P_Session.v`): Session_Spec.answer_of is the answer of the file alone (the functions of C57), lately a moment since the last close; invariant over all sequences of calls.
Scope: Proved for a file that stays the same (C135_answers, C135_with) and for open archives (C135_open, C135_given); if the file changes, each answer is that of one moment, for classes one since the last close (C135_moment). That answers after close are those of the new file is false of get_requires and get_provides (C135_refresh_refuted); an object made from an open archive closes it and cannot be used then (C135_given_refuted).

**C136 A DistInfo object answers from its files and leaves no temporary directory** (partial)
Modelled: `Tmp_Model`: the object with its temporary directory and its list of contents; one step per call; extraction may fail after any part of it.  Proof (`P_Tmp.v`): Tmp_Spec.files_answer is the answer of the files alone (the functions of C58), asked whether a question came since the last close; invariants over all sequences of calls.
Scope: The first sentence is proved (C136_tidy, C136_answers). The second is false: only the first question raises (C136_failing says exactly which calls do), later ones answer from what was extracted (C136_failing_refuted).

**C137 Reading classes from a stream leaves the stream behind the class** (partial)
Modelled: `Stream_Model`: the stream object with what is left and whether it is open, on top of the StreamUnpacker of Pack_Model.  Proof (`P_Stream.v`): stated with the encoding of classes (ClassFile_Spec.enc_class, class_shows): the concatenation of encodings, and what is left.
Scope: Proved for streams without a method close (C137_sequence, C137_confirmed); results and exceptions are the same for all streams (C137_closed). For a file or BytesIO it is false: both functions close it, and the documented way of confirming a class first never works (C137_sequence_refuted). is_class passes on errors of the stream itself (C137_errors_refuted).

**C138 A failed signing or creation leaves the files as they were** (partial)
Modelled: `Files_Model`: the disk as a map from paths to archives, other files and directories; sign and create_jar as sequences of steps each of which may raise, with the temporary file and copyfile; M2Crypto present or missing. A disk that fills up while a file is written, links, and the jar being among the files put into it are not modelled.  Proof (`P_Files.v`): stated on the disk before and after, and with sign, verify and create_jar as specified by C32, C30 and C87; proved by following the steps.
Scope: Signing: all of it (C138_sign_failed, C138_sign_done, C138_sign_goes, C138_sign_status, and with the hypotheses of C32 the file written verifies: C138_sign_verify_partial, C138_sign_disabled), but for a jar that may not be written the signing into another file raises (C138_read_only_refuted). Verifying: C138_verify. Creating: only the jar is touched, with exactly what is left in it in every case (C138_create); that a failed creation leaves the previous jar is false (C138_create_refuted).

**C139 manifest c writes the manifest where it is told, or leaves the files as they were** (partial)
Modelled: `Mfile_Model`: a disk of files and directories by component lists, makedirsp, opening the output, and Manifest.store section by section, on top of the entries and sections of `Tool_Model`. Links and an output inside the directory that is read are not modelled.  Proof (`P_Mfile.v`): stated on the disk before and after, with the data of C85; proved by following the steps, with the invariant of makedirs that only missing directories on the way are made.
Scope: All of it but the last sentence: C139_done, C139_goes, and exactly what is left after an exception (C139_failed): the file is as it was unless the exception comes from encoding the sections. In that case the last sentence is false (C139_failed_refuted).

**C140 A DistInfo object answers each question like a new object** (partial)
Modelled: `Dsess_Model`: the DistInfo object for a directory with its remembered contents, requirements and provisions, the directory at each call, and a caller who deletes keys of a mapping returned.  Proof (`P_Dsess.v`): stated against a new object for the same directory (C58) and the moments since the last close; proved by an invariant over the calls.
Scope: Proved for a directory that stays the same and a caller who changes only mappings obtained with patterns (C140_answers). If the directory changes, names are those of one moment since the last close (C140_moment), symbols those of the first success (C140_fixed), so that close does not refresh them (C140_refresh_refuted). Changing a mapping obtained without patterns changes later answers (C140_shared_refuted).

**C141 A class object answers each question for the class it holds** (partial)
Modelled: `Csess_Model`: the JavaClassInfo object with its three remembered sets and the class it holds at each call.  Proof (`P_Csess.v`): stated against the answers for the class alone (C54 to C56); proved by an invariant over the calls.
Scope: Proved for an object that holds the same class throughout (C141_answers). Sets found once are kept (C141_kept), so that an object that unpacks a second class answers for the first one (C141_unpacked_refuted).

## Findings

Every line is a `_refuted` (a concrete witness, checked by `vm_compute`) or `_fails` (all inputs
of the kind) theorem: the statement one would expect is false of the code as modelled.

* `C02_closed_zero_agree_refuted`: on a closed unpacker a zero-byte request is a TypeError for bytes but an UnpackException for streams (pack.py:199-203 vs. 281-282).
* `C08_bipush_refuted`: C08 is false for bipush: a negative immediate is shown as v + 256.
* `C11_given_magic_refuted`: unpack_class called with the magic as bytes, as its documentation says, rejects every class file.
* `C14_markers_refuted`: ... but in a class file it always is (JVMS 4.7.8, 4.7.15): deprecated classes, fields and synthetic methods are not seen as such.
* `C15_method_refuted`: A class name may contain ')' (JVMS 4.2.1 excludes only . ; [ /): such a method is split wrongly.
* `C17_injective_refuted`: a class named `int` in the default package prints like the primitive type.
* `C24_straddle_refuted`: The restriction is needed: a character that lies across a fold is lost.
* `C25_empty_value_refuted`: A manifest the parser accepts need not be writable: an attribute with an empty value raises TypeError.
* `C25_long_name_refuted`: The name limit is checked in characters on assignment and in bytes on writing.
* `C25_newline_refuted`: A value with a newline, accepted by the section, comes back as two attributes.
* `C28_refuted`: An entry without any digest is reported although strict is off.
* `C28_strict_ignored`: the strict flag makes no difference, for any jar.
* `C29_no_linesep_refuted`: A manifest made in memory (no line separator) cannot be checked by sections.
* `C29_refuted`: Sections with only an MD5 digest, not in sorted order, signature with SHA-256: the signature file does not verify against the manifest it was made from.
* `C30_removal_refuted`: Removing a section goes unnoticed.
* `C32_attributes_refuted`: Signing discards the other attributes of the sections of the entries.
* `C32_refuted`: a manifest with a section for a package (Sealed) and no digest: the jar signed does not verify.
* `C33_refuted`: signing twice with the same alias: the jar does not verify.
* `C33_resign_always_fails`: signing a signed jar again with the same alias gives a jar that never verifies.
* `C34_unicode_refuted`: a name with a long s (U+017F) is exempted as if it were a .SF file.
* `C35_suffix_refuted`: False in general: a digest named "Test" is taken for "T".
* `C40_hidden_refuted`: the text report describes nodes before it decides whether to show them: one unchanged, hidden node whose description raises makes the whole report fail.
* `C40_newline_refuted`: A description containing a line end (file names may) forges a line.
* `C42_directory_refuted`: two equal directories with a file that is not text cannot be compared: it is read in text mode.
* `C42_mixed_refuted`: and a file never equals the same file in an archive.
* `C44_directories_fail`: directories likewise.
* `C44_fails`: the same for all such archives.
* `C44_refuted`: ziputils.compare of two paths raises for archives with a common file: they are closed before the generator runs.
* `C45_order_refuted`: The documentation gives the uncompressed size first; it is the other way round.
* `C46_kind_refuted`: A file replaced by a directory of the same name is not reported at all.
* `C46_times_refuted`: Contents are not compared if size and modification time agree.
* `C47_deep_fails`: copydir of any tree with files more than one directory deep fails.
* `C47_refuted`: copydir of a tree with two levels of directories fails.
* `C48_identity_refuted`: two fields can differ and have the same identity.
* `C48_left_refuted`: Two fields with one name but different types (legal in class files): one is never compared, nor reported removed.
* `C49_equal_refuted`: Constants are compared by Python's ==, so different constants may be equal: ldc "X" against ldc X.class; ldc 1 against ldc 1.0f; 0.0f against -0.0f.
* `C49_multianewarray_refuted`: multianewarray of another class with the same pool index is not reported.
* `C50_nan_refuted`: A NaN constant makes the pool, and code loading it, differ from itself.
* `C50_refuted`: a class with two members of one identity is reported as differing from itself.
* `C51_multianewarray_refuted`: renumbering the pool makes multianewarray instructions differ.
* `C52_refuted`: With pools of different sizes the last common index is listed again, as if the shorter pool did not have it.
* `C53_refuted`: A line visited twice, as by every loop: the instructions of the first visit are lost.
* `C54_exploded_raises`: the same for all directories with such an entry.
* `C54_exploded_refuted`: jardiff of directories with a changed class raises.
* `C54_ignored_unparsable_refuted`: An entry that the options ignore must still be readable: an unparsable class makes jardiff raise.
* `C55_data_silent`: distdiff never reports differences between files of no special kind.
* `C55_filename_refuted`: A file at the top can be ignored by its name only if it is on one side: the names of common ones begin with "./".
* `C55_refuted`: two distributions with a file of no special kind and different content give status 0.
* `C55_shallow_silent`: with --shallow distdiff reports no difference of content at all.
* `C55_undecodable_refuted`: An unchanged text file that cannot be decoded makes distdiff raise.
* `C56_negative_refuted`: a negative number of processes leaves the parent waiting for ever.
* `C56_refuted`: a task that raises leaves the parent waiting for ever.
* `C56_task_fails`: whenever a task raises, the run of the parent does not end.
* `C57_exploded_fails`: jarinfo requirements of a directory with a class raise, always.
* `C57_nested_array_refuted`: the element class of an array of two or more dimensions is not among the requirements (in _get_requires only a name starting with "[L" is unwrapped; the others are dropped).
* `C58_zipped_fails`: distinfo requirements of a distribution given as zip file raise, always.
* `C59_package_refuted`: a package-private member is not shown at the --package setting.
* `C60_escape_refuted`: a sub-path with ".." or an absolute one leaves the directory.
* `C60_failed_refuted`: if one format fails, the others before it are neither cleared then nor by the next run, which sets nothing up.
* `C60_unknown_refuted`: other names are passed over. With --report=xml the comparison is run in report mode and writes nothing, without any message.
* `C61_supplementary_refuted`: a string constant with a supplementary character (surrogate pair in modified UTF-8) loses it.
* `C62_annotationdefault_refuted`: get_annotationdefault never returns the value encoded.
* `C63_monitorenter_refuted`: opcode 194 is named monitorentry.
* `C63_multianewarray_refuted`: opcode 197 is not marked as having a constant operand.
* `C66_attributes_refuted`: Attributes that are never compared: other bootstrap methods (so other lambda bodies), another source file, becoming deprecated.
* `C66_dropped_refuted`: A method dropped in the new version is not noticed if another one with its name and argument types comes after it.
* `C67_dynamic_refuted`: A dynamically computed constant (tag 17): comparing with a renumbered pool raises.
* `C68_case_refuted`: The keys are compared with case, though the help text says otherwise.
* `C68_order_refuted`: Giving any key to ignore also ignores a change of the order of attributes.
* `C70_json_refuted`: a method loading another MethodType constant is compared and reported as text without complaint, the JSON report raises.
* `C70_refuted`: Otherwise, two jars without entries other than directories, the verbose report fails with an AssertionError.
* `C70_text_refuted`: a class with a field of a type that cannot be printed is compared (and its JSON report written) without complaint, the text report raises.
* `C72_fails`: the same for all such constants.
* `C72_refuted`: method handles, method types, modules and packages raise when printed.
* `C73_json_fails`: classinfo --json raises for every class with a shown member.
* `C73_json_refuted`: with --json, classinfo raises for every class with a member that is to be shown.
* `C73_version_refuted`: the version numbers of a class are printed under each other's label.
* `C74_list_fails`: the same for all classes and lists.
* `C74_list_refuted`: get_method_bridges with a list of argument types finds nothing, get_method does.
* `C75_refuted`: jarinfo --zip of an archive of empty files raises ZeroDivisionError.
* `C76_self_refuted`: A symbol given as pattern need not match itself: the brackets of array types are read as sets (such symbols are what pretty_identifier makes, see C57).
* `C77_duplicate_refuted`: Two sections of the same name are not merged (the JAR specification says they are): the attributes of the first one are lost.
* `C77_empty_refuted`: A manifest without any section (an empty file, or only blank lines) is answered with StopIteration instead of MalformedManifest.
* `C77_nameless_refuted`: Sections without Name are not refused (the JAR specification requires one); they all go by the name None, and only the last is kept.
* `C77_no_space_refuted`: The character after the colon is dropped even if it is not a space.
* `C78_empty_base_refuted`: with an empty base directory, which ReportFormat.run provides for, every sub-reporter fails when it is set up.
* `C79_escape_refuted`: a class entry named with `..` makes jardiff --report write outside the report directory.
* `C80_link_refuted`: links are not escaped. A quote in the name of an entry ends the attribute, and what follows it becomes markup.
* `C81_lines_refuted`: the words lines, version and platform do nothing, although --ignore-lines, --ignore-version and --ignore-platform exist.
* `C81_list_refuted`: naming a collecting option in --ignore makes the comparison of any two jars with an entry fail, and a later use of the option itself.
* `C81_version_refuted`: --ignore=version does not do what --ignore-version does.
* `C83_added_refuted`: two classes that differ by an added method give status 1 with --ignore-added.
* `C83_defaults_refuted`: the functions giving default options end the program: the parsers ask for two files, and none are given.
* `C83_effectless`: the options that have no effect on any input.
* `C83_platform_refuted`: Two classes that differ in nothing but the version, and so the platform: the platform option leaves the platform change as it is.
* `C85_collapse_refuted`: Two files of the same end can fall together.
* `C85_directory_refuted`: For a directory the names are cut at the wrong place: the start of the file name is dropped, not that of the path.
* `C85_ignore_twice_fails`: -i "can be given more than once"; then it raises TypeError, always.
* `C85_recursive_refuted`: With -r the characters of the path are taken for paths.
* `C86_refuted`: the files under META-INF/ are given no checksum by create, but most of them need one: the manifest just made is rejected.
* `C87_main_class_refuted`: --main-class has no effect: the manifest is that of C87_jar_partial.
* `C87_root_refuted`: jarutil create of / raises IndexError.
* `C87_two_manifests_refuted`: A manifest among the files does not replace the one made: there are two.
* `C87_up_refuted`: Paths that go up give entries that go up; "/" gives an exception; "." an entry "./".
* `C88_no_manifest_refuted`: A signed jar whose manifest was taken away: the exception is none of those the program reports as a failed verification.
* `C88_verify_word_refuted`: The word in jarutil's own usage text is verify; it is not understood.
* `C89_colon_refuted`: A section whose name has a colon cannot be asked for.
* `C90_package_class_refuted`: the declaration of a class without modifiers begins with a space.
* `C91_annotations_refuted`: classinfo without --verbose prints annotations of methods, not those of fields.
* `C92_monitorenter_refuted`: monitorenter is listed as monitorentry.
* `C93_verbose_refuted`: annotations are all numbered 0; `Exceptions:` is printed for methods that throw nothing.
* `C94_dynamic_fails`: classinfo -p and -v raise for every class with a CONSTANT_Dynamic constant.
* `C95_code_signing_refuted`: the usual code signing certificate (keyUsage digitalSignature, extended usage codeSigning) is rejected: the callback looks for the short name in the long one.
* `C95_nstype_refuted`: a certificate whose Netscape type forbids signing mail is accepted.
* `C95_usage_never_recognised`: the same for every certificate with keyUsage.
* `C98_hidden_refuted`: changes to the exception table are counted but not shown: different changes give the same page.
* `C98_loop_refuted`: of a line that occurs twice in the code (a loop) only the last group of instructions is on the page.
* `C99_field_refuted`: the page says that fields were added but not which.
* `C100_escape_refuted`: class names and types are written without escaping.
* `C100_zero_refuted`: a field with constant value 0 is shown without it.
* `C101_zero_refuted`: the integer constant 0 is shown blank where the pools differ.
* `C102_added_refuted`: nor is it where a method was added: the tag of its heading is cut.
* `C102_field_ill`: the same for a common field.
* `C102_jquery_ill`: by default every page is ill-formed: the script element has two attributes `type`.
* `C102_method_ill`: the page of any two classes with a common method is not well-formed (the template of a method change closes more than it opens).
* `C102_pair_refuted`: a page on which tags do not match.
* `C102_pool_refuted`: nor where some constants differ and some do not: a row is not closed.
* `C104_effectless`: --manifest and --jar-classes have no effect with --json.
* `C104_several_refuted`: the output for several jars is not one JSON document but several, with nothing between them.
* `C105_missing_fails`: without a manifest --manifest raises; it never prints "Manifest not present.", for any jar.
* `C105_never`: whatever the jar, "Manifest not present." is never printed.
* `C106_zip_refuted`: for a jar of empty files, or of none, --zip raises.
* `C107_effectless`: distinfo offers all options of jarinfo and classinfo, and none but --api-ignore and --json has an effect.
* `C108_bytes_fails`: bytes are not accepted (Python 3), nor is str; only memoryviews and streams are.
* `C108_rewound_refuted`: a stream that can seek but not tell is left at its start.
* `C109_empty_refuted`: jardiff --report html of two jars without compared entries raises AssertionError.
* `C109_manifest_refuted`: the HTML page of a jar comparison does not show what changed in a manifest.
* `C110_data_refuted`: the HTML page of a distribution comparison shows data files that differ as unchanged.
* `C111_jquery_ill`: pages with jQuery (the default) give the attribute type twice and are never well-formed.
* `C112_overloads_refuted`: with methods that differ in their return type only, classdiff reports no change for one order of its arguments and a change for the other.
* `C113_dist_refuted`: a top-level file named in --ignore-filenames may be removed and added unreported, but its change is reported: patterns match the name with a leading "./" only for common files.
* `C115_refuted`: --ignore-jar-signature ("Ignore JAR signing changes") alone does not hide that a jar was signed: the digests added to the manifest are reported.
* `C118_marker_refuted`: an annotation without elements, such as java.lang.Deprecated, that was added or removed is shown as a blank.
* `C118_value_refuted`: where the value of an annotation changed, the page of classdiff shows the same text on both sides: constants are shown as pool indexes.
* `C119_fragment_refuted`: links to style sheets are not encoded: with a # in the name of the directory a browser asks for another file.
* `C119_kept_refuted`: a style sheet named relative to the report directory is linked by the same text on every page, and is not found from the page of a class.
* `C120_code_refuted`: a method that lost its code, reported with --show-unchanged and --show-ignored and no option to ignore anything: "Method Code changed [IGNORED]" with "Code body unchanged", "Stack size unchanged" and so on below it. MethodCodeChange.check_impl does not check the parts, which then count as unchanged, and SuperChange.is_ignored takes a change without changed parts for ignored.
* `C120_native_refuted`: a method that became native is reported with "Method is concrete to Method is abstract": classdiff takes every method without code for abstract.
* `C121_refuted`: classinfo --json raises AttributeError for every class with a member to be shown (by default: a public one): the helper functions are called with the options in place of the member. The same run without --json prints the class.
* `C122_deprecated_refuted`: the JSON data of a field with the attribute Deprecated does not say so, as the attribute has no content.
* `C124_refuted`: distdiff: a file of no special kind whose content differs is said to be unchanged in the text report.
* `C125_refuted`: classdiff --json: the object of a code body says "Code body unchanged" and gives old and new data that differ (the operands).
* `C126_refuted`: jardiff --json shows an attribute Manifest-Version: 1.0 in both signature files although neither has it: JarSignatureFileChange (jardiff.py:210-220) reads them into Manifest(), which begins with that attribute, not into SignatureManifest().
* `C127_refuted`: distdiff --json marks a text file as ignored that is equal in both directories and matches no pattern, with --ignore-trailing-whitespace: DistTextChange.check (distdiff.py:148-164) sets lineending for equal files too.
* `C128_refuted`: classdiff raises for a valid class with a dynamic constant (CONSTANT_Dynamic, JVMS 4.4.10) when its constant pool differs from that of the other class, whatever the options: _pretty_const_type_val (__init__.py:2170-2232) has no case for the type code 17 although reading and dereferencing do.
* `C129_refuted`: of two LineNumberTable attributes of the same code, which the format allows, only the last is kept: JavaAttributes.unpack (__init__.py:433-445) stores attributes in a dict by name. get_line_for_offset does not know the line of the first instruction, and classdiff exits with 0 for two classes that differ in the first table.
* `C130_refuted`: a report that fails half-way (here: a field of a type that cannot be printed) has by then replaced the previous content of the file of -o by its first lines.
* `C131_refuted`: Manifest.verify_jar_checksums adds an empty section to the manifest for every entry without one (create_section, manifest.py:447): after a failed verification the manifest is written with these sections and its own signature file no longer vouches for it.
* `C132_stale_refuted`: Manifest.parse keeps what the object had: attributes and sections of a text read before stay in the manifest.
* `C132_version_refuted`: Manifest.clear also removes Manifest-Version, which only __init__ sets: a cleared manifest that is filled and written starts with an empty main section, so that its first section is read back as the main one.
* `C133_unchanged_refuted`: Manifest.parse that raises has already changed the object: the sections before the malformed line, and the line separator, are taken over.
* `C134_text_refuted`: get_source_debug_extension returns the repr of a bytes object (b'SMAP...' with escapes) under Python 3, never the text of the attribute.
* `C135_given_refuted`: JarInfo(zipfile=...) closes the archive of the caller (also when it is garbage-collected, __del__) and then raises TypeError for every question, as it has no name to open again.
* `C135_refresh_refuted`: JarInfo keeps what get_requires and get_provides collected over close(): after a change of the file the classes are those of the new file, the symbols those of the old one.
* `C136_failing_refuted`: DistInfo sets tmpdir before it opens the archive (distinfo.py:80-82): if that fails, the next call finds the empty temporary directory and reports an empty distribution instead of the error.
* `C137_errors_refuted`: is_class, documented to return False for any errors, raises ValueError for a closed stream.
* `C137_sequence_refuted`: unpack_class and is_class close the stream of the caller: the documented use, confirm with is_class and then pass the magic to unpack_class, raises ValueError for every class in a file.
* `C138_create_refuted`: jarutil c opens the jar for writing first and closes it as a valid archive when a file cannot be added: after a mistyped name the previous jar is lost and an incomplete one is in its place.
* `C138_read_only_refuted`: jarutil s -o opens the jar it only reads with ZipFile(jar_file, "a") (jarutil.py:209): a jar without write permission cannot be signed into another file.
* `C139_failed_refuted`: manifest c -m opens the output before the sections are encoded: with a file name that is not UTF-8 the command fails after the previous manifest has been replaced by one without sections.
* `C140_refresh_refuted`: DistInfo.close() forgets the contents but not the requirements and provisions: after a change of the directory the names are new and the symbols old.
* `C140_shared_refuted`: DistInfo.get_requires and get_provides without patterns return the mapping the object keeps; what the caller deletes from it is missing from later answers.
* `C141_unpacked_refuted`: JavaClassInfo.unpack does not forget the sets of symbols found before: an object that unpacks a second class answers get_provides and get_requires for the first, or for a mixture of both.

## Wrong programs

`seeded/LOG.jsonl` records the edits made to the model in a scratch copy, what each breaks,
and which theorems stopped proving.  Where nothing failed the statement was tightened (the
field `theorems_tightened`), or the note says why the edit does not change the behaviour
that the property speaks of.

