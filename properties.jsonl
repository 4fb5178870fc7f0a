{"id": "C01", "title": "Buffer and stream unpackers agree", "statement": "Unpacking the same bytes through a bytes object and through a file-like stream is indistinguishable: any sequence of read / unpack / unpack_struct / unpack_array / unpack_objects requests, where each request may depend on earlier answers, returns the same values from both, and if it fails it fails at the same request with an UnpackException carrying the same wanted and present byte counts.", "quantifier": "every byte string and every adaptive program of unpack requests, including requests on empty data", "why_tests_cant": "the set of data contents and request programs is infinite; the two classes compute availability differently (offset arithmetic vs. short reads)", "anchors": ["javatools/pack.py: BufferUnpacker, StreamUnpacker, Unpacker.unpack_array, unpack_struct_array, unpack_objects, unpack"]}
{"id": "C02", "title": "Unpackers consume exactly what they return", "statement": "A successful request for n bytes (read(n), or a struct of size n) returns exactly the next n bytes (decoded) and leaves everything after them unread; a request for more bytes than remain raises UnpackException(wanted=n, present=remaining), and on a bytes-backed unpacker does not move the position so a smaller request still succeeds.", "quantifier": "every byte string, every starting position, every size", "why_tests_cant": "needs all positions and sizes, including size zero and exactly-at-end", "anchors": ["javatools/pack.py: BufferUnpacker.unpack, unpack_struct, read", "javatools/pack.py: StreamUnpacker.unpack, unpack_struct, read", "javatools/pack.py: UnpackException"]}
{"id": "C03", "title": "Big-endian fields decode to the encoded integers", "statement": "For every struct format used by the library (fields B,b,H,h,I,i,q,...) and every tuple of integers in the range of its fields, unpacking the big-endian two's-complement encoding of the tuple returns that tuple.", "quantifier": "every format string over the supported field codes and every in-range tuple", "why_tests_cant": "2^64 values per field and unboundedly many formats", "anchors": ["javatools/pack.py: compile_struct, BufferUnpacker.unpack_struct, StreamUnpacker.unpack_struct"]}
{"id": "C04", "title": "Opcode table is a complete bijection", "statement": "Each code 0..201 has exactly one mnemonic and every other integer raises KeyError; get_opcode_by_name inverts get_opname_by_code, whatever the letter case of the name; the operand layout of each opcode has the length the JVM specification gives.", "quantifier": "every integer code and every (case variant of a) name", "why_tests_cant": "tests sample a few opcodes; uniqueness and totality are statements about the whole table", "anchors": ["javatools/opcodes.py: __op, get_opcode_by_name, get_opname_by_code, get_arg_format, has_const_arg, the OP_* table"]}
{"id": "C05", "title": "Disassembly tiles the bytecode", "statement": "When disassemble(bytecode) finishes without an exception, the offsets it yields start at 0, strictly increase, and the instructions' byte ranges are contiguous, disjoint and cover the whole byte string; each yielded code is the byte at its offset.", "quantifier": "every byte string", "why_tests_cant": "variable-length instructions (switches with alignment padding, wide) make coverage a global property of every input", "anchors": ["javatools/opcodes.py: disassemble, _unpack, _unpack_lookupswitch, _unpack_tableswitch, _unpack_wide"]}
{"id": "C06", "title": "Disassembly inverts assembly", "statement": "Assembling any list of well-formed JVM instructions (with switch padding computed from the instruction's offset) and disassembling the result yields exactly those instructions with the same operands; conversely re-assembling a successful disassembly reproduces the bytecode except for switch padding bytes.", "quantifier": "every list of instructions, of any length, at every alignment", "why_tests_cant": "unbounded instruction streams and switch table sizes", "anchors": ["javatools/opcodes.py: disassemble, _unpack_lookupswitch, _unpack_tableswitch, _unpack_wide"]}
{"id": "C07", "title": "Disassembly always terminates and never reads past the end", "statement": "disassemble on any byte string stops after at most len(bytecode) instructions, either normally or with an exception (KeyError for an undefined opcode, struct.error for truncated operands, TypeError/AssertionError for a bad wide prefix); every instruction it yields lies inside the byte string, so a truncated last instruction is never yielded.", "quantifier": "every byte string, including adversarial switch counts", "why_tests_cant": "termination and bounds safety on adversarial input cannot be sampled", "anchors": ["javatools/opcodes.py: disassemble and the _unpack_* helpers"]}
{"id": "C08", "title": "Operands are decoded with the JVM's signedness", "statement": "Every operand is decoded with the signedness the JVM specification assigns to it: indices and counts unsigned, branch offsets, bipush/sipush immediates and iinc deltas signed.", "quantifier": "every opcode and every operand value", "why_tests_cant": "a per-opcode test at one value cannot distinguish signed from unsigned decoding on the other half of the range", "anchors": ["javatools/opcodes.py: OP_bipush, OP_sipush, OP_iinc and the rest of the OP_* table"]}
{"id": "C09", "title": "Class files round-trip through the parser", "statement": "For every class file content (version, constant pool, flags, interfaces, fields, methods and nested attributes), parsing its encoding per the class file format returns an object exposing exactly that content, and consumes exactly the encoded bytes so trailing data is left alone.", "quantifier": "every well-formed class file content, any numbers of constants, members, attributes", "why_tests_cant": "the parser is a deeply nested length-driven format; each count and length interacts with all that follow", "anchors": ["javatools/__init__.py: JavaClassInfo.unpack, JavaConstantPool.unpack, JavaAttributes.unpack, JavaMemberInfo.unpack, unpack_class"]}
{"id": "C10", "title": "Truncated class files are always rejected", "statement": "Parsing any strict prefix of an encoded class file raises UnpackException; no partially filled class object is ever returned.", "quantifier": "every class file content and every truncation point", "why_tests_cant": "the number of truncation points times class files is unbounded", "anchors": ["javatools/__init__.py: unpack_class, JavaClassInfo.unpack", "javatools/pack.py: UnpackException"]}
{"id": "C11", "title": "Class file detection matches the magic number", "statement": "is_class(data) is true exactly when data starts with CA FE BA BE and never raises on bytes or streams; unpack_class raises ClassUnpackException on data with at least four bytes and another magic, and UnpackException on fewer than four bytes.", "quantifier": "every byte string", "why_tests_cant": "quantifies over all byte strings", "anchors": ["javatools/__init__.py: is_class, unpack_class, JAVA_CLASS_MAGIC"]}
{"id": "C12", "title": "Constant pool indices are stable", "statement": "After parsing, get_const(i) returns the i-th entry of the encoded pool for every valid index, where Long and Double entries occupy two indices; index 0 and the slot after a Long or Double hold no constant; indices past the end raise IndexError.", "quantifier": "every pool, every index", "why_tests_cant": "index drift depends on the number and placement of wide constants before the index", "anchors": ["javatools/__init__.py: JavaConstantPool.unpack, get_const"]}
{"id": "C13", "title": "Constant dereferencing is total on well-formed pools", "statement": "On every pool whose references point to entries of the right kind and contain no cycles, deref_const returns the referenced value (strings for UTF-8/class/string/module/package/method type, name-and-descriptor pairs, owner triples...) and terminates; on any pool it returns a value exactly when the references lead to one, it never returns a value from an index that reaches a cycle of references, and its only failures are IndexError, UnknownConstantPoolTag and, for cycles, RecursionError.", "quantifier": "every constant pool and every index", "why_tests_cant": "termination depends on the shape of an arbitrary reference graph", "anchors": ["javatools/__init__.py: JavaConstantPool.deref_const, constants"]}
{"id": "C14", "title": "Marker attributes are detected", "statement": "is_deprecated() is true exactly when the class carries a Deprecated attribute, and a member is_deprecated / is_synthetic exactly when it carries the corresponding attribute or flag.", "quantifier": "every class or member and every attribute list", "why_tests_cant": "the marker attributes carry no data, so the answer depends on presence rather than content; tests use a single compiled sample", "anchors": ["javatools/__init__.py: JavaClassInfo.is_deprecated, JavaMemberInfo.is_deprecated, JavaMemberInfo.is_synthetic, JavaAttributes"]}
{"id": "C15", "title": "Type descriptors are split exactly", "statement": "For every method with argument types a1..an and return type r, get_arg_type_descriptors returns (a1..an) and get_type_descriptor returns r; splitting any concatenation of field descriptors returns those descriptors.", "quantifier": "every sequence of JVM types of any array depth and class name", "why_tests_cant": "unbounded nesting and length", "anchors": ["javatools/__init__.py: _next_argsig, _typeseq_iter, _typeseq, JavaMemberInfo.get_arg_type_descriptors, get_type_descriptor"]}
{"id": "C16", "title": "Descriptor splitting terminates on every string", "statement": "Splitting any string whatsoever terminates: it either yields pieces whose concatenation (dots removed) is the input or raises Unimplemented or IndexError; it never loops.", "quantifier": "every string", "why_tests_cant": "non-termination on a malformed string cannot be excluded by sampling", "anchors": ["javatools/__init__.py: _next_argsig, _typeseq_iter, _typeseq"]}
{"id": "C17", "title": "Pretty type names are faithful", "statement": "The human readable rendering of a JVM type names the primitive or dotted class with one pair of brackets per array dimension, and two different field types never render the same.", "quantifier": "every JVM field type", "why_tests_cant": "injectivity over an infinite type universe", "anchors": ["javatools/__init__.py: _pretty_type, _pretty_class, _pretty_typeseq"]}
{"id": "C18", "title": "Line lookup returns the covering line", "statement": "For a line number table whose start offsets are increasing, get_line_for_offset(o) returns the line of the last entry starting at or before o (0 if o precedes all of them).", "quantifier": "every increasing table and every offset", "why_tests_cant": "boundaries between every pair of entries, for every table", "anchors": ["javatools/__init__.py: JavaCodeInfo.get_line_for_offset, get_linenumbertable"]}
{"id": "C19", "title": "Grouping code by line loses nothing", "statement": "iter_code_by_lines yields non-empty groups whose concatenation is exactly the disassembly in order, every instruction in a group maps to the group's line, and adjacent groups have different lines.", "quantifier": "every bytecode and every line number table", "why_tests_cant": "quantifies over all code and tables", "anchors": ["javatools/__init__.py: JavaCodeInfo.iter_code_by_lines, disassemble"]}
{"id": "C20", "title": "Annotations decode exactly at any nesting depth", "statement": "Decoding the encoding of any annotation value (constants, enums, classes, nested annotations, arrays, at any depth) returns it and consumes exactly its bytes.", "quantifier": "every annotation value tree", "why_tests_cant": "recursion depth and width unbounded", "anchors": ["javatools/__init__.py: JavaAnnotation.unpack, _unpack_annotation_val"]}
{"id": "C21", "title": "Annotation equality ignores pool numbering", "statement": "Two annotations compare equal exactly when they denote the same type and the same element values after resolving constant pool references, whatever the pools' layouts and the order of elements; in particular equality is symmetric, and reflexive when no NaN constant is involved.", "quantifier": "every pair of annotations over every pair of constant pools", "why_tests_cant": "relational property over pairs of pools", "anchors": ["javatools/__init__.py: JavaAnnotation.__eq__, _annotation_val_eq"]}
{"id": "C22", "title": "Platform names follow the version", "statement": "platform_from_version(major, minor) returns the one platform whose version range contains (major, minor) and None otherwise; ranges do not overlap.", "quantifier": "every pair of integers", "why_tests_cant": "range table over an infinite domain", "anchors": ["javatools/__init__.py: platform_from_version, _platforms, JavaClassInfo.get_platform"]}
{"id": "C23", "title": "Manifest lines never exceed 72 bytes", "statement": "Every physical line produced when a manifest or signature file is written is at most 72 bytes including its line separator, continuation lines start with one space, for all keys and values of any length and any characters.", "quantifier": "every key accepted by the manifest, every value, both line separators", "why_tests_cant": "folding boundaries at every length modulo 69/70", "anchors": ["javatools/manifest.py: write_key_val, ManifestSection.store, ManifestSection.__setitem__"]}
{"id": "C24", "title": "Folding is undone by reading", "statement": "Reading back a folded header yields the same key and the same value, for every header of any length that contains no line breaks, NUL, or (in the key) colon, when the text is ASCII; for non-ASCII text it holds when no character straddles a fold.", "quantifier": "every header", "why_tests_cant": "every value length and character position relative to the fold", "anchors": ["javatools/manifest.py: write_key_val, parse_sections"]}
{"id": "C25", "title": "Manifests round-trip", "statement": "Parsing the serialisation of a manifest gives back an equal manifest: same main attributes in the same order, same named sections with the same attributes.", "quantifier": "every manifest whose attribute names and values are storable, any number of sections", "why_tests_cant": "whole-file property over all manifests", "anchors": ["javatools/manifest.py: Manifest.parse, Manifest.store, Manifest.get_data, ManifestSection.load, ManifestSection.store"]}
{"id": "C26", "title": "Manifest serialisation is canonical", "statement": "The serialisation of a manifest does not depend on the order in which sections were added, and serialising a parsed serialisation reproduces it byte for byte.", "quantifier": "every manifest and every permutation of its sections", "why_tests_cant": "permutations of arbitrarily many sections", "anchors": ["javatools/manifest.py: Manifest.store, ManifestSection.__gt__"]}
{"id": "C27", "title": "Jar checksum verification is exact", "statement": "verify_jar_checksums returns exactly the names of the entries that are not signature related and for which none of the recorded digests of a supported algorithm equals the digest of the entry's content (in particular entries with no digest, in strict mode).", "quantifier": "every jar, every manifest, every digest function", "why_tests_cant": "quantifies over archive contents and digests", "anchors": ["javatools/manifest.py: Manifest.verify_jar_checksums, ManifestSection.keys_with_suffix, file_skips_verification"]}
{"id": "C28", "title": "Non-strict verification tolerates missing digests", "statement": "With strict=False, entries without recorded digests are not reported as failures by verify_jar_checksums and verify_manifest_entry_checksums.", "quantifier": "every jar and manifest", "why_tests_cant": "the for/else control flow depends on emptiness of data-dependent lists", "anchors": ["javatools/manifest.py: Manifest.verify_jar_checksums, SignatureManifest.verify_manifest_entry_checksums"]}
{"id": "C29", "title": "Signature file generation and verification agree", "statement": "For every manifest each of whose sections carries a digest, the signature manifest produced by digest_manifest verifies against that manifest (verify_manifest reports no errors), for every supported digest algorithm.", "quantifier": "every manifest, every digest function", "why_tests_cant": "generation walks sections in insertion order, verification re-serialises; agreement is a relational property", "anchors": ["javatools/manifest.py: SignatureManifest.digest_manifest, verify_manifest, verify_manifest_main_checksum, verify_manifest_main_attributes_checksum, verify_manifest_entry_checksums"]}
{"id": "C30", "title": "Signature verification binds the manifest", "statement": "If verify_manifest reports no errors for a signature file against a manifest, then the manifest's main attributes and every section serialise to the bytes whose digests are recorded in the signature file (assuming a collision-free digest): no section or main attribute can be altered without being reported.", "quantifier": "every signature file and pair of manifests", "why_tests_cant": "security property: all tamperings", "anchors": ["javatools/manifest.py: SignatureManifest.verify_manifest"]}
{"id": "C31", "title": "A verified jar has unmodified content", "statement": "If verify(certificate, jar) succeeds, the signature block was accepted for exactly the bytes of the selected .SF entry, and every entry of the jar that is not signature related has the content whose digest is recorded in the manifest which in turn is bound by that .SF entry.", "quantifier": "every jar archive and every signature scheme behaving as a verification oracle", "why_tests_cant": "security property over all jars", "anchors": ["javatools/jarutil.py: verify", "javatools/manifest.py: Manifest.verify_jar_checksums, SignatureManifest.verify_manifest"]}
{"id": "C32", "title": "Signing then verifying succeeds", "statement": "For every jar with a manifest, no previous signature files and storable entry names, sign(...) yields a jar for which verify(...) with the matching certificate succeeds, and all original entries other than the manifest keep their content.", "quantifier": "every jar, alias, digest algorithm and key type", "why_tests_cant": "end-to-end property over all jars", "anchors": ["javatools/jarutil.py: sign, verify", "javatools/manifest.py: Manifest.add_jar_entries, SignatureManifest.digest_manifest"]}
{"id": "C33", "title": "Re-signing with the same alias replaces the signature", "statement": "Signing an already signed jar again with the same alias yields a jar that verifies.", "quantifier": "every signed jar", "why_tests_cant": "needs a history of two signing operations on arbitrary jars", "anchors": ["javatools/jarutil.py: sign, verify"]}
{"id": "C34", "title": "Exactly the signature related entries are exempt from checksums", "statement": "An entry is exempted from checksum verification exactly when, ignoring letter case, it lies directly in META-INF/ and is the manifest, a *.SF, *.RSA/*.DSA/*.EC file or a SIG-* file, or it is a directory entry (its name ends in '/').", "quantifier": "every entry name", "why_tests_cant": "security relevant classification of all strings", "anchors": ["javatools/manifest.py: file_skips_verification, file_matches_sigfile, file_matches_sigblock, _in_sig_related_dir"]}
{"id": "C35", "title": "Digest attribute names are recovered exactly", "statement": "keys_with_suffix(suffix) returns, for every attribute named X+suffix, the name X.", "quantifier": "every section and every suffix", "why_tests_cant": "suffix stripping by character set is only wrong for particular prefixes", "anchors": ["javatools/manifest.py: ManifestSection.keys_with_suffix"]}
{"id": "C36", "title": "Child changes are grouped by type without loss", "statement": "iterate_by_type(objects, T1..Tn) (and the collection order of every composite change using it) yields each object exactly once, objects of the earlier type first and unmatched objects last, keeping the original order within a type.", "quantifier": "every finite sequence of objects and every type order", "why_tests_cant": "permutation property over all sequences", "anchors": ["javatools/change.py: iterate_by_type, collect_by_type, yield_sorted_by_type"]}
{"id": "C37", "title": "A composite change is a change iff a part is", "statement": "After check(), a composite change reports is_change exactly when at least one of its sub-changes does, every sub-change having been checked; the exit status of the diff commands is 0 exactly when there is no change or the change is ignored.", "quantifier": "every tree of changes of any depth", "why_tests_cant": "trees of unbounded shape", "anchors": ["javatools/change.py: SuperChange.check_impl, GenericChange.check", "javatools/classdiff.py: cli_classes_diff", "javatools/jardiff.py: cli_jars_diff"]}
{"id": "C38", "title": "Ignoring is exactly coverage of all changes", "statement": "A composite change counts as ignored under given options exactly when it is a change, it has sub-changes, and every sub-change that is a change is ignored.", "quantifier": "every tree of changes and every set of options", "why_tests_cant": "trees of unbounded shape, any options", "anchors": ["javatools/change.py: SuperChange.is_ignored, GenericChange.is_ignored"]}
{"id": "C39", "title": "Squashing preserves verdict and description", "statement": "squash(change, options) answers is_change, is_ignored(options), label and description like the original, for every change tree, and no longer refers to the compared data.", "quantifier": "every checked change tree", "why_tests_cant": "trees of unbounded shape", "anchors": ["javatools/change.py: squash, SquashedChange"]}
{"id": "C40", "title": "The text report shows exactly the relevant changes", "statement": "The text report of a checked change prints one entry per shown node: a node is shown when its parent is shown and it is a non-ignored change, or the options ask for unchanged or ignored nodes; nothing else is printed.", "quantifier": "every change tree and reporting options", "why_tests_cant": "trees of unbounded shape", "anchors": ["javatools/report.py: _indent_change, _indent, quick_report"]}
{"id": "C41", "title": "Zip comparison classifies every entry exactly once", "statement": "compare_zips reports each entry name present in either archive at most once: LEFT iff only in the left, RIGHT iff only in the right, SAME or DIFF for common files and nothing for common directories; names of each archive are all covered.", "quantifier": "every pair of zip files with non-empty entry names and right recorded sizes and checksums, every iteration order of sets", "why_tests_cant": "partition property over all archives", "anchors": ["javatools/ziputils.py: compare_zips"]}
{"id": "C42", "title": "Zip comparison decides content equality", "statement": "A common file is reported SAME iff its contents in both archives are byte-identical, for any content sizes relative to the chunk size; in particular a CRC and size collision does not hide a difference.", "quantifier": "every pair of contents, every chunk size", "why_tests_cant": "contents crossing chunk boundaries, CRC collisions", "anchors": ["javatools/ziputils.py: _different, _deep_different, chunk_zip_entry"]}
{"id": "C43", "title": "Chunked processing is independent of the chunk size", "statement": "file_crc32, chunk_zip_entry and the digesting of jar entries give a result that depends only on the content, not on the chunk size: chunks are non-empty, at most the chunk size, and concatenate to the content.", "quantifier": "every content and every positive chunk size", "why_tests_cant": "all sizes relative to chunk boundaries", "anchors": ["javatools/ziputils.py: file_crc32, chunk_zip_entry", "javatools/manifest.py: digest_chunks, file_chunk, zipentry_chunk"]}
{"id": "C44", "title": "Comparing zip files by path works", "statement": "ziputils.compare(left, right) yields the same events as comparing the opened archives.", "quantifier": "every pair of archives", "why_tests_cant": "laziness of the result interacts with closing of the archives", "anchors": ["javatools/ziputils.py: compare, compare_zips"]}
{"id": "C45", "title": "Archive totals add up", "statement": "zip_entry_rollup counts every entry once as file or directory and sums the sizes; the totals are additive over concatenation of entry lists.", "quantifier": "every zip file with non-empty entry names", "why_tests_cant": "all entry lists", "anchors": ["javatools/ziputils.py: zip_entry_rollup"]}
{"id": "C46", "title": "Directory comparison covers both trees", "statement": "The recursive directory comparison reports every file that exists in either tree exactly once with the right classification (only-left, only-right, same, different).", "quantifier": "every pair of directory trees", "why_tests_cant": "unbounded trees; depends on the number of common sub-directories per level", "anchors": ["javatools/dirutils.py: compare, _gen_from_dircmp, collect_compare"]}
{"id": "C47", "title": "Directory copy reproduces the tree", "statement": "copydir(orig, dest) leaves dest containing every file of orig with the same content at the same relative path, and returns the files copied.", "quantifier": "every directory tree", "why_tests_cant": "depends on nesting depth", "anchors": ["javatools/dirutils.py: copydir"]}
{"id": "C48", "title": "Every class member is accounted for", "statement": "Comparing the fields or methods of two classes produces for every member of the left class exactly one removed-or-compared entry and for every member of the right exactly one added-or-compared entry, where compared pairs have the same identity.", "quantifier": "every pair of member lists", "why_tests_cant": "identity collisions only occur on particular member sets", "anchors": ["javatools/classdiff.py: ClassMembersChange.collect_impl", "javatools/__init__.py: JavaMemberInfo.get_identifier"]}
{"id": "C49", "title": "Unreported code changes are no changes", "statement": "If comparing two methods' code reports no code change, both disassemble to the same sequence of offsets, opcodes and operands once constant pool operands are resolved.", "quantifier": "every pair of code bodies and constant pools", "why_tests_cant": "zip-style comparison stops at the shorter sequence; soundness needs the tiling of both", "anchors": ["javatools/classdiff.py: CodeConstantsChange, CodeBodyChange, MethodCodeChange"]}
{"id": "C50", "title": "A class is unchanged with respect to itself", "statement": "Comparing two loads of the same class file reports no change, for every class file (without NaN constants).", "quantifier": "every class file", "why_tests_cant": "quantifies over all class files and all change categories", "anchors": ["javatools/classdiff.py: JavaClassChange, ClassConstantPoolChange, ClassMethodsChange, ClassFieldsChange"]}
{"id": "C51", "title": "Constant pool renumbering is not a code change", "statement": "If two methods differ only in constant pool numbering (operands resolve to equal constants, same layout), the code comparison reports no change.", "quantifier": "every pair of pools related by renumbering, every code body", "why_tests_cant": "relational property over pools", "anchors": ["javatools/classdiff.py: CodeConstantsChange.check_impl", "javatools/opcodes.py: has_const_arg"]}
{"id": "C52", "title": "The merged constant listing covers both pools once", "statement": "pretty_merge_constants yields every index of either pool exactly once, with both sides' constants.", "quantifier": "every pair of pool sizes", "why_tests_cant": "off-by-one at the boundary between the shorter and longer pool", "anchors": ["javatools/classdiff.py: pretty_merge_constants"]}
{"id": "C53", "title": "The merged code listing keeps all instructions", "statement": "merge_code pairs left and right code by relative line and keeps every instruction of both sides.", "quantifier": "every pair of code bodies", "why_tests_cant": "lines visited more than once by the code", "anchors": ["javatools/classdiff.py: merge_code"]}
{"id": "C54", "title": "Identical jars have no differences", "statement": "Comparing a jar with a copy of itself reports no change and exit status 0; if two jars compare as unchanged, they have the same entry names and each common entry is byte-identical or of a kind compared semantically.", "quantifier": "every pair of jars", "why_tests_cant": "end-to-end property", "anchors": ["javatools/jardiff.py: JarChange, JarContentsChange, cli_jars_diff"]}
{"id": "C55", "title": "Changed files in a distribution are reported", "statement": "If a file present in both distributions differs in content and is not of a kind compared semantically, distdiff reports a change.", "quantifier": "every pair of distributions", "why_tests_cant": "depends on the file kind and the composite change's emptiness", "anchors": ["javatools/distdiff.py: DistContentChange, DistChange.collect_impl", "javatools/change.py: SuperChange.check_impl"]}
{"id": "C56", "title": "Parallel distribution check is schedule independent", "statement": "With n>=1 worker processes, under every interleaving of workers and parent, the parallel check completes (no deadlock) and its result equals the sequential one: same verdict and the same sub-changes, each task processed exactly once.", "quantifier": "every number of tasks, workers and every schedule", "why_tests_cant": "schedules cannot be enumerated by tests", "anchors": ["javatools/distdiff.py: DistReport.mp_check_impl, _mp_run_check"]}
{"id": "C57", "title": "Jar requirements exclude what the jar provides", "statement": "JarInfo.get_requires maps exactly the symbols that some class of the jar requires and no class of the jar provides (even privately) to the classes requiring them; get_provides maps exactly the public symbols to the classes providing them; ignored patterns remove exactly matching symbols.", "quantifier": "every jar content", "why_tests_cant": "set-level property over all class collections", "anchors": ["javatools/jarinfo.py: JarInfo._collect_requires_provides, get_requires, get_provides"]}
{"id": "C58", "title": "Distribution requirements exclude what the distribution provides", "statement": "DistInfo.get_requires maps exactly the symbols required by some jar or loose class and provided by no jar (publicly) and no loose class; get_provides maps exactly the provided symbols.", "quantifier": "every distribution content", "why_tests_cant": "set-level property over all collections", "anchors": ["javatools/distinfo.py: DistInfo._collect_requires_provides, get_requires, get_provides"]}
{"id": "C59", "title": "Visibility filtering is monotone", "statement": "A member shown at a stricter visibility setting is shown at every more permissive one; public members are always shown and private ones only when asked for.", "quantifier": "every member and setting", "why_tests_cant": "finite but easily inverted; combined with all flag values", "anchors": ["javatools/classinfo.py: should_show, SHOW_PUBLIC, SHOW_PACKAGE, SHOW_PRIVATE"]}
{"id": "C60", "title": "Reports run each format once", "statement": "Running a reporter runs setup, run and clear of every requested report format exactly once and in order, and file names and breadcrumbs of nested reporters extend those of their parent.", "quantifier": "every tree of reporters and format list", "why_tests_cant": "stateful protocol over arbitrary use", "anchors": ["javatools/report.py: Reporter, ReportFormat.run"]}
{"id": "C61", "title": "Constant strings decode to the Java string", "statement": "A string constant is shown as the Java string that was encoded in modified UTF-8: every character of the basic multilingual plane (including NUL), and every supplementary character.", "quantifier": "every Java string", "why_tests_cant": "all code points and all positions; tests use ASCII names", "anchors": ["javatools/__init__.py: _unpack_const_item (CONST_Utf8)"]}
{"id": "C62", "title": "Attribute accessors return the encoded attribute", "statement": "For attributes encoded per the class file format, get_sourcefile, get_signature, get_constantvalue, get_exceptions, get_innerclasses, get_linenumbertable, get_localvariabletable and get_annotationdefault return what was encoded, and the documented empty value when the attribute is absent.", "quantifier": "every class, member or code attribute table and every attribute body", "why_tests_cant": "every table length, index and pool layout", "anchors": ["javatools/__init__.py: JavaClassInfo.get_sourcefile, get_signature, get_innerclasses; JavaMemberInfo.get_constantvalue, get_exceptions, get_annotationdefault; JavaCodeInfo.get_linenumbertable, get_localvariabletable"]}
{"id": "C63", "title": "Opcode mnemonics and constant operands agree with the JVM specification", "statement": "get_opname_by_code gives each code the mnemonic of the JVM specification, and has_const_arg is true of exactly the opcodes whose first operand is a constant pool index.", "quantifier": "every integer code", "why_tests_cant": "unit tests look up a handful of opcodes and compare the table with itself", "anchors": ["javatools/opcodes.py: the OP_* table, has_const_arg, get_opname_by_code"]}
{"id": "C64", "title": "The JSON report shows the same changes as the text report", "statement": "The JSON report holds exactly the nodes whose proper ancestors and themselves the options ask for (the root always), in tree order and with the same description, changed and ignored verdicts; when the root is visible the text report has exactly one line for each of them in the same order.", "quantifier": "every change tree and every option setting", "why_tests_cant": "all nestings of changed, unchanged and ignored nodes under all option settings", "anchors": ["javatools/report.py: JSONReportFormat, _indent_change", "javatools/change.py: Change.simplify, SuperChange.simplify"]}
{"id": "C65", "title": "A directory presented as an archive lists its tree", "statement": "ExplodedZipFile(dir) has exactly one member for every regular file reachable without symbolic links (named by its relative path, with its size and CRC-32) and one for every such directory below the top (with a trailing slash), and no two members have the same name.", "quantifier": "every directory tree", "why_tests_cant": "all shapes, depths and link structures of trees", "anchors": ["javatools/ziputils.py: _collect_infos, ExplodedZipFile, file_crc32"]}
{"id": "C66", "title": "The exit status of classdiff tells whether the classes differ", "statement": "classdiff exits with 0 exactly when the two classes have the same header, annotations, constant pool, fields and methods (with code, exception tables and line numbers), up to what the --ignore options say to ignore.", "quantifier": "every pair of classes and every option setting", "why_tests_cant": "a change tree with dozens of change kinds; soundness is about all of them at once", "anchors": ["javatools/classdiff.py: cli_classes_diff, JavaClassChange and every change it collects", "javatools/change.py: SuperChange.check_impl, is_ignored"]}
{"id": "C67", "title": "Recompiled classes with another constant pool numbering pass", "statement": "Two classes that differ only in the numbering of the constant pool (and the order of members) are equal to classdiff with --ignore-pool, and never without it.", "quantifier": "every pair of classes related by renumbering", "why_tests_cant": "relational property over all pools, attributes and code", "anchors": ["javatools/classdiff.py: JavaClassChange, ClassConstantPoolChange", "javatools/__init__.py: JavaConstantPool.__eq__, pretty_constants"]}
{"id": "C68", "title": "Manifest comparison reports exactly the attributes and sections that differ", "statement": "ManifestChange(l, r) is a change exactly if the main attributes (in order) or the sections differ, and is covered by the options exactly if manifests are ignored altogether, or only ignored keys changed and the section changes are ignored or in ignored keys; keys to ignore are matched without regard to case.", "quantifier": "every pair of manifests and every option setting", "why_tests_cant": "all combinations of added, removed and changed sections and attributes, under all options", "anchors": ["javatools/manifest.py: ManifestChange, ManifestMainChange, ManifestSectionChange, ManifestSectionAdded, ManifestSectionRemoved", "javatools/jardiff.py: jardiff_optgroup"]}
{"id": "C69", "title": "Writing reports does not alter the verdict of jardiff", "statement": "jardiff --report ends with the same exit status as jardiff without, although it squashes the class comparisons as it goes.", "quantifier": "every pair of jars, every option setting", "why_tests_cant": "two separate implementations of the check over arbitrary jars must agree", "anchors": ["javatools/jardiff.py: JarContentsReport.check_impl, JarReport.check, cli_jars_diff", "javatools/change.py: squash"]}
{"id": "C70", "title": "A completed jar comparison can be reported", "statement": "If checking a JarChange completes, then the text and JSON reports of it can be produced under all options.", "quantifier": "every pair of jars, every option setting", "why_tests_cant": "absence of exceptions on all trees that checking can produce", "anchors": ["javatools/jardiff.py: JarContentsChange.collect_impl, JarContentChange subclasses", "javatools/report.py: _indent_change, JSONReportFormat"]}
{"id": "C71", "title": "Writing reports does not alter the verdict of distdiff", "statement": "distdiff --report (in one process) ends with the same exit status or exception as distdiff without.", "quantifier": "every pair of distributions, every option setting", "why_tests_cant": "two separate implementations of the check, with squashing at two levels, over arbitrary distributions", "anchors": ["javatools/distdiff.py: DistReport.collect_impl, DistReport.check_impl, DistJarReport, DistClassReport, cli_dist_diff"]}
{"id": "C72", "title": "Constants as text name what the class file names", "statement": "pretty_deref_const of a class, field, method, name-and-type, string or number constant is the dotted class name, the member symbol with its types, name:type, the string or the number.", "quantifier": "every well-formed constant pool and index", "why_tests_cant": "pool shapes are unbounded; constants of rarely used kinds are never written in tests", "anchors": ["javatools/__init__.py: JavaConstantPool.pretty_deref_const"]}
{"id": "C73", "title": "classinfo output is complete and correctly labelled", "statement": "classinfo prints or dumps as JSON every class and every member to be shown, with its version numbers under the right labels.", "quantifier": "every class and visibility setting", "why_tests_cant": "no test runs the JSON output of a class that has members", "anchors": ["javatools/classinfo.py: cli_simplify_fields, cli_simplify_methods, cli_print_classinfo"]}
{"id": "C74", "title": "Members are found by name and argument types", "statement": "get_method returns the first non-bridge method with the given name and argument types, get_method_bridges all bridge methods with them in order, get_methods_by_name all methods of that name, get_field_by_name the first field; sequences of types may be lists or tuples.", "quantifier": "every class, name and argument list", "why_tests_cant": "overloads and bridges combine without bound", "anchors": ["javatools/__init__.py: JavaClassInfo.get_method, get_method_bridges, get_methods_by_name, get_field_by_name"]}
{"id": "C75", "title": "jarinfo summarises every jar", "statement": "The zip summary of jarinfo gives the number of files and directories and their total compressed and uncompressed size for every jar.", "quantifier": "every jar content", "why_tests_cant": "edge sizes such as only empty files are not in the tests", "anchors": ["javatools/jarinfo.py: cli_jar_zip_info, cli_jarinfo_json", "javatools/ziputils.py: zip_entry_rollup"]}
{"id": "C76", "title": "Ignore patterns follow the shell pattern language", "statement": "An entry, file name or symbol is ignored exactly when it matches one of the given glob patterns, with *, ?, [set], [!set] and ranges as documented; empty patterns match nothing; a pattern without special characters matches itself only.", "quantifier": "every name and every list of patterns", "why_tests_cant": "patterns and names are unbounded; the pattern language has corner cases (unclosed brackets, leading ], hyphens)", "anchors": ["javatools/dirutils.py: fnmatches"]}
{"id": "C77", "title": "Manifests are accepted exactly when well formed", "statement": "Manifest.parse accepts a text exactly when it consists of sections of name: value headers with continuation lines, separated by blank lines; anything else raises MalformedManifest. The result holds for each attribute the value of its last occurrence and each section under its name.", "quantifier": "every text and previous content", "why_tests_cant": "acceptance over all texts, with all line ends, NULs and positions of the malformed line", "anchors": ["javatools/manifest.py: parse_sections, Manifest.parse, ManifestSection.load"]}
{"id": "C78", "title": "Links between reports lead to the reports", "statement": "Breadcrumbs in a nested HTML report, and the details link of a class in a jar's report, lead to the files in which the other reports are written.", "quantifier": "every depth of nesting, every sub-path, every non-empty base directory, every working directory", "why_tests_cant": "the relative path depends on all of the base directory, the sub-paths and the working directory, with any mix of .. and absolute parts", "anchors": ["javatools/report.py: Reporter.get_relative_breadcrumbs, subreporter", "javatools/cheetah/report.tmpl", "javatools/cheetah/change_SquashedChange.tmpl"]}
{"id": "C79", "title": "jardiff --report writes one report for the jar and one for each changed class", "statement": "A completed jardiff --report writes, in each requested format and nothing besides, JarReport in the report directory and JavaClassReport in a directory named after each class entry with different bytes in both jars, all below the report directory; and ends like jardiff without --report.", "quantifier": "every pair of jars, every option setting", "why_tests_cant": "the set of files over all pairs of jars and all entry names, including names with .. parts", "anchors": ["javatools/jardiff.py: cli_jars_diff, JarReport, JarContentsReport", "javatools/classdiff.py: JavaClassReport"]}
{"id": "C80", "title": "Names appear in HTML reports as they are", "statement": "Entry names from the compared jars appear in the HTML as text and in links exactly, and never become markup.", "quantifier": "every name", "why_tests_cant": "names are attacker controlled strings", "anchors": ["javatools/cheetah/__init__.py: xml_entity_escape", "javatools/cheetah/change_SquashedChange.tmpl"]}
{"id": "C81", "title": "Command line options mean what they say", "statement": "Each of classdiff, jardiff and distdiff accepts exactly the options it offers; a run compares under the options given: each flag is set exactly when asked for, by its own switch or as a word of --ignore, each collecting option holds its values in order; --ignore a,b is --ignore a --ignore b; the order of options does not matter; a wrong command line ends with status 2.", "quantifier": "every command line", "why_tests_cant": "the command lines are sequences of options of any length", "anchors": ["javatools/classdiff.py: add_classdiff_optgroup, create_optparser", "javatools/jardiff.py: add_jardiff_optgroup", "javatools/distdiff.py: add_distdiff_optgroup", "javatools/change.py: Change.is_ignored", "javatools/opts.py"]}
{"id": "C82", "title": "More options never report more", "statement": "If a comparison ends with status 0, then so does one with further ignore options on the same input; the show options do not affect the status.", "quantifier": "every command line, every additional options, every pair of classes, jars and distributions", "why_tests_cant": "monotonicity over all command lines and all inputs", "anchors": ["javatools/classdiff.py", "javatools/jardiff.py", "javatools/distdiff.py", "javatools/manifest.py: is_ignored"]}
{"id": "C83", "title": "Every documented ignore option has an effect", "statement": "For every ignore option there are inputs on which it changes the outcome in the way its help text says; the functions giving default options return them.", "quantifier": "every option", "why_tests_cant": "that an option is without effect is a statement about all inputs", "anchors": ["javatools/classdiff.py: add_classdiff_optgroup, default_classdiff_options", "javatools/jardiff.py: default_jardiff_options", "javatools/distdiff.py: default_distdiff_options"]}
{"id": "C84", "title": "Every entry is listed once, under the right heading and in the documented order", "statement": "After a check, the changes of a jar or a distribution are: for every entry of either side exactly one change, which says added, removed, has changed or is unchanged rightly and names the kind of entry; the changes come in the order of kinds given in the code.", "quantifier": "every pair of jars and distributions whose check completes", "why_tests_cant": "the set and kinds of entries are unbounded", "anchors": ["javatools/jardiff.py: JarContentsChange.collect_impl", "javatools/distdiff.py: DistChange.collect_impl", "javatools/change.py: yield_sorted_by_type"]}
{"id": "C85", "title": "The manifest created for an archive lists its files with the requested digests", "statement": "manifest create, on an archive or a directory, writes a manifest which, read back, has one section for each file that matches no ignore pattern, under the file's name relative to the content, with exactly the digests asked for, each that of the file; an unsupported algorithm ends with an exception and no manifest.", "quantifier": "every archive or directory, every set of algorithms, every set of ignore patterns", "why_tests_cant": "the written text depends on all names, contents, algorithms and patterns; lines are folded at every length", "anchors": ["javatools/manifest.py: cli_create, single_path_generator, multi_path_generator, directory_generator"]}
{"id": "C86", "title": "A manifest created for an archive verifies in that archive", "statement": "manifest verify of the archive with the manifest just created in it returns status 0.", "quantifier": "every archive, every set of algorithms and ignore patterns", "why_tests_cant": "composition of creating, writing, folding, reading and digest selection over all archives", "anchors": ["javatools/manifest.py: cli_create, cli_verify, Manifest.verify_jar_checksums"]}
{"id": "C87", "title": "A created jar has the given files, once each, and a manifest; it can be signed", "statement": "jarutil create writes META-INF/, a manifest and exactly one entry for each file and directory found at the paths given, named by the normalised path, with the file's data; the manifest has the main class asked for; the jar can be signed and verified.", "quantifier": "every directory tree, every list of paths", "why_tests_cant": "trees of any depth and paths with any mix of . and .. and repeated slashes", "anchors": ["javatools/jarutil.py: create_jar, cli_create_jar"]}
{"id": "C88", "title": "jarutil sign and verify return honest statuses", "statement": "jarutil verify returns 0 only if the signature block accepts the signature file, which covers the manifest, which covers every entry; it returns 1 if verification fails; jarutil sign writes a jar that then verifies to the output, or over the input, and nothing when it returns 1 (unknown key type) or 2 (no manifest); commands may be abbreviated to any prefix.", "quantifier": "every jar, every key and certificate, every command line", "why_tests_cant": "soundness over all jars, including tampered ones", "anchors": ["javatools/jarutil.py: cli_verify_jar_signature, cli_sign_jar, main", "javatools/manifest.py: main"]}
{"id": "C89", "title": "A query of a manifest gives the attribute of the section named", "statement": "manifest query jar section:key prints the value of that attribute of that section, or says that there is no such section; without a colon the main section is asked.", "quantifier": "every jar with a manifest written by this library, every section name and attribute name", "why_tests_cant": "section names are arbitrary paths and URLs", "anchors": ["javatools/manifest.py: cli_query"]}
{"id": "C90", "title": "Declarations are written in full and say what the class file says", "statement": "The declaration printed for a class, field or method names its access flags, its type, name, argument types and exceptions in source notation; two members with the same declaration agree in all of these.", "quantifier": "every well-formed class file and every member of it", "why_tests_cant": "flags, types and names combine without bound; that no two different members print alike is a statement about all pairs", "anchors": ["javatools/__init__.py: JavaClassInfo.pretty_descriptor, JavaMemberInfo.pretty_descriptor, pretty_access_flags"]}
{"id": "C91", "title": "classinfo lists exactly the members of the visibility asked for", "statement": "classinfo on a class prints the source file, the declaration of the class and one line for each field and method that is public (-public), public or protected (-package), or any (-private), fields first, in the order of the class file, and nothing else; with -p the constants, with -c the code of each.", "quantifier": "every well-formed class file, every visibility, with and without -c and -p", "why_tests_cant": "the whole text for all classes", "anchors": ["javatools/classinfo.py: cli_print_classinfo, print_field, print_method, should_show"]}
{"id": "C92", "title": "A code listing shows every instruction and determines the code", "statement": "classinfo -c prints for each instruction its offset, mnemonic and operands, and for each exception handler its range, target and class; two methods with the same listing of instructions have the same instructions.", "quantifier": "every sequence of valid instructions, every exception table", "why_tests_cant": "instructions, switch tables and offsets are unbounded; injectivity is about all pairs of code", "anchors": ["javatools/classinfo.py: print_method", "javatools/opcodes.py: disassemble"]}
{"id": "C93", "title": "Enclosing method and verbose output", "statement": "get_enclosingmethod gives the class, or class.method with its descriptor, that encloses the class, or None; verbose output numbers annotations and heads the exceptions of methods that have some.", "quantifier": "every well-formed class file", "why_tests_cant": "attributes point anywhere in the pool", "anchors": ["javatools/__init__.py: get_enclosingmethod", "javatools/classinfo.py: print_method, print_field"]}
{"id": "C94", "title": "The listing of constants shows each constant with its index and type", "statement": "classinfo -p prints one line for each constant of the pool, in order, with its index (long and double take two), its type and its value.", "quantifier": "every well-formed constant pool", "why_tests_cant": "pools of any size with any mix of wide and narrow constants", "anchors": ["javatools/classinfo.py: cli_print_classinfo", "javatools/__init__.py: pretty_constants, _pretty_const_type_val"]}
{"id": "C95", "title": "Only the missing e-mail usage of a signing certificate is passed over", "statement": "verify_signature_block accepts a chain of certificates exactly if every problem OpenSSL reports is that the signing certificate's extended key usage lacks emailProtection, its key usage (digitalSignature or nonRepudiation) being in order; any other error keeps its verdict.", "quantifier": "every sequence of problems reported by OpenSSL, every combination of extensions", "why_tests_cant": "which certificates are accepted is a statement about all combinations of key usages and errors, and a false acceptance is a security hole", "anchors": ["javatools/crypto.py: ignore_missing_email_protection_eku_cb"]}
{"id": "C96", "title": "The type of a private key is found", "statement": "private_key_type returns RSA, DSA or EC, the one as which the key loads, and raises CannotFindKeyTypeError for a file that is none of them.", "quantifier": "every key file", "why_tests_cant": "all behaviours of the three loaders", "anchors": ["javatools/crypto.py: private_key_type"]}
{"id": "C97", "title": "Each change is shown by the most specific template", "statement": "In HTML reports a change is rendered by the template of the nearest class it inherits from that has one; every kind of change has a template and every template is used.", "quantifier": "every class hierarchy, in particular all change classes of the program", "why_tests_cant": "resolution depends on the linearised class hierarchy; stated for all hierarchies and proved to hold of the one in the code", "anchors": ["javatools/report.py: CheetahReportFormat._compose_template_map, resolve_template"]}
{"id": "C98", "title": "The page of a class comparison shows the code of every method on both sides", "statement": "In the HTML report of classdiff each method that is on both sides has a section headed by its declaration. If its code has changed, a table sets the two disassembled codes side by side by relative line number; otherwise a table shows the code once. Every instruction of both sides is shown with its line, offset, mnemonic and arguments.", "quantifier": "every pair of class files, every pair of methods with the same identity, all options", "why_tests_cant": "the table is built by a merge over unbounded instruction sequences; a missing row shows only for particular line tables", "anchors": ["javatools/cheetah/classdiff_MethodChange.tmpl, classdiff_MethodCodeChange.tmpl", "javatools/classdiff.py: merge_code, MethodCodeChange"]}
{"id": "C99", "title": "The page of a class comparison shows every method added, removed or changed, with its values", "statement": "Each method of either class has a section headed by its declaration: one that was added or removed says so and lists its name, types, flags, generic signature, exceptions, whether it is abstract and deprecated; for one on both sides each of these is listed once if equal and as left and right value if not. The same for fields.", "quantifier": "every pair of class files, every method and field", "why_tests_cant": "a claim on every member of all pairs of classes", "anchors": ["javatools/cheetah/classdiff_MethodChange.tmpl, classdiff_MethodAdded.tmpl, classdiff_MethodRemoved.tmpl, classdiff_ClassFieldsChange.tmpl"]}
{"id": "C100", "title": "The page of a class comparison shows the data of the class and of its fields", "statement": "The HTML report of classdiff lists name, flags, superclass, interfaces, version, platform, generic signature and deprecation of the class, and name, type, flags, signature, constant value and deprecation of each field on both sides: one row if equal, left and right if not, escaped for HTML.", "quantifier": "every pair of class files, every pair of fields of one name", "why_tests_cant": "a claim on all values, including those that need escaping and those that Python takes for false", "anchors": ["javatools/cheetah/classdiff_ClassInfoChange.tmpl, classdiff_FieldChange.tmpl, change.tmpl"]}
{"id": "C101", "title": "The page of a class comparison shows every constant of both pools", "statement": "The HTML report of classdiff has a table of constants. If the pools differ it has a row for each index with type and value on both sides, marked as same or different; otherwise it lists index, type and value of each constant.", "quantifier": "every pair of constant pools", "why_tests_cant": "pools of any size, with constants of two slots, of different sizes on the two sides", "anchors": ["javatools/cheetah/classdiff_ClassConstantPoolChange.tmpl", "javatools/classdiff.py: pretty_merge_constants"]}
{"id": "C102", "title": "The pages of class comparisons are well-formed XHTML", "statement": "The HTML report of classdiff, which declares itself XHTML 1.0 Strict, is well-formed: tags nest and are closed, no attribute occurs twice.", "quantifier": "every pair of class files", "why_tests_cant": "tags are opened and closed in different branches and templates; whether they match depends on the data", "anchors": ["javatools/cheetah/report.tmpl, change.tmpl and all classdiff_*.tmpl"]}
{"id": "C103", "title": "jarinfo lists exactly the symbols a jar provides and requires", "statement": "jarinfo with --jar-provides and --jar-requires prints for each jar given, in order, a titled list, sorted by code points and without repetition, of exactly the symbols that the classes of the jar provide (public and protected ones), respectively require and do not provide themselves, except those matching an --api-ignore pattern. The exit status is 0.", "quantifier": "every list of jars, all sets of ignore patterns, both options in all combinations", "why_tests_cant": "the symbols come from every class of a jar; any number of classes and jars", "anchors": ["javatools/jarinfo.py: cli, cli_jarinfo, cli_jar_provides, cli_jar_requires"]}
{"id": "C104", "title": "jarinfo --json holds the same symbols with the entries concerned", "statement": "With --json the document of a jar has for jar.provides and jar.requires one member per symbol of the text listing, with the entries that provide, respectively require it.", "quantifier": "every jar, all ignore patterns", "why_tests_cant": "the entries for a symbol are collected over all classes", "anchors": ["javatools/jarinfo.py: cli_jarinfo_json, cli"]}
{"id": "C105", "title": "jarinfo --manifest prints the whole manifest in order", "statement": "jarinfo --manifest prints the main section and then every sub-section in the order of their names, in each the attributes in the order of their names; a jar without a manifest is reported as such.", "quantifier": "every jar and manifest", "why_tests_cant": "order and completeness for manifests of any number of sections", "anchors": ["javatools/jarinfo.py: cli_jar_manifest_info, JarInfo.get_manifest"]}
{"id": "C106", "title": "jarinfo prints the classes in the order of the entries and the totals of the archive", "statement": "jarinfo --jar-classes prints, for each class file in the order of the archive, its name and what classinfo prints for it with the same options. --zip prints the number of files and directories and their total sizes.", "quantifier": "every jar, all options of classinfo", "why_tests_cant": "all classes and all options", "anchors": ["javatools/jarinfo.py: cli_jar_classes, cli_jar_zip_info", "javatools/classinfo.py: cli_print_classinfo"]}
{"id": "C107", "title": "distinfo lists exactly the symbols a distribution provides and requires", "statement": "distinfo with --dist-provides and --dist-requires prints sorted lists of exactly the symbols provided by the jars and loose classes of the directory, respectively required and not provided anywhere in it, except those ignored. For a distribution of one jar this is what jarinfo lists.", "quantifier": "every directory tree with readable jars and classes, all ignore patterns", "why_tests_cant": "trees of any shape, requirements satisfied across jars", "anchors": ["javatools/distinfo.py: cli, cli_distinfo, cli_dist_provides, cli_dist_requires"]}
{"id": "C108", "title": "is_zipstream leaves a stream where it was", "statement": "is_zipstream(data) accepts buffers and streams, answers whether an end-of-archive record is found, and leaves a stream that can tell and seek at the position it had.", "quantifier": "every stream and buffer, whatever the search for the record does to the position", "why_tests_cant": "depends on which methods the stream has and what the search raises", "anchors": ["javatools/ziputils.py: is_zipstream"]}
{"id": "C109", "title": "HTML page of a jar comparison", "statement": "The page jardiff --report html writes lists every entry of the two jars exactly once, under the heading of its kind, the headings in the documented order and the entries by name under each. An entry is marked changed and not ignored exactly if it is a reason to report a change; an entry on one side only is never marked unchanged, an equal one always. A class that differs has a link to its page.", "quantifier": "every pair of jars and all options", "why_tests_cant": "depends on the combination of kinds of entries, states and options, and on the order in which they are collected", "anchors": ["javatools/cheetah/jardiff_JarContentsReport.tmpl", "javatools/cheetah/jardiff_JarContentChange.tmpl", "javatools/cheetah/change_SquashedChange.tmpl", "javatools/cheetah/change_Change.tmpl", "javatools/report.py: CheetahReportFormat"]}
{"id": "C110", "title": "HTML page of a distribution comparison", "statement": "The page distdiff --report html writes lists every file of the two distributions exactly once, under the heading of its kind, the headings in the documented order and the files by name under each, marked as for jars. A class or jar that differs has a link to its page.", "quantifier": "every pair of directory trees and all options", "why_tests_cant": "depends on the shape of the trees and the combination of kinds, states and options", "anchors": ["javatools/cheetah/distdiff_DistReport.tmpl", "javatools/cheetah/distdiff_DistContentChange.tmpl", "javatools/report.py: CheetahReportFormat"]}
{"id": "C111", "title": "Pages of jars and distributions are well-formed", "statement": "The pages of jar and distribution comparisons are well-formed XHTML: every element is closed in turn, and no attribute is given twice.", "quantifier": "every page written, all options", "why_tests_cant": "depends on the nesting of arbitrary changes", "anchors": ["javatools/cheetah/report.tmpl", "javatools/cheetah/distdiff_DistReport.tmpl", "javatools/cheetah/jardiff_JarContentsReport.tmpl", "javatools/cheetah/change_Change.tmpl"]}
{"id": "C112", "title": "The verdict does not depend on the order of the arguments", "statement": "Comparing B with A gives the same verdict (exit status) as comparing A with B, if the options for higher and lower versions are exchanged: for class files, jars and distributions alike, provided no class has two fields of one name or two methods of one name and argument types.", "quantifier": "every pair of classes, jars or trees, all options, any listing order", "why_tests_cant": "needs a relation between two runs on arbitrary inputs; the algorithms treat the sides differently (the left is put in a dictionary, the right is iterated)", "anchors": ["javatools/classdiff.py: ClassMembersChange.collect_impl", "javatools/jardiff.py: cli_jars_diff", "javatools/distdiff.py: cli_dist_diff", "javatools/change.py: Change.is_ignored"]}
{"id": "C113", "title": "Verdicts of no change chain", "statement": "If comparing A with B and comparing B with C under the same options both find no change that is not ignored, then comparing A with C finds none: so a sequence of builds accepted one after another has been accepted as a whole.", "quantifier": "every three classes, jars or trees, all options, any listing order", "why_tests_cant": "relates three runs on arbitrary inputs", "anchors": ["javatools/classdiff.py: cli_classes_diff", "javatools/jardiff.py: cli_jars_diff", "javatools/distdiff.py: cli_dist_diff", "javatools/dirutils.py: fnmatches"]}
{"id": "C114", "title": "distdiff --report writes exactly the reports that are due", "statement": "When distdiff --report completes, the files written are exactly, in each requested format: DistReport in the report directory; for each differing class file or jar its JavaClassReport or JarReport in the directory named like the file; and for each differing class in such a jar its JavaClassReport in the directory named like the entry below that. Each is written once, with what the format makes of that comparison; the exit status is that of distdiff; and with --processes the same is written, whatever the schedule.", "quantifier": "every pair of trees with jars in them, any set of formats, any report directory, any number of helpers and schedule", "why_tests_cant": "depends on the nesting of trees and jars, on the combination of formats, and on the schedule of the processes", "anchors": ["javatools/distdiff.py: DistReport, DistJarReport, DistClassReport, mp_check_impl", "javatools/report.py: Reporter.subreporter, Reporter.run", "javatools/jardiff.py: JarReport"]}
{"id": "C115", "title": "Comparing a jar with its signed copy", "statement": "With --ignore-jar-signature, jardiff of a jar and the same jar after 'jarutil sign' always completes, and exits 0 exactly if the manifest or its sections are ignored too, the manifest is ignored by name, or the manifest already recorded exactly these digests; so with --ignore-manifest-subsections, signing jars (also those in a distribution, with distdiff) is never reported as a change, whatever the jar contains.", "quantifier": "every jar with a storable manifest, alias, digest algorithm and key, every set of options", "why_tests_cant": "relates the output of one tool to the verdict of another, for arbitrary contents, existing signatures and sections included", "anchors": ["javatools/jarutil.py: sign", "javatools/jardiff.py: JarContentsChange, JarSignatureFileAdded, JarSignatureBlockFileAdded, JarManifestChange", "javatools/manifest.py: ManifestChange, Manifest.add_jar_entries"]}
{"id": "C116", "title": "classinfo --provides and --requires list exactly the symbols of the class", "statement": "classinfo --provides prints a titled list, sorted and without repetition, of exactly the class and its public and protected members, and --requires of exactly the symbols the class needs and does not provide itself, except those matching an --api-ignore pattern.", "quantifier": "every class file, every set of patterns, both options in all combinations, any iteration order of sets", "why_tests_cant": "symbols come from the pool and all members; any number of them", "anchors": ["javatools/classinfo.py: cli_print_classinfo, print_class's callers", "javatools/__init__.py: get_provides, get_requires"]}
{"id": "C117", "title": "The verbose listing of classinfo is complete and exact", "statement": "With --verbose (or -l, -c, -s, --constpool and so on separately) classinfo prints exactly: source file, declaration, signature, annotations, enclosing method, versions, platform, constant pool; each shown field with its signature, annotations and constant value; each shown method with its signature, annotations, code with stack size, locals and argument slots, markers, line number and variable tables and exceptions, each in this order and with the values in the class file.", "quantifier": "every class file and every combination of the options", "why_tests_cant": "every part depends on options, on attributes that may or may not be present, and on tables of any size", "anchors": ["javatools/classinfo.py: cli_print_class, print_field, print_method, cli_print_classinfo", "javatools/__init__.py: pretty_annotation, pretty_descriptor, get_arg_type_descriptors, JavaCodeInfo"]}
{"id": "C118", "title": "The page of a class comparison shows which annotations changed", "statement": "On the HTML page of classdiff, the part on the runtime visible (invisible) annotations of the classes and of every pair of fields or methods compared is marked changed exactly if the annotations differ in number or meaning; then it shows a table of both sides, row by row, each row marked changed exactly if the annotations of that row differ; otherwise the annotations once.", "quantifier": "every pair of class files whose comparison yields a page, every pair of members of one identity, any number of annotations", "why_tests_cant": "annotations nest and refer to the constant pool, which differs between builds; pairing is by position", "anchors": ["javatools/cheetah/classdiff_AnnotationsChange.tmpl", "javatools/classdiff.py: AnnotationsChange and subclasses", "javatools/__init__.py: JavaAnnotation, pretty_annotation"]}
{"id": "C119", "title": "Style sheets and scripts are reachable from every page of a report", "statement": "Every HTML page that jardiff or distdiff --report writes, in whatever directory, has in its head the copied style sheets and scripts (--html-copy-data) followed by those asked for, in order; URLs and absolute paths as given, and each file there is by a link that leads from the directory of that page to that very file. The data is copied once, before the first page that needs it.", "quantifier": "every pair of jars or trees, every working directory, report directory, copy directory and set of files there already, every list of style sheets and scripts, any number of pages", "why_tests_cant": "pages lie in directories named by the entries compared, at any depth; the options are changed by the first setup and shared by all reports", "anchors": ["javatools/report.py: CheetahReportFormat._relative, _relative_uris, setup, run_impl", "javatools/dirutils.py: copydir", "javatools/cheetah/report.tmpl"]}
{"id": "C120", "title": "The text report of classdiff, line by line", "statement": "The text that classdiff writes is exactly this: the class named, and below it the changes of its name, version, platform, superclass, interfaces, access flags, deprecation and signature, its annotations, its constant pool, its fields and its methods; under fields and methods first those that only the second class has, then those that only the first has, then those of both in the order of the second with what changed of each; each line with both values as Python shows them, indented by depth; what is the same, and a heading with only such things below it, appears only with --show-unchanged and is then said to be unchanged; what differs but is set aside by an --ignore option, and a heading below which all that differs is set aside, appears only with --show-ignored and is then marked as ignored; nothing appears below a heading that does not appear itself.", "quantifier": "every pair of classes with readable names and descriptors, every combination of options, any number of members and instructions", "why_tests_cant": "the text is assembled by a walk over a tree of changes of which any part may be unchanged or ignored; tests compare two sample classes", "anchors": ["javatools/classdiff.py: JavaClassChange and all changes below it", "javatools/change.py: GenericChange.check_impl, SuperChange, get_description, is_ignored", "javatools/report.py: TextReportFormat, _indent_change, _indent"]}
{"id": "C121", "title": "The JSON document of classinfo", "statement": "classinfo --json writes for each class file one document with exactly these entries, sorted: name, superclass, interfaces, source file (null if none), version as [major, minor], the platform (null if unknown), the members to be shown, the signature and enclosing method where there are any, and as asked for the constants with index, kind and value and the symbols provided and required; files are handled in order and a file that fails keeps what was written before.", "quantifier": "every class with readable names, every combination of options, any number of files", "why_tests_cant": "entries come and go with attributes and options in combinations no test lists; no test runs the JSON output at all", "anchors": ["javatools/classinfo.py: cli_simplify_classinfo, cli_simplify_fields, cli_simplify_methods, cli_json_class, ifonly, cli"]}
{"id": "C122", "title": "The data of a field or method", "statement": "cli_simplify_field and cli_simplify_method of a member give its name, type, the words of its access flags, the types of its arguments, its generic signature if it has one, whether it is deprecated, and the kind and value of its constant.", "quantifier": "every well-formed member of every class", "why_tests_cant": "members differ in flags, types and attributes; the functions are not called by any test", "anchors": ["javatools/classinfo.py: cli_simplify_field, cli_simplify_method", "javatools/__init__.py: JavaMemberInfo.pretty_type, pretty_arg_types, pretty_access_flags, get_signature, get_constantvalue, is_deprecated"]}
{"id": "C123", "title": "The text report of jardiff, line by line", "statement": "The text report on two jars is: a heading, the type of the jars, and for each entry of either jar a line naming its kind and the entry, the kinds in this order: manifest, signature files added, removed, in both, signature blocks added, removed, in both, other differing files, other files added, removed, the same, classes added, removed, in both. Below an entry that differs come, for manifests and signature files, the main section, the sub-sections of both, those removed, those added; for classes the text classdiff writes; otherwise a line saying that the data differ. An entry whose content differs but not in what is compared is said to be unchanged. What an option sets aside, by name, by attribute, by sub-section, or as a signature, appears only with --show-ignored and is marked; what is the same appears only with --show-unchanged.", "quantifier": "every pair of zip files with any number of entries, whatever is in manifests and classes, every combination of options, every iteration order of sets", "why_tests_cant": "the report is assembled by a walk over nested changes from entries in any combination and order; tests compare two sample jars", "anchors": ["javatools/jardiff.py: JarChange, JarContentsChange, all changes of entries", "javatools/manifest.py: ManifestChange, ManifestMainChange, ManifestSectionChange, ManifestSectionAdded, ManifestSectionRemoved, SignatureManifestChange", "javatools/report.py: TextReportFormat, _indent_change, _indent"]}
{"id": "C124", "title": "The text report of distdiff, line by line", "statement": "The text report on two directories is: a heading naming both, and for each file of either directory a line naming its kind and the file, the kinds in this order: classes added, removed, in both, jars added, removed, in both, texts, manifests, other files added, removed, in both. Below a file that differs comes, for classes, jars and manifests, what classdiff and jardiff write, two levels further in; for texts a line with both texts. A file whose content differs but not in what is compared is said to be unchanged; so is any file of another kind, and with --shallow any file of both. Files ignored by name, and texts that differ in trailing white space only if that is to be ignored, appear only with --show-ignored and are marked. The exit status is that of the same run without output.", "quantifier": "every pair of directory trees on which the comparison of directories is right, any number of files, every combination of options, with and without --shallow", "why_tests_cant": "the report nests reports of jars and classes to any width and depth; tests check the exit status of two sample trees", "anchors": ["javatools/distdiff.py: DistChange, all changes of files, cli_dist_diff", "javatools/report.py: TextReportFormat, _indent_change, _indent, quick_report"]}
{"id": "C125", "title": "The JSON document of classdiff, object by object", "statement": "The document that classdiff --json writes is a tree of objects, one for the class and for each part compared that is to be shown, in the order of the text report; each has its class, label and description, whether there is a change, whether it is ignored, whether it is an addition or a removal, and the data before and after: texts, numbers and lists read off the two classes, null where there are none; the code of a method is given as its instructions with offsets, mnemonics and operands; where two methods have the same instructions with other constants, the data are the constants of just those instructions whose constant differs; an object about a group has the objects of the parts to be shown as children.", "quantifier": "every pair of classes with readable names and descriptors, every combination of options, any number of members, instructions and constants", "why_tests_cant": "the document is assembled by a walk over a tree of changes of which any part may be unchanged or ignored, with data of many shapes; no test looks at the JSON output", "anchors": ["javatools/change.py: Change.simplify, SuperChange.simplify, GenericChange.simplify, get_description, is_ignored", "javatools/classdiff.py: JavaClassChange and all changes below it, fn_pretty of each", "javatools/report.py: JSONReportFormat, JSONChangeEncoder"]}
{"id": "C126", "title": "The JSON document of jardiff, object by object", "statement": "The document that jardiff --json writes is a tree of objects, in the order of the text report (C123) and with the same things left out: one for the two jars, one for their type with the data before and after, one for their contents, and one for each entry of either jar to be shown, with the class and label of its kind, the name of the entry, whether it is an addition or a removal and whether it is ignored. Below an entry that differs is one object: for manifests and signature files one with objects for the main section and for each sub-section of both, of the first only and of the second only, whose data are the attributes of the section; for classes the object classdiff writes; for other files an object without their contents.", "quantifier": "every pair of zip files with any number of entries, whatever is in manifests and classes, every combination of options, every iteration order of sets", "why_tests_cant": "the document is assembled by a walk over nested changes from entries in any combination and order; no test looks at the JSON output", "anchors": ["javatools/jardiff.py: JarChange, JarContentsChange, all changes of entries", "javatools/manifest.py: ManifestChange, ManifestMainChange, ManifestSectionChange, ManifestSectionAdded, ManifestSectionRemoved, SignatureManifestChange, SignatureBlockFileChange", "javatools/change.py: Change.simplify, SuperChange.simplify, GenericChange.simplify", "javatools/report.py: JSONReportFormat, JSONChangeEncoder"]}
{"id": "C127", "title": "The JSON document of distdiff, object by object", "statement": "The document that distdiff --json writes is a tree of objects, in the order of the text report (C124) and with the same things left out: one for the two directories and below it one for each file of either to be shown, with the class and label of its kind, the name of the file, whether it is an addition or a removal and whether it is ignored. Below a file that differs is one object: for classes the object classdiff writes, for jars the object jardiff writes, for manifests one with the sections and their attributes, for texts one with the two texts as data. The exit status is the same as without a document.", "quantifier": "every pair of directories of any depth with any number of files, whatever is in classes, jars, manifests and texts, every combination of options including --shallow, every iteration order of sets", "why_tests_cant": "the document nests those of jardiff and classdiff for files in any combination and order; no test looks at the JSON output", "anchors": ["javatools/distdiff.py: DistChange, DistReport, all changes of files", "javatools/jardiff.py: JarChange and all changes below it", "javatools/manifest.py: ManifestChange", "javatools/change.py: Change.simplify, SuperChange.simplify, GenericChange.simplify", "javatools/report.py: JSONReportFormat, JSONChangeEncoder"]}
{"id": "C128", "title": "classdiff, jardiff and distdiff complete, and can be reported, for all valid classes", "statement": "For two class files whose constants refer to each other properly, whose descriptors and signatures are well formed and whose annotations refer to existing names, classdiff completes with status 0 or 1 and both its text report and its JSON document can be written. For two jars whose common entries are all of that kind, or manifests, signature blocks or other data, jardiff completes and both reports can be written as well; and the same for distdiff of two directories whose common files are such classes and jars, manifests, decodable texts or other data.", "quantifier": "every pair of classes, of zip files and of directories meeting the stated conditions, every combination of options, every iteration order of sets", "why_tests_cant": "the comparison reads every part of both classes and one exception anywhere ends the whole run without a report; tests compare a few class files", "anchors": ["javatools/classdiff.py: JavaClassChange, JavaClassReport, classdiff.main", "javatools/jardiff.py: JarChange, JarContentsChange", "javatools/distdiff.py: DistChange and the changes of files", "javatools/change.py: Change.simplify, SuperChange.check, yield_sorted_by_type", "javatools/report.py: JSONReportFormat, JSONChangeEncoder", "javatools/__init__.py: _pretty_const_type_val, JavaConstantPool.deref_const"]}
{"id": "C129", "title": "Tables spread over several attributes of the code are read whole", "statement": "get_linenumbertable returns the entries of all LineNumberTable attributes of the code, get_localvariabletable and get_localvariabletypetable those of all attributes of their name: the class file format allows more than one of each (JVMS 4.7.12 to 4.7.14). Nothing of them is lost for the users of the tables, such as get_line_for_offset and classdiff.", "quantifier": "every encoded code with any number of attributes of these names, in any order among others", "why_tests_cant": "compilers in common use write one table, so that no sample class has several; that the result is complete depends on how attributes of equal name are stored", "anchors": ["javatools/__init__.py: JavaAttributes.unpack, JavaCodeInfo.get_linenumbertable, get_localvariabletable, get_localvariabletypetable, get_line_for_offset", "javatools/classdiff.py: CodeAbsoluteLinesChange"]}
{"id": "C130", "title": "A report written with -o is all of the report or what came before the failure, and touches nothing else", "statement": "classdiff, jardiff and distdiff write their report to the file of -o, or print it if there is none: the very same text, and no other file is touched; with --silent nothing is written. The text report consists of the lines of all nodes to be shown, or, if a node that it comes to cannot be described, exactly the lines of those before the first such node, and the run then ends with its exception. The exit status of a run that ends with one does not depend on where and in which form the report is written. A run that fails leaves an existing report as it was.", "quantifier": "every change tree whose parts can be collected, every combination of options, every file system and name of the file", "why_tests_cant": "which prefix of the report a failure leaves depends on where in an arbitrary tree of changes the failing node is; tests compare reports that succeed", "anchors": ["javatools/report.py: quick_report, ReportFormat.run, TextReportFormat.run_impl, _indent_change, JSONReportFormat.run_impl", "javatools/classdiff.py: cli_classes_diff", "javatools/jardiff.py: cli_jars_diff", "javatools/distdiff.py: cli_dist_diff"]}
{"id": "C131", "title": "Verifying leaves the manifest as it is", "statement": "Manifest.verify_jar_checksums and SignatureManifest.verify_manifest_entry_checksums only read: afterwards the object verified against has the same attributes and sections and is written to the same bytes, and verifying again gives the same answer.", "quantifier": "every manifest, signature file and archive, both values of strict", "why_tests_cant": "whether the object is altered shows only for archives that fail, in what is later done with the same object; tests look at the list returned", "anchors": ["javatools/manifest.py: Manifest.verify_jar_checksums, SignatureManifest.verify_manifest_entry_checksums, verify_manifest, create_section"]}
{"id": "C132", "title": "A manifest object can be used for another manifest", "statement": "After clear(), a Manifest or SignatureManifest reads a text as a new object does, and can be filled and written as a new one. Reading a second text into an object gives the manifest of that text.", "quantifier": "every previous state of the object and every text in the format of manifests", "why_tests_cant": "depends on two texts and on which attributes and sections they have in common; tests read one text into a new object", "anchors": ["javatools/manifest.py: Manifest.clear, parse, load_from_jar, ManifestSection.__init__, load"]}
{"id": "C133", "title": "A manifest that cannot be read: which error, and what the object holds", "statement": "Every text is a manifest or breaks at one line. If it breaks, Manifest.parse raises MalformedManifest when it gets there; names over 68 characters raise ManifestKeyException at their section if that comes first; a text without sections raises StopIteration. By then the attributes and sections complete before that point have been taken over into the object, exactly these and no others (of the main section also the attributes before the refused one), and the line separator is that of the text. A text that cannot be read leaves the object as it was.", "quantifier": "every previous state of the object and every text", "why_tests_cant": "where reading stops and what precedes that point depends on arbitrary texts; tests read well-formed ones", "anchors": ["javatools/manifest.py: Manifest.parse, ManifestSection.load, parse_sections, detect_linesep"]}
{"id": "C134", "title": "The source debug extension is the text of the attribute", "statement": "get_source_debug_extension of a class gives None exactly if the class has no SourceDebugExtension attribute or an empty one, and otherwise a text from which exactly the bytes of the attribute can be recovered. That text is the one the compiler stored.", "quantifier": "every class file with any content of the attribute", "why_tests_cant": "depends on arbitrary bytes, quotes and backslashes among them; the tests have no class with this attribute", "anchors": ["javatools/__init__.py: JavaClassInfo.get_source_debug_extension, get_attribute"]}
{"id": "C135", "title": "A JarInfo object answers from its file and leaves nothing open", "statement": "Whatever is called on a JarInfo object and in whatever order, including failing calls and close followed by further calls: the answer of every call is that of the file, as for a new object; at most one archive is open on its account and none after close; a with statement leaves nothing open and ends with the first exception of its body. If the file changes, the answers after close are those of the new file. An object made from an open archive answers from it.", "quantifier": "every sequence of get_classes, get_classinfo, get_requires, get_provides and close, every state of the file system at each of them", "why_tests_cant": "quantifies over all sequences of calls on one object interleaved with changes of the file; tests make one call on a new object", "anchors": ["javatools/jarinfo.py: JarInfo.__init__, __enter__, __exit__, open, _collect_requires_provides, get_requires, get_provides, get_classes, get_classinfo, get_zipfile, close", "javatools/ziputils.py: zip_file"]}
{"id": "C136", "title": "A DistInfo object answers from its files and leaves no temporary directory", "statement": "Whatever is called on a DistInfo object and in whatever order: at most one temporary directory exists on its account, and none after close, also if extracting failed; for a directory, or an archive that can be extracted, get_contents, get_jars and get_classes give the names of its files every time, also after close. For a file that cannot be opened or extracted they raise.", "quantifier": "every sequence of calls, every content of the path at each of them, every point at which extracting fails", "why_tests_cant": "quantifies over all sequences of calls on one object and over failures of the extraction; tests make one call on a directory", "anchors": ["javatools/distinfo.py: DistInfo.__init__, _working_path, get_contents, get_jars, get_classes, close, _collect_dist"]}
{"id": "C137", "title": "Reading classes from a stream leaves the stream behind the class", "statement": "unpack_class of a stream consumes exactly the bytes of the class, so that classes one after the other in a stream are read by as many calls, and what follows is left to the caller; is_class consumes the magic only, after which unpack_class reads the class if the magic is passed as a tuple. is_class gives False for any error. Exceptions are those of reading the same bytes.", "quantifier": "every list of classes and whatever follows them, every stream", "why_tests_cant": "the number of classes, their content and what follows are arbitrary; tests unpack one class from bytes or a file that is not used again", "anchors": ["javatools/__init__.py: unpack_class, is_class", "javatools/pack.py: Unpacker.__exit__, StreamUnpacker.close, unpack"]}
{"id": "C138", "title": "A failed signing or creation leaves the files as they were", "statement": "jarutil.sign either raises, and then no file has been made, changed or removed, the jar and the file given with -o included, and no temporary file stays behind; or it has written the signed jar to the file given with -o, else to the jar, and touched nothing else. It needs to read the jar and to write the output only. The status is 0 only in the second case. Without M2Crypto nothing is signed, nothing is touched and nothing is called verified. verify touches no file. create_jar touches no file but the jar, and if it raises the jar that was there is still there.", "quantifier": "every disk, jar, key, permission and point of failure, with and without M2Crypto", "why_tests_cant": "quantifies over all states of the disk and all points at which something is raised; tests sign one good jar in a fresh temporary directory", "anchors": ["javatools/jarutil.py: sign, create_jar, verify, cli_sign_jar, cli_verify_jar_signature", "javatools/crypto.py: crypto_enabled, requires_crypto, private_key_type, create_signature_block", "javatools/manifest.py: SignatureManifest.get_signature"]}
{"id": "C139", "title": "manifest c writes the manifest where it is told, or leaves the files as they were", "statement": "When manifest c succeeds, the manifest is in the file given with -m, or on standard output without it; the directories on the way to the file that were missing have been made, and nothing else has been touched. It succeeds when the manifest can be made, no file is in the way and all may be written. When it fails, the file given with -m is as it was.", "quantifier": "every disk, path, permission, set of options and content", "why_tests_cant": "quantifies over all states of the disk and all failures; tests write one manifest into a temporary file", "anchors": ["javatools/manifest.py: cli_create, Manifest.store, ManifestSection.store", "javatools/dirutils.py: makedirsp"]}
{"id": "C140", "title": "A DistInfo object answers each question like a new object", "statement": "Whatever has been called before on a DistInfo object for a directory, and whatever the caller has done to the mappings it was given, get_contents, get_jars, get_classes, get_requires and get_provides answer, or raise, as a new object would; after close they do so for the directory as it then is.", "quantifier": "every sequence of calls, every directory at each of them, every change of a returned mapping", "why_tests_cant": "quantifies over all sequences of calls on one object and all states of the directory; tests make one call", "anchors": ["javatools/distinfo.py: DistInfo._collect_requires_provides, get_requires, get_provides, get_contents, get_jars, get_classes, close"]}
{"id": "C141", "title": "A class object answers each question for the class it holds", "statement": "Whatever has been asked before of a JavaClassInfo object, with whatever patterns and also after exceptions, get_provides and get_requires answer, or raise, as they would for a new object with the same class; also after the object has unpacked another class.", "quantifier": "every sequence of calls, every class held at each of them, every list of patterns", "why_tests_cant": "quantifies over all sequences of calls on one object; tests ask one question of an object that was unpacked once", "anchors": ["javatools/__init__.py: JavaClassInfo.__init__, unpack, get_provides, _get_provides, get_requires, _get_requires"]}
