# Formal model of vanillapdf in Rocq (Coq 8.16.1)

## 1. Method

The C++ code in /repo is read as text and transcribed, function by function, into small, total, computable
Gallina functions.  Every definition cites the file and lines it models.  Properties are stated against separate,
short specification files and proved for all inputs.

Layout of `rocq/theories` (logical root `Verif`):

* `Model/*.v`  – transcription of the code. No proofs.
* `Spec/*.v`   – independent specifications (PDF standard encodings, abstract maps / sequences / graphs). No proofs.
* `Proof/*.v`  – lemmas.
* `Props/*.v`  – the property theorems, each `exact lemma.` followed by `Print Assumptions`, and next to each one an
  `Example` showing that a concrete non-trivial case meets its hypotheses.

Conventions

* bytes are `N` with the predicate `is_byte b := b < 256`; buffers are `list N`.
* every function that can fail returns `res A`: `Ok a`, `Throw e` (a C++ exception), `Undef` (C++ undefined behaviour such as
  an out-of-bounds read) or `NoFuel` (the bound on a loop that the code does not bound was reached).  `Undef` and `NoFuel` are
  distinct outcomes, never silently totalised.
* external code (zlib, OpenSSL MD5 / RC4 / AES, the operating system clock) appears as `Section` variables with the algebraic
  laws it is assumed to satisfy as explicit hypotheses of the theorems.
* fixed width arithmetic is written out (`mod 2^64`) where the property is about it.

When the faithful model violates a property, the violation is proved as `..._refuted` with a concrete witness, and the strongest
true restriction that I could find is proved next to it (suffix `_partial`, full statement in the comment).

## 2. Plan per property

| id | what is modelled | how proved |
|----|------------------|------------|
| C01 | NameObject::ToString / GetHexadecimalNotation, Tokenizer::ReadName (with `stoi` base 16), CreateFromEncoded | induction over the byte list; finite sweep over 256 byte values for the escape |
| C02 | LiteralStringObject::ToPdfStreamInternal, Tokenizer::ReadLiteralString, GetRawValueDecoded | induction with invariant on the nesting counter |
| C03 | HexadecimalStringObject::ToPdfStreamInternal, Tokenizer::ReadHexadecimalString, GetValue | induction over the byte list |
| C04 | integer printing, ReadUnknown, ParserUtils integer creation | induction over digits |
| C05 | whole forward tokenizer, recursive descent parser, ToPdf of every direct object | mutual structural induction over object trees; separator invariant |
| C06 | IsInRange / SafeConvert for arbitrary widths | linear arithmetic over symbolic bounds |
| C07 | SafeAddition, SafeMultiply | linear/nonlinear arithmetic |
| C08 | ASCII85Filter::Decode; spec: ISO 32000 encoding | induction over 4-byte groups, base-85 arithmetic |
| C09 | ASCIIHexFilter::Decode; spec: digit pairs | induction; refutation for odd tails |
| C10 | FlateDecodeFilter::ApplyPredictor; spec: PNG filters | induction over rows and columns; refutation for Average/Paeth |
| C11 | DictionaryObject Insert/Remove/Clear/Merge/Find | refinement to finite maps by induction over histories |
| C12 | MixedArrayObject operations | refinement to lists |
| C13 | Hash/Equals of all objects with cached hash | structural induction; history invariant; refutation for Clear |
| C14 | Equals of integers/reals/other | case analysis; refutation |
| C15 | observer graph, OnChanged, dirty flag | invariant over histories |
| C16 | WriteXrefTable, ReadXrefTable, ReadTableEntry | induction over sorted entries |
| C17 | RecalculateContent, WriteValue, widths, ParseXrefStream | induction over entries, base-256 arithmetic |
| C18 | ParseXrefStream on arbitrary data | case analysis, refutation |
| C19 | RecalculateXrefSize | refutation + dense case |
| C20 | WriteXrefOffset, reverse tokenizer | induction over digits |
| C21 | WriteXrefObjects/WriteEntry/WriteObject; RecalculateObjectStreamContent, RecalculateXrefStream and WriteXref for cross-reference streams | invariant: offset = length of output; for stream sections the writer composed with the chain reader and with loading on demand |
| C22 | RecalculateObjectStreamContent, ReadObjectStreamEntries | induction, uses C05 |
| C23 | AllocateNewEntry | invariant over histories |
| C24 | XrefChain::GetXrefEntry | induction over the chain |
| C25 | ReadXref Prev loop | refutation (2-cycle) + termination for acyclic chains |
| C26 | DereferenceHelper | pigeonhole / well-founded induction over unvisited set |
| C27 | MergeXrefs, RemoveFreedObjects | induction over the chain; refutation for freed objects |
| C28 | SquashTableSpace | invariant over loop for one section; refutation for several |
| C29 | RemoveUnreferencedObjects | graph reachability invariant |
| C30 | RemoveDuplicitIndirectObjects | quotient invariant |
| C31 | DeepCopyObjects | graph morphism invariant |
| C32 | StreamObject::GetBody/GetBodyEncoded with filter oracles | induction over filter lists; refutation for >1 filters |
| C33 | AESEncrypt/AESDecrypt/PKCS7 with AES-CBC oracle | list arithmetic; refutation: the round trip always fails |
| C34 | key derivation with MD5/RC4 oracles | algebra of involutive RC4 |
| C35 | ComputeObjectKey, ComputeRC4 | algebra |
| C36 | CreateIncrementalXref, Prev | case analysis; refutation |
| C37 | refcount and weak counters | invariant over histories |
| C38 | Date parse and format | finite products and digit arithmetic |
| C39,C40 | PageTree | induction over rose trees; refutation for nested trees |
| C41 | Tree (name tree) | induction; refutations |
| C42 | CharacterMap ranges | base-256 arithmetic with borrow/carry |
| C43,C44 | content stream parser/writer, inline images, page contents | uses C05; refutations |
| C45 | PeekToken/ReadToken cache | refinement: cache transparent |
| C46 | Buffer comparison | order laws |
| C47 | attribute list | refinement to map, refutation |
| C48 | AppendDocument | list reasoning on top of C40 |
| C49 | WriteHeader/ReadHeader | case analysis |
| C50 | bit operations | N/Z bit lemmas |
| C51 | StreamObject writing, Parser reading of streams with direct and indirect Length | uses C05; grammar of stream texts |
| C52 | the whole object parser on an arbitrary text | grammar completeness by mutual induction; termination by the length of the rest |
| C53 | Buffer::Equals(const char*) | list reasoning; refutation |
| C54 | GetCurrentOffset/FindToken search for endstream | induction over lines |
| C55 | FindAllObjects and the fallback of File::Initialize | induction over the pieces of a file; C05, C16, C21 |
| C56 | Document::AddEncryption settings against the crypt filter selection | case analysis; refutation |
| C57 | PageContents, instruction lists, RecalculateStreamData | invariant; universal refutation |
| C58 | XrefChain::ReleaseEntry against lookups in the chain | induction over the sections; refutation |
| C59 | Document::Sign's dictionary, DocumentSigner, PKCS12Key, serialization overrides | exact shape of the written file, reader on its text; universal refutations |
| C60 | loading, cloning, copying and writing of encrypted objects (strings, stream bodies, exemption, owners) | induction on objects; RC4 undoes itself; universal and concrete refutations |
| C61 | the default save as the composition of merging, dropping, deduplicating, renumbering and writing | one simulation per stage, composed through a coinductive-style relation at every depth; concrete refutations |
| C62 | entries of pages and of the document information with their caches, the trapped state, page ranges | sets and gets over the dictionary map; concrete and general refutations |
| C63 | the map from file addresses to documents under histories of opening and closing | refinement to a world without addresses by an invariant; the spoilt address as a general refutation |
| C64 | the tables of names of annotations, fonts, fields, destinations, catalog and viewer values; link destinations; outline levels; byte ranges as read | equivalence with the tables of the standard; induction over an outline level; refutations for every dictionary of the refused kinds |
| C65 | entries that are read when asked for: GetReference, InitializeObjectStream, SetReference, over any list of sections, with the parser and the object stream reader as parameters | invariant over all histories of reads, edits and saves against a plain map of objects; general refutations for replaced members, cyclic streams and unlisted members |
| C66 | last-error variables per thread, conversion of exceptions to codes, copying of texts | invariant over every interleaving of calls; refutations for all long messages and all parameter errors |
| C67 | string streams with shared flags, the wrappers around them, the loop that reads a whole stream | simulation of plain memory over all histories; refutation for every history after a short read |
| C68 | doubles as integers times powers of two, rounding of std::stod and fmt, the number of places | exact rational arithmetic: the rounding errors of both directions together stay below half a unit; general refutations |
| C69 | permission flags and the number P, the encryption dictionary of AddEncryption, the trailers on adding and removing | bit by bit for all flags; trailers through the merge of C27 for all histories |
| C70 | the objects Document::Sign makes: annotation, field, form, flags, as a program on the heap of indirect objects | one run for all heaps: what each step may touch, links between objects as an invariant; success from the types of the entries |
| C71 | Threads as stacks of calls into XrefUsedEntry::Initialize and InitializeObjectStream, cut into atomic steps; recursive mutexes are held while a call is inside the guarded scope; the input position, the flags and the references of entries are shared; what bytes mean is a parameter. | An invariant over all interleavings (mutual exclusion, stack shape, input position, slots and flags) for the answers; progress from the lock order and a weight that every step lowers for termination; explicit executions that stop for good, race, recurse or misplace the input for the refutations. |
| C72 | File::Initialize after the cross-reference sections were read: the marks m_encryption_exempted as spots (trailer or object, and path), the four Exempt functions with references followed, reading and saving of strings and streams by the marks; key lookup for object streams. | Exact description of the set of marks; the standard's exceptions as an inductive predicate over spots with inherited field types; inclusion in both directions; failing opens by determinism of following references. |
| C73 | Incremental save of a source whose table has hybrid entries (these are not visited by CreateIncrementalXref); reading of the result with both hybrid passes. | Reading of the appended table and of the hybrid stream's text, which stays where it was; lookup by cases on where a number is listed; concrete files for the refutations. |
| C74 | The sections as containers that keep the hash an entry had when it was inserted, entries whose numbers change when they are read, and the recovery that reads everything and fills the containers again. | Invariants over histories of lookups: every entry stems from one of the file; before the first misleading lookup no number changed; after it every container holds exactly one entry per number. |
| C75 | Names as references to shared texts, dictionaries as search trees over these references with lower_bound, insertion and removal as std::map does them and arbitrary rotations. | Simulation by dictionaries that own their keys: invariant over histories that keys are only reachable through names that are left alone and that the trees are sorted by the current texts. |
| C76 | Iterators as the pair of standard iterators they are, with the C++ standard's rules for which changes make them unusable, over sorted maps, hash sets of any order, and vectors; loops with arbitrary bodies. | Induction over rounds: the elements ahead of the iterator in a sorted map are the larger keys; in a hash set the relative order of two untouched elements is kept; positions in a vector. |
| C77 | Objects, entries and references with their weak pointers, back pointers, backup numbers and cached hashes, over all histories of calls. | Refinement: an invariant relates the pointers to the meaning for careful histories; symbolic execution of one more change for the refutations. |
| C78 | The open document as sections of entries with object, in-use and changed flags; actions read, change, create, full save (Model/Save.v), incremental save (Model/Update.v) with its effect on the source. | Invariant over action lists relating the flags to the history (wanted, touched, lost); the saves through C61 and C36. |
| C79 | Document::Create, new pages, entries and the calls on the page tree on the objects of one table section; saving through Model/Save.v, incremental saving through Model/Update.v. | Invariant over action lists relating the objects to the sheet of the specification; flat page trees refine C17; the saved file through C61 and the order of the keys of parsed dictionaries (Proof/Orderly.v). |
| C80 | The loops over blocks of both directions and the second attempt after damage; inflate and deflate are parameters with a contract about a format (what every beginning of the data decodes to). | Invariant of the loops: what was consumed and produced stands for a beginning of the data and of its content; a generic instance and a concrete format show that the contracts can be met. |
| C81 | The source and destination managers, the copying of lines and samples, 32 bit offsets and the attribute; libjpeg is any reader of bytes and any writer of bytes, openjpeg its decoded image and its read loop (repeated from its published source). | Induction over readers; invariant of the nested loops (the first n samples are in place); every position below the product of the sizes is met, which gives the converse. |
| C82 | The set of weak references keyed by address, the calls of a save of a document with one table as a list of steps, callbacks as any function of what was told so far that may answer, subscribe, unsubscribe or release, and the output. | Invariant over calls of the program (the table against the last call about each observer); induction over the steps of a save for observers that only listen and for any observers; the text of the steps is the file of C21's writer. |
| C83 | Messages, private keys and hashes as parameters; the settings from the encryption dictionary, the two loops over messages and recipients, the key, and the answer with the state of the file after it. | Induction over recipients and groups; composition with the data functions of C33 and C35. |
| C84 | The license as a JSON value; the parser of JSON, the reader of dates, the verification of signatures and chains, the embedded list and the build time as parameters; the state of the library after any sequence of licenses. | Case analysis of the decision in both directions; induction over the sequence of licenses; moving text from field to field for the refutations. |
| C85 | The source's name tree and objects, the target's name tree with its nodes and the objects made for destinations; the loops over pages and over the map of the source's tree; insertion with the function of C41. | The tree functions of C41 for opening, inserting and releasing; induction over the map and over the pages, with the invariant that the root has Limits after the first success. |
| C86 | The table of all public functions with the casts, checks, reference counts and stores of their bodies (Model/Interface.v, extracted by tools/capi.py), the class hierarchy, and programs as lists of calls over a heap of counted objects (Model/Boundary.v). Not in the table: handles that the library passes to callbacks of a custom observer or signing key; bodies without try are taken not to throw. | A checker over the body of a function, run on the whole table, and an invariant (class, existence and count of every owned handle) kept by each step of a body that passes the checker; induction over histories. |
| C87 | As for C86. | Two more checkers over the table: every pointer is looked at before it is followed, and all required ones are looked at before anything else happens. |
| C88 | The vectors behind the collections with the functions of the C interface on them; inserting or erasing outside of a vector is undefined. | Refinement to sequences given as list decompositions, by induction over the history of calls; general refutations by computation. |
| C89 | Prefixes of the output of write_incremental (Model/Update.v) given to initialize (Model/Rebuild.v). | Invariant over the history of saves: every saved file is a sequence of pieces in the sense of C55 followed by a comment line; the table is shown to be such a sequence as well. |
| C90 | The four tables of the code (word to token type, token type to operator class, class to value, class to the enumerator of the C interface) and the constructors with their checks; a table of the standard as specification. | Computation over the tables for the words in them, a general argument for all other words; reading by the lemmas of C43; induction over the history of edits. |
| C91 | A disk as a function from paths to bytes, the truncation by File::Create, entries that hold their object or read it from the bytes the disk has at that moment, the order of the steps of both saves. | Case analysis over the steps; induction over sections and entries for reading them all; reading at the end of a file fails. |
| C92 | The reading of header, last lines, sections and objects that the other properties use, composed into one function from a file and a reference to an object; the standard's file format as an inductive specification. | Induction over digits, rows, subsections, sections and updates; the grammar of objects is the one of C52. |
| C93 | The functions that write files, of C16, C21, C36 and C61, against the file format of the standard that C92 reads. | Induction over digits, rows, runs of numbers, sections; the text of objects is that of C52; appending keeps what stands before. |
| C94 | The reading of cross-reference streams, of the chain of sections and of object streams, of C17, C22, C24 and C25, put together in one function that gets an object of an opened file, against the file format of the standard. | Induction over the bytes of a field, the rows, the subsections, the sections and the pairs of an object stream. |
| C95 | The functions that write files with cross-reference streams and object streams, of C21 and C61, against the file format of the standard that C94 reads. | Induction over fields, rows, runs of numbers and pairs; insertion sort by index gives the list whose places are the indexes; the reader of C94 shows that no other reading of the file exists. |
| C96 | The reading of C92, the default save of C61 and the writing of C93, joined by CloneXref, which reads the object of every row in use. | C92 gives the tables and objects of the source, induction over what can be reached carries them to the document that C61 is about, and C93 says what the written file means to other readers. |
| C97 | RecalculateStreamLength with references followed in the document that is written, before the objects are written as in C21. | The lengths are right after the loop, because it changes no object that a length refers to; the lemma about written sections of C93 is proved for any notion of an object's text, here texts whose length is an integer of the document, which is shown to stand in the same file; C92 gives the reading. |
| C98 | WriteIncremental with references of the changed objects followed in the destination, whose chain has the new section only; GetBodyEncoded of Model/StreamBody.v for bodies that were set. | Encoding keeps entries, dictionaries and integers, so the encoded changes are ready to be written; the lemma about the new section of C93 is proved for any notion of an object's text and used with the one of C97; the refutations follow the lookup of a number that is not among the changes. |
| C99 | The full save of Model/SaveStream.v and Model/StreamFile.v, read back by the independent specification of cross-reference streams and object streams in Spec/Compressed.v. | Every stage of the save is followed for the entries of compressed objects: merging, removal of unreferenced objects, merging of equal objects and renumbering keep stream and index up to one injective renumbering; then C95 for the items that are written, and a count of the objects that are left. |
| C100 | ApplyWatermark on a map of objects and decoded bodies, with dictionaries as places (an object and the keys that lead into it), so that shared dictionaries are changed for all who share them; the fuelled walk over the nodes of the page tree. | A relation between dictionaries that grow, transitive, kept by every insertion at a place; contents, kids and boxes are the same in documents so related, so that the walk can be described by the nodes of the document at the start; induction over the walk. |
| C101 | FileWriter::Write from ApplyWatermark on, for the one table that CompressAndOptimize leaves: the font gets a number by AllocateNewEntry, the mark is that of C100, marked streams are decoded and encoded by parameters that fit together. | The marked document can be saved again because dictionaries that grow by the mark stay sorted and writable and encoded data fits; C93 then says what the file holds, C100 what the mark made of it. For files that are opened first, the stages of the save (C61, C96) give a document that looks the same, whose streams differ from those of the source in references only, so that their filters are the same. |

## 3. Trusted base

* The Coq 8.16.1 kernel, including its virtual machine (`vm_compute` is used for closed computations and finite sweeps over byte
  values), and the parts of the standard library the development imports.  mathcomp, std++, Iris, Equations, CoqHammer etc. are not
  used.
* No axioms.  `Print Assumptions` follows every theorem of `Props/*.v`; for each of them Coq prints
  "Closed under the global context", so no theorem depends on an axiom, of the standard library or otherwise.  (Tools that list
  the axioms of all *loaded* modules show seven constants of `Coq.ssr.ssrunder` and the like; they come with the standard
  library's ssreflect plugin files and no theorem uses them.)
* No `Admitted`, `admit`, `Variable`/`Hypothesis` outside sections, functors, module types, plugins, or disabled checks.
* The transcription from C++ to Gallina is not checked by the kernel.  Each definition of `Model/*.v` cites the lines it follows and
  names its simplifications.
* The semantics given to C++: 64-bit Linux data model; `assert` is compiled out (release builds); signed overflow, out-of-range
  iterator arithmetic, shifts by the width and reads beyond the end are the outcome `Undef`; `std::map` is a sorted association
  list; an exception is `Throw e` and, where a theorem speaks about the state after a failure, the state is returned with it.
* External code.  zlib, the AES block cipher, image codecs and the operating system are parameters of sections; the laws they are
  assumed to satisfy are premises of the theorems (C32: decoding undoes encoding, which C80 proves from the contract of the streaming interface; C33, C35: deciphering undoes enciphering; C23,
  C31, C48: new numbers are unused, which is what C23 proves of the allocation).  MD5 and RC4 are written out in `Model/Digest.v`
  and checked against published test vectors.

## 4. What is modelled, what is not

Generated from the comments of the model by `tools/design.py`: the model file and the files of /repo it follows.

<!-- models -->

| model | follows |
|-------|---------|
| Append.v | destinations.cpp, dictionary_object.cpp, document.cpp, file.cpp, page_node_base.cpp, page_tree.cpp, page_tree_node.cpp |
| Arith.v | conversion_utils.h, math_utils.h, numeric_object.cpp, numeric_object.h |
| Base.v | buffer.h, conversion_utils.h, exceptions.h, syntax_exceptions.h |
| Boundary.v | c_file.cpp, c_filter.cpp, c_helper.h, c_pkcs12_key.cpp, c_unknown_interface.cpp, c_values.cpp, unknown_interface.cpp, unknown_interface.h |
| Buffer.v | buffer.cpp |
| Chain.v | file.cpp, file.h, input_stream.cpp, object_utils.h, parser.cpp, xref.cpp, xref.h, xref_chain.cpp |
| Char.v | character.h |
| CharMap.v | character_map.cpp, character_map_data.cpp, character_map_data.h, character_map_parser.cpp, parser.cpp, token_dictionary.cpp |
| Compressed.v | file.cpp, parser.cpp, xref_entry.cpp |
| Conforming.v | file.cpp, parser.cpp, xref_entry.cpp |
| Containers.v | dictionary_object.cpp, mixed_array_object.cpp, mixed_array_object.h, object_attribute_list.cpp |
| Content.v | content_stream_instruction_base.h, content_stream_objects.cpp, content_stream_objects.h, content_stream_operation_generic.cpp, content_stream_operation_generic.h, content_stream_operations.cpp, content_stream_operations.h, content_stream_operators.h, content_stream_parser.cpp, page_contents.cpp, parser.cpp, token_dictionary.cpp |
| Date.v | date.cpp, date.h, time_utils.h |
| DeepCopy.v | file.cpp |
| Deref.v | indirect_reference_object.cpp, indirect_reference_object.h, object_utils.h, unknown_interface.h |
| Digest.v | encryption.cpp |
| DocMap.v | document.cpp, semantic_utils.cpp |
| Duplicates.v | dictionary_object.cpp, dictionary_object.h, file_writer.cpp, mixed_array_object.cpp, mixed_array_object.h, object.cpp, object.h, stream_object.cpp, xref_chain.cpp |
| Encryption.v | document.cpp, document_encryption_settings.h, encryption.cpp, encryption.h, file.cpp |
| Entries.v | document_info.cpp, misc_utils.cpp, object_utils.h, page_object.cpp, page_object.h, rectangle.cpp, viewer_preferences.cpp |
| Equality.v | boolean_object.cpp, buffer.cpp, conversion_utils.h, dictionary_object.cpp, file.cpp, indirect_reference_object.cpp, integer_object.cpp, integer_object.h, mixed_array_object.cpp, name_object.cpp, null_object.cpp, numeric_object.cpp, numeric_object.h, object_utils.h, real_object.cpp, stream_object.cpp, string_object.cpp, string_object.h |
| Errors.v | c_errors.cpp, c_helper.h, c_values.cpp, constants.h, errors.cpp, exceptions.h |
| Exempt.v | dictionary_object.h, file.cpp, file_writer.cpp, object.cpp, object_utils.h, parser.cpp, stream_object.cpp, string_object.cpp |
| FileWrite.v | file.cpp, file_writer.cpp, object.cpp, object_utils.h, parser.cpp, xref_entry.cpp |
| Filters.v | ascii_85_decode_filter.cpp, ascii_hex_decode_filter.cpp, flate_decode_filter.cpp |
| Header.v | file_writer.cpp, header.h, parser.cpp |
| Heap.v | boolean_object.cpp, buffer.cpp, dictionary_object.cpp, indirect_reference_object.cpp, integer_object.h, mixed_array_object.cpp, modify_observer_interface.cpp, modify_observer_interface.h, name_object.cpp, null_object.h, numeric_object.cpp, object.cpp, object.h, observable_interface.h, real_object.h, stream_object.cpp, string_object.cpp |
| Hybrid.v | file_writer.cpp, xref.cpp |
| HybridSave.v | file_writer.cpp |
| Images.v | base_object_attribute.h, dct_decode_filter.cpp, image_metadata_object_attribute.h, input_stream.cpp, jpx_decode_filter.cpp |
| Indexes.v | annotations.cpp, buffer_array.cpp, buffer_array.h, c_array_object.cpp, c_buffer_array.cpp, c_content_instruction.cpp, content_stream_instruction_base.h, content_stream_objects.h, content_stream_operation_generic.cpp, digital_signature.cpp, fields.cpp |
| Interface.v | c_annotations.cpp, c_array_object.cpp, c_base_font_range.cpp, c_boolean_object.cpp, c_buffer.cpp, c_buffer_array.cpp, c_catalog.cpp, c_character_map.cpp, c_content_instruction.cpp, c_content_object.cpp, c_content_operation.cpp, c_content_operator.cpp, c_content_parser.cpp, c_date.cpp, c_destinations.cpp, c_developer_extensions.cpp, c_dictionary_object.cpp, c_digital_signature.cpp, c_document.cpp, c_document_encryption_settings.cpp, c_document_info.cpp, c_document_signature_settings.cpp, c_encryption.cpp, c_errors.cpp, c_fields.cpp, c_file.cpp, c_file_writer.cpp, c_file_writer_observer.cpp, c_filter.cpp, c_font.cpp, c_font_map.cpp, c_indirect_reference_object.cpp, c_input_output_stream.cpp, c_input_stream.cpp, c_integer_object.cpp, c_interactive_forms.cpp, c_library_info.cpp, c_license_info.cpp, c_logging.cpp, c_name_object.cpp, c_null_object.cpp, c_object.cpp, c_object_attribute_list.cpp, c_object_attributes.cpp, c_outline.cpp, c_output_stream.cpp, c_page_contents.cpp, c_page_labels.cpp, c_page_object.cpp, c_page_tree.cpp, c_pkcs12_key.cpp, c_real_object.cpp, c_rectangle.cpp, c_resource_dictionary.cpp, c_signing_key.cpp, c_stream_object.cpp, c_string_object.cpp, c_unknown_interface.cpp, c_viewer_preferences.cpp, c_xref.cpp |
| Iterators.v | base_iterator.h, c_content_instruction.cpp, c_dictionary_object.cpp, c_xref.cpp, content_stream_instruction_base.h, dictionary_object.cpp, dictionary_object.h, xref.cpp, xref.h |
| Keys.v | c_buffer.cpp, c_dictionary_object.cpp, c_name_object.cpp, dictionary_object.cpp, dictionary_object.h, name_object.cpp, name_object.h |
| Kinds.v | annotations.cpp, annotations.h, catalog.cpp, destinations.cpp, destinations.h, digital_signature.cpp, fields.cpp, fields.h, font.cpp, font.h, name_constants.cpp, name_object.cpp, outline.cpp, viewer_preferences.cpp |
| License.v | license_info.cpp, misc_utils.cpp |
| Lines.v | input_stream.cpp |
| Loading.v | file.cpp, file_writer.cpp, xref_chain.cpp, xref_entry.cpp, xref_entry.h |
| MarkedResave.v | file.cpp, file_writer.cpp |
| MarkedSave.v | file.cpp, file.h, file_writer.cpp, stream_object.cpp |
| MemStream.v | buffer.cpp, c_input_output_stream.cpp, c_input_stream.cpp, input_output_stream.h, input_stream.cpp, output_stream.cpp, stream_utils.cpp |
| Merge.v | file_writer.cpp, xref.cpp, xref_entry.h |
| Misnumber.v | file.cpp, parser.cpp, xref.cpp, xref.h, xref_chain.cpp, xref_entry.cpp |
| NewDoc.v | catalog.cpp, document.cpp, document_info.cpp, file.cpp, file.h, page_node_base.cpp, page_object.cpp, page_tree.cpp, page_tree_node.cpp, xref.h |
| Numbers.v | (C++ standard library) |
| ObjStream.v | file.cpp, file_writer.cpp, parser.cpp, xref_entry.h |
| Object.v | boolean_object.cpp, dictionary_object.cpp, indirect_reference_object.cpp, integer_object.cpp, mixed_array_object.cpp, name_object.cpp, null_object.cpp, numeric_object.cpp, numeric_object.h, object.cpp, real_object.cpp, stream_object.cpp, string_object.cpp |
| Observers.v | c_file_writer.cpp, c_file_writer_observer.cpp, file_writer.cpp, file_writer.h, object.cpp, observable_interface.h, unknown_interface.h |
| Operators.v | c_content_operation.cpp, c_content_operator.cpp, content_stream_operation_generic.cpp, content_stream_operation_generic.h, content_stream_operations.cpp, content_stream_operations.h, content_stream_operators.h, content_stream_parser.cpp, token_dictionary.cpp |
| PageContents.v | c_content_instruction.cpp, c_page_contents.cpp, content_stream_instruction_base.h, object.cpp, object.h, page_contents.cpp, page_contents.h, stream_object.cpp |
| PageTree.v | page_node_base.cpp, page_tree.cpp, page_tree_node.cpp |
| Parser.v | conversion_utils.h, parser.cpp, parser_utils.cpp |
| Protect.v | document.cpp, document_encryption_settings.cpp, document_encryption_settings.h |
| PubKey.v | array_object.h, encryption.cpp, encryption.h, file.cpp, pkcs12_key.cpp |
| Reals.v | conversion_utils.h, numeric_object.cpp, numeric_object.h, parser_utils.cpp, real_object.cpp |
| Rebuild.v | exceptions.h, file.cpp, input_stream.cpp, parser.cpp, tokenizer.cpp, xref.cpp |
| RefCount.v | deferred.h, unknown_interface.cpp, unknown_interface.h |
| References.v | c_file.cpp, c_indirect_reference_object.cpp, c_null_object.cpp, c_xref.cpp, file.cpp, indirect_reference_object.cpp, indirect_reference_object.h, null_object.cpp, object.cpp, object.h, parser.cpp, unknown_interface.h, xref_entry.cpp, xref_entry.h |
| Resave.v | document.cpp, file.cpp, file.h, file_writer.cpp, xref.cpp, xref_entry.cpp |
| SMap.v | buffer.cpp, dictionary_object.h |
| Save.v | file_writer.cpp, indirect_reference_object.cpp, real_object.cpp, xref.h, xref_chain.cpp |
| SavePath.v | document.cpp, file.cpp, file_writer.cpp, xref_entry.cpp, xref_entry.h |
| SaveStream.v | file_writer.cpp, xref.h |
| Secure.v | dictionary_object.cpp, document.cpp, file.cpp, mixed_array_object.cpp, object.cpp, parser.cpp, stream_object.cpp, string_object.cpp |
| SharedLength.v | dictionary_object.h, file.cpp, file_writer.cpp, object_utils.h |
| Sign.v | constants.cpp, dictionary_object.cpp, document.cpp, document_signature_settings.h, document_signer.cpp, file_writer.cpp, object.cpp, output_stream.cpp, pkcs12_key.cpp, serialization_override_object_attribute.h |
| SignForm.v | catalog.cpp, dictionary_object.cpp, dictionary_object.h, document.cpp, file.cpp, interactive_forms.cpp, mixed_array_object.cpp, numeric_object.cpp, object_utils.h, page_tree.cpp, signature_flags.h |
| StandardSave.v | file.cpp, file_writer.cpp, xref_entry.cpp |
| StartXref.v | file.cpp, file_writer.cpp, reverse_parser.cpp, reverse_tokenizer.cpp, token_dictionary.cpp |
| StreamBody.v | ascii_85_decode_filter.cpp, ascii_hex_decode_filter.cpp, file.cpp, filter.cpp, flate_decode_filter.cpp, jpx_decode_filter.cpp, lzw_decode_filter.cpp, object.cpp, object_utils.h, stream_object.cpp, stream_object.h, zlib_wrapper.cpp |
| StreamFile.v | file_writer.cpp, xref.cpp |
| StringDests.v | destinations.cpp, document.cpp, file.cpp, indirect_reference_object.cpp, object_utils.h, tree.h |
| Threads.v | file.cpp, file.h, indirect_reference_object.cpp, input_stream.cpp, input_stream.h, parser.cpp, stream_object.cpp, xref_entry.cpp, xref_entry.h |
| Token.v | input_stream.cpp, parser.cpp, token.h, token_dictionary.cpp, tokenizer.cpp |
| TokenCache.v | constants.cpp, input_stream.cpp, tokenizer.cpp |
| Tree.v | dictionary_object.cpp, object.cpp, page_labels.cpp, string_object.h, tree.cpp, tree.h, xref_entry.cpp |
| Unreferenced.v | file_writer.cpp, null_object.cpp, xref_chain.cpp, xref_entry.cpp |
| Update.v | dictionary_object.cpp, file.cpp, file_writer.cpp, xref.cpp, xref_chain.cpp |
| UpdateLength.v | file.cpp, file_writer.cpp, indirect_reference_object.cpp, object_utils.h, stream_object.cpp |
| Watermark.v | file_writer.cpp, numeric_object.cpp, object_utils.h |
| Xref.v | array_object.h, file_writer.cpp, math_utils.h, parser.cpp, xref.cpp, xref_entry.cpp, xref_entry.h |
| Zlib.v | constants.h, zlib.h, zlib_wrapper.cpp |

Not modelled:

* Loading of PKCS#12 keys and certificates (`utils/pkcs12_key.cpp`; the signing procedure itself is in Model/Sign.v, the use of keys for opening documents in Model/PubKey.v), the parts of the license check outside Model/License.v (`CheckSignature`, `CheckCertificateChain`), logging, the stack
  allocator, library information;
* libjpeg and openjpeg themselves (what the library does around them is Model/Images.v); LZW and the other filters without an implementation only as "throws";
* locales, memory exhaustion, and threads other than in C37 and C71;
* what the functions of the C interface do between their checks and the store of their result, except where a property follows them
  (C57); their pointers are C86 and C87. The table Model/Interface.v is part of the model and so of the trusted base: tools/capi.py
  wrote it from the sources and the build does not rerun it;
* typed access objects of `semantics/objects` that only look up one dictionary entry (other than the kinds, values, links and outlines of Model/Kinds.v: annotations, outlines, viewer preferences,
  fonts, fields), unless a property names them;
* code that no build with the default options reaches: the watermark (`ApplyWatermark` runs only when licence checks are compiled in),
  `InputReverseStream`, `RangedStreamBuffer`, `StackAllocator`, `CustomSizeVector`, `MiscUtils::ToBase64` and `CalculateHash`.

## 5. Findings

Every statement below is a theorem with suffix `_refuted` (or named in the note) about the model; the notes are those of MANIFEST.json.

<!-- findings -->

* **C02** (proved): Round trip for every byte string. Also every standard literal text (nesting, escapes, octal, continuation lines) is read as the string it denotes, except raw CR and CR LF, which the standard turns into LF and the library keeps (C02_raw_cr_refuted).
* **C04** (proved): Every signed 64-bit value. Unsigned values above 2^63-1 are written but cannot be read back (C04_unsigned_refuted).
* **C05** (proved): Every direct object at any nesting depth and every following text that ends an object. Reals are exact decimals in the model (C68 says for which ones that is right); a real without fraction digits is written as an integer (C05_real_without_fraction_refuted).
* **C06** (partial): Soundness for all widths and signedness, and an exact description of when the conversion throws. Completeness fails for unsigned to signed: the exact maximum of the target is refused (C06_convert_complete_refuted); it is proved for every other pair of types. Reals: the fraction is cut and sizes above 2^63 are refused; the real 2^63 passes the check and the conversion is undefined (C06_real_as_integer_refuted).
* **C07** (partial): Exact-or-throw proved for nonnegative operands whose common type is unsigned, and for multiplication of nonnegative numbers. Signed addition refuses sums that fit when the addend is negative and overflows (undefined behaviour) before it checks; unsigned number plus negative addend returns a wrapped sum (C07_*_refuted).
* **C08** (partial): Every standard ASCII85 text (white space, z groups, partial last groups, with end marker or ended by length) decodes to the bytes it encodes when int arithmetic wraps. Under the C++ rules the decoder overflows a signed int for every group of 2^31 or more (C08_ascii85_overflow_refuted); C08_ascii85_decodes_partial covers all other groups.
* **C09** (partial): Right for every text with an even number of digits. For every text with an odd number of digits the last byte is wrong (C09_odd_digit_refuted: x instead of 16x), and invalid digits in second position are not reported.
* **C10** (partial): None, Sub and Up rows for any geometry whose pixels are whole bytes; Average and Paeth only for images one pixel wide. Average, Paeth and sub-byte pixels are refuted.
* **C100** (partial): Proved for every document: no entry of any object is changed or taken away, and all that is new are dictionaries Resources and Font and the font of the mark (C100_nothing_lost); the body of every stream is what it was between a line that saves the state for each page it begins and, for each page it ends, a line that restores it and the mark at the right corner (C100_bodies); a page that shares no content stream shows its content, then the mark (C100_page_partial); every document with a finite page tree and nodes of the expected types is marked (C100_succeeds). Refuted: pages that share their first stream but not their last one save the state more often than they restore it (C100_shared_refuted); a page without Resources of its own gets new ones with the font of the mark only, so that all it inherited is hidden (C100_inherited_refuted); a page tree with a cycle is walked for ever (C100_cycle_refuted). Not modelled: references to references, kids that are direct dictionaries, the bytes of text and image (parameters), filters (the decoded bodies are there).
* **C101** (partial): Proved: the file conforms to the standard; its trailer is that of the document; there is one more object, the font, under the first number that is not listed; every other object is what it was but for the new entries of the mark; every stream that begins or ends the content of a page decodes to its content between the lines that save and restore the state, followed by the marks, and all other streams have the data they had; all numbers that are not listed stand for null (C101_saved_partial); and for every file with tables that follows the standard, opened and saved without a license, the file is such a marked file of a document whose Root, Info and ID look at any depth as those of the source (C101_resaved_partial); and there is a file whenever the nodes of the page tree are in order and all streams can be decoded, unless the exact marked body of some stream cannot be encoded (C101_succeeds); a document without a page tree is always saved, as it is and without a mark (C101_pageless), and one whose Root or Pages is there but is not a dictionary never is (C101_malformed); a file without a page tree is saved as with a license, byte by byte (C101_resaved_pageless_partial), and a file whose Root or Pages is no dictionary is saved with a license and not without one (C101_resaved_malformed_partial). Refuted: a reference to an object that the document does not have, which means null, means the font of the mark in the file when its number is the first that is not listed (C101_dangling_refuted). Missing: files with cross-reference streams, kids that are direct dictionaries, encrypted documents; bodies of streams that are not marked are not encoded again.
* **C11** (partial): Dictionaries behave as maps for every call sequence without overwriting a present key; overwriting insert and merge keep the old value (refuted).
* **C13** (partial): Equal objects have equal hashes when they hold no references and no integer stands opposite a real; the cached hash stays fresh for every history of edits that notify. Integer/real pairs, references, number edits, array clear and user-supplied objects are refuted.
* **C14** (partial): Equality decides sameness and is an equivalence on values without references whose numbers have the same kinds and are below 2^63-1. Symmetry, transitivity and reflexivity fail otherwise (refuted).
* **C15** (partial): Every edit through an entry point that notifies marks the edited object and all its containers dirty, for every history in the covered language. Number edits, array clear, first write of an unread string, merged values, user-supplied objects and self containment are refuted.
* **C16** (partial): Every set of entries (gaps, repeated numbers, any order) and every trailer dictionary is read back exactly, except the link from a free entry to the next free one, which the reader drops (C16_next_free_refuted). A table with a released entry is written without its row and cannot be read (C16_released_entry_refuted). Rows are exactly 20 bytes.
* **C17** (partial): Every set of entries whose smallest number is 0, with values below 2^63 and fewer than 2^31 entries, for the widths the writer chooses and for given widths. A section not starting at number 0 is always mislabelled (C17_first_number_refuted); a value of 2^63 or more shifts by 64 bits (C17_large_value_refuted).
* **C18** (partial): Short data is never accepted, and with enough data the outcome is a section or an error for every content. Missing data is read out of bounds (C18_out_of_bounds_refuted) and an omitted type field means free instead of type 1 (C18_default_type_refuted).
* **C19** (partial): Size is the number of entries: never too large, right exactly when the numbers have no gaps, too small with any gap (C19_gap_refuted).
* **C21** (partial): For every document with one classic section the written file opens with the same version, trailer and numbers, every recorded offset is where that object's text begins, and loading every entry gives its object back. For a section that is a cross-reference stream all offsets are right except the stream's own entry, which keeps its old offset (C21_stream_own_offset_refuted). C21_sections_reopen covers files with any number of classic sections. C21_stream_file_reopens_partial covers documents with one cross-reference stream and any object streams, from the save to every object read later; C21_library_codec shows that the library's filters meet its hypothesis. Hybrid files and several cross-reference streams are not covered.
* **C22** (proved): rebuilt object streams load with the same numbers and objects in index order; recorded indexes may differ from the place in the rebuilt stream (finding)
* **C23** (proved): Every state and history. Findings: a chain without any section is dereferenced at its end (C23_empty_chain_refuted), and the first number of a file created from nothing is 0 (C23_number_zero_refuted).
* **C24** (partial): Exact description of the lookup, and newest wins whenever the newest mention has the requested generation. An object deleted with the next generation, as the format prescribes, still resolves to its older revision (C24_deleted_object_refuted).
* **C25** (partial): Every section read ends, and the chain ends within one step per byte unless the Prev pointers form a cycle. A cycle is followed for ever (C25_cycle_refuted).
* **C26** (partial): A chain that ends is followed to its end in every state; a cycle is reported by the first query. A second query on a cyclic reference never returns (C26_second_query_refuted).
* **C27** (partial): Live objects, numbers never used and the trailer of classic tables keep their state. An object deleted by an update comes back, a number listed by a table and its hybrid stream changes its entry, and for stream sections the trailer of the oldest section wins (refuted theorems).
* **C28** (partial): For one section (what merging gives) exact: new numbers are the ranks, nothing is lost and streams are followed. Several sections can lose objects (C28_sections_refuted) and the free list is not renumbered (C28_next_free_refuted).
* **C29** (partial): When every number is listed once (what merging leaves) the entries that stay in use are exactly the ones the trailers reach, each reference still resolves, and marking ends. With merging off the oldest state of an object counts and an object added by an update is removed (C29_updated_object_refuted). Hybrid sections are not covered, and objects are assumed not to be the shared null object.
* **C30** (partial): For any hash functions and entry order: when every stream with references in its dictionary has data of its own (no other stream with the same bytes; for one round: no duplicate stream has references), the merged document says the same at every depth, no reference is lost, and the rounds always end. Refuted for equal streams whose dictionaries refer to a merged object: a key's hash changes inside the hash map, so a later reference dangles (C30_stale_hash_refuted). Assumes each number listed once and no indirect object that is itself a reference; object stream numbers of compressed entries are not modelled.
* **C31** (partial): For every source graph whose references all resolve, with any allocation of fresh numbers: the copy is isomorphic, only what the roots lead to is copied, nothing else in the destination changes, copying ends and succeeds. Refuted: a reference to a missing object keeps its number and leads to an unrelated object of the destination (C31_missing_reference_refuted); a direct object as root is undefined behaviour (C31_direct_object_refuted).
* **C32** (partial): With zlib, the image codecs and encryption as parameters that undo themselves: bodies set or changed come back through no filter, one filter and lists of any length without predictors and lossy filters; unchanged streams keep their body under every filter but Crypt; a body encoded by any list of FlateDecode (with PNG prediction as far as C10), ASCII85Decode and ASCIIHexDecode is read. Refuted: LZW, run length and the fax filters are never read, order of different filters in a list, predictors, lists of filters in encrypted files, Crypt in a list and Crypt unchanged, short parameter lists (undefined).
* **C33** (partial): With AES in CBC mode as a parameter (only that deciphering undoes enciphering is used): standard ciphertext is deciphered to the data. Refuted for the library's own encryption: its padding has the wrong length and OpenSSL pads again, so every non-empty text comes back with 1 to 16 bytes appended, and empty data cannot be deciphered.
* **C34** (partial): With MD5 and RC4 written out: the user password opens the document for key lengths up to 135 bits; the owner password for at most 40 and for 128 bits, with the key and the O and U entries of the standard. Refuted: the owner password for keys between (64 bits shown), passwords over 32 bytes and keys over 135 bits (undefined behaviour). That both passwords give one key is proved up to an accidental collision, which is stated in the theorem.
* **C35** (partial): Object keys are the ones of the standard and data of any object survives encryption and decryption with every algorithm but AES. Refuted for AES (padding, every non-empty text) and for streams under the Identity filter, which are changed.
* **C36** (partial): proved for changed table entries: the update is appended, found, keeps the document keys and every changed object loads as changed; after a one-section save followed by one update every object resolves to its current state. Refuted: a second update (the old Prev is kept, so the first update is skipped), an update without changes (no Prev: every object null), deletions (not recorded), edits of compressed objects (save fails), the same number changed in two sections (older wins). C36_stream_saved_then_updated_partial proves the same for a document with a cross-reference stream and object streams, down to every object a program reads from the updated file. Missing: hybrid sections (C73), sources with several sections
* **C37** (partial): One thread: every history of handle and weak reference operations on any number of objects; several threads: every schedule in which weak references are locked only by threads that own a handle. Refuted: locking races with the last release (C37_lock_race_refuted), and objects copied or assigned as values share the flag of another object.
* **C39** (proved): Trees of any shape and depth with right counts. Beyond the claim, refuted: with a wrong Count another page is returned and pages become unreachable; a cyclic tree is searched forever.
* **C40** (partial): Appending: every tree. Inserting and removing: when the kids of the root up to that place are pages; every history on a flat tree. Counts are right after every call. Refuted: inserting and removing in a tree with inner nodes edits the kids of the root (wrong place, refused, a whole subtree removed); a removal that removes nothing reports success.
* **C41** (partial): Lookup of every stored and every missing key is proved for name trees of any shape and after any earlier lookups. The first insertion into a tree without kids is proved, also for a tree opened anew. Refuted: the second insertion fails and empties the dictionary, insertion into a tree with kids breaks all later lookups, inserting an existing key keeps the old value, number trees (page labels) never find a key, number trees with kids cannot be read. Not pinned down: whether insertion into a tree with kids really frees its leaf nodes; the wrong program that keeps them (seeded/LOG.jsonl, release_node) is still accepted by every theorem.
* **C42** (partial): Proved for destinations and codes of at most four bytes whose sum fits the destination (C42_range_partial), arrays, single codes, unknown codes, the text reader for every standard text, and termination. Refuted: destinations of five or more bytes and codes of five or more bytes are undefined behaviour, in general, a carry out of the destination fails, and is silently dropped when it is a multiple of twelve (C42_overflow_refuted).
* **C43** (partial): Reading is proved for every text of the content stream grammar, and read-write-read for every list without inline images whose operations can be written; an inline image gets one more byte of data each time (C43_images_grow). Refuted: image data changes, white space after ID counted as data, data ending in white space and E overruns, image at the end of a stream refused, text object without ET cannot be reread, parser hangs on a malformed image dictionary (it ends on every text without BI).
* **C44** (partial): Proved for any number of streams that meet at token boundaries, and for instructions spread over several streams; refuted: streams are joined without white space, so words of complete streams run together.
* **C45** (partial): Any mix of peeking, reading and seeking answers as without a cache up to the first failure; every token is delivered once; the cache is bounded by ten. Refuted, in general: a peek that fails moves the position behind the wrong byte (C45_failed_position_refuted).
* **C46** (partial): Strict total order for all buffers; value comparison is numeric for buffers of the same length and wrong for different lengths (C46_value_compare_refuted).
* **C47** (partial): Attribute lists behave as maps except that overwriting keeps the old value (refuted).
* **C48** (partial): Proved for any two documents with right page counts: copies of all pages in order behind the existing ones, all they lead to copied under unused numbers, other objects of the destination unchanged, names of the pages lead to the copies. Refuted: the source loses the Parent entries of its pages, links between pages lead to orphan copies, inherited attributes are lost, a clashing name fails half way, a destination given by a page number makes the append fail.
* **C49** (partial): Every version and any lines in front of the header. Garbage on the header's own line hides it (C49_same_line_refuted).
* **C50** (partial): Exactly the named bit changes, for all values and positions 0..63, signed and unsigned. Missing: positions outside 0..63 are not checked (undefined behaviour, C50_position_refuted).
* **C53** (partial): A buffer equals every string it is a prefix of (C53_cstring_refuted), so only the direction equal strings compare equal holds.
* **C54** (partial): Proved with endstream on its own line and on the line of the data, for lengths that are missing, negative, beyond the end or at another word. A length that leads to a stray delimiter makes the object unreadable, and data ending with a carriage return loses it before a line feed (refuted theorems).
* **C55** (partial): A file of complete objects, tables, trailers and other lines gives the last object with each number and the last trailer, the recorded places can be read again, a saved file cut off in front of its table opens with every object, the search always ends; refuted: an incomplete object, a word or table row cut off by the end of the file, a stream with indirect Type make opening fail, cross-reference streams hide newer objects, a startxref number out of range is not handled
* **C56** (partial): Holds when RC4 is chosen; refuted for AES: the dictionary has no crypt filters, so RC4 is used whatever the settings.
* **C57** (partial): Proved when the page's stream or array is marked dirty by some other change and the instructions were read before. Refuted: changes through the instruction list never mark the page, so every change is lost; recalculating a dirty page whose instructions were not read erases it; places outside the list are undefined.
* **C58** (partial): Proved for objects of generation 0, and for other generations when one section has the object; all other objects are proved unchanged. Refuted: an object of a higher generation that an older section also has is found there again, and an object listed only by a hybrid stream is not released.
* **C59** (partial): Proved for a first signing with a key of any file below 2^63 bytes: read back, covered ranges, only the reserved space changed, too large signatures reported. Refuted: a second signing with the same key uses the released certificate, and a dictionary written again in the same session has no Contents; the byte ranges of a signature after the first are read shifted by one number. The field, form and page annotation objects made around the dictionary are C70.
* **C60** (partial): Strings at any depth: proved for saving with any renumbering, and for copying objects that are not from object streams. Streams: proved when the body was read or number and encryption stay the same. Refuted: strings in stream dictionaries make saving fail, unread streams that are renumbered or copied between plain and encrypted documents change, strings copied out of object streams are not encrypted. RC4 only: AES is C33.
* **C61** (partial): The whole save is composed from the stages of C28, C29, C30, C36 and C21 and proved for every document whose sections are tables (any number of updates) in which every reference that can be reached from the trailer leads to an object that is not null and names the latest generation of its number; objects that cannot be reached, deleted ones included, may be anything; such a save never fails when the real numbers are within the range of integers. Refuted: a reference to a missing object, or to an object that is null, keeps its number while the objects are renumbered and then leads to an unrelated object; a reference to a deleted object leads to that object again. C61_stream_save_partial proves the same for documents with cross-reference streams and object streams, for every update history of tables and streams, down to every object a program reads from the new file. C61_hybrid_save_partial proves it for hybrid-reference files whose tables and hybrid streams list different numbers. Refuted for hybrid files: when the newest hybrid stream is listed in no table, saving fails. Missing: deleted objects of documents with streams, hybrid files that list a number twice, the watermark.
* **C62** (partial): Page entries, information entries and the trapped state: proved as far as the entries are not already read or present. Refuted: contents read before a set are remembered and the set is ignored, an information entry that exists cannot be set again, inherited resources always fail, and the sub-ranges after the first overlap (index n gives numbers n and n+1 instead of 2n and 2n+1).
* **C63** (partial): Proved for every history in which all files can be read, by refinement to a world without addresses, and for every history that no document of another file is given out. Refuted: a file that fails to open leaves its address in the map for ever, and any later good file at that address is refused as disposed.
* **C64** (partial): Fonts, destinations, links, named values, outline levels and flags: proved as exact characterisations. Refuted: stamp, trap network and 3D annotations of the standard are refused (the C++ class names are expected instead), a field that inherits its type is taken for a non-terminal one, and the parent of every outline item is reported as the outline itself. Missing: the other accessors of these objects, which only look up an entry (shown for a general entry in C62).
* **C65** (partial): Proved for every history over a file in which no object of an object stream was replaced by an update. Refuted: reading another object of the stream brings the replaced version back (and marks it as changed); an object stream said to be in itself makes the read run for ever; an object stream with a number that no section lists makes all its objects unreadable. Missing: edits of the object stream objects themselves, failing reads in the positive theorem.
* **C66** (partial): Proved for every interleaving: every call returns the code of its own exception and each thread finds the code of its own last exception; messages below 255 characters come back whole and terminated, codes and texts are distinct. Refuted: a call that fails because of a parameter does not change the last error; a longer message is copied to the caller without a terminator.
* **C67** (partial): Proved for every sequence of calls that never asks for more than there is, from the beginning or after setting the reading position, and for streams made from buffers. Refuted: after a read that finds less than it asks for, writes succeed but are not stored until the reading position is set again. The standard library's stringstream is modelled from the C++ standard; file streams are not modelled.
* **C68** (partial): Proved: reading gives the nearest double, numbers below 2^52 without their point and with 1 to 307 places are written with the same digits, a double written with enough places reads back. Refuted in general: setting a value keeps the places of the old one, so small values are written as zero; odd numbers above 2^53 change; numbers out of range make reading fail; numbers without places and with an exponent are not read back. The rounding of std::stod and of fmt is assumed to be to nearest, ties to even.
* **C69** (partial): Refuted for every combination of flags: the permissions of the document are exactly the reverse of the ones asked for (no action allowed means every action is permitted). Refuted for every setting: the data is enciphered with RC4 even if AES was asked for. Refuted for removal: in a document with updates whose first section is a stream the saved document still names the encryption dictionary. Proved: the entries of the dictionary, the unused bits, errors for no algorithm, the trailer after adding, and after removing when no older stream section names the encryption.
* **C70** (partial): Proved for every document whose form entries have the right types, with any mix of direct and indirect entries: signing succeeds, one field is added to the form and to the annotations of the first page, the flags are set, all other objects stay and those of the form lose nothing, pages stay; a document without pages is refused. Refuted: the field is listed twice when annotations and fields are one array, every signing uses the field name Signature1, and a signing that fails while writing leaves its field and flags behind. The numbers of new objects are those of C23.
* **C71** (partial): Proved for files whose Lengths are direct or objects of the file itself without cycles: for every schedule of any number of threads each answer is what the file has, the same object for all threads, never replaced, and answers come in order; if nobody asks directly for an object that is a Length, the threads never wait for each other and all requests are answered in a bounded number of steps; a single thread never waits for itself in any file. Refuted in general: a thread asking for the Length object and one asking for its stream can deadlock (entry mutex and input mutex in opposite order); so can a thread reading a stream whose Length is in an object stream and one asking for any object in an object stream; IsInitialized is a plain bool read without a mutex while it is set; Lengths that lead back to themselves recurse without end; a stream whose Length is in an unread object stream is read from the wrong position, because GetBodyRaw leaves the input at the data of the object stream.
* **C72** (partial): Proved for all files: whatever is not deciphered is left plain by the standard. Proved for files of the usual layout (encryption dictionary behind at most one reference, direct identifiers, no fields below other fields): strings and streams are shown as stored exactly when the standard says so and deciphered otherwise, and the plain ones are saved unchanged; orderly files are opened. Refuted in general: signatures of fields below other fields and indirect identifiers are deciphered although they are plain; a signature field whose value is null, or a signature with literal-string contents, makes the document impossible to open, encrypted or not; a document with a user password and its catalog in an object stream cannot be opened, because opening asks for the catalog before a password can be given (a second call then reports success with no signature marked).
* **C73** (partial): Proved: the bytes are kept, opening finds the new and the old section, each with the hybrid stream; changed objects of the table show their new state, and every unchanged number on which table and hybrid stream agree resolves as before. Refuted: a change of an object only the hybrid stream lists is lost silently (C73_hidden_changes_ignored, for every file); when nothing else was changed the whole table becomes unreachable; and a number that table and stream list differently switches from the table's entry to the stream's, because the update repeats XRefStm.
* **C74** (partial): Proved: after any history an object that is handed out carries the number asked for; truthful tables answer the same after every history; after the first misleading entry was met, every object whose number no other entry claims is found. Refuted: before that, an object whose number no entry gives is reported as missing, so the answer depends on the history (C74_order_refuted); one unreadable entry makes every such lookup fail (C74_damaged_refuted); a free entry that gets the number of an object may push it out, depending on an unspecified sorting order (C74_collision_refuted).
* **C75** (partial): Proved: every history that leaves names alone once they are keys gets the answers of ideal dictionaries, for any shape of the search tree. Refuted: after every such history, changing the text of the name just inserted makes the entry unfindable (C75_rename_refuted), possibly under the new text as well although iteration shows it (C75_lost_refuted); two entries can get equal keys (C75_duplicate_refuted); a key read back shares its text with the name it was inserted with, so changing it changes lookups elsewhere (C75_shared_refuted).
* **C76** (partial): Proved: loops over dictionaries whose bodies insert anything and remove other entries, loops over sections with room for the entries added whose bodies remove or replace other entries, and loops over instructions that change nothing visit what is left alone exactly once and end. Refuted, as undefined behaviour: removing or replacing the current element, adding to a full section, any change of a list of instructions, releasing the collection, and reading or stepping at the end.
* **C77** (partial): Proved: all answers of programs that place each object once, do not remove entries, and replace an object only when nothing of the program refers to it, are the ones of the simple meaning (a reference names a number, a number has an object). Refuted, after any such history: replacing an object the program still holds makes references to it throw, out of the C interface when asked for the number, but not if the handle was released; a second number for an object changes the number of references but not their hash; replacing it there breaks references to an object that is still in the file; pointing at null changes nothing; removing the entry.
* **C78** (partial): Proved for documents of table sections and all histories: objects are read as the program left them, except those edited or created before the last incremental save; full saves write the document as the program left it as long as nothing is lost that way; an incremental save writes exactly the edited and created objects that are not lost. Refuted, in general: an incremental save takes every edited and created object out of the open document (null from then on), the second of two incremental saves writes none of the changes, and (on a document) a full save after an incremental one writes a document without its page tree.
* **C79** (partial): Proved for all such histories: the answers, the objects and the page tree in memory, that saving succeeds, and that the reopened file has the pages in order with their entries, the producer and the date (hashes that are never zero; streams that refer to nothing). Refuted on documents: two pages that are still equal when the document is saved become one object, so that they are one page for whoever edits the file; the incremental save of a created document writes a file without header, which does not open.
* **C80** (partial): Proved for every library that keeps the streaming contract: the round trip, complete data with anything behind it, termination and that nothing is made up, and the exact result for damaged data. Refuted: data that is cut off is accepted without an error; damage met before 4096 bytes were decoded gives an error and nothing; the second attempt takes the size of the output for a place in the input, so that what the damaged block holds is lost when the data was really compressed, and everything is lost when the output so far is as long as the input.
* **C81** (partial): Proved for every reader: DCT pictures with one, three or four components and JPX pictures whose components have full size and eight bits (and that no other JPX picture is decoded), and compressing with output of any size. Refuted, in general: DCT data that is cut off is read beyond its end (undefined), JPX data that is cut off makes the read loop of openjpeg run for ever, pictures with two components come out as zeros, an existing image attribute makes decoding fail, a picture whose colour space is an array is not compressed although decoding noted all that is needed, JPX components smaller than the picture are read beyond their end, and JPX pictures of 2^32 samples or more are written beyond the end of the result.
* **C82** (partial): Proved: what every observer hears, with positions in the file, for programs that unsubscribe before they release or that never get an address twice; that nobody else hears anything; that the file does not depend on the observers; what a cancelled save has written, flushed and told. Refuted, in general: an observer at the address of a released one that is still subscribed hears nothing although it is subscribed; a save that is reported as cancelled may be complete; a callback that unsubscribes its own observer makes the loop go on from an erased iterator (undefined). Callbacks that change the objects are not modelled.
* **C83** (partial): Proved: every recipient of every group gets the standard's key, and data enciphered by the standard comes back, for documents that encipher their metadata, name their filter DefaultCryptFilter and repeat the key length in the encryption dictionary; whoever is not named, or has no certificate, is refused and changes nothing. Refuted, in general: with EncryptMetadata false the key is not the standard's; without the Length entry, which the standard does not ask for there, an AES key has five bytes; a filter of another name refuses its recipients; a message with less than 20 bytes of content is read behind its end (undefined); for a document with a password the call throws instead of answering false; a message that names the certificate but cannot be opened hides the later ones. The functions of OpenSSL are parameters.
* **C84** (partial): Proved: an accepted license holds fields whose text, written one after the other, was signed by the first certificate of a valid chain, its serial number is not refused and its updates cover the build; another version is refused (C84_version); every license that the vendor signed that way is accepted; a refused one changes nothing; after any history the last accepted license counts. Refuted, in general: what is signed is the fields without anything between them, so from every accepted temporary license one makes an accepted license that never ends with the same signature, and a refused serial number is accepted when its first character is moved to the note; a build without ENFORCE_LICENSE_CHECKS, the default, is licensed without any license. JSON, dates and OpenSSL are parameters.
* **C85** (partial): Proved: nothing changes without string destinations in the source; a single one that is an object of its own (an array, or a dictionary with /D), appended to a target whose name tree is missing or is one array without Limits, leads to the copy of its page, and the target's are kept. Refuted, in general: with two of them, or when the root of the target's tree has Limits (as it has after one was appended), the call throws and no string destination is left, not even the target's own; a destination written directly into the name tree makes appending impossible; so does a target whose name tree has kids.
* **C86** (partial): Proved for every history that leaves 14 of the 737 functions alone: no dead and no mistaken handle, reference counts equal the handles held, each handle can be released and the object goes with its last reference. The 14 store or read a handle as another class: OutlineItemColor_GetRed/Green/Blue give a real number as an integer handle, PageObject_GetParent a page tree node as a page tree, the Decode functions read every filter as a Flate filter, three store a pointer to a base class. C86_each_refuted shows that each reachable one breaks some program by itself. A ContentOperationBeginTextHandle can never be given back (C86_begin_text_refuted).
* **C87** (partial): Proved for all but five functions: PageContents_RecalculateStreamData, PageLabel_Prefix, PageLabel_Start, PageLabel_Style and DictionaryObject_Remove store through a null result pointer (C87_each_refuted). Callbacks, their user data and passwords may be null (Spec/Boundary.v lists them). A program that avoids these five and the 14 of C86 never gets undefined behaviour at the boundary (C87_safe_partial).
* **C88** (partial): Proved for arrays (every history, every index), for all reads, and for lists of buffers and instructions within their size. Refuted: inserting beyond the end of a list of buffers or instructions, and removing there (an instruction even directly behind the last one), is undefined behaviour; the byte ranges of a signature overlap (index k gives the numbers k and k+1), and indexes beyond their number are answered.
* **C89** (partial): Proved for every file that was saved in full once and then incrementally any number of times (tables, objects that are not cross-reference streams): a stop between two appended objects or in front of the new table (C89_between_objects_partial), and one behind the new table, behind its offset or within the end marker (C89_table_written_partial), leaves a file that opens by the search for objects, with exactly the objects written so far, each in its last state and readable at its place, and the document's trailer keys. Objects that were deleted are found again by the search. Refuted, in general: behind the heading of every appended object a stop leaves a file that does not open at all (C89_torn_heading_refuted); a stop within an appended integer leaves a file that opens with a truncated number (C89_torn_value_refuted). Missing: the other points within an object, a table or the last lines, and the single point behind the first line feed.
* **C90** (partial): Proved for every operation text: operator type, value, operands, refused operands of the eight operators that have classes of their own, write and re-read, histories of setters. Refuted: all other operators take any operands, and the type of their operation is Generic although the API has a type for each (C90_any_operands_refuted, C90_save_state_refuted).
* **C91** (partial): Proved: other files, the open document and the content of the named file when it is not the source; saving in place when every object was read. Refuted: a failed save has emptied the file, saving changes in place loses the whole document, saving in place with an unread object fails and leaves a bare header, an incremental save without a licence empties the file.
* **C92** (partial): Proved for every conforming file with cross-reference tables: it opens with its version, sections and trailers (C92_opened), and every reference whose number was not given to another generation later yields what it stands for (C92_objects_partial). Refuted, in general: a reference to an object that an update deleted still gives the object (C92_deleted_refuted). Cross-reference streams and hybrid files are not covered by this specification (streams: C94, hybrid files: C73).
* **C93** (partial): Proved for every saved file up to ten gigabytes with tables: it follows the standard and every reference stands for the object of the document (C93_saved_partial); the first incremental save of every file that follows the standard again gives such a file, with changed objects new and others as before (C93_updated_partial). Refuted, in general: the second update drops all that the first one recorded (C93_second_update_refuted), the Size of an update does not cover objects with numbers above the number of changes (C93_size_refuted; C19 for gaps in full saves), rows of objects behind ten gigabytes are too long (C93_long_row_refuted). Cross-reference streams are not covered by this specification (C95).
* **C94** (partial): Proved for every such file that gives the type of its rows, uses no reserved types and whose object streams hold no unlisted numbers: it is opened with its sections (C94_opened_partial) and every reference to a number that was not deleted or given to another object gives the object it stands for (C94_objects_partial). Refuted, in general: in a file whose rows leave out the type, which means type 1, every object reads as null (C94_default_type_refuted); a row of a reserved type, which means null, makes the file be searched for objects or fail (C94_reserved_refuted). Deleted numbers: C24; unlisted members: C65. Hybrid files are not in the specification (C73).
* **C95** (partial): Proved for every file saved with one section: it follows the standard but for the one row of the cross-reference stream for itself, and every reference stands for the object of the document, when the indexes of compressed objects are their places (C95_saved_partial). Refuted, in general: that one row keeps the place the stream had before, so that the file follows the standard if and only if the stream did not move (C95_own_row_refuted); a compressed object whose recorded index is not below the number of objects that are now in its stream is lost to every reader that follows the standard (C95_index_refuted). Missing: documents with several sections.
* **C96** (partial): Proved for every such file in which what can be reached has no references to null or to references, its streams have their length in their dictionary, and the hashes do not follow references or the streams have data of their own: the saved file, up to ten gigabytes, follows the standard and shows the same document (C96_resaved_partial), and it is written when all rows lead to objects and reals are within range (C96_resave_succeeds_partial). Refuted, with the standard's reading of the bytes on both sides: a reference to a number that does not exist stands for null before and for an unrelated object afterwards (C96_dangling_refuted); a reference to a deleted object stands for null before and for the deleted object afterwards (C96_deleted_refuted). Encrypted files, cross-reference streams and hybrid files are not part of this claim (C34, C94, C95).
* **C97** (partial): Proved for every document of one table whose lengths are natural numbers, direct or in objects of their own, or missing: the save succeeds (C97_write_succeeds_partial), the file, up to ten gigabytes, follows the standard and every reference stands for the object of the document, streams with all their data and a length that is the size of the data (C97_written_partial), and the library reads every object back (C97_reopened_partial). Where no length is a reference this is the writer of C21 and C36 (C97_direct_lengths). Refuted: a length that refers to an object that is not there makes the save of the whole document fail (C97_missing_length_refuted). Lengths that are reals, documents that are written with several sections, and cross-reference streams are not part of this claim.
* **C98** (partial): Proved for the first incremental save of every file of tables that follows the standard, when the filters of streams whose body was set are direct and lengths are direct, missing or objects that were changed too: the save succeeds (C98_update_succeeds_partial), the result follows the standard, changed objects stand for what the program left and all others for what they stood for (C98_updated_partial). Without references it is the writer of C36 and C93 (C98_direct_lengths). Refuted: a changed stream whose length is an object that was not changed makes every incremental save fail (C98_unchanged_length_refuted); a body that was set on a stream whose filter is an object that was not changed is written without the filter, although the dictionary still names it, so that readers decode what was never encoded (C98_unchanged_filter_refuted). Later saves lose more, see C93. Unchanged streams with a length object, reals as lengths, and references inside of Filter and DecodeParms are not part of this claim.
* **C99** (partial): Proved for documents in which the recorded indexes of the objects that can be reached from Root, Info or ID are their places among these (unused objects may have any index): the file follows the standard but for the row of the cross-reference stream for itself (C95_own_row_refuted), every reference has a meaning, and Root, Info and ID look the same at any depth (C99_saved_partial). Refuted in general: the indexes are never renewed; an object whose index is not below the number of the objects of its stream that are still needed is listed in the file that is saved, and no reader that follows the standard can find it (C99_lost_refuted; the case is a document where an update replaced the second of three objects). The restrictions of C61 for documents with cross-reference streams remain.

## 6. Tests against wrong programs

`seeded/LOG.jsonl` has one line per edit of a model definition in a scratch copy: the edit, the claim it breaks and the theorems that
no longer build.  Edits that no theorem noticed led to stronger theorems (`theorems_tightened`); the remaining ones do not change
what the claim says and are marked as such.
