{"id": "C01", "title": "Name objects survive write and re-read", "statement": "Serialising a name object and decoding the written characters as a PDF reader (this library's own tokenizer and name decoder) does gives back a name with exactly the same bytes, and the written form contains only characters that cannot end the name token early.", "quantifier": "every byte string used as a name (all 256 byte values, any length)", "why_tests_cant": "The set of byte strings is infinite and the escaping interacts with neighbouring characters (an escape followed by hex digits); tests try a handful of names.", "anchors": ["src/vanillapdf/syntax/objects/name_object.cpp: NameObject::ToString, GetHexadecimalNotation, CreateFromEncoded", "src/vanillapdf/syntax/parsers/tokenizer.cpp: ReadName"]}
{"id": "C02", "title": "Literal strings survive write and re-read", "statement": "Serialising a literal string object and re-tokenising and decoding the written bytes gives back exactly the same string value, and the token ends exactly at the closing parenthesis the writer emitted.", "quantifier": "every byte string as string value, every continuation of the file after it", "why_tests_cant": "Escapes, nested parentheses, line ends and octal codes interact; only an inductive argument covers every combination and length.", "anchors": ["src/vanillapdf/syntax/objects/string_object.cpp: LiteralStringObject::ToPdfInternal, GetRawValueDecoded", "src/vanillapdf/syntax/parsers/tokenizer.cpp: ReadLiteralString"]}
{"id": "C03", "title": "Hexadecimal strings survive write and re-read", "statement": "Serialising a hexadecimal string object and re-tokenising and decoding the written bytes gives back exactly the same value.", "quantifier": "every byte string", "why_tests_cant": "Infinite domain; digit pairing and byte sign extension only fail on particular byte values at particular positions.", "anchors": ["src/vanillapdf/syntax/objects/string_object.cpp: HexadecimalStringObject::ToPdfInternal, GetValue", "src/vanillapdf/syntax/parsers/tokenizer.cpp: ReadHexadecimalString"]}
{"id": "C04", "title": "Integers survive write and re-read", "statement": "The decimal text written for an integer object is tokenised as one integer token and parsed back to the same number.", "quantifier": "every 64-bit signed integer, every following delimiter", "why_tests_cant": "2^64 values; the sign, leading digits and extreme values cannot be enumerated.", "anchors": ["src/vanillapdf/syntax/objects/numeric_object_backend.cpp", "src/vanillapdf/syntax/parsers/parser.cpp: ReadInteger", "src/vanillapdf/syntax/parsers/tokenizer.cpp: ReadUnknown"]}
{"id": "C05", "title": "Nested direct objects survive write and re-read", "statement": "Serialising any direct object (null, booleans, integers, names, strings, indirect references, and arbitrarily nested arrays and dictionaries of them) and parsing the output with the library's own parser yields the same object and leaves the stream just after it.", "quantifier": "every object tree of any depth and width, every continuation of the file", "why_tests_cant": "Objects are an infinite recursive type; separators between adjacent tokens and the look-ahead for indirect references only go wrong for specific neighbour combinations.", "anchors": ["src/vanillapdf/syntax/parsers/parser.cpp: ReadDirectObject, ReadArray, ReadDictionary, ReadIndirectReference", "src/vanillapdf/syntax/objects/mixed_array_object.cpp: ToPdfInternal", "src/vanillapdf/syntax/objects/dictionary_object.cpp: ToPdfInternal"]}
{"id": "C06", "title": "Checked integer conversion is sound and complete", "statement": "A checked conversion between integer types returns only the mathematically same value, and throws exactly when the value is not representable in the target type.", "quantifier": "every value of every pair of signed/unsigned integer types of any widths", "why_tests_cant": "Boundary values of each type pair; the domain is product of all types and all values.", "anchors": ["src/vanillapdf/utils/conversion_utils.h: ValueConvertUtils::SafeConvert, IsInRange"]}
{"id": "C07", "title": "Checked addition and multiplication never wrap", "statement": "Checked addition and multiplication return the exact mathematical result or report failure; no wrapped value is ever returned.", "quantifier": "every pair of operands of a fixed-width integer type", "why_tests_cant": "Two 64-bit operands.", "anchors": ["src/vanillapdf/utils/math_utils.h: SafeAddition, SafeMultiply"]}
{"id": "C08", "title": "ASCII85 decoding inverts the standard encoding", "statement": "Decoding the ASCII85 text that the PDF specification prescribes for a byte string returns that byte string.", "quantifier": "every byte string of any length (all tail lengths, all-zero groups)", "why_tests_cant": "Infinite domain and base-85 arithmetic with partial last group.", "anchors": ["src/vanillapdf/syntax/filters/ascii_85_filter.cpp: Decode"]}
{"id": "C09", "title": "ASCIIHex decoding follows the specification", "statement": "Decoding hexadecimal text (with white space anywhere and '>' at the end) returns the bytes the digits denote; an odd final digit counts as followed by 0.", "quantifier": "every digit sequence with arbitrary interleaved white space", "why_tests_cant": "Infinite domain; the odd-tail case depends on the parity of a whole stream.", "anchors": ["src/vanillapdf/syntax/filters/ascii_hex_filter.cpp: Decode"]}
{"id": "C10", "title": "PNG predictor decoding inverts PNG prediction", "statement": "Decoding a predictor-encoded image returns the original rows for every PNG row filter type (None, Sub, Up, Average, Paeth).", "quantifier": "every image: all row contents, all row counts, all columns/colors/bit depth combinations giving any bytes-per-pixel", "why_tests_cant": "Each row depends on the entire history of previous rows; the state space is all images.", "anchors": ["src/vanillapdf/syntax/filters/flate_decode_filter.cpp: ApplyPredictor"]}
{"id": "C11", "title": "Dictionary objects behave like a map", "statement": "After any sequence of insert, remove, clear and merge calls the observable content (find, contains, size, iteration order) is the one of a finite map to which the same operations were applied; inserting with overwrite replaces the previous value.", "quantifier": "every history of operations over every set of keys and values", "why_tests_cant": "Histories are unbounded.", "anchors": ["src/vanillapdf/syntax/objects/dictionary_object.cpp: Insert, Remove, Clear, Merge, Find, TryFind, Contains"]}
{"id": "C12", "title": "Array objects behave like a sequence", "statement": "After any sequence of append, insert, remove, set and clear calls an array's size and elements equal those of an abstract sequence; out of range indexes raise an error and change nothing.", "quantifier": "every history of operations with arbitrary indexes", "why_tests_cant": "Histories are unbounded.", "anchors": ["src/vanillapdf/syntax/objects/mixed_array_object.cpp: Append, Insert, Remove, Clear, SetValue, GetValue"]}
{"id": "C13", "title": "Equal objects have equal hashes", "statement": "Whenever two objects compare equal, their hash values are equal, so containers keyed by object never lose an element; the cached hash never differs from a freshly computed one after any history of edits.", "quantifier": "every pair of object trees and every history of edits and hash queries", "why_tests_cant": "Depends on pairs of unbounded trees and on edit/query interleavings.", "anchors": ["src/vanillapdf/syntax/objects/mixed_array_object.cpp: Hash, Equals, Clear", "src/vanillapdf/syntax/objects/dictionary_object.cpp: Hash, Equals", "src/vanillapdf/syntax/objects/object.cpp: OnChanged", "src/vanillapdf/syntax/objects/indirect_reference_object.cpp: Hash"]}
{"id": "C14", "title": "Object equality is an equivalence", "statement": "Object comparison is reflexive, symmetric and transitive.", "quantifier": "every triple of objects including integers and reals", "why_tests_cant": "Quantifies over triples of values.", "anchors": ["src/vanillapdf/syntax/objects/integer_object.cpp", "src/vanillapdf/syntax/objects/real_object.cpp: Equals"]}
{"id": "C15", "title": "Editing a nested object marks the containing indirect object changed", "statement": "Changing any object nested at any depth in an indirect object marks that indirect object (and all containers on the way) dirty, so incremental save writes it.", "quantifier": "every tree of containers, every position and every history of edits", "why_tests_cant": "Unbounded nesting and edit orders.", "anchors": ["src/vanillapdf/syntax/objects/object.cpp: OnChanged", "src/vanillapdf/syntax/utils/modify_observer_interface.cpp", "src/vanillapdf/syntax/objects/dictionary_object.cpp", "src/vanillapdf/syntax/objects/mixed_array_object.cpp"]}
{"id": "C16", "title": "Cross-reference table survives write and re-read", "statement": "Writing a classic cross-reference table and reading it back gives the same set of entries (object number, generation, offset or next free number, in-use flag) and leaves the stream at the trailer.", "quantifier": "every set of entries with any gaps between object numbers", "why_tests_cant": "Subsection splitting depends on the whole set of numbers.", "anchors": ["src/vanillapdf/syntax/files/file_writer.cpp: WriteXrefTable", "src/vanillapdf/syntax/parsers/parser.cpp: ReadXrefTable, ReadTableEntry"]}
{"id": "C17", "title": "Cross-reference stream survives write and re-read", "statement": "Recalculating the content of a cross-reference stream and decoding it with the recalculated widths and index gives back the same entries.", "quantifier": "every set of entries with any gaps between object numbers and any field values", "why_tests_cant": "Index computation and byte widths depend on the whole set.", "anchors": ["src/vanillapdf/syntax/files/xref.cpp: RecalculateContent, WriteValue", "src/vanillapdf/syntax/files/file_writer.cpp: RecalculateXrefStreamWidth", "src/vanillapdf/syntax/parsers/parser.cpp: ParseXrefStream"]}
{"id": "C18", "title": "Cross-reference stream defaults and malformed data", "statement": "A cross-reference stream whose data, index and widths disagree is rejected with an error, never read out of bounds; an omitted type field defaults to type 1.", "quantifier": "every width triple, index array and data string", "why_tests_cant": "Hostile input space.", "anchors": ["src/vanillapdf/syntax/parsers/parser.cpp: ParseXrefStream"]}
{"id": "C19", "title": "The trailer Size covers every object number", "statement": "The Size value written to the trailer is one greater than the highest object number of the table.", "quantifier": "every set of entries", "why_tests_cant": "Depends on the whole set of numbers.", "anchors": ["src/vanillapdf/syntax/files/file_writer.cpp: RecalculateXrefSize"]}
{"id": "C20", "title": "startxref is found again", "statement": "After the writer emits the startxref trailer lines, locating the last cross-reference from the end of the file returns the offset that was written.", "quantifier": "every file content before it and every offset", "why_tests_cant": "Unbounded content before the marker.", "anchors": ["src/vanillapdf/syntax/files/file_writer.cpp: WriteXrefOffset", "src/vanillapdf/syntax/parsers/reverse_parser.cpp: ReadLastXrefOffset"]}
{"id": "C21", "title": "Recorded offsets point at their objects", "statement": "In a written file, every in-use cross-reference entry's recorded offset is the position at which exactly that object's text (number, generation, obj) begins.", "quantifier": "every list of objects with arbitrary bodies", "why_tests_cant": "Offsets accumulate over all previous objects.", "anchors": ["src/vanillapdf/syntax/files/file_writer.cpp: WriteXrefObjects, WriteEntry, WriteObject"]}
{"id": "C22", "title": "Object streams survive rebuild and re-read", "statement": "Rebuilding the content of an object stream from its objects and parsing it again returns the same objects under the same object numbers.", "quantifier": "every list of object numbers and objects", "why_tests_cant": "Header offsets depend on all previous objects.", "anchors": ["src/vanillapdf/syntax/files/file_writer.cpp: RecalculateObjectStreamContent", "src/vanillapdf/syntax/parsers/parser.cpp: ReadObjectStreamEntries, ReadObjectStreamHeaders"]}
{"id": "C23", "title": "Allocating an object never reuses a live object number", "statement": "Every newly allocated object number is different from all object numbers present in any cross-reference section and from all previously allocated ones.", "quantifier": "every chain of sections and every history of allocations and releases", "why_tests_cant": "Unbounded histories.", "anchors": ["src/vanillapdf/syntax/files/file.cpp: AllocateNewEntry"]}
{"id": "C24", "title": "Newest revision wins when resolving an object", "statement": "Resolving an object number and generation returns the entry of the most recent update section that contains the object.", "quantifier": "every chain of update sections", "why_tests_cant": "Unbounded chains.", "anchors": ["src/vanillapdf/syntax/files/xref_chain.cpp: GetXrefEntry, Contains"]}
{"id": "C25", "title": "Opening a file terminates", "statement": "Following the Prev chain of cross-reference sections terminates for every file, including hostile ones.", "quantifier": "every graph of Prev pointers", "why_tests_cant": "Nontermination cannot be observed by a test; the graphs are unbounded.", "anchors": ["src/vanillapdf/syntax/files/file.cpp: ReadXref"]}
{"id": "C26", "title": "Dereferencing terminates and detects cycles", "statement": "Resolving an indirect reference through any chain of references ends: with the final direct object, with an error when the chain is cyclic, and never loops.", "quantifier": "every reference graph", "why_tests_cant": "Unbounded graphs.", "anchors": ["src/vanillapdf/syntax/utils/object_utils.h: DereferenceHelper"]}
{"id": "C27", "title": "Merging update sections preserves the visible objects", "statement": "Merging all sections of an incrementally updated file into one gives every object number the same visible state as before (the newest entry; deleted objects stay deleted).", "quantifier": "every chain of sections", "why_tests_cant": "Unbounded histories of updates.", "anchors": ["src/vanillapdf/syntax/files/file_writer.cpp: MergeXrefs, RemoveFreedObjects"]}
{"id": "C28", "title": "Renumbering preserves all objects", "statement": "Squashing the table space renumbers objects to a dense range without losing, duplicating or retargeting any object.", "quantifier": "every set of used object numbers over every chain of sections", "why_tests_cant": "In-place renumbering depends on the order of the whole set.", "anchors": ["src/vanillapdf/syntax/files/file_writer.cpp: SquashTableSpace"]}
{"id": "C29", "title": "Unreferenced object removal keeps exactly the reachable objects", "statement": "Removing unreferenced objects keeps every object reachable from the trailer and removes only unreachable ones.", "quantifier": "every object graph including cycles", "why_tests_cant": "Graph reachability over unbounded graphs.", "anchors": ["src/vanillapdf/syntax/files/file_writer.cpp: RemoveUnreferencedObjects, FindIndirectReferences"]}
{"id": "C30", "title": "Duplicate removal preserves what references resolve to", "statement": "After merging duplicate indirect objects every reference still resolves to an object equal to the one it resolved to before.", "quantifier": "every object graph", "why_tests_cant": "Merging changes equality of further objects; unbounded.", "anchors": ["src/vanillapdf/syntax/files/file_writer.cpp: RemoveDuplicitIndirectObjects"]}
{"id": "C31", "title": "Copying an object between files copies its whole graph", "statement": "Deep copying objects into another file yields a graph isomorphic to the source: every reference in the copy leads to the copy of the object the source reference leads to, sharing and cycles are preserved and copying terminates.", "quantifier": "every object graph including cycles", "why_tests_cant": "Unbounded graphs with cycles.", "anchors": ["src/vanillapdf/syntax/files/file.cpp: ShallowCopyObject, DeepCopyObject, DeepCopyObjects, FixObjectReferences"]}
{"id": "C32", "title": "Stream filters round-trip", "statement": "The body obtained by decoding a stream's encoded data with its filter array is the body that was set, for any array of filters.", "quantifier": "every filter list and every body, for all invertible filters", "why_tests_cant": "Filter lists and bodies are unbounded.", "anchors": ["src/vanillapdf/syntax/objects/stream_object.cpp: GetBody, GetBodyEncoded"]}
{"id": "C33", "title": "AES encryption round-trips", "statement": "Decrypting what the AES encryption routine produced with the same key returns the original data.", "quantifier": "every data length and content, every key", "why_tests_cant": "Padding depends on length; infinite domain.", "anchors": ["src/vanillapdf/syntax/utils/encryption.cpp: AESEncrypt, AESDecrypt, AddPkcs7Padding, RemovePkcs7Padding"]}
{"id": "C34", "title": "A correct password authenticates", "statement": "After encrypting a document with a user and an owner password, opening it with either password succeeds and yields the same file key.", "quantifier": "every pair of passwords, every document id, permission value, revision and key length", "why_tests_cant": "Cryptographic key derivation over all inputs.", "anchors": ["src/vanillapdf/syntax/utils/encryption.cpp: PadTruncatePassword, GenerateOwnerEncryptionKey, GenerateUserEncryptionKey, CheckKey, ComputeAuthenticationOwnerData", "src/vanillapdf/semantics/objects/document.cpp: AddEncryption"]}
{"id": "C35", "title": "Per-object RC4 encryption round-trips", "statement": "Decrypting a string or stream with the key of its own object number and generation returns the data that was encrypted with the key of that object.", "quantifier": "every data, key, object number and generation", "why_tests_cant": "Infinite domain.", "anchors": ["src/vanillapdf/syntax/utils/encryption.cpp: ComputeObjectKey, ComputeRC4", "src/vanillapdf/syntax/files/file.cpp: EncryptData, DecryptData"]}
{"id": "C36", "title": "Incremental update keeps previous revisions reachable", "statement": "After an incremental save, following Prev from the new section reaches every section of the original file, newest first, and resolving an object gives its edited state if it was edited and its previous state otherwise.", "quantifier": "every chain of sections and every set of edited objects", "why_tests_cant": "Unbounded histories of updates and edits.", "anchors": ["src/vanillapdf/syntax/files/file_writer.cpp: WriteIncremental, CreateIncrementalXref, RecalculateXrefPrevOffset"]}
{"id": "C37", "title": "Reference counted objects are destroyed exactly once", "statement": "For every sequence of handle copies, releases and weak reference checks an object is destroyed exactly when its last handle is released, never twice, and weak references report whether it is alive.", "quantifier": "every interleaving of retain/release/weak operations by any number of handles", "why_tests_cant": "Schedules and histories are unbounded.", "anchors": ["src/vanillapdf/utils/unknown_interface.cpp", "src/vanillapdf/utils/deferred.h"]}
{"id": "C38", "title": "Dates survive formatting and parsing", "statement": "Parsing the text produced for a date returns the same fields, and every accepted text has all fields in their calendar ranges.", "quantifier": "every date/time with every time zone offset; every input text", "why_tests_cant": "Large product domain and arbitrary text input.", "anchors": ["src/vanillapdf/semantics/objects/date.cpp"]}
{"id": "C39", "title": "GetPage returns the n-th page of the tree", "statement": "For any page tree with correct counts, page n is the n-th leaf in document order; indexes outside 1..count raise an error.", "quantifier": "every tree shape and index", "why_tests_cant": "Unbounded trees.", "anchors": ["src/vanillapdf/semantics/objects/page_tree.cpp: PageInternal, GetCachedPage"]}
{"id": "C40", "title": "Page insertion, removal and append edit the page sequence", "statement": "Appending, inserting at n and removing page n change the document's page sequence exactly at that place and keep counts consistent.", "quantifier": "every tree shape and every history of edits", "why_tests_cant": "Unbounded trees and histories.", "anchors": ["src/vanillapdf/semantics/objects/page_tree.cpp: Insert, Append, Remove, UpdateKidsCount"]}
{"id": "C41", "title": "Name trees behave like a map", "statement": "Looking up a key in a name/number tree returns the value stored for it wherever it lies in the tree; after inserting keys every one of them can be found.", "quantifier": "every tree and every history of insertions", "why_tests_cant": "Unbounded trees and histories.", "anchors": ["src/vanillapdf/semantics/objects/tree.h", "src/vanillapdf/semantics/objects/tree.cpp: TreeNodeBase::Create"]}
{"id": "C42", "title": "Character map ranges map by offset", "statement": "A character code inside a mapped range is mapped to the destination start plus the distance from the range start, as big-endian numbers.", "quantifier": "every range, destination and code of any byte length", "why_tests_cant": "Byte-wise borrow and carry over all values.", "anchors": ["src/vanillapdf/contents/character_map_data.cpp: Difference, IncrementInternal, GetMappedValueInternal", "src/vanillapdf/utils/buffer.cpp: ValueEqualLessThan"]}
{"id": "C43", "title": "Content stream operations survive write and re-read", "statement": "Serialising parsed content stream instructions and parsing them again gives the same instructions (operators with operands, text objects, inline images with unchanged data).", "quantifier": "every list of instructions", "why_tests_cant": "Unbounded lists; inline image data is arbitrary bytes.", "anchors": ["src/vanillapdf/contents/content_stream_parser.cpp", "src/vanillapdf/contents/content_stream_operation_generic.cpp: ToPdf", "src/vanillapdf/contents/content_stream_objects.cpp: ToPdf"]}
{"id": "C44", "title": "A page's content is the sequence of its content streams", "statement": "The instructions of a page with several content streams are the instructions of each stream in order.", "quantifier": "every list of streams", "why_tests_cant": "Token boundaries at stream ends depend on all neighbours.", "anchors": ["src/vanillapdf/semantics/objects/page_contents.cpp: Instructions"]}
{"id": "C45", "title": "Tokenizer look-ahead does not change what is read", "statement": "Any interleaving of peek and read calls returns the tokens of the input in order, each exactly once, and rewinding positions agrees with the token boundaries.", "quantifier": "every interleaving of peek/read calls on every input", "why_tests_cant": "Interleavings are unbounded.", "anchors": ["src/vanillapdf/syntax/parsers/tokenizer.cpp: PeekToken, ReadToken"]}
{"id": "C46", "title": "Byte buffer ordering is a total order consistent with equality", "statement": "Comparing buffers yields a strict weak ordering consistent with equality, and big-endian value comparison agrees with numeric comparison.", "quantifier": "every triple of byte strings", "why_tests_cant": "Infinite domain.", "anchors": ["src/vanillapdf/utils/buffer.cpp: LessThan, Equals, ValueEqualLessThan"]}
{"id": "C47", "title": "Attribute override", "statement": "Adding an attribute with overwrite replaces the previous attribute; without overwrite a duplicate is rejected.", "quantifier": "every history of attribute operations", "why_tests_cant": "Unbounded histories.", "anchors": ["src/vanillapdf/syntax/utils/object_attribute_list.cpp: Add, Remove, Get"]}
{"id": "C48", "title": "Appending a document appends its pages in order", "statement": "Appending a document to another leaves the destination's existing pages in place and adds copies of all source pages in order, and does not modify the source document.", "quantifier": "every pair of documents", "why_tests_cant": "Unbounded page sequences and graphs.", "anchors": ["src/vanillapdf/semantics/objects/document.cpp: AppendDocument, AppendPage"]}
{"id": "C49", "title": "PDF header version survives write and re-read", "statement": "The version written to the file header is the version detected when the file is opened, wherever the header starts in the file.", "quantifier": "every version and every leading garbage", "why_tests_cant": "Arbitrary leading bytes.", "anchors": ["src/vanillapdf/syntax/files/file_writer.cpp: WriteHeader", "src/vanillapdf/syntax/parsers/parser.cpp: ReadHeader"]}
{"id": "C50", "title": "Bit flags", "statement": "Setting, clearing and testing a bit of an integer object affects exactly that bit.", "quantifier": "every integer and every bit position", "why_tests_cant": "2^64 values times positions and histories of operations.", "anchors": ["src/vanillapdf/syntax/objects/numeric_object.cpp: IsBitSet, SetBit, ClearBit"]}
{"id": "C51", "title": "Stream objects survive write and re-read", "statement": "Serialising a stream object whose Length entry matches its data and parsing the output yields a stream with the same dictionary and the same data bytes, even when the data contains the word endstream.", "quantifier": "all stream dictionaries, all data byte strings, all following texts", "why_tests_cant": "Data and dictionaries are unbounded; the data may contain any keyword.", "anchors": ["src/vanillapdf/syntax/parsers/parser.cpp: ReadDictionaryStream", "src/vanillapdf/syntax/objects/stream_object.cpp: ToPdfStreamInternal"]}
{"id": "C52", "title": "The parser reads every standard object text and always ends", "statement": "For every text that the PDF grammar assigns to a direct object, with any white space and comments between tokens, the parser returns that object and stops just after it; on any other input it still ends.", "quantifier": "all object texts of the grammar, all byte strings for termination", "why_tests_cant": "The set of texts is infinite and recursive.", "anchors": ["src/vanillapdf/syntax/parsers/parser.cpp: ReadDirectObject", "src/vanillapdf/syntax/parsers/tokenizer.cpp: ReadToken"]}
{"id": "C53", "title": "Comparing a buffer with a C string", "statement": "A buffer compares equal to a C string exactly when it has the same characters.", "quantifier": "all buffers and all C strings", "why_tests_cant": "Unbounded number of string pairs, including all proper prefixes and the empty buffer.", "anchors": ["src/vanillapdf/utils/buffer.cpp: operator==(const char*, const Buffer&), operator!="]}
{"id": "C54", "title": "Streams with a missing or wrong Length are recovered", "statement": "A stream whose Length entry is missing, negative, beyond the end of the file or leads to something other than endstream is read with exactly the bytes between the line end after stream and the end of line before endstream, its Length entry is corrected, and reading goes on right after it.", "quantifier": "all stream dictionaries, all data not containing endstream, all line ends, all wrong lengths", "why_tests_cant": "Data, dictionary and wrong value are unbounded; the search must be right for every arrangement of line ends in the data.", "anchors": ["src/vanillapdf/syntax/parsers/parser.cpp: ReadDictionaryStream", "src/vanillapdf/utils/streams/input_stream.cpp: Readline"]}
{"id": "C56", "title": "The chosen encryption algorithm is the one used", "statement": "After a document is encrypted with a chosen algorithm, its strings and streams are encrypted with that algorithm.", "quantifier": "all encryption settings: algorithm, passwords, key length, permissions; all document identifiers", "why_tests_cant": "The encryption dictionary that decides it is computed from unbounded passwords and identifiers.", "anchors": ["src/vanillapdf/semantics/objects/document.cpp: Document::AddEncryption", "src/vanillapdf/syntax/files/file.cpp: File::EncryptStream, GetEncryptionAlgorithmForFilter"]}
{"id": "C57", "title": "Changes to a page's instructions are written", "statement": "After changing the instruction list of a page and recalculating its streams, the page opened anew shows the changed instructions; recalculating an unchanged page leaves its content as it is.", "quantifier": "every page, every sequence of changes", "why_tests_cant": "Histories of edits and contents are unbounded.", "anchors": ["src/vanillapdf/semantics/objects/page_contents.cpp: Instructions, RecalculateStreamData", "src/vanillapdf/contents/content_stream_instruction_base.h: BaseInstructionCollection", "src/vanillapdf/implementation/contents/c_content_instruction.cpp"]}
{"id": "C55", "title": "Damaged cross-reference data does not lose objects", "statement": "If the cross-reference data at the end of a file is missing or damaged, opening the file still gives every object that is complete in the file: the last one with each number, with its generation and value, and the last trailer dictionary.", "quantifier": "every file made of any number of complete objects, tables, trailers and other lines, with any damage to its cross-reference data or end", "why_tests_cant": "A test damages a few sample files at a few places; the claim is about every text and every place of damage.", "anchors": ["src/vanillapdf/syntax/parsers/parser.cpp Parser::FindAllObjects", "src/vanillapdf/syntax/files/file.cpp File::Initialize, File::GetLastXrefOffset"]}
{"id": "C58", "title": "An object dropped as a duplicate is gone and nothing else is", "statement": "After an object was released from a file (as happens to duplicates while writing an optimised file) resolving it gives the null object, its number stays taken, and every object with another number resolves as before.", "quantifier": "every chain of cross-reference sections, every object number and generation", "why_tests_cant": "Which section answers a lookup depends on all other sections; a test has one chain.", "anchors": ["src/vanillapdf/syntax/files/xref_chain.cpp: ReleaseEntry, GetXrefEntry", "src/vanillapdf/syntax/files/file_writer.cpp: RemoveDuplicitIndirectObjects"]}
{"id": "C59", "title": "A signature covers the whole file except its own value", "statement": "Signing a document with a key produces a file whose signature dictionary can be read back with all the settings given; its byte ranges cover every byte of the file except the text of the Contents value; Contents is the signature of exactly those bytes; nothing but the space reserved for these two values differs from the file as it was written, and a signature too large for the space is reported. The key can be used again and the signed document can be saved again.", "quantifier": "every signing function, all settings, every text before and after the signature dictionary, every object number", "why_tests_cant": "A test signs a few documents with one key; offsets, digit counts and block boundaries differ for every file size.", "anchors": ["src/vanillapdf/semantics/objects/document.cpp Document::Sign", "src/vanillapdf/semantics/utils/document_signer.cpp DocumentSigner::OnBeforeOutputFlush", "src/vanillapdf/utils/pkcs12_key.cpp SignInitialize, SignUpdate, SignFinal, SignCleanup"]}
{"id": "C60", "title": "Encryption survives saving and copying", "statement": "Saving an encrypted document, adding or removing its encryption, and copying objects between documents of which either may be encrypted keep every string and every stream body: what the user reads from the new file equals what they read from the old one, whatever numbers the objects get, and everything in an encrypted file except exempted data is enciphered with the key of its object.", "quantifier": "all objects with strings at any depth, all stream dictionaries and bodies, all source and destination encryptions, all object numbers before and after, read and unread streams", "why_tests_cant": "Encryption depends on the object number and on whether a stream happened to be read before; tests try a few files and compare a few values, and cannot cover every renumbering, object shape, key and combination of encrypted and plain documents.", "anchors": ["src/vanillapdf/syntax/objects/string_object.cpp: GetValue, Clone, ToPdfStreamInternal", "src/vanillapdf/syntax/objects/stream_object.cpp: Clone, GetBodyDecrypted, GetBodyEncoded", "src/vanillapdf/syntax/objects/object.cpp: GetRootObjectNumber, IsEncryptionExempted, CloneBaseProperties", "src/vanillapdf/syntax/files/file.cpp: ShallowCopyObject, EncryptData, DecryptData", "src/vanillapdf/syntax/files/file_writer.cpp: SetEncryptionData, CloneXrefChain", "src/vanillapdf/semantics/objects/document.cpp: AddEncryption, RemoveEncryption, ForceObjectInitialization"]}
{"id": "C61", "title": "A saved document is the same document", "statement": "Saving a document with the default settings, however often it was updated before, writes a file that opens with the requested version and whose Root, Info and ID lead to the same document: following references from there, every object looks the same at any depth, although updates were merged, unreferenced objects left out, equal objects merged and all objects renumbered.", "quantifier": "all documents (objects, numbers, generations, chains of updates), all hash functions, all iteration orders of the hash tables, all depths", "why_tests_cant": "The result depends on the numbers of the objects, on which are missing, null or equal, and on the order of hash tables; a few sample files cannot cover the combinations, and a wrong reference is visible only to a reader that follows it.", "anchors": ["src/vanillapdf/syntax/files/file_writer.cpp: Write, CompressAndOptimize, MergeXrefs, RemoveUnreferencedObjects, RemoveAllDuplicitIndirectObjects, RemoveFreedObjects, SquashTableSpace, WriteXrefChain", "src/vanillapdf/syntax/objects/indirect_reference_object.cpp: GetReferencedObjectNumber, ToPdfStreamInternal", "src/vanillapdf/syntax/files/file.cpp: Initialize, GetIndirectObject"]}
{"id": "C62", "title": "Entries of a page, document information and page ranges read back as set", "statement": "What was set for an entry of a page (contents, annotations, boxes, resources) or of the document information is what is read afterwards, the other entries stay as they are, an entry that is absent is reported as absent; a resource that a page does not have is looked up in its parents; a name of the trapped state is understood exactly when it is one of the three of the standard; the n-th sub-range of a print page range consists of its n-th pair of numbers.", "quantifier": "all dictionaries, all sequences of sets and gets, all names, all depths of page trees, all arrays of page numbers and all indices", "why_tests_cant": "Tests set and read an entry of a few documents once; which combination of earlier reads, entries that already exist and indices was used is not covered.", "anchors": ["src/vanillapdf/semantics/objects/page_object.cpp", "src/vanillapdf/semantics/objects/document_info.cpp", "src/vanillapdf/semantics/objects/viewer_preferences.cpp PageRange::At", "src/vanillapdf/semantics/objects/resource_dictionary.cpp"]}
{"id": "C63", "title": "Opening a document does not depend on what was opened before", "statement": "Opening a file as a document gives the document that is already open for that very file, or else a new one; whatever files and documents were opened, closed or failed to open before, a readable file is opened and never answered with a document of another file or an error about another object.", "quantifier": "all histories of opening and closing files and documents, in any order and number, all addresses the allocator may give", "why_tests_cant": "The outcome depends on whether the allocator reuses an address, which a test cannot choose, and on the whole history of the process.", "anchors": ["src/vanillapdf/semantics/utils/semantic_utils.cpp SemanticUtils::AddDocumentMapping, GetMappedDocument, ReleaseMapping", "src/vanillapdf/semantics/objects/document.cpp Document::OpenFile, Document::Document, Document::~Document"]}
{"id": "C64", "title": "Kinds of objects, named values, links and outlines are those of the standard", "statement": "A dictionary is taken for an annotation, a font, a form field or a destination of a kind exactly when the standard says it is one of that kind, whether its entries are given directly or by reference; page layout, page mode and the viewer preferences have the value the standard gives their name; a link leads to the page of its destination, given directly, by a name of the catalog or by a string of the name tree; a named destination that was inserted is found and the others are kept; going through a level of an outline gives every title in order, and the parent of an item is what it is in the file.", "quantifier": "all dictionaries, all arrangements of direct and indirect values, all names, all outlines of any length", "why_tests_cant": "Tests read the few kinds the sample files contain; a name missing from a table or spelled otherwise shows only with a file that has it.", "anchors": ["src/vanillapdf/semantics/objects/annotations.cpp AnnotationBase::Create, LinkAnnotation::Destination", "src/vanillapdf/semantics/objects/font.cpp FontBase::Create", "src/vanillapdf/semantics/objects/fields.cpp Field::Create", "src/vanillapdf/semantics/objects/destinations.cpp", "src/vanillapdf/semantics/objects/catalog.cpp PageLayout, PageMode", "src/vanillapdf/semantics/objects/viewer_preferences.cpp", "src/vanillapdf/semantics/objects/outline.cpp"]}
{"id": "C65", "title": "An object has one value, whatever was read before", "statement": "Asking an open file for an object gives the object of the newest section that has its number, read from its offset or from its object stream, or what the program put there itself; the answer does not depend on which other objects were read, edited or saved before, and no object is marked as changed unless the program changed it. Asking always comes to an end.", "quantifier": "all files (any number of sections and object streams), all histories of reads, edits and saves in any order, all objects", "why_tests_cant": "Objects are read when they are first asked for, and reading one object of an object stream fills in all its others; whether an answer is right depends on the order of all earlier calls.", "anchors": ["src/vanillapdf/syntax/files/file.cpp File::GetIndirectObjectInternal, File::InitializeObjectStream", "src/vanillapdf/syntax/files/xref_entry.cpp XrefUsedEntry::Initialize, XrefCompressedEntry::Initialize, XrefUsedEntryBase::SetReference", "src/vanillapdf/syntax/utils/file_writer.cpp FileWriter::CloneXref"]}
{"id": "C66", "title": "After a failure a thread is told its own last error", "statement": "A call of the C interface that fails returns the code of its failure; the last error and the last message of a thread are those of that thread's own last failing call, whatever other threads do at the same time. The message comes back whole and terminated in a buffer of the length that was reported, a smaller buffer is not touched, and every code has its own text.", "quantifier": "all interleavings of calls of any number of threads, all kinds of failures, all messages and buffers", "why_tests_cant": "Which error a thread sees depends on the interleaving of the calls of all threads and on the length of the message; tests sample one schedule and short messages.", "anchors": ["src/vanillapdf/utils/errors.cpp: SetLastError, SetLastErrorMessage, GetLastErrorMessageLength", "src/vanillapdf/implementation/c_helper.h: CATCH_VANILLAPDF_EXCEPTIONS, RETURN_ERROR_IF_NULL", "src/vanillapdf/implementation/utils/c_errors.cpp: GetValueName, Errors_GetPrintableErrorText, Errors_GetLastErrorMessage"]}
{"id": "C67", "title": "A memory stream holds what was written to it", "statement": "A memory stream behaves like memory with a position for reading and one for writing: whatever is written is stored at the writing position, reads give what is stored at the reading position, for every sequence of reads, writes and moves of the positions. A stream made from a buffer gives back exactly the buffer.", "quantifier": "all sequences of calls, all data, all positions", "why_tests_cant": "The two halves share the state of one stream, so whether a write is stored depends on every earlier read; the sequences cannot be enumerated.", "anchors": ["src/vanillapdf/utils/streams/input_stream.cpp: Read, GetInputPosition, SetInputPosition", "src/vanillapdf/utils/streams/output_stream.cpp: Write, SetOutputPosition", "src/vanillapdf/utils/streams/stream_utils.cpp: InputOutputStreamFromMemory, InputStreamToBuffer", "src/vanillapdf/implementation/utils/c_input_output_stream.cpp"]}
{"id": "C68", "title": "Real numbers survive writing and reading", "statement": "A real number in a document is read as the nearest double and is written with the same digits it was read with; a value a program sets is written so that reading it gives the same value back.", "quantifier": "all texts of real numbers, all doubles, all numbers of places", "why_tests_cant": "Rounding in both directions depends on every bit of the number; the 2^64 doubles and the unbounded texts cannot be tried.", "anchors": ["src/vanillapdf/syntax/objects/numeric_object.cpp: RealString, SetRealValue, GetIntegerValue", "src/vanillapdf/syntax/utils/parser_utils.cpp: CreateReal", "src/vanillapdf/syntax/objects/real_object.cpp", "src/vanillapdf/utils/conversion_utils.h: SafeConvert"]}
{"id": "C69", "title": "The protection a program asks for is the protection the document gets", "statement": "After encryption was added with given settings, the document permits exactly the actions the settings allow, its data is enciphered with the algorithm and key length asked for, and the saved document says that it is encrypted; after encryption was removed the saved document is not encrypted any more.", "quantifier": "all combinations of permission flags, algorithms, key lengths and passwords, all documents with any number of update sections", "why_tests_cant": "A wrong permission bit or a leftover entry of an older section does not show when the file is opened with the same library; the combinations of flags and histories cannot be enumerated.", "anchors": ["src/vanillapdf/semantics/utils/document_encryption_settings.cpp: GetPermissionInteger", "src/vanillapdf/semantics/objects/document.cpp: AddEncryption, RemoveEncryption", "src/vanillapdf/syntax/files/file.cpp: EncryptString, EncryptStream", "src/vanillapdf/syntax/files/file_writer.cpp: MergeXrefs, CloneTrailerDictionary", "include/vanillapdf/semantics/c_document_encryption_settings.h: UserAccessPermissionFlags"]}
{"id": "C70", "title": "Signing adds one signature field to the document and keeps everything else", "statement": "Document_Sign on a document with pages adds exactly one signature field whose value is the new signature to the form and to the annotations of the first page, sets the signature flags, and changes nothing else of the document; its fields have names of their own; if the call fails the document is as it was before.", "quantifier": "all documents (any page tree, direct or indirect annotation arrays, forms, flags and field arrays), all numbers given to new objects, any number of signings, any failure of writing", "why_tests_cant": "The entries can be direct or indirect in any combination and may share objects, and the objects already in the document are arbitrary; that nothing is lost is a statement about all of them.", "anchors": ["src/vanillapdf/semantics/objects/document.cpp: Sign, CreateCatalog, CreateAcroForm", "src/vanillapdf/semantics/objects/interactive_forms.cpp: CreateFields, CreateSignatureFlags", "src/vanillapdf/semantics/objects/signature_flags.h", "src/vanillapdf/syntax/objects/dictionary_object.cpp: Insert, Contains"]}
{"id": "C71", "title": "Objects of one open file can be asked for by several threads", "statement": "When several threads ask one open file for objects, in any order and with any schedule, every thread gets for each number the object the file has for it, all threads get the same object for the same number, and every request is answered after finitely many steps: no schedule leaves threads waiting for each other, and no file makes a request recurse without end.", "quantifier": "all files (where each object is, which Lengths are indirect, which objects are in object streams), all numbers of threads, all sequences of requests and all schedules", "why_tests_cant": "a test runs a handful of schedules on a few files; lock-order inversions need two threads between two particular instructions, and the guarantee ranges over all interleavings", "anchors": ["src/vanillapdf/syntax/files/xref_entry.cpp: XrefUsedEntry::Initialize, XrefCompressedEntry::Initialize, XrefUsedEntryBase::SetReference, GetReference", "src/vanillapdf/syntax/files/file.cpp: File::InitializeObjectStream, GetIndirectObject", "src/vanillapdf/syntax/parsers/parser.cpp: ReadDictionaryStream", "src/vanillapdf/syntax/objects/stream_object.cpp: GetBodyRaw", "src/vanillapdf/utils/streams/input_stream.cpp: ExclusiveInputLock"]}
{"id": "C72", "title": "Only what is enciphered is deciphered", "statement": "In an encrypted document every string and stream is deciphered when it is read, except those the standard leaves as they are: the encryption dictionary, the file identifiers, cross-reference streams, objects inside object streams and the contents of signatures. Those are shown, and saved again, byte for byte as they are stored. Finding them never keeps a document from being opened.", "quantifier": "all files: any cross-reference sections and trailers, any objects and reference graphs, any forms and fields, any encryption, with or without a password", "why_tests_cant": "tests use a few encrypted files; where the exceptions are depends on the shape of forms, trailers and references, and one missed exception silently destroys a signature", "anchors": ["src/vanillapdf/syntax/files/file.cpp: File::Initialize, ExemptEncryptionDictionary, ExemptCrossReferenceStreams, ExemptDocumentId, ExemptFileSignatures", "src/vanillapdf/syntax/objects/object.cpp: IsEncryptionExempted, CloneBaseProperties", "src/vanillapdf/syntax/objects/string_object.cpp: GetValue, ToPdfStreamInternal", "src/vanillapdf/syntax/parsers/parser.cpp: ReadObjectStreamEntries, ParseXrefStream", "src/vanillapdf/syntax/files/file_writer.cpp: CloneTrailerDictionary, SetEncryptionData"]}
{"id": "C73", "title": "Incremental saves of hybrid-reference files", "statement": "When a hybrid-reference file (a classic cross-reference table whose trailer names a cross-reference stream with further objects) is opened, changed and saved incrementally, the result contains every original byte, opens, shows every changed object as it was changed, and shows every other object, whether the table or only the stream lists it, as before.", "quantifier": "all hybrid files with one table: any objects, any hybrid stream, any set of changed objects, any contents", "why_tests_cant": "which entry of several wins depends on the combination of table, hybrid stream and update; tests cover one or two combinations of sample files", "anchors": ["src/vanillapdf/syntax/files/file_writer.cpp: WriteIncremental, CreateIncrementalXref, CloneTrailerDictionary", "src/vanillapdf/syntax/files/xref.cpp: XrefTable::Find, XrefBase::Entries", "src/vanillapdf/syntax/files/file.cpp: File::ReadXref, GetIndirectObjectInternal"]}
{"id": "C74", "title": "Objects are found by the numbers written in front of them", "statement": "When a cross-reference table gives objects other numbers than the file does, looking up an object by number gives the object that carries this number, or nothing if no entry leads to one; the answer does not depend on which objects were looked up before, and damage to one object does not keep others from being found.", "quantifier": "all chains of cross-reference sections with any wrong numbers, all contents at the offsets, and all histories of lookups", "why_tests_cant": "the tables are changed by lookups, so answers depend on histories and on the order of the entries in a hash table; tests try one file and one order", "anchors": ["src/vanillapdf/syntax/files/file.cpp: File::GetIndirectObjectInternal", "src/vanillapdf/syntax/files/xref_entry.cpp: XrefUsedEntry::Initialize", "src/vanillapdf/syntax/files/xref.cpp: XrefBase::Add, Find, Entries, Clear"]}
{"id": "C75", "title": "A dictionary keeps the keys it was given", "statement": "Find, insert, remove and iteration of a dictionary depend only on the texts that the names had when they were passed to it: giving another text to a name that was used as a key, or to a key read back by an iterator, changes neither this dictionary nor any other, nor the names used elsewhere.", "quantifier": "all histories of making and changing names and of inserting, finding, removing, clearing, reading keys back and iterating over any number of dictionaries, and all shapes of the search tree", "why_tests_cant": "whether an entry is still found after a key changed depends on the whole history of insertions, which gives the shape of the search tree, and on which names share a text", "anchors": ["src/vanillapdf/syntax/objects/dictionary_object.cpp: DictionaryObject::Insert, Find, Remove", "src/vanillapdf/syntax/objects/name_object.cpp: NameObject::SetValue, operator<", "src/vanillapdf/implementation/syntax/c_dictionary_object.cpp: DictionaryObject_Insert, DictionaryObject_InsertConst, DictionaryObjectIterator_GetKey"]}
{"id": "C76", "title": "A loop over a collection visits each element once", "statement": "A loop that takes an iterator of a dictionary, of a cross-reference section or of a list of content instructions, and steps it until it is not valid, visits every element that the body of the loop leaves alone exactly once and touches nothing that is gone, whatever the body inserts, removes, replaces, clears or releases.", "quantifier": "all collections, all loop bodies that may depend on the round and on the element, all orders of hash tables", "why_tests_cant": "which changes spoil an iterator depends on the kind of the collection, on its size against its capacity and on the element the loop stands on; errors are undefined behaviour that a test may not show", "anchors": ["src/vanillapdf/utils/base_iterator.h: BaseIterator", "src/vanillapdf/implementation/syntax/c_dictionary_object.cpp: DictionaryObject_GetIterator, DictionaryObjectIterator_Next", "src/vanillapdf/implementation/syntax/c_xref.cpp: Xref_GetIterator, XrefIterator_Next, Xref_Insert", "src/vanillapdf/implementation/contents/c_content_instruction.cpp: ContentInstructionCollection_GetIterator, ContentInstructionCollection_Append"]}
{"id": "C77", "title": "A reference stands for the object it was pointed at", "statement": "A reference that a program points at an object, or reads from a file, has the number under which the file has the object, is written with that number, gives that object as its target, and equals another reference exactly when both name the same number, with equal hashes; this does not depend on which handles the program keeps or releases, on the order of the calls, and holds when objects are put under numbers and replaced.", "quantifier": "all histories of creating objects, entries and references, placing and replacing objects, pointing references, releasing handles and asking", "why_tests_cant": "what a reference answers depends on a weak pointer, a back pointer of the target, a backup number and a cached hash, each updated at different calls; a test sees one history", "anchors": ["src/vanillapdf/syntax/objects/indirect_reference_object.cpp: GetReferencedObjectNumber, SetReferencedObject, GetReferencedObject, Hash, Equals", "src/vanillapdf/syntax/objects/object.cpp: IsIndirect, GetObjectNumber, ClearXrefEntry", "src/vanillapdf/syntax/files/xref_entry.cpp: SetReference, ReleaseReference", "src/vanillapdf/implementation/syntax/c_indirect_reference_object.cpp: IndirectReferenceObject_GetReferencedObjectNumber"]}
{"id": "C78", "title": "Saving leaves the open document as it was", "statement": "After a full or incremental save the program reads every object of the open document as it left it, and every further save, full or incremental, writes the document as the program left it, whatever was saved before.", "quantifier": "all documents and all sequences of lookups, edits, new objects, full saves and incremental saves", "why_tests_cant": "the effect of a save on the document in memory only shows in what is read or saved later; a test saves once and reopens the file", "anchors": ["src/vanillapdf/syntax/files/file_writer.cpp: CreateIncrementalXref, WriteIncremental, Write, CloneXref", "src/vanillapdf/syntax/files/xref_entry.cpp: ReleaseReference, GetReference, SetReference", "src/vanillapdf/implementation/semantics/c_document.cpp: Document_Save, Document_SaveIncremental"]}
{"id": "C79", "title": "A document made from nothing becomes the file the program described", "statement": "A program creates a document, makes pages and other objects, sets entries of the pages and inserts, appends and removes pages. Every call answers as the order of the pages demands, the document can be saved, and the file that was written opens again with the same pages in the same order, each with the entries it was given, and with the producer and the date of creation.", "quantifier": "all sequences of new pages, new objects, entries set on pages, insertions, appends and removals; all hash functions and iteration orders of the containers", "why_tests_cant": "what is saved depends on the whole history of calls and on the hashes of all objects, because saving merges objects that are equal", "anchors": ["src/vanillapdf/semantics/objects/document.cpp: Document::CreateFile, CreateCatalog, CreateDocumentInfo, Save, SaveIncremental", "src/vanillapdf/semantics/objects/page_object.cpp: PageObject::Create, SetMediaBox", "src/vanillapdf/semantics/objects/page_tree.cpp: InsertPage, AppendPage, RemovePage, UpdateKidsCount", "src/vanillapdf/syntax/files/file.cpp: AllocateNewEntry", "src/vanillapdf/syntax/files/file_writer.cpp: Write, WriteIncremental"]}
{"id": "C80", "title": "Compressed data of any size is read whole, and what can be read of damaged data is read", "statement": "Compressing a buffer and decompressing the result gives the buffer back, whatever its size. Complete compressed data followed by anything is decompressed completely. Data that is cut off is reported. Of damaged data everything in front of the damage is returned, or an error is reported, and never a byte that is not there.", "quantifier": "all buffers of all sizes, all places where data can be cut off or damaged, and every compression library that keeps the contract of the streaming interface, whatever it consumes and produces in each call", "why_tests_cant": "input and output are exchanged in blocks of 4096 bytes; the result depends on where the ends of blocks, the end of the data and the damage fall with respect to each other and on what the library returns in each call", "anchors": ["src/vanillapdf/utils/zlib_wrapper.cpp: Inflate, Deflate, ZlibWrapper::Inflate, ZlibWrapper::Deflate"]}
{"id": "C81", "title": "Image data goes through the image codecs unchanged", "statement": "Decoding a DCT or JPX image gives the samples of the picture line by line, each pixel with its components side by side, and an attribute with its size. Compressing hands the lines of the data to the compressor and returns all it produces. Data that is cut off is reported as an error.", "quantifier": "all image data, all behaviours of the image libraries as readers and writers of bytes, all picture sizes, numbers of components, component sizes and sample depths, all existing attributes", "why_tests_cant": "the outcome depends on where the data ends with respect to what the library wants next and on every combination of picture and component sizes, including sizes whose product does not fit 32 bits", "anchors": ["src/vanillapdf/syntax/filters/dct_decode_filter.cpp: fill_input_buffer, skip_input_data, empty_output_buffer, DCTDecodeFilter::Encode, DCTDecodeFilter::Decode", "src/vanillapdf/syntax/filters/jpx_decode_filter.cpp: memory_stream_read, JPXDecodeFilter::Decode", "src/vanillapdf/syntax/utils/image_metadata_object_attribute.h"]}
{"id": "C82", "title": "Observers of the file writer are told what it does", "statement": "An observer that is subscribed and not released is told, in order, that a save begins, before and after the offset of each object is set and the object is written (with the right offset), before and after the flush, and the end; nobody else is told anything. Observers do not change the file that is written. A callback that returns an error stops the save with UserCancelled, and nobody is called after that.", "quantifier": "all sequences of making, subscribing, unsubscribing and releasing observers, all addresses the allocator may give, all orders in which the writer visits its observers, all callbacks, all documents", "why_tests_cant": "what an observer hears depends on the whole history of observers, on addresses that are used again and on the order of a hash table", "anchors": ["src/vanillapdf/utils/observable_interface.h: IObservable::Subscribe, Unsubscribe", "src/vanillapdf/utils/unknown_interface.h: WeakReference::Identity, Hash", "src/vanillapdf/syntax/files/file_writer.h: IFileWriterObservable, Invoke", "src/vanillapdf/syntax/files/file_writer.cpp: FileWriter::Write, WriteEntry, WriteObject", "src/vanillapdf/implementation/syntax/c_file_writer_observer.cpp: CustomFileWriterObserver"]}
{"id": "C83", "title": "Protection for certificate holders lets exactly the recipients in", "statement": "For a document that is encrypted for the holders of certificates (public-key security handlers adbe.pkcs7.s3, s4 and s5), giving the private key of any recipient is answered with true and yields the key of the standard, so that strings and streams can be read; giving any other key is answered with false and changes nothing.", "quantifier": "all documents, all numbers of groups and recipients, all places of the recipient in them, all private keys", "why_tests_cant": "the groups of recipients, their order and the messages in them are unbounded, and which certificates a test has is arbitrary", "anchors": ["src/vanillapdf/syntax/files/file.cpp: File::SetEncryptionKey", "src/vanillapdf/syntax/utils/encryption.cpp: EncryptionUtils::GetRecipientKey, DecryptEnvelopedData", "src/vanillapdf/utils/pkcs12_key.cpp: PKCS12Key::Decrypt, ContainsPrivateKey"]}
{"id": "C84", "title": "Only what the vendor granted is licensed", "statement": "A license given to the library is accepted exactly when the vendor signed it, its serial number is not on the list of refused ones and its updates cover the build; a refused license changes nothing; the library is licensed when a license was accepted, until the day at which the last accepted one ends.", "quantifier": "all license files, all signatures and chains of certificates, all lists of refused serial numbers, all sequences of licenses that a program gives, all times", "why_tests_cant": "license files are arbitrary texts, possibly made by somebody who wants more than was granted, and programs give any number of them", "anchors": ["src/vanillapdf/utils/license_info.cpp: LicenseInfo::SetLicense, IsValid, IsTemporary, CheckBlacklist, CheckUpdateExpiration, CheckTemporaryExpiration", "src/vanillapdf/utils/misc_utils.cpp: MiscUtils::CaseInsensitiveCompare"]}
{"id": "C85", "title": "String destinations follow their pages into the target", "statement": "When a document is appended to another one, every string destination of the source that leads to an appended page leads, under the same string and with the same view, to the copy of that page in the target, and the string destinations that the target had are kept.", "quantifier": "all sources with their name trees, all numbers and kinds of string destinations, all targets with or without a name tree of any depth, all sequences of appended pages", "why_tests_cant": "name trees have any depth and any number of entries, direct or indirect, and one append follows another", "anchors": ["src/vanillapdf/semantics/objects/document.cpp: Document::MergePageDestinations, MergeStringDestinations, AppendStringDestination, FixDestinationPage", "src/vanillapdf/semantics/objects/tree.h: NameTree::Insert, TreeBase::Insert, TreeBase::Rebuild", "src/vanillapdf/semantics/objects/destinations.cpp: DestinationBase::Create, GetPage"]}
{"id": "C86", "title": "Handles stay good until they are given back", "statement": "A handle that the C interface has given to a program refers to a live object of the class its type names until the program gives it back, whatever else is called, released or dropped inside the library; no function takes it for a handle of something else; and every handle can be given back, after which an object nobody refers to is gone.", "quantifier": "all finite histories of calls of all 737 public functions with owned handles or null, all outcomes of the work inside a call (success, error, exception), all objects it may hand out, new or existing, and all changes of the library's own references between calls", "why_tests_cant": "the calls combine without bound, and a wrong cast often works by accident on one compiler", "anchors": ["src/vanillapdf/implementation/c_helper.h: SafeObjectConvert, ObjectRelease, RETURN_ERROR_PARAM_VALUE_IF_NULL", "src/vanillapdf/implementation/**/*.cpp: all public functions", "src/vanillapdf/utils/unknown_interface.cpp: IUnknown::AddRef, IUnknown::Release"]}
{"id": "C87", "title": "Null pointers are refused", "statement": "A null pointer passed to a function of the C interface where a pointer is required makes the call return the parameter error and changes nothing; it is never followed.", "quantifier": "all public functions, all their pointer parameters, all other arguments, all reachable states", "why_tests_cant": "737 functions with several pointers each in every state; a missing check shows only for the one combination", "anchors": ["src/vanillapdf/implementation/c_helper.h: RETURN_ERROR_PARAM_VALUE_IF_NULL", "src/vanillapdf/implementation/**/*.cpp: all public functions"]}
{"id": "C88", "title": "An index that a collection does not have is refused", "statement": "Reading, inserting or removing at an index that a collection does not have makes the call return an error and leaves the collection as it was; an index it has means that element, as the size that the collection reports says.", "quantifier": "all collections of the interface with indexes (arrays, lists of buffers, instructions of a page, operations of a text object, operands, annotations, form fields, byte ranges of a signature), all contents, all 64-bit indexes, all histories of calls", "why_tests_cant": "the index is any 64-bit number and depends on the history of the collection; reading or writing beyond a vector often goes unnoticed", "anchors": ["src/vanillapdf/utils/buffer_array.cpp: BufferArray::Insert, BufferArray::Remove", "src/vanillapdf/contents/content_stream_instruction_base.h: BaseInstructionCollection", "src/vanillapdf/implementation/contents/c_content_instruction.cpp: ContentInstructionCollection_Insert, ContentInstructionCollection_Remove", "src/vanillapdf/semantics/objects/digital_signature.cpp: ByteRangeCollection::GetValue", "src/vanillapdf/semantics/objects/annotations.cpp: PageAnnotations::At", "src/vanillapdf/semantics/objects/fields.cpp: FieldCollection::At"]}
{"id": "C89", "title": "An interrupted incremental save leaves a document that opens", "statement": "If the program stops at any point while it appends changes to a file, the file that is left still opens, and every object in it has the state of the last completed save or the new one.", "quantifier": "all documents, all histories of saves (one full save and any number of incremental ones), all changes, all points at which writing may stop, that is all prefixes of the new file that contain the old one", "why_tests_cant": "the crash point is any byte offset of a write whose content and length depend on the document and the history of the file", "anchors": ["src/vanillapdf/syntax/files/file_writer.cpp: FileWriter::WriteIncremental, FileWriter::WriteEntry, FileWriter::WriteXref, FileWriter::WriteXrefOffset", "src/vanillapdf/syntax/files/file.cpp: File::Initialize, File::GetLastXrefOffset", "src/vanillapdf/syntax/parsers/parser.cpp: Parser::FindAllObjects", "src/vanillapdf/syntax/parsers/reverse_parser.cpp: ReverseParser::ReadLastXrefOffset"]}
{"id": "C90", "title": "Content operators are those of the standard", "statement": "Reading a content stream turns every operator into an operation whose reported operator type is the one ISO 32000-1 Annex A has for the word (or Unknown for any other word), whose value is the word, and whose operands are those in front of it in their order; operands that the operator does not take are refused; what an operation is written as reads back as the same; changes through the setters of an operation stay in place.", "quantifier": "every text of an operation (any operands, any white space and comments, any word as operator), everything behind it, every history of changes of an operation", "why_tests_cant": "Operands and words are unbounded, and the type passes through four hand-written tables of 73 rows each: tests pick a few operators.", "anchors": ["src/vanillapdf/contents/content_stream_parser.cpp: ContentStreamParser::ReadOperation, ReadOperatorReturnOperation", "src/vanillapdf/contents/content_stream_operators.h", "src/vanillapdf/contents/content_stream_operations.cpp", "src/vanillapdf/syntax/parsers/token_dictionary.cpp: ContentStreamTokenDictionary::Initialize", "src/vanillapdf/implementation/contents/c_content_operator.cpp: ContentOperator_GetOperatorType", "src/vanillapdf/implementation/contents/c_content_operation.cpp: ContentOperation_GetOperationType"]}
{"id": "C91", "title": "Saving to a path leaves every other file alone and loses nothing", "statement": "Saving a document to a path changes no file but the one named; if that is not the file the document was opened from, the open document still reads every object as before; the named file then holds exactly the saved document, whatever it held before; saving onto the file the document was opened from gives the same file as saving anywhere else; and a save that fails leaves what the named file held.", "quantifier": "every content of the disk, every document with any of its objects read or not yet read, every path, full and incremental saves, every way in which a save fails", "why_tests_cant": "Objects are read lazily from the file that is being replaced: the result depends on which objects happen to have been read, and on the step at which a save fails.", "anchors": ["src/vanillapdf/syntax/files/file.cpp: File::Open, File::Create, File::GetFilestream", "src/vanillapdf/semantics/objects/document.cpp: Document::Save, Document::SaveIncremental", "src/vanillapdf/syntax/files/file_writer.cpp: FileWriter::Write, FileWriter::WriteIncremental, CopyStreamContent, CloneXref", "src/vanillapdf/syntax/files/xref_entry.cpp: XrefUsedEntry::Initialize"]}
{"id": "C92", "title": "Files that follow the standard are opened, and references stand for what the standard says", "statement": "Every file with cross-reference tables that follows ISO 32000, whichever program wrote it and however often it was updated, is opened with its version, its sections and its trailers, without searching for objects; every reference then gives the object the standard says it stands for, streams with a direct or an indirect length included, and null for a number that is free or not listed.", "quantifier": "every file text that follows the standard: every line end, spacing, comment, way of writing values and headings, split of tables into subsections, number of updates; every reference", "why_tests_cant": "Test files come from a few programs. The standard allows infinitely many texts for the same document, and every one of them has to be read alike.", "anchors": ["src/vanillapdf/syntax/files/file.cpp: File::Initialize, ReadXref, GetLastXrefOffset, GetIndirectObjectInternal", "src/vanillapdf/syntax/parsers/parser.cpp: ReadHeader, ReadXref, ReadXrefTable, ReadTableEntry, ReadIndirectObject, ReadIndirectStream", "src/vanillapdf/syntax/parsers/reverse_parser.cpp: ReadLastXrefOffset", "src/vanillapdf/syntax/files/xref_entry.cpp: XrefUsedEntry::Initialize"]}
{"id": "C93", "title": "Saved files follow the standard, and mean the document that was saved", "statement": "Every file that a full save or an incremental save writes follows ISO 32000, so that a program that knows only the standard, and not this library, opens it and finds for every reference the object of the document that was saved: changed objects in their new state, unchanged ones as they were, null for free and unknown numbers.", "quantifier": "every version, every document with any number of sections, entries, free numbers, gaps, objects and streams; every file that follows the standard, whoever wrote it, and every set of changes saved incrementally", "why_tests_cant": "Tests read saved files with the library itself, which accepts more than the standard allows, so that a writer and a reader with the same misunderstanding agree. Other readers see only the bytes.", "anchors": ["src/vanillapdf/syntax/files/file_writer.cpp: Write, WriteIncremental, WriteHeader, WriteXrefTable, WriteXrefObjects, WriteObject, WriteXrefOffset, CreateIncrementalXref, RecalculateXrefSize, RecalculateXrefPrevOffset"]}
{"id": "C94", "title": "Files with cross-reference streams and object streams are read as the standard says", "statement": "Every file that follows ISO 32000 with cross-reference tables, cross-reference streams, or both in different revisions, and with objects in object streams, is opened by its sections, without searching for objects, and every reference gives exactly the object that the standard says it stands for: the object at its offset, the member of the object stream, or null for deleted, unknown and reserved numbers.", "quantifier": "every such file: any number of revisions, subsections and rows, any field widths, any object streams with any members, any filters, lengths that are direct, at an offset or in an object stream", "why_tests_cant": "Tests read a handful of files from a few producers; field widths, subsections, mixtures of tables and streams and chains of lengths multiply, and one wrong shift or boundary loses objects silently.", "anchors": ["src/vanillapdf/syntax/parsers/parser.cpp: ParseXrefStream, ReadXref, ReadObjectStreamHeaders, ReadObjectStreamEntries", "src/vanillapdf/syntax/files/file.cpp: Initialize, ReadXref, ReadXrefChain, GetIndirectObjectInternal, SetObjectStreamEntries", "src/vanillapdf/syntax/files/xref_entry.cpp: XrefUsedEntry::Initialize, XrefCompressedEntry::Initialize"]}
{"id": "C95", "title": "Files saved with a cross-reference stream follow the standard, and mean the document that was saved", "statement": "Every file that a full save writes with a cross-reference stream follows ISO 32000, so that a program that knows only the standard, and not this library, opens it and finds for every reference the object of the document that was saved, whether it was saved at an offset or in an object stream, and null for free and unknown numbers.", "quantifier": "every version, every document with a cross-reference stream: any number of entries, free numbers, gaps, objects, streams and object streams with any members, every filter that can be undone", "why_tests_cant": "Tests read saved files with the library itself, which finds compressed objects by their number where the standard says that they are found by their index, and which does not read the row of the cross-reference stream for itself. Such a test passes although other readers see other objects.", "anchors": ["src/vanillapdf/syntax/files/file_writer.cpp: Write, RecalculateObjectStreamContent, RecalculateStreamLength, WriteXref", "src/vanillapdf/syntax/files/xref.cpp: XrefStream::RecalculateContent"]}
{"id": "C96", "title": "Opening and saving a file keeps the document, by the standard's reading of both files", "statement": "A file with cross-reference tables that follows ISO 32000, opened and saved to another file with the default settings and no changes, gives a file that follows ISO 32000, has the same version, and whose Root, Info and ID show, reference by reference and at any depth, what those of the source show; on both sides the standard alone says what a reference stands for.", "quantifier": "every file that follows the standard, whoever wrote it: any number of updates, deleted and reused numbers, objects out of use, any spacing, comments and notation; every hash function and every iteration order of the hash tables", "why_tests_cant": "A round trip in a test compares the library with itself, so that an error made alike in reading and writing goes unseen, and it tries a few documents and one iteration order; merging, renumbering and dropping of objects go wrong only for particular patterns of updates, equal objects and references.", "anchors": ["src/vanillapdf/syntax/files/file.cpp: Open, Initialize, GetIndirectObjectInternal", "src/vanillapdf/syntax/files/file_writer.cpp: Write, CloneXrefChain, CloneXref, CompressAndOptimize, WriteXrefChain", "src/vanillapdf/syntax/files/xref_entry.cpp: XrefUsedEntry::GetReference, Initialize"]}
{"id": "C97", "title": "A stream whose length is another object is saved whole, also when streams share that object", "statement": "Whatever the Length of a stream is when a document is saved - the right or a wrong number, a reference to an object that holds one and that other streams may refer to as well, or missing - the file follows ISO 32000 and every stream in it has exactly the data it had, with the other entries of its dictionary; the object that holds the length keeps its value, so that no other stream is cut or extended; and opening the file gives every object back.", "quantifier": "every document of one cross-reference table, any number of streams and lengths, shared in any way, right or wrong, any data", "why_tests_cant": "Only particular combinations go wrong: a comment in the source reports that two streams with one length object once ended with the length of the other. Tests cover few of the ways in which lengths can be shared, missing or out of date.", "anchors": ["src/vanillapdf/syntax/files/file_writer.cpp: RecalculateStreamLength, RecalculateStreamsLength, WriteXrefChain", "src/vanillapdf/syntax/utils/object_utils.h: ObjectTypeFunctor::Convert, DereferenceHelper", "src/vanillapdf/syntax/files/file.cpp: GetIndirectObjectInternal"]}
{"id": "C98", "title": "A changed stream is saved incrementally whatever its dictionary refers to", "statement": "After a program changes a stream of an opened file, or sets its body, and saves incrementally, the file is the old one with a section behind it, follows ISO 32000, and the stream in it has the data the program left, encoded with the stream's own filters, also when the length or the filter of the stream is an object of its own; all other objects stand for what they stood for.", "quantifier": "every file that follows the standard, every set of changes, every stream dictionary with direct or indirect Length, Filter and DecodeParms, every body", "why_tests_cant": "What goes wrong depends on which of the objects a stream refers to were changed as well, so every combination of changes and references has to be looked at; a test file usually has direct lengths and filters, where nothing is wrong.", "anchors": ["src/vanillapdf/syntax/files/file_writer.cpp: WriteIncremental, CreateIncrementalXref, CloneXref, RecalculateStreamLength", "src/vanillapdf/syntax/objects/stream_object.cpp: SetBody, GetBodyEncoded, Clone", "src/vanillapdf/syntax/objects/indirect_reference_object.cpp: Clone, GetReferencedObject", "src/vanillapdf/syntax/files/file.cpp: GetIndirectObjectInternal"]}
{"id": "C99", "title": "A document with object streams that is saved whole is the same document to every reader", "statement": "A document whose objects are stored in object streams, with any history of updates, that is opened and saved as a whole, gives a file in which every reader that follows ISO 32000 (not only this library) finds the document: Root, Info and ID lead to the same objects, at any depth.", "quantifier": "every document with a cross-reference stream, every number of updates, every distribution of objects over object streams, every hash function and order of hash tables", "why_tests_cant": "The library itself finds objects in object streams by their number and opens all of these files; a reader that goes by the index that is recorded fails only when an update or the save removed an earlier object of the same stream, so that the documents matter, not only the steps.", "anchors": ["src/vanillapdf/syntax/files/file_writer.cpp: Write, RecalculateObjectStreamContent, MergeXrefs, RemoveUnreferencedObjects, SquashTableSpace", "src/vanillapdf/syntax/files/xref_chain.cpp", "src/vanillapdf/syntax/files/file.cpp: GetIndirectObjectInternal"]}
{"id": "C100", "title": "The mark of the free version leaves the pages as they were", "statement": "Saving a document without a license adds a text, and an image where the size of the page is given, to every page with contents. Nothing of the document is changed or taken away: every page still shows its own content with its own resources, and the mark is drawn after it with the state of the graphics restored.", "quantifier": "every document, every page tree, every way pages share contents and resources, every media box", "why_tests_cant": "Documents may share streams, resources and fonts between any number of pages, directly or by reference, and inherit resources from any node above; what one page's mark does to another page depends on all of these, and a test file usually has pages of their own.", "anchors": ["src/vanillapdf/syntax/files/file_writer.cpp: ApplyWatermark, ApplyWatermarkPageNode, ApplyWatermarkPrependSave, ApplyWatermarkContentStream, AddWatermarkFont", "src/vanillapdf/syntax/utils/object_utils.h: ConvertTo, IsType, ConversionHelper"]}
{"id": "C101", "title": "A file saved without a license follows the standard and shows the marked document", "statement": "Saving a document without a license yields a file that every reader of the standard can read. By the standard's reading it holds the objects of the document, each with what it had; the content streams, decoded, are those of the document with the mark of their pages; what meant null in the document means null in the file.", "quantifier": "every document that can be saved in one table, every page tree, every pair of filters that fit together, every text and image of the mark", "why_tests_cant": "The mark changes streams and dictionaries after the document was renumbered and before offsets and lengths are computed; whether the file as a whole is still right for every reader depends on all objects and all filters, and a test reads back few files with the same library.", "anchors": ["src/vanillapdf/syntax/files/file_writer.cpp: Write, ApplyWatermark, AddWatermarkFont, WriteXrefChain, RecalculateStreamLength", "src/vanillapdf/syntax/files/file.cpp: AllocateNewEntry", "src/vanillapdf/syntax/objects/stream_object.cpp: GetBody, GetBodyEncoded"]}
