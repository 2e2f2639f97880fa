C01 | proved | Round trip through the tokenizer and through the encoded-name constructor, for every byte string and every following text that ends the token; the text has printable regular characters only. Stronger: every standard encoding of a name is read as the name it denotes.
C02 | proved | Round trip for every byte string. Also every standard literal text (nesting, escapes, octal, continuation lines) is read as the string it denotes, except raw CR and CR LF, which the standard turns into LF and the library keeps (C02_raw_cr_refuted).
C03 | proved | Round trip for every byte string, and every standard hexadecimal text is read correctly.
C04 | proved | Every signed 64-bit value. Unsigned values above 2^63-1 are written but cannot be read back (C04_unsigned_refuted).
C05 | proved | Every direct object at any nesting depth and every following text that ends an object. Reals are exact decimals in the model (C68 says for which ones that is right); a real without fraction digits is written as an integer (C05_real_without_fraction_refuted).
C51 | proved | Written streams with a matching Length, and every standard stream text with direct or indirect Length.
C52 | proved | Completeness of the parser for a grammar of object texts with white space and comments anywhere, and termination on every input.
C06 | partial | Soundness for all widths and signedness, and an exact description of when the conversion throws. Completeness fails for unsigned to signed: the exact maximum of the target is refused (C06_convert_complete_refuted); it is proved for every other pair of types. Reals: the fraction is cut and sizes above 2^63 are refused; the real 2^63 passes the check and the conversion is undefined (C06_real_as_integer_refuted).
C07 | partial | Exact-or-throw proved for nonnegative operands whose common type is unsigned, and for multiplication of nonnegative numbers. Signed addition refuses sums that fit when the addend is negative and overflows (undefined behaviour) before it checks; unsigned number plus negative addend returns a wrapped sum (C07_*_refuted).
C46 | partial | Strict total order for all buffers; value comparison is numeric for buffers of the same length and wrong for different lengths (C46_value_compare_refuted).
C50 | partial | Exactly the named bit changes, for all values and positions 0..63, signed and unsigned. Missing: positions outside 0..63 are not checked (undefined behaviour, C50_position_refuted).
C53 | partial | A buffer equals every string it is a prefix of (C53_cstring_refuted), so only the direction equal strings compare equal holds.
C08 | partial | Every standard ASCII85 text (white space, z groups, partial last groups, with end marker or ended by length) decodes to the bytes it encodes when int arithmetic wraps. Under the C++ rules the decoder overflows a signed int for every group of 2^31 or more (C08_ascii85_overflow_refuted); C08_ascii85_decodes_partial covers all other groups.
C09 | partial | Right for every text with an even number of digits. For every text with an odd number of digits the last byte is wrong (C09_odd_digit_refuted: x instead of 16x), and invalid digits in second position are not reported.
C10 | partial | None, Sub and Up rows for any geometry whose pixels are whole bytes; Average and Paeth only for images one pixel wide. Average, Paeth and sub-byte pixels are refuted.
C11 | partial | Dictionaries behave as maps for every call sequence without overwriting a present key; overwriting insert and merge keep the old value (refuted).
C12 | proved | Arrays are sequences for every call sequence; calls out of range fail and change nothing.
C47 | partial | Attribute lists behave as maps except that overwriting keeps the old value (refuted).
C13 | partial | Equal objects have equal hashes when they hold no references and no integer stands opposite a real; the cached hash stays fresh for every history of edits that notify. Integer/real pairs, references, number edits, array clear and user-supplied objects are refuted.
C14 | partial | Equality decides sameness and is an equivalence on values without references whose numbers have the same kinds and are below 2^63-1. Symmetry, transitivity and reflexivity fail otherwise (refuted).
C15 | partial | Every edit through an entry point that notifies marks the edited object and all its containers dirty, for every history in the covered language. Number edits, array clear, first write of an unread string, merged values, user-supplied objects and self containment are refuted.
C26 | partial | A chain that ends is followed to its end in every state; a cycle is reported by the first query. A second query on a cyclic reference never returns (C26_second_query_refuted).
C16 | partial | Every set of entries (gaps, repeated numbers, any order) and every trailer dictionary is read back exactly, except the link from a free entry to the next free one, which the reader drops (C16_next_free_refuted). A table with a released entry is written without its row and cannot be read (C16_released_entry_refuted). Rows are exactly 20 bytes.
C17 | partial | Every set of entries whose smallest number is 0, with values below 2^63 and fewer than 2^31 entries, for the widths the writer chooses and for given widths. A section not starting at number 0 is always mislabelled (C17_first_number_refuted); a value of 2^63 or more shifts by 64 bits (C17_large_value_refuted).
C18 | partial | Short data is never accepted, and with enough data the outcome is a section or an error for every content. Missing data is read out of bounds (C18_out_of_bounds_refuted) and an omitted type field means free instead of type 1 (C18_default_type_refuted).
C19 | partial | Size is the number of entries: never too large, right exactly when the numbers have no gaps, too small with any gap (C19_gap_refuted).
C20 | proved | Every content that is empty or ends with white space, every offset, and white space behind the last line; the newest of several revisions is found.
C49 | partial | Every version and any lines in front of the header. Garbage on the header's own line hides it (C49_same_line_refuted).
C21 | partial | For every document with one classic section the written file opens with the same version, trailer and numbers, every recorded offset is where that object's text begins, and loading every entry gives its object back. For a section that is a cross-reference stream all offsets are right except the stream's own entry, which keeps its old offset (C21_stream_own_offset_refuted). C21_sections_reopen covers files with any number of classic sections. C21_stream_file_reopens_partial covers documents with one cross-reference stream and any object streams, from the save to every object read later; C21_library_codec shows that the library's filters meet its hypothesis. Hybrid files and several cross-reference streams are not covered.
C22 | proved | rebuilt object streams load with the same numbers and objects in index order; recorded indexes may differ from the place in the rebuilt stream (finding)
C54 | partial | Proved with endstream on its own line and on the line of the data, for lengths that are missing, negative, beyond the end or at another word. A length that leads to a stray delimiter makes the object unreadable, and data ending with a carriage return loses it before a line feed (refuted theorems).
C23 | proved | Every state and history. Findings: a chain without any section is dereferenced at its end (C23_empty_chain_refuted), and the first number of a file created from nothing is 0 (C23_number_zero_refuted).
C24 | partial | Exact description of the lookup, and newest wins whenever the newest mention has the requested generation. An object deleted with the next generation, as the format prescribes, still resolves to its older revision (C24_deleted_object_refuted).
C25 | partial | Every section read ends, and the chain ends within one step per byte unless the Prev pointers form a cycle. A cycle is followed for ever (C25_cycle_refuted).
C27 | partial | Live objects, numbers never used and the trailer of classic tables keep their state. An object deleted by an update comes back, a number listed by a table and its hybrid stream changes its entry, and for stream sections the trailer of the oldest section wins (refuted theorems).
C28 | partial | For one section (what merging gives) exact: new numbers are the ranks, nothing is lost and streams are followed. Several sections can lose objects (C28_sections_refuted) and the free list is not renumbered (C28_next_free_refuted).
C36 | partial | proved for changed table entries: the update is appended, found, keeps the document keys and every changed object loads as changed; after a one-section save followed by one update every object resolves to its current state. Refuted: a second update (the old Prev is kept, so the first update is skipped), an update without changes (no Prev: every object null), deletions (not recorded), edits of compressed objects (save fails), the same number changed in two sections (older wins). C36_stream_saved_then_updated_partial proves the same for a document with a cross-reference stream and object streams, down to every object a program reads from the updated file. Missing: hybrid sections (C73), sources with several sections
C29 | partial | When every number is listed once (what merging leaves) the entries that stay in use are exactly the ones the trailers reach, each reference still resolves, and marking ends. With merging off the oldest state of an object counts and an object added by an update is removed (C29_updated_object_refuted). Hybrid sections are not covered, and objects are assumed not to be the shared null object.
C30 | partial | For any hash functions and entry order: when every stream with references in its dictionary has data of its own (no other stream with the same bytes; for one round: no duplicate stream has references), the merged document says the same at every depth, no reference is lost, and the rounds always end. Refuted for equal streams whose dictionaries refer to a merged object: a key's hash changes inside the hash map, so a later reference dangles (C30_stale_hash_refuted). Assumes each number listed once and no indirect object that is itself a reference; object stream numbers of compressed entries are not modelled.
C31 | partial | For every source graph whose references all resolve, with any allocation of fresh numbers: the copy is isomorphic, only what the roots lead to is copied, nothing else in the destination changes, copying ends and succeeds. Refuted: a reference to a missing object keeps its number and leads to an unrelated object of the destination (C31_missing_reference_refuted); a direct object as root is undefined behaviour (C31_direct_object_refuted).
C33 | partial | With AES in CBC mode as a parameter (only that deciphering undoes enciphering is used): standard ciphertext is deciphered to the data. Refuted for the library's own encryption: its padding has the wrong length and OpenSSL pads again, so every non-empty text comes back with 1 to 16 bytes appended, and empty data cannot be deciphered.
C34 | partial | With MD5 and RC4 written out: the user password opens the document for key lengths up to 135 bits; the owner password for at most 40 and for 128 bits, with the key and the O and U entries of the standard. Refuted: the owner password for keys between (64 bits shown), passwords over 32 bytes and keys over 135 bits (undefined behaviour). That both passwords give one key is proved up to an accidental collision, which is stated in the theorem.
C35 | partial | Object keys are the ones of the standard and data of any object survives encryption and decryption with every algorithm but AES. Refuted for AES (padding, every non-empty text) and for streams under the Identity filter, which are changed.
C56 | partial | Holds when RC4 is chosen; refuted for AES: the dictionary has no crypt filters, so RC4 is used whatever the settings.
C38 | partial | accepted texts characterised exactly, times a clock shows read back; the 30th of February is accepted, and writing a date with zone Z and an offset loses the offset
C45 | partial | Any mix of peeking, reading and seeking answers as without a cache up to the first failure; every token is delivered once; the cache is bounded by ten. Refuted, in general: a peek that fails moves the position behind the wrong byte (C45_failed_position_refuted).
C37 | partial | One thread: every history of handle and weak reference operations on any number of objects; several threads: every schedule in which weak references are locked only by threads that own a handle. Refuted: locking races with the last release (C37_lock_race_refuted), and objects copied or assigned as values share the flag of another object.
C32 | partial | With zlib, the image codecs and encryption as parameters that undo themselves: bodies set or changed come back through no filter, one filter and lists of any length without predictors and lossy filters; unchanged streams keep their body under every filter but Crypt; a body encoded by any list of FlateDecode (with PNG prediction as far as C10), ASCII85Decode and ASCIIHexDecode is read. Refuted: LZW, run length and the fax filters are never read, order of different filters in a list, predictors, lists of filters in encrypted files, Crypt in a list and Crypt unchanged, short parameter lists (undefined).
C39 | proved | Trees of any shape and depth with right counts. Beyond the claim, refuted: with a wrong Count another page is returned and pages become unreachable; a cyclic tree is searched forever.
C40 | partial | Appending: every tree. Inserting and removing: when the kids of the root up to that place are pages; every history on a flat tree. Counts are right after every call. Refuted: inserting and removing in a tree with inner nodes edits the kids of the root (wrong place, refused, a whole subtree removed); a removal that removes nothing reports success.
C41 | partial | Lookup of every stored and every missing key is proved for name trees of any shape and after any earlier lookups. The first insertion into a tree without kids is proved, also for a tree opened anew. Refuted: the second insertion fails and empties the dictionary, insertion into a tree with kids breaks all later lookups, inserting an existing key keeps the old value, number trees (page labels) never find a key, number trees with kids cannot be read. Not pinned down: whether insertion into a tree with kids really frees its leaf nodes; the wrong program that keeps them (seeded/LOG.jsonl, release_node) is still accepted by every theorem.
C42 | partial | Proved for destinations and codes of at most four bytes whose sum fits the destination (C42_range_partial), arrays, single codes, unknown codes, the text reader for every standard text, and termination. Refuted: destinations of five or more bytes and codes of five or more bytes are undefined behaviour, in general, a carry out of the destination fails, and is silently dropped when it is a multiple of twelve (C42_overflow_refuted).
C43 | partial | Reading is proved for every text of the content stream grammar, and read-write-read for every list without inline images whose operations can be written; an inline image gets one more byte of data each time (C43_images_grow). Refuted: image data changes, white space after ID counted as data, data ending in white space and E overruns, image at the end of a stream refused, text object without ET cannot be reread, parser hangs on a malformed image dictionary (it ends on every text without BI).
C44 | partial | Proved for any number of streams that meet at token boundaries, and for instructions spread over several streams; refuted: streams are joined without white space, so words of complete streams run together.
C57 | partial | Proved when the page's stream or array is marked dirty by some other change and the instructions were read before. Refuted: changes through the instruction list never mark the page, so every change is lost; recalculating a dirty page whose instructions were not read erases it; places outside the list are undefined.
C55 | partial | A file of complete objects, tables, trailers and other lines gives the last object with each number and the last trailer, the recorded places can be read again, a saved file cut off in front of its table opens with every object, the search always ends; refuted: an incomplete object, a word or table row cut off by the end of the file, a stream with indirect Type make opening fail, cross-reference streams hide newer objects, a startxref number out of range is not handled
C48 | partial | Proved for any two documents with right page counts: copies of all pages in order behind the existing ones, all they lead to copied under unused numbers, other objects of the destination unchanged, names of the pages lead to the copies. Refuted: the source loses the Parent entries of its pages, links between pages lead to orphan copies, inherited attributes are lost, a clashing name fails half way, a destination given by a page number makes the append fail.
C58 | partial | Proved for objects of generation 0, and for other generations when one section has the object; all other objects are proved unchanged. Refuted: an object of a higher generation that an older section also has is found there again, and an object listed only by a hybrid stream is not released.
C59 | partial | Proved for a first signing with a key of any file below 2^63 bytes: read back, covered ranges, only the reserved space changed, too large signatures reported. Refuted: a second signing with the same key uses the released certificate, and a dictionary written again in the same session has no Contents; the byte ranges of a signature after the first are read shifted by one number. The field, form and page annotation objects made around the dictionary are C70.
C60 | partial | Strings at any depth: proved for saving with any renumbering, and for copying objects that are not from object streams. Streams: proved when the body was read or number and encryption stay the same. Refuted: strings in stream dictionaries make saving fail, unread streams that are renumbered or copied between plain and encrypted documents change, strings copied out of object streams are not encrypted. RC4 only: AES is C33.
C61 | partial | The whole save is composed from the stages of C28, C29, C30, C36 and C21 and proved for every document whose sections are tables (any number of updates) in which every reference that can be reached from the trailer leads to an object that is not null and names the latest generation of its number; objects that cannot be reached, deleted ones included, may be anything; such a save never fails when the real numbers are within the range of integers. Refuted: a reference to a missing object, or to an object that is null, keeps its number while the objects are renumbered and then leads to an unrelated object; a reference to a deleted object leads to that object again. C61_stream_save_partial proves the same for documents with cross-reference streams and object streams, for every update history of tables and streams, down to every object a program reads from the new file. C61_hybrid_save_partial proves it for hybrid-reference files whose tables and hybrid streams list different numbers. Refuted for hybrid files: when the newest hybrid stream is listed in no table, saving fails. Missing: deleted objects of documents with streams, hybrid files that list a number twice, the watermark.
C62 | partial | Page entries, information entries and the trapped state: proved as far as the entries are not already read or present. Refuted: contents read before a set are remembered and the set is ignored, an information entry that exists cannot be set again, inherited resources always fail, and the sub-ranges after the first overlap (index n gives numbers n and n+1 instead of 2n and 2n+1).
C63 | partial | Proved for every history in which all files can be read, by refinement to a world without addresses, and for every history that no document of another file is given out. Refuted: a file that fails to open leaves its address in the map for ever, and any later good file at that address is refused as disposed.
C64 | partial | Fonts, destinations, links, named values, outline levels and flags: proved as exact characterisations. Refuted: stamp, trap network and 3D annotations of the standard are refused (the C++ class names are expected instead), a field that inherits its type is taken for a non-terminal one, and the parent of every outline item is reported as the outline itself. Missing: the other accessors of these objects, which only look up an entry (shown for a general entry in C62).
C65 | partial | Proved for every history over a file in which no object of an object stream was replaced by an update. Refuted: reading another object of the stream brings the replaced version back (and marks it as changed); an object stream said to be in itself makes the read run for ever; an object stream with a number that no section lists makes all its objects unreadable. Missing: edits of the object stream objects themselves, failing reads in the positive theorem.
C66 | partial | Proved for every interleaving: every call returns the code of its own exception and each thread finds the code of its own last exception; messages below 255 characters come back whole and terminated, codes and texts are distinct. Refuted: a call that fails because of a parameter does not change the last error; a longer message is copied to the caller without a terminator.
C67 | partial | Proved for every sequence of calls that never asks for more than there is, from the beginning or after setting the reading position, and for streams made from buffers. Refuted: after a read that finds less than it asks for, writes succeed but are not stored until the reading position is set again. The standard library's stringstream is modelled from the C++ standard; file streams are not modelled.
C68 | partial | Proved: reading gives the nearest double, numbers below 2^52 without their point and with 1 to 307 places are written with the same digits, a double written with enough places reads back. Refuted in general: setting a value keeps the places of the old one, so small values are written as zero; odd numbers above 2^53 change; numbers out of range make reading fail; numbers without places and with an exponent are not read back. The rounding of std::stod and of fmt is assumed to be to nearest, ties to even.
C69 | partial | Refuted for every combination of flags: the permissions of the document are exactly the reverse of the ones asked for (no action allowed means every action is permitted). Refuted for every setting: the data is enciphered with RC4 even if AES was asked for. Refuted for removal: in a document with updates whose first section is a stream the saved document still names the encryption dictionary. Proved: the entries of the dictionary, the unused bits, errors for no algorithm, the trailer after adding, and after removing when no older stream section names the encryption.
C70 | partial | Proved for every document whose form entries have the right types, with any mix of direct and indirect entries: signing succeeds, one field is added to the form and to the annotations of the first page, the flags are set, all other objects stay and those of the form lose nothing, pages stay; a document without pages is refused. Refuted: the field is listed twice when annotations and fields are one array, every signing uses the field name Signature1, and a signing that fails while writing leaves its field and flags behind. The numbers of new objects are those of C23.
C71 | partial | Proved for files whose Lengths are direct or objects of the file itself without cycles: for every schedule of any number of threads each answer is what the file has, the same object for all threads, never replaced, and answers come in order; if nobody asks directly for an object that is a Length, the threads never wait for each other and all requests are answered in a bounded number of steps; a single thread never waits for itself in any file. Refuted in general: a thread asking for the Length object and one asking for its stream can deadlock (entry mutex and input mutex in opposite order); so can a thread reading a stream whose Length is in an object stream and one asking for any object in an object stream; IsInitialized is a plain bool read without a mutex while it is set; Lengths that lead back to themselves recurse without end; a stream whose Length is in an unread object stream is read from the wrong position, because GetBodyRaw leaves the input at the data of the object stream.
C72 | partial | Proved for all files: whatever is not deciphered is left plain by the standard. Proved for files of the usual layout (encryption dictionary behind at most one reference, direct identifiers, no fields below other fields): strings and streams are shown as stored exactly when the standard says so and deciphered otherwise, and the plain ones are saved unchanged; orderly files are opened. Refuted in general: signatures of fields below other fields and indirect identifiers are deciphered although they are plain; a signature field whose value is null, or a signature with literal-string contents, makes the document impossible to open, encrypted or not; a document with a user password and its catalog in an object stream cannot be opened, because opening asks for the catalog before a password can be given (a second call then reports success with no signature marked).
C73 | partial | Proved: the bytes are kept, opening finds the new and the old section, each with the hybrid stream; changed objects of the table show their new state, and every unchanged number on which table and hybrid stream agree resolves as before. Refuted: a change of an object only the hybrid stream lists is lost silently (C73_hidden_changes_ignored, for every file); when nothing else was changed the whole table becomes unreachable; and a number that table and stream list differently switches from the table's entry to the stream's, because the update repeats XRefStm.
C74 | partial | Proved: after any history an object that is handed out carries the number asked for; truthful tables answer the same after every history; after the first misleading entry was met, every object whose number no other entry claims is found. Refuted: before that, an object whose number no entry gives is reported as missing, so the answer depends on the history (C74_order_refuted); one unreadable entry makes every such lookup fail (C74_damaged_refuted); a free entry that gets the number of an object may push it out, depending on an unspecified sorting order (C74_collision_refuted).
C75 | partial | Proved: every history that leaves names alone once they are keys gets the answers of ideal dictionaries, for any shape of the search tree. Refuted: after every such history, changing the text of the name just inserted makes the entry unfindable (C75_rename_refuted), possibly under the new text as well although iteration shows it (C75_lost_refuted); two entries can get equal keys (C75_duplicate_refuted); a key read back shares its text with the name it was inserted with, so changing it changes lookups elsewhere (C75_shared_refuted).
C76 | partial | Proved: loops over dictionaries whose bodies insert anything and remove other entries, loops over sections with room for the entries added whose bodies remove or replace other entries, and loops over instructions that change nothing visit what is left alone exactly once and end. Refuted, as undefined behaviour: removing or replacing the current element, adding to a full section, any change of a list of instructions, releasing the collection, and reading or stepping at the end.
C77 | partial | Proved: all answers of programs that place each object once, do not remove entries, and replace an object only when nothing of the program refers to it, are the ones of the simple meaning (a reference names a number, a number has an object). Refuted, after any such history: replacing an object the program still holds makes references to it throw, out of the C interface when asked for the number, but not if the handle was released; a second number for an object changes the number of references but not their hash; replacing it there breaks references to an object that is still in the file; pointing at null changes nothing; removing the entry.
C78 | partial | Proved for documents of table sections and all histories: objects are read as the program left them, except those edited or created before the last incremental save; full saves write the document as the program left it as long as nothing is lost that way; an incremental save writes exactly the edited and created objects that are not lost. Refuted, in general: an incremental save takes every edited and created object out of the open document (null from then on), the second of two incremental saves writes none of the changes, and (on a document) a full save after an incremental one writes a document without its page tree.
C79 | partial | Proved for all such histories: the answers, the objects and the page tree in memory, that saving succeeds, and that the reopened file has the pages in order with their entries, the producer and the date (hashes that are never zero; streams that refer to nothing). Refuted on documents: two pages that are still equal when the document is saved become one object, so that they are one page for whoever edits the file; the incremental save of a created document writes a file without header, which does not open.
C80 | partial | Proved for every library that keeps the streaming contract: the round trip, complete data with anything behind it, termination and that nothing is made up, and the exact result for damaged data. Refuted: data that is cut off is accepted without an error; damage met before 4096 bytes were decoded gives an error and nothing; the second attempt takes the size of the output for a place in the input, so that what the damaged block holds is lost when the data was really compressed, and everything is lost when the output so far is as long as the input.
C81 | partial | Proved for every reader: DCT pictures with one, three or four components and JPX pictures whose components have full size and eight bits (and that no other JPX picture is decoded), and compressing with output of any size. Refuted, in general: DCT data that is cut off is read beyond its end (undefined), JPX data that is cut off makes the read loop of openjpeg run for ever, pictures with two components come out as zeros, an existing image attribute makes decoding fail, a picture whose colour space is an array is not compressed although decoding noted all that is needed, JPX components smaller than the picture are read beyond their end, and JPX pictures of 2^32 samples or more are written beyond the end of the result.
C82 | partial | Proved: what every observer hears, with positions in the file, for programs that unsubscribe before they release or that never get an address twice; that nobody else hears anything; that the file does not depend on the observers; what a cancelled save has written, flushed and told. Refuted, in general: an observer at the address of a released one that is still subscribed hears nothing although it is subscribed; a save that is reported as cancelled may be complete; a callback that unsubscribes its own observer makes the loop go on from an erased iterator (undefined). Callbacks that change the objects are not modelled.
C83 | partial | Proved: every recipient of every group gets the standard's key, and data enciphered by the standard comes back, for documents that encipher their metadata, name their filter DefaultCryptFilter and repeat the key length in the encryption dictionary; whoever is not named, or has no certificate, is refused and changes nothing. Refuted, in general: with EncryptMetadata false the key is not the standard's; without the Length entry, which the standard does not ask for there, an AES key has five bytes; a filter of another name refuses its recipients; a message with less than 20 bytes of content is read behind its end (undefined); for a document with a password the call throws instead of answering false; a message that names the certificate but cannot be opened hides the later ones. The functions of OpenSSL are parameters.
C84 | partial | Proved: an accepted license holds fields whose text, written one after the other, was signed by the first certificate of a valid chain, its serial number is not refused and its updates cover the build; another version is refused (C84_version); every license that the vendor signed that way is accepted; a refused one changes nothing; after any history the last accepted license counts. Refuted, in general: what is signed is the fields without anything between them, so from every accepted temporary license one makes an accepted license that never ends with the same signature, and a refused serial number is accepted when its first character is moved to the note; a build without ENFORCE_LICENSE_CHECKS, the default, is licensed without any license. JSON, dates and OpenSSL are parameters.
C85 | partial | Proved: nothing changes without string destinations in the source; a single one that is an object of its own (an array, or a dictionary with /D), appended to a target whose name tree is missing or is one array without Limits, leads to the copy of its page, and the target's are kept. Refuted, in general: with two of them, or when the root of the target's tree has Limits (as it has after one was appended), the call throws and no string destination is left, not even the target's own; a destination written directly into the name tree makes appending impossible; so does a target whose name tree has kids.
C86 | partial | Proved for every history that leaves 14 of the 737 functions alone: no dead and no mistaken handle, reference counts equal the handles held, each handle can be released and the object goes with its last reference. The 14 store or read a handle as another class: OutlineItemColor_GetRed/Green/Blue give a real number as an integer handle, PageObject_GetParent a page tree node as a page tree, the Decode functions read every filter as a Flate filter, three store a pointer to a base class. C86_each_refuted shows that each reachable one breaks some program by itself. A ContentOperationBeginTextHandle can never be given back (C86_begin_text_refuted).
C87 | partial | Proved for all but five functions: PageContents_RecalculateStreamData, PageLabel_Prefix, PageLabel_Start, PageLabel_Style and DictionaryObject_Remove store through a null result pointer (C87_each_refuted). Callbacks, their user data and passwords may be null (Spec/Boundary.v lists them). A program that avoids these five and the 14 of C86 never gets undefined behaviour at the boundary (C87_safe_partial).
C88 | partial | Proved for arrays (every history, every index), for all reads, and for lists of buffers and instructions within their size. Refuted: inserting beyond the end of a list of buffers or instructions, and removing there (an instruction even directly behind the last one), is undefined behaviour; the byte ranges of a signature overlap (index k gives the numbers k and k+1), and indexes beyond their number are answered.
C89 | partial | Proved for every file that was saved in full once and then incrementally any number of times (tables, objects that are not cross-reference streams): a stop between two appended objects or in front of the new table (C89_between_objects_partial), and one behind the new table, behind its offset or within the end marker (C89_table_written_partial), leaves a file that opens by the search for objects, with exactly the objects written so far, each in its last state and readable at its place, and the document's trailer keys. Objects that were deleted are found again by the search. Refuted, in general: behind the heading of every appended object a stop leaves a file that does not open at all (C89_torn_heading_refuted); a stop within an appended integer leaves a file that opens with a truncated number (C89_torn_value_refuted). Missing: the other points within an object, a table or the last lines, and the single point behind the first line feed.
C90 | partial | Proved for every operation text: operator type, value, operands, refused operands of the eight operators that have classes of their own, write and re-read, histories of setters. Refuted: all other operators take any operands, and the type of their operation is Generic although the API has a type for each (C90_any_operands_refuted, C90_save_state_refuted).
C91 | partial | Proved: other files, the open document and the content of the named file when it is not the source; saving in place when every object was read. Refuted: a failed save has emptied the file, saving changes in place loses the whole document, saving in place with an unread object fails and leaves a bare header, an incremental save without a licence empties the file.
C92 | partial | Proved for every conforming file with cross-reference tables: it opens with its version, sections and trailers (C92_opened), and every reference whose number was not given to another generation later yields what it stands for (C92_objects_partial). Refuted, in general: a reference to an object that an update deleted still gives the object (C92_deleted_refuted). Cross-reference streams and hybrid files are not covered by this specification (streams: C94, hybrid files: C73).
C93 | partial | Proved for every saved file up to ten gigabytes with tables: it follows the standard and every reference stands for the object of the document (C93_saved_partial); the first incremental save of every file that follows the standard again gives such a file, with changed objects new and others as before (C93_updated_partial). Refuted, in general: the second update drops all that the first one recorded (C93_second_update_refuted), the Size of an update does not cover objects with numbers above the number of changes (C93_size_refuted; C19 for gaps in full saves), rows of objects behind ten gigabytes are too long (C93_long_row_refuted). Cross-reference streams are not covered by this specification (C95).
C94 | partial | Proved for every such file that gives the type of its rows, uses no reserved types and whose object streams hold no unlisted numbers: it is opened with its sections (C94_opened_partial) and every reference to a number that was not deleted or given to another object gives the object it stands for (C94_objects_partial). Refuted, in general: in a file whose rows leave out the type, which means type 1, every object reads as null (C94_default_type_refuted); a row of a reserved type, which means null, makes the file be searched for objects or fail (C94_reserved_refuted). Deleted numbers: C24; unlisted members: C65. Hybrid files are not in the specification (C73).
C95 | partial | Proved for every file saved with one section: it follows the standard but for the one row of the cross-reference stream for itself, and every reference stands for the object of the document, when the indexes of compressed objects are their places (C95_saved_partial). Refuted, in general: that one row keeps the place the stream had before, so that the file follows the standard if and only if the stream did not move (C95_own_row_refuted); a compressed object whose recorded index is not below the number of objects that are now in its stream is lost to every reader that follows the standard (C95_index_refuted). Missing: documents with several sections.
C96 | partial | Proved for every such file in which what can be reached has no references to null or to references, its streams have their length in their dictionary, and the hashes do not follow references or the streams have data of their own: the saved file, up to ten gigabytes, follows the standard and shows the same document (C96_resaved_partial), and it is written when all rows lead to objects and reals are within range (C96_resave_succeeds_partial). Refuted, with the standard's reading of the bytes on both sides: a reference to a number that does not exist stands for null before and for an unrelated object afterwards (C96_dangling_refuted); a reference to a deleted object stands for null before and for the deleted object afterwards (C96_deleted_refuted). Encrypted files, cross-reference streams and hybrid files are not part of this claim (C34, C94, C95).
C97 | partial | Proved for every document of one table whose lengths are natural numbers, direct or in objects of their own, or missing: the save succeeds (C97_write_succeeds_partial), the file, up to ten gigabytes, follows the standard and every reference stands for the object of the document, streams with all their data and a length that is the size of the data (C97_written_partial), and the library reads every object back (C97_reopened_partial). Where no length is a reference this is the writer of C21 and C36 (C97_direct_lengths). Refuted: a length that refers to an object that is not there makes the save of the whole document fail (C97_missing_length_refuted). Lengths that are reals, documents that are written with several sections, and cross-reference streams are not part of this claim.
C98 | partial | Proved for the first incremental save of every file of tables that follows the standard, when the filters of streams whose body was set are direct and lengths are direct, missing or objects that were changed too: the save succeeds (C98_update_succeeds_partial), the result follows the standard, changed objects stand for what the program left and all others for what they stood for (C98_updated_partial). Without references it is the writer of C36 and C93 (C98_direct_lengths). Refuted: a changed stream whose length is an object that was not changed makes every incremental save fail (C98_unchanged_length_refuted); a body that was set on a stream whose filter is an object that was not changed is written without the filter, although the dictionary still names it, so that readers decode what was never encoded (C98_unchanged_filter_refuted). Later saves lose more, see C93. Unchanged streams with a length object, reals as lengths, and references inside of Filter and DecodeParms are not part of this claim.
C99 | partial | Proved for documents in which the recorded indexes of the objects that can be reached from Root, Info or ID are their places among these (unused objects may have any index): the file follows the standard but for the row of the cross-reference stream for itself (C95_own_row_refuted), every reference has a meaning, and Root, Info and ID look the same at any depth (C99_saved_partial). Refuted in general: the indexes are never renewed; an object whose index is not below the number of the objects of its stream that are still needed is listed in the file that is saved, and no reader that follows the standard can find it (C99_lost_refuted; the case is a document where an update replaced the second of three objects). The restrictions of C61 for documents with cross-reference streams remain.
C100 | partial | Proved for every document: no entry of any object is changed or taken away, and all that is new are dictionaries Resources and Font and the font of the mark (C100_nothing_lost); the body of every stream is what it was between a line that saves the state for each page it begins and, for each page it ends, a line that restores it and the mark at the right corner (C100_bodies); a page that shares no content stream shows its content, then the mark (C100_page_partial); every document with a finite page tree and nodes of the expected types is marked (C100_succeeds). Refuted: pages that share their first stream but not their last one save the state more often than they restore it (C100_shared_refuted); a page without Resources of its own gets new ones with the font of the mark only, so that all it inherited is hidden (C100_inherited_refuted); a page tree with a cycle is walked for ever (C100_cycle_refuted). Not modelled: references to references, kids that are direct dictionaries, the bytes of text and image (parameters), filters (the decoded bodies are there).
C101 | partial | Proved: the file conforms to the standard; its trailer is that of the document; there is one more object, the font, under the first number that is not listed; every other object is what it was but for the new entries of the mark; every stream that begins or ends the content of a page decodes to its content between the lines that save and restore the state, followed by the marks, and all other streams have the data they had; all numbers that are not listed stand for null (C101_saved_partial); and for every file with tables that follows the standard, opened and saved without a license, the file is such a marked file of a document whose Root, Info and ID look at any depth as those of the source (C101_resaved_partial); and there is a file whenever the nodes of the page tree are in order and all streams can be decoded, unless the exact marked body of some stream cannot be encoded (C101_succeeds); a document without a page tree is always saved, as it is and without a mark (C101_pageless), and one whose Root or Pages is there but is not a dictionary never is (C101_malformed); a file without a page tree is saved as with a license, byte by byte (C101_resaved_pageless_partial), and a file whose Root or Pages is no dictionary is saved with a license and not without one (C101_resaved_malformed_partial). Refuted: a reference to an object that the document does not have, which means null, means the font of the mark in the file when its number is the first that is not listed (C101_dangling_refuted). Missing: files with cross-reference streams, kids that are direct dictionaries, encrypted documents; bodies of streams that are not marked are not encoded again.
