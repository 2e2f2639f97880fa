{
 "claims": [
  {
   "property": "C01",
   "status": "proved",
   "theorems": [
    "C01_name_roundtrip",
    "C01_name_encoded_roundtrip",
    "C01_name_text_is_regular",
    "C01_name_text_standard",
    "C01_reads_every_standard_name"
   ],
   "note": "Round trip through the tokenizer and through the encoded-name constructor, for every byte string and every following text that ends the token; the text has printable regular characters only. Stronger: every standard encoding of a name is read as the name it denotes."
  },
  {
   "property": "C02",
   "status": "proved",
   "theorems": [
    "C02_literal_roundtrip",
    "C02_reads_every_standard_literal",
    "C02_raw_cr_refuted"
   ],
   "note": "Round trip for every byte string. Also every standard literal text (nesting, escapes, octal, continuation lines) is read as the string it denotes, except raw CR and CR LF, which the standard turns into LF and the library keeps (C02_raw_cr_refuted)."
  },
  {
   "property": "C03",
   "status": "proved",
   "theorems": [
    "C03_hex_roundtrip",
    "C03_reads_every_standard_hex"
   ],
   "note": "Round trip for every byte string, and every standard hexadecimal text is read correctly."
  },
  {
   "property": "C04",
   "status": "proved",
   "theorems": [
    "C04_integer_roundtrip",
    "C04_decimal_digits",
    "C04_unsigned_refuted"
   ],
   "note": "Every signed 64-bit value. Unsigned values above 2^63-1 are written but cannot be read back (C04_unsigned_refuted)."
  },
  {
   "property": "C05",
   "status": "proved",
   "theorems": [
    "C05_object_roundtrip",
    "C05_written_text_standard",
    "C05_real_without_fraction_refuted"
   ],
   "note": "Every direct object at any nesting depth and every following text that ends an object. Reals are exact decimals in the model (C68 says for which ones that is right); a real without fraction digits is written as an integer (C05_real_without_fraction_refuted)."
  },
  {
   "property": "C06",
   "status": "partial",
   "theorems": [
    "C06_convert_sound",
    "C06_convert_exact",
    "C06_convert_complete_partial",
    "C06_convert_complete_refuted",
    "C06_unsigned_number_as_signed",
    "C06_signed_number_as_unsigned",
    "C06_real_as_integer_partial",
    "C06_real_as_integer_refuted"
   ],
   "note": "Soundness for all widths and signedness, and an exact description of when the conversion throws. Completeness fails for unsigned to signed: the exact maximum of the target is refused (C06_convert_complete_refuted); it is proved for every other pair of types. Reals: the fraction is cut and sizes above 2^63 are refused; the real 2^63 passes the check and the conversion is undefined (C06_real_as_integer_refuted)."
  },
  {
   "property": "C07",
   "status": "partial",
   "theorems": [
    "C07_add_unsigned",
    "C07_add_signed_partial",
    "C07_add_narrow",
    "C07_multiply",
    "C07_bit_count",
    "C07_add_signed_refuted",
    "C07_add_signed_overflow_refuted",
    "C07_add_mixed_refuted",
    "C07_multiply_negative_refuted"
   ],
   "note": "Exact-or-throw proved for nonnegative operands whose common type is unsigned, and for multiplication of nonnegative numbers. Signed addition refuses sums that fit when the addend is negative and overflows (undefined behaviour) before it checks; unsigned number plus negative addend returns a wrapped sum (C07_*_refuted)."
  },
  {
   "property": "C08",
   "status": "partial",
   "theorems": [
    "C08_ascii85_decodes_wrapping",
    "C08_ascii85_decodes_by_length",
    "C08_ascii85_decodes_partial",
    "C08_ascii85_overflow_refuted",
    "C08_every_string_has_text"
   ],
   "note": "Every standard ASCII85 text (white space, z groups, partial last groups, with end marker or ended by length) decodes to the bytes it encodes when int arithmetic wraps. Under the C++ rules the decoder overflows a signed int for every group of 2^31 or more (C08_ascii85_overflow_refuted); C08_ascii85_decodes_partial covers all other groups."
  },
  {
   "property": "C09",
   "status": "partial",
   "theorems": [
    "C09_asciihex_partial",
    "C09_odd_digit_refuted",
    "C09_invalid_digit_refuted"
   ],
   "note": "Right for every text with an even number of digits. For every text with an odd number of digits the last byte is wrong (C09_odd_digit_refuted: x instead of 16x), and invalid digits in second position are not reported."
  },
  {
   "property": "C10",
   "status": "partial",
   "theorems": [
    "C10_png_predictor_partial",
    "C10_average_refuted",
    "C10_paeth_refuted",
    "C10_small_pixel_refuted",
    "C10_unknown_filter_refuted",
    "C10_truncated_refused"
   ],
   "note": "None, Sub and Up rows for any geometry whose pixels are whole bytes; Average and Paeth only for images one pixel wide. Average, Paeth and sub-byte pixels are refuted."
  },
  {
   "property": "C11",
   "status": "partial",
   "theorems": [
    "C11_dictionary_is_map_partial",
    "C11_overwrite_refuted",
    "C11_merge_overrides_refuted"
   ],
   "note": "Dictionaries behave as maps for every call sequence without overwriting a present key; overwriting insert and merge keep the old value (refuted)."
  },
  {
   "property": "C12",
   "status": "proved",
   "theorems": [
    "C12_array_is_sequence",
    "C12_out_of_range"
   ],
   "note": "Arrays are sequences for every call sequence; calls out of range fail and change nothing."
  },
  {
   "property": "C13",
   "status": "partial",
   "theorems": [
    "C13_equal_objects_equal_hash_partial",
    "C13_integer_real_refuted",
    "C13_reference_refuted",
    "C13_cached_hash_is_fresh_partial",
    "C13_fresh_hash_unique",
    "C13_hash_terminates",
    "C13_number_stale_refuted",
    "C13_array_clear_stale_refuted",
    "C13_user_object_stale_refuted"
   ],
   "note": "Equal objects have equal hashes when they hold no references and no integer stands opposite a real; the cached hash stays fresh for every history of edits that notify. Integer/real pairs, references, number edits, array clear and user-supplied objects are refuted."
  },
  {
   "property": "C14",
   "status": "partial",
   "theorems": [
    "C14_equals_is_same_value_partial",
    "C14_equivalence_partial",
    "C14_symmetric_refuted",
    "C14_transitive_refuted",
    "C14_reflexive_refuted",
    "C14_reference_refuted"
   ],
   "note": "Equality decides sameness and is an equivalence on values without references whose numbers have the same kinds and are below 2^63-1. Symmetry, transitivity and reflexivity fail otherwise (refuted)."
  },
  {
   "property": "C15",
   "status": "partial",
   "theorems": [
    "C15_edit_marks_containers_dirty_partial",
    "C15_notification_terminates",
    "C15_number_refuted",
    "C15_number_never_marks",
    "C15_array_clear_refuted",
    "C15_unread_string_refuted",
    "C15_merged_value_refuted",
    "C15_user_object_refuted",
    "C15_termination_refuted"
   ],
   "note": "Every edit through an entry point that notifies marks the edited object and all its containers dirty, for every history in the covered language. Number edits, array clear, first write of an unread string, merged values, user-supplied objects and self containment are refuted."
  },
  {
   "property": "C16",
   "status": "partial",
   "theorems": [
    "C16_table_roundtrip_exact",
    "C16_table_roundtrip_partial",
    "C16_next_free_refuted",
    "C16_released_entry_refuted",
    "C16_rows_have_20_bytes"
   ],
   "note": "Every set of entries (gaps, repeated numbers, any order) and every trailer dictionary is read back exactly, except the link from a free entry to the next free one, which the reader drops (C16_next_free_refuted). A table with a released entry is written without its row and cannot be read (C16_released_entry_refuted). Rows are exactly 20 bytes."
  },
  {
   "property": "C17",
   "status": "partial",
   "theorems": [
    "C17_stream_roundtrip_partial",
    "C17_existing_widths_partial",
    "C17_first_number_refuted",
    "C17_large_value_refuted",
    "C17_too_wide_refused"
   ],
   "note": "Every set of entries whose smallest number is 0, with values below 2^63 and fewer than 2^31 entries, for the widths the writer chooses and for given widths. A section not starting at number 0 is always mislabelled (C17_first_number_refuted); a value of 2^63 or more shifts by 64 bits (C17_large_value_refuted)."
  },
  {
   "property": "C18",
   "status": "partial",
   "theorems": [
    "C18_short_data_never_accepted",
    "C18_out_of_bounds_refuted",
    "C18_out_of_bounds_default_index_refuted",
    "C18_enough_data_partial",
    "C18_default_type_refuted"
   ],
   "note": "Short data is never accepted, and with enough data the outcome is a section or an error for every content. Missing data is read out of bounds (C18_out_of_bounds_refuted) and an omitted type field means free instead of type 1 (C18_default_type_refuted)."
  },
  {
   "property": "C19",
   "status": "partial",
   "theorems": [
    "C19_size_never_too_large",
    "C19_size_partial",
    "C19_gap_refuted"
   ],
   "note": "Size is the number of entries: never too large, right exactly when the numbers have no gaps, too small with any gap (C19_gap_refuted)."
  },
  {
   "property": "C20",
   "status": "proved",
   "theorems": [
    "C20_startxref_found",
    "C20_last_revision_found",
    "C20_needs_line_end"
   ],
   "note": "Every content that is empty or ends with white space, every offset, and white space behind the last line; the newest of several revisions is found."
  },
  {
   "property": "C21",
   "status": "partial",
   "theorems": [
    "C21_written_file_reopens",
    "C21_write_succeeds",
    "C21_stream_section_partial",
    "C21_stream_own_entry_stale",
    "C21_stream_own_offset_refuted",
    "C21_stream_file_reopens_partial",
    "C21_library_codec",
    "C21_sections_reopen"
   ],
   "note": "For every document with one classic section the written file opens with the same version, trailer and numbers, every recorded offset is where that object's text begins, and loading every entry gives its object back. For a section that is a cross-reference stream all offsets are right except the stream's own entry, which keeps its old offset (C21_stream_own_offset_refuted). C21_sections_reopen covers files with any number of classic sections. C21_stream_file_reopens_partial covers documents with one cross-reference stream and any object streams, from the save to every object read later; C21_library_codec shows that the library's filters meet its hypothesis. Hybrid files and several cross-reference streams are not covered."
  },
  {
   "property": "C22",
   "status": "proved",
   "theorems": [
    "C22_object_stream_roundtrip",
    "C22_every_stream_rebuilt",
    "C22_recorded_index_refuted"
   ],
   "note": "rebuilt object streams load with the same numbers and objects in index order; recorded indexes may differ from the place in the rebuilt stream (finding)"
  },
  {
   "property": "C23",
   "status": "proved",
   "theorems": [
    "C23_number_unused",
    "C23_entry_added",
    "C23_allocation_ends",
    "C23_history_distinct",
    "C23_history_fresh",
    "C23_empty_chain_refuted",
    "C23_number_zero_refuted"
   ],
   "note": "Every state and history. Findings: a chain without any section is dereferenced at its end (C23_empty_chain_refuted), and the first number of a file created from nothing is 0 (C23_number_zero_refuted)."
  },
  {
   "property": "C24",
   "status": "partial",
   "theorems": [
    "C24_first_section_with_generation",
    "C24_newest_wins_partial",
    "C24_unknown_object_null",
    "C24_own_stream_entry",
    "C24_deleted_object_refuted"
   ],
   "note": "Exact description of the lookup, and newest wins whenever the newest mention has the requested generation. An object deleted with the next generation, as the format prescribes, still resolves to its older revision (C24_deleted_object_refuted)."
  },
  {
   "property": "C25",
   "status": "partial",
   "theorems": [
    "C25_ends_without_cycle_partial",
    "C25_ends_when_prev_decreases_partial",
    "C25_section_ends",
    "C25_cycle_refuted"
   ],
   "note": "Every section read ends, and the chain ends within one step per byte unless the Prev pointers form a cycle. A cycle is followed for ever (C25_cycle_refuted)."
  },
  {
   "property": "C26",
   "status": "partial",
   "theorems": [
    "C26_chain_followed",
    "C26_cycle_reported_partial",
    "C26_dereference",
    "C26_second_query_refuted"
   ],
   "note": "A chain that ends is followed to its end in every state; a cycle is reported by the first query. A second query on a cyclic reference never returns (C26_second_query_refuted)."
  },
  {
   "property": "C27",
   "status": "partial",
   "theorems": [
    "C27_merge_succeeds",
    "C27_live_object_partial",
    "C27_never_used",
    "C27_nothing_invented",
    "C27_trailer_of_tables",
    "C27_freed_removal",
    "C27_deleted_object_refuted",
    "C27_hybrid_entry_refuted",
    "C27_trailer_of_streams_refuted"
   ],
   "note": "Live objects, numbers never used and the trailer of classic tables keep their state. An object deleted by an update comes back, a number listed by a table and its hybrid stream changes its entry, and for stream sections the trailer of the oldest section wins (refuted theorems)."
  },
  {
   "property": "C28",
   "status": "partial",
   "theorems": [
    "C28_renumbered",
    "C28_dense",
    "C28_sections_refuted",
    "C28_next_free_refuted"
   ],
   "note": "For one section (what merging gives) exact: new numbers are the ranks, nothing is lost and streams are followed. Several sections can lose objects (C28_sections_refuted) and the free list is not renumbered (C28_next_free_refuted)."
  },
  {
   "property": "C29",
   "status": "partial",
   "theorems": [
    "C29_exactly_reachable",
    "C29_references_resolve",
    "C29_ends",
    "C29_updated_object_refuted"
   ],
   "note": "When every number is listed once (what merging leaves) the entries that stay in use are exactly the ones the trailers reach, each reference still resolves, and marking ends. With merging off the oldest state of an object counts and an object added by an update is removed (C29_updated_object_refuted). Hybrid sections are not covered, and objects are assumed not to be the shared null object."
  },
  {
   "property": "C30",
   "status": "partial",
   "theorems": [
    "C30_one_round_partial",
    "C30_all_rounds_partial",
    "C30_ends",
    "C30_stale_hash_refuted"
   ],
   "note": "For any hash functions and entry order: when every stream with references in its dictionary has data of its own (no other stream with the same bytes; for one round: no duplicate stream has references), the merged document says the same at every depth, no reference is lost, and the rounds always end. Refuted for equal streams whose dictionaries refer to a merged object: a key's hash changes inside the hash map, so a later reference dangles (C30_stale_hash_refuted). Assumes each number listed once and no indirect object that is itself a reference; object stream numbers of compressed entries are not modelled."
  },
  {
   "property": "C31",
   "status": "partial",
   "theorems": [
    "C31_copy_isomorphic_partial",
    "C31_ends",
    "C31_succeeds",
    "C31_missing_reference_refuted",
    "C31_direct_object_refuted"
   ],
   "note": "For every source graph whose references all resolve, with any allocation of fresh numbers: the copy is isomorphic, only what the roots lead to is copied, nothing else in the destination changes, copying ends and succeeds. Refuted: a reference to a missing object keeps its number and leads to an unrelated object of the destination (C31_missing_reference_refuted); a direct object as root is undefined behaviour (C31_direct_object_refuted)."
  },
  {
   "property": "C32",
   "status": "partial",
   "theorems": [
    "C32_body_roundtrip_partial",
    "C32_set_body_partial",
    "C32_unchanged_partial",
    "C32_data_kept",
    "C32_reads_partial",
    "C32_other_filters_refuted",
    "C32_filter_order_refuted",
    "C32_predictor_refuted",
    "C32_encrypted_list_refuted",
    "C32_crypt_in_list_refuted",
    "C32_crypt_unchanged_refuted",
    "C32_short_parameters_refuted"
   ],
   "note": "With zlib, the image codecs and encryption as parameters that undo themselves: bodies set or changed come back through no filter, one filter and lists of any length without predictors and lossy filters; unchanged streams keep their body under every filter but Crypt; a body encoded by any list of FlateDecode (with PNG prediction as far as C10), ASCII85Decode and ASCIIHexDecode is read. Refuted: LZW, run length and the fax filters are never read, order of different filters in a list, predictors, lists of filters in encrypted files, Crypt in a list and Crypt unchanged, short parameter lists (undefined)."
  },
  {
   "property": "C33",
   "status": "partial",
   "theorems": [
    "C33_standard_ciphertext",
    "C33_data_is_prefix_partial",
    "C33_roundtrip_refuted",
    "C33_other_key_lengths"
   ],
   "note": "With AES in CBC mode as a parameter (only that deciphering undoes enciphering is used): standard ciphertext is deciphered to the data. Refuted for the library's own encryption: its padding has the wrong length and OpenSSL pads again, so every non-empty text comes back with 1 to 16 bytes appended, and empty data cannot be deciphered."
  },
  {
   "property": "C34",
   "status": "partial",
   "theorems": [
    "C34_user_password_opens",
    "C34_owner_password_opens_partial",
    "C34_standard_entries_partial",
    "C34_owner_password_refuted",
    "C34_long_password_refuted",
    "C34_long_key_refuted"
   ],
   "note": "With MD5 and RC4 written out: the user password opens the document for key lengths up to 135 bits; the owner password for at most 40 and for 128 bits, with the key and the O and U entries of the standard. Refuted: the owner password for keys between (64 bits shown), passwords over 32 bytes and keys over 135 bits (undefined behaviour). That both passwords give one key is proved up to an accidental collision, which is stated in the theorem."
  },
  {
   "property": "C35",
   "status": "partial",
   "theorems": [
    "C35_object_key",
    "C35_roundtrip_partial",
    "C35_aes_refuted",
    "C35_identity_refuted"
   ],
   "note": "Object keys are the ones of the standard and data of any object survives encryption and decryption with every algorithm but AES. Refuted for AES (padding, every non-empty text) and for streams under the Identity filter, which are changed."
  },
  {
   "property": "C36",
   "status": "partial",
   "theorems": [
    "C36_stream_saved_then_updated_partial",
    "C36_update_recorded_partial",
    "C36_saved_then_updated_partial",
    "C36_compressed_edit_fails",
    "C36_newest_section_skipped",
    "C36_second_update_refuted",
    "C36_empty_update_refuted",
    "C36_deletion_refuted",
    "C36_older_change_wins_refuted"
   ],
   "note": "proved for changed table entries: the update is appended, found, keeps the document keys and every changed object loads as changed; after a one-section save followed by one update every object resolves to its current state. Refuted: a second update (the old Prev is kept, so the first update is skipped), an update without changes (no Prev: every object null), deletions (not recorded), edits of compressed objects (save fails), the same number changed in two sections (older wins). C36_stream_saved_then_updated_partial proves the same for a document with a cross-reference stream and object streams, down to every object a program reads from the updated file. Missing: hybrid sections (C73), sources with several sections"
  },
  {
   "property": "C37",
   "status": "partial",
   "theorems": [
    "C37_lifetimes_partial",
    "C37_stays_destroyed",
    "C37_last_handle_destroys",
    "C37_threads_partial",
    "C37_lock_race_refuted",
    "C37_copied_object_refuted",
    "C37_assigned_object_refuted"
   ],
   "note": "One thread: every history of handle and weak reference operations on any number of objects; several threads: every schedule in which weak references are locked only by threads that own a handle. Refuted: locking races with the last release (C37_lock_race_refuted), and objects copied or assigned as values share the flag of another object."
  },
  {
   "property": "C38",
   "status": "partial",
   "theorems": [
    "C38_accepts_exactly",
    "C38_roundtrip",
    "C38_one_meaning",
    "C38_calendar_refuted",
    "C38_roundtrip_refuted"
   ],
   "note": "accepted texts characterised exactly, times a clock shows read back; the 30th of February is accepted, and writing a date with zone Z and an offset loses the offset"
  },
  {
   "property": "C39",
   "status": "proved",
   "theorems": [
    "C39_page",
    "C39_out_of_range",
    "C39_count",
    "C39_wrong_count_refuted",
    "C39_cycle_refuted"
   ],
   "note": "Trees of any shape and depth with right counts. Beyond the claim, refuted: with a wrong Count another page is returned and pages become unreachable; a cyclic tree is searched forever."
  },
  {
   "property": "C40",
   "status": "partial",
   "theorems": [
    "C40_append",
    "C40_insert_partial",
    "C40_remove_partial",
    "C40_history_partial",
    "C40_insert_outside",
    "C40_insert_refuted",
    "C40_remove_refuted"
   ],
   "note": "Appending: every tree. Inserting and removing: when the kids of the root up to that place are pages; every history on a flat tree. Counts are right after every call. Refuted: inserting and removing in a tree with inner nodes edits the kids of the root (wrong place, refused, a whole subtree removed); a removal that removes nothing reports success."
  },
  {
   "property": "C41",
   "status": "partial",
   "theorems": [
    "C41_lookup",
    "C41_first_insert_partial",
    "C41_second_insert_refuted",
    "C41_insert_kids_refuted",
    "C41_replace_refuted",
    "C41_wrong_key",
    "C41_labels_refuted",
    "C41_number_kids_refuted"
   ],
   "note": "Lookup of every stored and every missing key is proved for name trees of any shape and after any earlier lookups. The first insertion into a tree without kids is proved, also for a tree opened anew. Refuted: the second insertion fails and empties the dictionary, insertion into a tree with kids breaks all later lookups, inserting an existing key keeps the old value, number trees (page labels) never find a key, number trees with kids cannot be read. Not pinned down: whether insertion into a tree with kids really frees its leaf nodes; the wrong program that keeps them (seeded/LOG.jsonl, release_node) is still accepted by every theorem."
  },
  {
   "property": "C42",
   "status": "partial",
   "theorems": [
    "C42_range_partial",
    "C42_array",
    "C42_char",
    "C42_unmapped",
    "C42_text",
    "C42_text_range_partial",
    "C42_always_ends",
    "C42_long_destination_refuted",
    "C42_carry_refuted",
    "C42_overflow_refuted",
    "C42_long_code_refuted"
   ],
   "note": "Proved for destinations and codes of at most four bytes whose sum fits the destination (C42_range_partial), arrays, single codes, unknown codes, the text reader for every standard text, and termination. Refuted: destinations of five or more bytes and codes of five or more bytes are undefined behaviour, in general, a carry out of the destination fails, and is silently dropped when it is a multiple of twelve (C42_overflow_refuted)."
  },
  {
   "property": "C43",
   "status": "partial",
   "theorems": [
    "C43_reads_partial",
    "C43_reads_standard",
    "C43_roundtrip_partial",
    "C43_images_grow",
    "C43_image_data_refuted",
    "C43_image_space_refuted",
    "C43_image_end_refuted",
    "C43_open_text_refuted",
    "C43_ends_partial",
    "C43_ends_refuted",
    "C43_bound"
   ],
   "note": "Reading is proved for every text of the content stream grammar, and read-write-read for every list without inline images whose operations can be written; an inline image gets one more byte of data each time (C43_images_grow). Refuted: image data changes, white space after ID counted as data, data ending in white space and E overruns, image at the end of a stream refused, text object without ET cannot be reread, parser hangs on a malformed image dictionary (it ends on every text without BI)."
  },
  {
   "property": "C44",
   "status": "partial",
   "theorems": [
    "C44_streams_partial",
    "C44_joined",
    "C44_same_again",
    "C44_boundary_refuted"
   ],
   "note": "Proved for any number of streams that meet at token boundaries, and for instructions spread over several streams; refuted: streams are joined without white space, so words of complete streams run together."
  },
  {
   "property": "C45",
   "status": "partial",
   "theorems": [
    "C45_cache_invisible_partial",
    "C45_each_once",
    "C45_rewind",
    "C45_cache_bounded",
    "C45_failed_peek_refuted",
    "C45_failed_position_refuted"
   ],
   "note": "Any mix of peeking, reading and seeking answers as without a cache up to the first failure; every token is delivered once; the cache is bounded by ten. Refuted, in general: a peek that fails moves the position behind the wrong byte (C45_failed_position_refuted)."
  },
  {
   "property": "C46",
   "status": "partial",
   "theorems": [
    "C46_less_irreflexive",
    "C46_less_transitive",
    "C46_less_total",
    "C46_value_compare",
    "C46_value_compare_refuted"
   ],
   "note": "Strict total order for all buffers; value comparison is numeric for buffers of the same length and wrong for different lengths (C46_value_compare_refuted)."
  },
  {
   "property": "C47",
   "status": "partial",
   "theorems": [
    "C47_attribute_list_is_map_partial",
    "C47_overwrite_refuted"
   ],
   "note": "Attribute lists behave as maps except that overwriting keeps the old value (refuted)."
  },
  {
   "property": "C48",
   "status": "partial",
   "theorems": [
    "C48_pages_partial",
    "C48_source_changed_refuted",
    "C48_inherited_refuted",
    "C48_links_refuted",
    "C48_name_clash_refuted",
    "C48_numbered_destination_refuted"
   ],
   "note": "Proved for any two documents with right page counts: copies of all pages in order behind the existing ones, all they lead to copied under unused numbers, other objects of the destination unchanged, names of the pages lead to the copies. Refuted: the source loses the Parent entries of its pages, links between pages lead to orphan copies, inherited attributes are lost, a clashing name fails half way, a destination given by a page number makes the append fail."
  },
  {
   "property": "C49",
   "status": "partial",
   "theorems": [
    "C49_header_roundtrip_partial",
    "C49_same_line_refuted",
    "C49_unknown_minor_refused"
   ],
   "note": "Every version and any lines in front of the header. Garbage on the header's own line hides it (C49_same_line_refuted)."
  },
  {
   "property": "C50",
   "status": "partial",
   "theorems": [
    "C50_set_bit",
    "C50_set_bit_unsigned",
    "C50_is_bit_set",
    "C50_real_refused",
    "C50_position_refuted"
   ],
   "note": "Exactly the named bit changes, for all values and positions 0..63, signed and unsigned. Missing: positions outside 0..63 are not checked (undefined behaviour, C50_position_refuted)."
  },
  {
   "property": "C51",
   "status": "proved",
   "theorems": [
    "C51_stream_roundtrip",
    "C51_reads_standard_stream"
   ],
   "note": "Written streams with a matching Length, and every standard stream text with direct or indirect Length."
  },
  {
   "property": "C52",
   "status": "proved",
   "theorems": [
    "C52_parser_reads_standard_text",
    "C52_parser_terminates"
   ],
   "note": "Completeness of the parser for a grammar of object texts with white space and comments anywhere, and termination on every input."
  },
  {
   "property": "C53",
   "status": "partial",
   "theorems": [
    "C53_cstring_compare",
    "C53_cstring_equal_partial",
    "C53_cstring_refuted",
    "C53_empty_refuted"
   ],
   "note": "A buffer equals every string it is a prefix of (C53_cstring_refuted), so only the direction equal strings compare equal holds."
  },
  {
   "property": "C54",
   "status": "partial",
   "theorems": [
    "C54_recovered_own_line",
    "C54_recovered_same_line",
    "C54_length_at_stray_character_refuted",
    "C54_trailing_return_refuted"
   ],
   "note": "Proved with endstream on its own line and on the line of the data, for lengths that are missing, negative, beyond the end or at another word. A length that leads to a stray delimiter makes the object unreadable, and data ending with a carriage return loses it before a line feed (refuted theorems)."
  },
  {
   "property": "C56",
   "status": "partial",
   "theorems": [
    "C56_rc4_chosen",
    "C56_aes_chosen_refuted"
   ],
   "note": "Holds when RC4 is chosen; refuted for AES: the dictionary has no crypt filters, so RC4 is used whatever the settings."
  },
  {
   "property": "C57",
   "status": "partial",
   "theorems": [
    "C57_changes_written_partial",
    "C57_changes_lost_refuted",
    "C57_removed_stays_refuted",
    "C57_erased_refuted",
    "C57_clean_unchanged",
    "C57_twice",
    "C57_edits",
    "C57_outside_refuted"
   ],
   "note": "Proved when the page's stream or array is marked dirty by some other change and the instructions were read before. Refuted: changes through the instruction list never mark the page, so every change is lost; recalculating a dirty page whose instructions were not read erases it; places outside the list are undefined."
  },
  {
   "property": "C55",
   "status": "partial",
   "theorems": [
    "C55_found_partial",
    "C55_loads",
    "C55_opens_partial",
    "C55_cut_file_opens",
    "C55_ends",
    "C55_truncated_object_refuted",
    "C55_cut_word_refuted",
    "C55_cut_row_refuted",
    "C55_streams_first",
    "C55_stream_hides_newest_refuted",
    "C55_indirect_type_refuted",
    "C55_huge_offset_refuted"
   ],
   "note": "A file of complete objects, tables, trailers and other lines gives the last object with each number and the last trailer, the recorded places can be read again, a saved file cut off in front of its table opens with every object, the search always ends; refuted: an incomplete object, a word or table row cut off by the end of the file, a stream with indirect Type make opening fail, cross-reference streams hide newer objects, a startxref number out of range is not handled"
  },
  {
   "property": "C58",
   "status": "partial",
   "theorems": [
    "C58_others_unchanged",
    "C58_released_null_partial",
    "C58_older_revision_refuted",
    "C58_hybrid_object_refuted"
   ],
   "note": "Proved for objects of generation 0, and for other generations when one section has the object; all other objects are proved unchanged. Refuted: an object of a higher generation that an older section also has is found there again, and an object listed only by a hybrid stream is not released."
  },
  {
   "property": "C59",
   "status": "partial",
   "theorems": [
    "C59_byte_range_first_partial",
    "C59_byte_range_whole",
    "C59_byte_range_refuted",
    "C59_signature_verifies",
    "C59_only_placeholders_change",
    "C59_small_signature_accepted",
    "C59_large_signature_reported",
    "C59_key_reuse_refuted",
    "C59_written_again_refuted"
   ],
   "note": "Proved for a first signing with a key of any file below 2^63 bytes: read back, covered ranges, only the reserved space changed, too large signatures reported. Refuted: a second signing with the same key uses the released certificate, and a dictionary written again in the same session has no Contents; the byte ranges of a signature after the first are read shifted by one number. The field, form and page annotation objects made around the dictionary are C70."
  },
  {
   "property": "C60",
   "status": "partial",
   "theorems": [
    "C60_strings_saved",
    "C60_strings_copied_partial",
    "C60_streams_saved_partial",
    "C60_streams_save_partial",
    "C60_streams_copied_partial",
    "C60_stream_strings_refuted",
    "C60_renumbered_refuted",
    "C60_renumbered_value",
    "C60_copied_out_refuted",
    "C60_copied_in_refuted",
    "C60_copied_from_object_stream_refuted",
    "C60_copied_string_refuted"
   ],
   "note": "Strings at any depth: proved for saving with any renumbering, and for copying objects that are not from object streams. Streams: proved when the body was read or number and encryption stay the same. Refuted: strings in stream dictionaries make saving fail, unread streams that are renumbered or copied between plain and encrypted documents change, strings copied out of object streams are not encrypted. RC4 only: AES is C33."
  },
  {
   "property": "C61",
   "status": "partial",
   "theorems": [
    "C61_hybrid_lookup",
    "C61_hybrid_save_partial",
    "C61_hybrid_unlisted_refuted",
    "C61_default_save_partial",
    "C61_save_succeeds_partial",
    "C61_deleted_refuted",
    "C61_dangling_refuted",
    "C61_null_target_refuted",
    "C61_stream_save_partial"
   ],
   "note": "The whole save is composed from the stages of C28, C29, C30, C36 and C21 and proved for every document whose sections are tables (any number of updates) in which every reference that can be reached from the trailer leads to an object that is not null and names the latest generation of its number; objects that cannot be reached, deleted ones included, may be anything; such a save never fails when the real numbers are within the range of integers. Refuted: a reference to a missing object, or to an object that is null, keeps its number while the objects are renumbered and then leads to an unrelated object; a reference to a deleted object leads to that object again. C61_stream_save_partial proves the same for documents with cross-reference streams and object streams, for every update history of tables and streams, down to every object a program reads from the new file. C61_hybrid_save_partial proves it for hybrid-reference files whose tables and hybrid streams list different numbers. Refuted for hybrid files: when the newest hybrid stream is listed in no table, saving fails. Missing: deleted objects of documents with streams, hybrid files that list a number twice, the watermark."
  },
  {
   "property": "C62",
   "status": "partial",
   "theorems": [
    "C62_page_entries_partial",
    "C62_page_dictionary",
    "C62_contents_remembered_refuted",
    "C62_own_resources",
    "C62_inherited_resources_refuted",
    "C62_information_partial",
    "C62_information_again_refuted",
    "C62_trapped",
    "C62_trapped_spelling",
    "C62_sub_range_first_partial",
    "C62_sub_range_refuted"
   ],
   "note": "Page entries, information entries and the trapped state: proved as far as the entries are not already read or present. Refuted: contents read before a set are remembered and the set is ignored, an information entry that exists cannot be set again, inherited resources always fail, and the sub-ranges after the first overlap (index n gives numbers n and n+1 instead of 2n and 2n+1)."
  },
  {
   "property": "C63",
   "status": "partial",
   "theorems": [
    "C63_open_partial",
    "C63_never_another_file",
    "C63_address_lost_refuted"
   ],
   "note": "Proved for every history in which all files can be read, by refinement to a world without addresses, and for every history that no document of another file is given out. Refuted: a file that fails to open leaves its address in the map for ever, and any later good file at that address is refused as disposed."
  },
  {
   "property": "C64",
   "status": "partial",
   "theorems": [
    "C64_annotation_partial",
    "C64_annotation_refuted",
    "C64_font",
    "C64_field_partial",
    "C64_field_inherited_refuted",
    "C64_destination",
    "C64_destination_only",
    "C64_named_destination",
    "C64_link",
    "C64_link_unknown",
    "C64_values",
    "C64_values_missing",
    "C64_outline_level",
    "C64_outline_parent_refuted",
    "C64_outline_flags"
   ],
   "note": "Fonts, destinations, links, named values, outline levels and flags: proved as exact characterisations. Refuted: stamp, trap network and 3D annotations of the standard are refused (the C++ class names are expected instead), a field that inherits its type is taken for a non-terminal one, and the parent of every outline item is reported as the outline itself. Missing: the other accessors of these objects, which only look up an entry (shown for a general entry in C62)."
  },
  {
   "property": "C65",
   "status": "partial",
   "theorems": [
    "C65_reads_partial",
    "C65_overridden_refuted",
    "C65_recursion_refuted",
    "C65_unlisted_refuted"
   ],
   "note": "Proved for every history over a file in which no object of an object stream was replaced by an update. Refuted: reading another object of the stream brings the replaced version back (and marks it as changed); an object stream said to be in itself makes the read run for ever; an object stream with a number that no section lists makes all its objects unreadable. Missing: edits of the object stream objects themselves, failing reads in the positive theorem."
  },
  {
   "property": "C66",
   "status": "partial",
   "theorems": [
    "C66_own_last_error_partial",
    "C66_message_partial",
    "C66_long_message_refuted",
    "C66_parameter_error_refuted",
    "C66_codes",
    "C66_texts",
    "C66_no_other_text"
   ],
   "note": "Proved for every interleaving: every call returns the code of its own exception and each thread finds the code of its own last exception; messages below 255 characters come back whole and terminated, codes and texts are distinct. Refuted: a call that fails because of a parameter does not change the last error; a longer message is copied to the caller without a terminator."
  },
  {
   "property": "C67",
   "status": "partial",
   "theorems": [
    "C67_memory_partial",
    "C67_starts_over",
    "C67_lost_writes_refuted",
    "C67_always_answers",
    "C67_buffer_stream"
   ],
   "note": "Proved for every sequence of calls that never asks for more than there is, from the beginning or after setting the reading position, and for streams made from buffers. Refuted: after a read that finds less than it asks for, writes succeed but are not stored until the reading position is set again. The standard library's stringstream is modelled from the C++ standard; file streams are not modelled."
  },
  {
   "property": "C68",
   "status": "partial",
   "theorems": [
    "C68_reals_survive_partial",
    "C68_read_nearest",
    "C68_written_value",
    "C68_enough_places_partial",
    "C68_set_value_refuted",
    "C68_many_digits_refuted",
    "C68_out_of_range_refuted",
    "C68_exponent_refuted"
   ],
   "note": "Proved: reading gives the nearest double, numbers below 2^52 without their point and with 1 to 307 places are written with the same digits, a double written with enough places reads back. Refuted in general: setting a value keeps the places of the old one, so small values are written as zero; odd numbers above 2^53 change; numbers out of range make reading fail; numbers without places and with an exponent are not read back. The rounding of std::stod and of fmt is assumed to be to nearest, ties to even."
  },
  {
   "property": "C69",
   "status": "partial",
   "theorems": [
    "C69_permissions_refuted",
    "C69_none_refuted",
    "C69_other_bits",
    "C69_entries",
    "C69_passwords",
    "C69_algorithm_refuted",
    "C69_no_algorithm",
    "C69_added",
    "C69_removed_partial",
    "C69_removed_refuted"
   ],
   "note": "Refuted for every combination of flags: the permissions of the document are exactly the reverse of the ones asked for (no action allowed means every action is permitted). Refuted for every setting: the data is enciphered with RC4 even if AES was asked for. Refuted for removal: in a document with updates whose first section is a stream the saved document still names the encryption dictionary. Proved: the entries of the dictionary, the unused bits, errors for no algorithm, the trailer after adding, and after removing when no older stream section names the encryption."
  },
  {
   "property": "C70",
   "status": "partial",
   "theorems": [
    "C70_succeeds",
    "C70_field_added_partial",
    "C70_shared_refuted",
    "C70_flags",
    "C70_nothing_lost",
    "C70_pages",
    "C70_same_name_refuted",
    "C70_failed_signing_refuted",
    "C70_no_pages"
   ],
   "note": "Proved for every document whose form entries have the right types, with any mix of direct and indirect entries: signing succeeds, one field is added to the form and to the annotations of the first page, the flags are set, all other objects stay and those of the form lose nothing, pages stay; a document without pages is refused. Refuted: the field is listed twice when annotations and fields are one array, every signing uses the field name Signature1, and a signing that fails while writing leaves its field and flags behind. The numbers of new objects are those of C23."
  },
  {
   "property": "C71",
   "status": "partial",
   "theorems": [
    "C71_object_partial",
    "C71_same_object_partial",
    "C71_never_replaced_partial",
    "C71_in_order",
    "C71_no_deadlock_partial",
    "C71_all_answered_partial",
    "C71_one_thread",
    "C71_deadlock_refuted",
    "C71_deadlock_streams_refuted",
    "C71_data_race_refuted",
    "C71_cyclic_length_refuted",
    "C71_length_in_object_stream_refuted"
   ],
   "note": "Proved for files whose Lengths are direct or objects of the file itself without cycles: for every schedule of any number of threads each answer is what the file has, the same object for all threads, never replaced, and answers come in order; if nobody asks directly for an object that is a Length, the threads never wait for each other and all requests are answered in a bounded number of steps; a single thread never waits for itself in any file. Refuted in general: a thread asking for the Length object and one asking for its stream can deadlock (entry mutex and input mutex in opposite order); so can a thread reading a stream whose Length is in an object stream and one asking for any object in an object stream; IsInitialized is a plain bool read without a mutex while it is set; Lengths that lead back to themselves recurse without end; a stream whose Length is in an unread object stream is read from the wrong position, because GetBodyRaw leaves the input at the data of the object stream."
  },
  {
   "property": "C72",
   "status": "partial",
   "theorems": [
    "C72_nothing_else",
    "C72_strings_partial",
    "C72_streams_partial",
    "C72_saved_partial",
    "C72_opens_partial",
    "C72_unsigned_field_refuted",
    "C72_literal_contents_refuted",
    "C72_password_refuted",
    "C72_nested_field_refuted",
    "C72_indirect_identifier_refuted"
   ],
   "note": "Proved for all files: whatever is not deciphered is left plain by the standard. Proved for files of the usual layout (encryption dictionary behind at most one reference, direct identifiers, no fields below other fields): strings and streams are shown as stored exactly when the standard says so and deciphered otherwise, and the plain ones are saved unchanged; orderly files are opened. Refuted in general: signatures of fields below other fields and indirect identifiers are deciphered although they are plain; a signature field whose value is null, or a signature with literal-string contents, makes the document impossible to open, encrypted or not; a document with a user password and its catalog in an object stream cannot be opened, because opening asks for the catalog before a password can be given (a second call then reports success with no signature marked)."
  },
  {
   "property": "C73",
   "status": "partial",
   "theorems": [
    "C73_hybrid_update_partial",
    "C73_hidden_changes_ignored",
    "C73_hidden_change_refuted",
    "C73_only_hidden_change_refuted",
    "C73_listed_twice_refuted"
   ],
   "note": "Proved: the bytes are kept, opening finds the new and the old section, each with the hybrid stream; changed objects of the table show their new state, and every unchanged number on which table and hybrid stream agree resolves as before. Refuted: a change of an object only the hybrid stream lists is lost silently (C73_hidden_changes_ignored, for every file); when nothing else was changed the whole table becomes unreachable; and a number that table and stream list differently switches from the table's entry to the stream's, because the update repeats XRefStm."
  },
  {
   "property": "C74",
   "status": "partial",
   "theorems": [
    "C74_right_object",
    "C74_consistent_partial",
    "C74_recovered_partial",
    "C74_order_refuted",
    "C74_unlisted_number_refuted",
    "C74_damaged_refuted",
    "C74_collision_refuted"
   ],
   "note": "Proved: after any history an object that is handed out carries the number asked for; truthful tables answer the same after every history; after the first misleading entry was met, every object whose number no other entry claims is found. Refuted: before that, an object whose number no entry gives is reported as missing, so the answer depends on the history (C74_order_refuted); one unreadable entry makes every such lookup fail (C74_damaged_refuted); a free entry that gets the number of an object may push it out, depending on an unspecified sorting order (C74_collision_refuted)."
  },
  {
   "property": "C75",
   "status": "partial",
   "theorems": [
    "C75_keys_partial",
    "C75_rename_refuted",
    "C75_lost_refuted",
    "C75_duplicate_refuted",
    "C75_shared_refuted"
   ],
   "note": "Proved: every history that leaves names alone once they are keys gets the answers of ideal dictionaries, for any shape of the search tree. Refuted: after every such history, changing the text of the name just inserted makes the entry unfindable (C75_rename_refuted), possibly under the new text as well although iteration shows it (C75_lost_refuted); two entries can get equal keys (C75_duplicate_refuted); a key read back shares its text with the name it was inserted with, so changing it changes lookups elsewhere (C75_shared_refuted)."
  },
  {
   "property": "C76",
   "status": "partial",
   "theorems": [
    "C76_dictionary_partial",
    "C76_dictionary_ends",
    "C76_section_partial",
    "C76_section_ends",
    "C76_instructions_partial",
    "C76_remove_current_refuted",
    "C76_replace_current_refuted",
    "C76_rehash_refuted",
    "C76_change_instructions_refuted",
    "C76_release_refuted",
    "C76_end_refuted"
   ],
   "note": "Proved: loops over dictionaries whose bodies insert anything and remove other entries, loops over sections with room for the entries added whose bodies remove or replace other entries, and loops over instructions that change nothing visit what is left alone exactly once and end. Refuted, as undefined behaviour: removing or replacing the current element, adding to a full section, any change of a list of instructions, releasing the collection, and reading or stepping at the end."
  },
  {
   "property": "C77",
   "status": "partial",
   "theorems": [
    "C77_references_partial",
    "C77_replaced_refuted",
    "C77_handle_refuted",
    "C77_moved_refuted",
    "C77_orphan_refuted",
    "C77_null_refuted",
    "C77_removed_refuted"
   ],
   "note": "Proved: all answers of programs that place each object once, do not remove entries, and replace an object only when nothing of the program refers to it, are the ones of the simple meaning (a reference names a number, a number has an object). Refuted, after any such history: replacing an object the program still holds makes references to it throw, out of the C interface when asked for the number, but not if the handle was released; a second number for an object changes the number of references but not their hash; replacing it there breaks references to an object that is still in the file; pointing at null changes nothing; removing the entry."
  },
  {
   "property": "C78",
   "status": "partial",
   "theorems": [
    "C78_memory_partial",
    "C78_incremental_save_refuted",
    "C78_full_save_partial",
    "C78_update_partial",
    "C78_second_update_refuted",
    "C78_full_after_update_refuted"
   ],
   "note": "Proved for documents of table sections and all histories: objects are read as the program left them, except those edited or created before the last incremental save; full saves write the document as the program left it as long as nothing is lost that way; an incremental save writes exactly the edited and created objects that are not lost. Refuted, in general: an incremental save takes every edited and created object out of the open document (null from then on), the second of two incremental saves writes none of the changes, and (on a document) a full save after an incremental one writes a document without its page tree."
  },
  {
   "property": "C79",
   "status": "partial",
   "theorems": [
    "C79_new_document",
    "C79_saved_partial",
    "C79_equal_pages_refuted",
    "C79_incremental_refuted"
   ],
   "note": "Proved for all such histories: the answers, the objects and the page tree in memory, that saving succeeds, and that the reopened file has the pages in order with their entries, the producer and the date (hashes that are never zero; streams that refer to nothing). Refuted on documents: two pages that are still equal when the document is saved become one object, so that they are one page for whoever edits the file; the incremental save of a created document writes a file without header, which does not open."
  },
  {
   "property": "C80",
   "status": "partial",
   "theorems": [
    "C80_decompresses",
    "C80_round_trip",
    "C80_nothing_made_up",
    "C80_damaged",
    "C80_recovers_partial",
    "C80_cut_off_refuted",
    "C80_small_refuted",
    "C80_lost_refuted",
    "C80_same_length_refuted"
   ],
   "note": "Proved for every library that keeps the streaming contract: the round trip, complete data with anything behind it, termination and that nothing is made up, and the exact result for damaged data. Refuted: data that is cut off is accepted without an error; damage met before 4096 bytes were decoded gives an error and nothing; the second attempt takes the size of the output for a place in the input, so that what the damaged block holds is lost when the data was really compressed, and everything is lost when the output so far is as long as the input."
  },
  {
   "property": "C81",
   "status": "partial",
   "theorems": [
    "C81_jpeg_reads_partial",
    "C81_jpeg_cut_off_refuted",
    "C81_jpeg_decode_partial",
    "C81_jpeg_components_refuted",
    "C81_jpeg_attribute_refuted",
    "C81_jpeg_encode_colour_refuted",
    "C81_jpeg_encode",
    "C81_jpeg_encode_short",
    "C81_jpx_decode_partial",
    "C81_jpx_only",
    "C81_jpx_subsampled_refuted",
    "C81_jpx_large_refuted",
    "C81_jpx_reads_partial",
    "C81_jpx_cut_off_refuted"
   ],
   "note": "Proved for every reader: DCT pictures with one, three or four components and JPX pictures whose components have full size and eight bits (and that no other JPX picture is decoded), and compressing with output of any size. Refuted, in general: DCT data that is cut off is read beyond its end (undefined), JPX data that is cut off makes the read loop of openjpeg run for ever, pictures with two components come out as zeros, an existing image attribute makes decoding fail, a picture whose colour space is an array is not compressed although decoding noted all that is needed, JPX components smaller than the picture are read beyond their end, and JPX pictures of 2^32 samples or more are written beyond the end of the result."
  },
  {
   "property": "C82",
   "status": "partial",
   "theorems": [
    "C82_told_partial",
    "C82_not_told",
    "C82_reused_address_refuted",
    "C82_same_file",
    "C82_cancelled",
    "C82_late_refusal_refuted",
    "C82_unsubscribe_inside_refuted"
   ],
   "note": "Proved: what every observer hears, with positions in the file, for programs that unsubscribe before they release or that never get an address twice; that nobody else hears anything; that the file does not depend on the observers; what a cancelled save has written, flushed and told. Refuted, in general: an observer at the address of a released one that is still subscribed hears nothing although it is subscribed; a save that is reported as cancelled may be complete; a callback that unsubscribes its own observer makes the loop go on from an erased iterator (undefined). Callbacks that change the objects are not modelled."
  },
  {
   "property": "C83",
   "status": "partial",
   "theorems": [
    "C83_recipient_partial",
    "C83_recipient_filter_partial",
    "C83_outsider",
    "C83_no_certificate",
    "C83_outsider_refused",
    "C83_not_encrypted",
    "C83_data_partial",
    "C83_metadata_refuted",
    "C83_length_refuted",
    "C83_filter_name_refuted",
    "C83_short_content_refuted",
    "C83_password_document_refuted",
    "C83_first_decides_refuted"
   ],
   "note": "Proved: every recipient of every group gets the standard's key, and data enciphered by the standard comes back, for documents that encipher their metadata, name their filter DefaultCryptFilter and repeat the key length in the encryption dictionary; whoever is not named, or has no certificate, is refused and changes nothing. Refuted, in general: with EncryptMetadata false the key is not the standard's; without the Length entry, which the standard does not ask for there, an AES key has five bytes; a filter of another name refuses its recipients; a message with less than 20 bytes of content is read behind its end (undefined); for a document with a password the call throws instead of answering false; a message that names the certificate but cannot be opened hides the later ones. The functions of OpenSSL are parameters."
  },
  {
   "property": "C84",
   "status": "partial",
   "theorems": [
    "C84_accepted_partial",
    "C84_version",
    "C84_complete",
    "C84_refused",
    "C84_history",
    "C84_unlicensed",
    "C84_valid",
    "C84_temporary_refuted",
    "C84_serial_refuted",
    "C84_unchecked_refuted"
   ],
   "note": "Proved: an accepted license holds fields whose text, written one after the other, was signed by the first certificate of a valid chain, its serial number is not refused and its updates cover the build; another version is refused (C84_version); every license that the vendor signed that way is accepted; a refused one changes nothing; after any history the last accepted license counts. Refuted, in general: what is signed is the fields without anything between them, so from every accepted temporary license one makes an accepted license that never ends with the same signature, and a refused serial number is accepted when its first character is moved to the note; a build without ENFORCE_LICENSE_CHECKS, the default, is licensed without any license. JSON, dates and OpenSSL are parameters."
  },
  {
   "property": "C85",
   "status": "partial",
   "theorems": [
    "C85_none",
    "C85_one_partial",
    "C85_two_refuted",
    "C85_again_refuted",
    "C85_direct_refuted",
    "C85_kids_refuted"
   ],
   "note": "Proved: nothing changes without string destinations in the source; a single one that is an object of its own (an array, or a dictionary with /D), appended to a target whose name tree is missing or is one array without Limits, leads to the copy of its page, and the target's are kept. Refuted, in general: with two of them, or when the root of the target's tree has Limits (as it has after one was appended), the call throws and no string destination is left, not even the target's own; a destination written directly into the name tree makes appending impossible; so does a target whose name tree has kids."
  },
  {
   "property": "C86",
   "status": "partial",
   "theorems": [
    "C86_calls_partial",
    "C86_handles_partial",
    "C86_release_partial",
    "C86_begin_text_refuted",
    "C86_each_refuted",
    "C86_colour_refuted",
    "C86_parent_refuted",
    "C86_filter_refuted"
   ],
   "note": "Proved for every history that leaves 14 of the 737 functions alone: no dead and no mistaken handle, reference counts equal the handles held, each handle can be released and the object goes with its last reference. The 14 store or read a handle as another class: OutlineItemColor_GetRed/Green/Blue give a real number as an integer handle, PageObject_GetParent a page tree node as a page tree, the Decode functions read every filter as a Flate filter, three store a pointer to a base class. C86_each_refuted shows that each reachable one breaks some program by itself. A ContentOperationBeginTextHandle can never be given back (C86_begin_text_refuted)."
  },
  {
   "property": "C87",
   "status": "partial",
   "theorems": [
    "C87_refused_partial",
    "C87_never_followed_partial",
    "C87_safe_partial",
    "C87_each_refuted"
   ],
   "note": "Proved for all but five functions: PageContents_RecalculateStreamData, PageLabel_Prefix, PageLabel_Start, PageLabel_Style and DictionaryObject_Remove store through a null result pointer (C87_each_refuted). Callbacks, their user data and passwords may be null (Spec/Boundary.v lists them). A program that avoids these five and the 14 of C86 never gets undefined behaviour at the boundary (C87_safe_partial)."
  },
  {
   "property": "C88",
   "status": "partial",
   "theorems": [
    "C88_arrays",
    "C88_buffers_partial",
    "C88_instructions_partial",
    "C88_insert_refuted",
    "C88_remove_refuted",
    "C88_read",
    "C88_elements",
    "C88_byte_ranges_partial",
    "C88_byte_range_refuted",
    "C88_byte_range_beyond_refuted"
   ],
   "note": "Proved for arrays (every history, every index), for all reads, and for lists of buffers and instructions within their size. Refuted: inserting beyond the end of a list of buffers or instructions, and removing there (an instruction even directly behind the last one), is undefined behaviour; the byte ranges of a signature overlap (index k gives the numbers k and k+1), and indexes beyond their number are answered."
  },
  {
   "property": "C89",
   "status": "partial",
   "theorems": [
    "C89_between_objects_partial",
    "C89_table_written_partial",
    "C89_torn_heading_refuted",
    "C89_torn_value_refuted"
   ],
   "note": "Proved for every file that was saved in full once and then incrementally any number of times (tables, objects that are not cross-reference streams): a stop between two appended objects or in front of the new table (C89_between_objects_partial), and one behind the new table, behind its offset or within the end marker (C89_table_written_partial), leaves a file that opens by the search for objects, with exactly the objects written so far, each in its last state and readable at its place, and the document's trailer keys. Objects that were deleted are found again by the search. Refuted, in general: behind the heading of every appended object a stop leaves a file that does not open at all (C89_torn_heading_refuted); a stop within an appended integer leaves a file that opens with a truncated number (C89_torn_value_refuted). Missing: the other points within an object, a table or the last lines, and the single point behind the first line feed."
  },
  {
   "property": "C90",
   "status": "partial",
   "theorems": [
    "C90_operator_partial",
    "C90_one_kind",
    "C90_wrong_operands_refused_partial",
    "C90_any_operands_refuted",
    "C90_save_state_refuted",
    "C90_written",
    "C90_font_edits",
    "C90_text_edits",
    "C90_items_edits",
    "C90_other_edits"
   ],
   "note": "Proved for every operation text: operator type, value, operands, refused operands of the eight operators that have classes of their own, write and re-read, histories of setters. Refuted: all other operators take any operands, and the type of their operation is Generic although the API has a type for each (C90_any_operands_refuted, C90_save_state_refuted)."
  },
  {
   "property": "C91",
   "status": "partial",
   "theorems": [
    "C91_other_files",
    "C91_source_kept",
    "C91_saved_elsewhere",
    "C91_not_writable",
    "C91_failed_save_refuted",
    "C91_update_in_place_refuted",
    "C91_save_in_place_refuted",
    "C91_save_in_place_partial",
    "C91_unlicensed_refuted"
   ],
   "note": "Proved: other files, the open document and the content of the named file when it is not the source; saving in place when every object was read. Refuted: a failed save has emptied the file, saving changes in place loses the whole document, saving in place with an unread object fails and leaves a bare header, an incremental save without a licence empties the file."
  },
  {
   "property": "C92",
   "status": "partial",
   "theorems": [
    "C92_opened",
    "C92_objects_partial",
    "C92_deleted_refuted"
   ],
   "note": "Proved for every conforming file with cross-reference tables: it opens with its version, sections and trailers (C92_opened), and every reference whose number was not given to another generation later yields what it stands for (C92_objects_partial). Refuted, in general: a reference to an object that an update deleted still gives the object (C92_deleted_refuted). Cross-reference streams and hybrid files are not covered by this specification (streams: C94, hybrid files: C73)."
  },
  {
   "property": "C93",
   "status": "partial",
   "theorems": [
    "C93_saved_partial",
    "C93_updated_partial",
    "C93_second_update_refuted",
    "C93_size_refuted",
    "C93_long_row_refuted"
   ],
   "note": "Proved for every saved file up to ten gigabytes with tables: it follows the standard and every reference stands for the object of the document (C93_saved_partial); the first incremental save of every file that follows the standard again gives such a file, with changed objects new and others as before (C93_updated_partial). Refuted, in general: the second update drops all that the first one recorded (C93_second_update_refuted), the Size of an update does not cover objects with numbers above the number of changes (C93_size_refuted; C19 for gaps in full saves), rows of objects behind ten gigabytes are too long (C93_long_row_refuted). Cross-reference streams are not covered by this specification (C95)."
  },
  {
   "property": "C94",
   "status": "partial",
   "theorems": [
    "C94_opened_partial",
    "C94_objects_partial",
    "C94_default_type_refuted",
    "C94_reserved_refuted"
   ],
   "note": "Proved for every such file that gives the type of its rows, uses no reserved types and whose object streams hold no unlisted numbers: it is opened with its sections (C94_opened_partial) and every reference to a number that was not deleted or given to another object gives the object it stands for (C94_objects_partial). Refuted, in general: in a file whose rows leave out the type, which means type 1, every object reads as null (C94_default_type_refuted); a row of a reserved type, which means null, makes the file be searched for objects or fail (C94_reserved_refuted). Deleted numbers: C24; unlisted members: C65. Hybrid files are not in the specification (C73)."
  },
  {
   "property": "C95",
   "status": "partial",
   "theorems": [
    "C95_saved_partial",
    "C95_own_row_refuted",
    "C95_index_refuted"
   ],
   "note": "Proved for every file saved with one section: it follows the standard but for the one row of the cross-reference stream for itself, and every reference stands for the object of the document, when the indexes of compressed objects are their places (C95_saved_partial). Refuted, in general: that one row keeps the place the stream had before, so that the file follows the standard if and only if the stream did not move (C95_own_row_refuted); a compressed object whose recorded index is not below the number of objects that are now in its stream is lost to every reader that follows the standard (C95_index_refuted). Missing: documents with several sections."
  },
  {
   "property": "C96",
   "status": "partial",
   "theorems": [
    "C96_resaved_partial",
    "C96_resave_succeeds_partial",
    "C96_dangling_refuted",
    "C96_deleted_refuted"
   ],
   "note": "Proved for every such file in which what can be reached has no references to null or to references, its streams have their length in their dictionary, and the hashes do not follow references or the streams have data of their own: the saved file, up to ten gigabytes, follows the standard and shows the same document (C96_resaved_partial), and it is written when all rows lead to objects and reals are within range (C96_resave_succeeds_partial). Refuted, with the standard's reading of the bytes on both sides: a reference to a number that does not exist stands for null before and for an unrelated object afterwards (C96_dangling_refuted); a reference to a deleted object stands for null before and for the deleted object afterwards (C96_deleted_refuted). Encrypted files, cross-reference streams and hybrid files are not part of this claim (C34, C94, C95)."
  },
  {
   "property": "C97",
   "status": "partial",
   "theorems": [
    "C97_written_partial",
    "C97_write_succeeds_partial",
    "C97_reopened_partial",
    "C97_direct_lengths",
    "C97_missing_length_refuted"
   ],
   "note": "Proved for every document of one table whose lengths are natural numbers, direct or in objects of their own, or missing: the save succeeds (C97_write_succeeds_partial), the file, up to ten gigabytes, follows the standard and every reference stands for the object of the document, streams with all their data and a length that is the size of the data (C97_written_partial), and the library reads every object back (C97_reopened_partial). Where no length is a reference this is the writer of C21 and C36 (C97_direct_lengths). Refuted: a length that refers to an object that is not there makes the save of the whole document fail (C97_missing_length_refuted). Lengths that are reals, documents that are written with several sections, and cross-reference streams are not part of this claim."
  },
  {
   "property": "C98",
   "status": "partial",
   "theorems": [
    "C98_updated_partial",
    "C98_update_succeeds_partial",
    "C98_unchanged_length_refuted",
    "C98_direct_lengths",
    "C98_unchanged_filter_refuted"
   ],
   "note": "Proved for the first incremental save of every file of tables that follows the standard, when the filters of streams whose body was set are direct and lengths are direct, missing or objects that were changed too: the save succeeds (C98_update_succeeds_partial), the result follows the standard, changed objects stand for what the program left and all others for what they stood for (C98_updated_partial). Without references it is the writer of C36 and C93 (C98_direct_lengths). Refuted: a changed stream whose length is an object that was not changed makes every incremental save fail (C98_unchanged_length_refuted); a body that was set on a stream whose filter is an object that was not changed is written without the filter, although the dictionary still names it, so that readers decode what was never encoded (C98_unchanged_filter_refuted). Later saves lose more, see C93. Unchanged streams with a length object, reals as lengths, and references inside of Filter and DecodeParms are not part of this claim."
  },
  {
   "property": "C99",
   "status": "partial",
   "theorems": [
    "C99_saved_partial",
    "C99_lost_refuted"
   ],
   "note": "Proved for documents in which the recorded indexes of the objects that can be reached from Root, Info or ID are their places among these (unused objects may have any index): the file follows the standard but for the row of the cross-reference stream for itself (C95_own_row_refuted), every reference has a meaning, and Root, Info and ID look the same at any depth (C99_saved_partial). Refuted in general: the indexes are never renewed; an object whose index is not below the number of the objects of its stream that are still needed is listed in the file that is saved, and no reader that follows the standard can find it (C99_lost_refuted; the case is a document where an update replaced the second of three objects). The restrictions of C61 for documents with cross-reference streams remain."
  },
  {
   "property": "C100",
   "status": "partial",
   "theorems": [
    "C100_nothing_lost",
    "C100_bodies",
    "C100_page_partial",
    "C100_shared_refuted",
    "C100_inherited_refuted",
    "C100_succeeds",
    "C100_cycle_refuted"
   ],
   "note": "Proved for every document: no entry of any object is changed or taken away, and all that is new are dictionaries Resources and Font and the font of the mark (C100_nothing_lost); the body of every stream is what it was between a line that saves the state for each page it begins and, for each page it ends, a line that restores it and the mark at the right corner (C100_bodies); a page that shares no content stream shows its content, then the mark (C100_page_partial); every document with a finite page tree and nodes of the expected types is marked (C100_succeeds). Refuted: pages that share their first stream but not their last one save the state more often than they restore it (C100_shared_refuted); a page without Resources of its own gets new ones with the font of the mark only, so that all it inherited is hidden (C100_inherited_refuted); a page tree with a cycle is walked for ever (C100_cycle_refuted). Not modelled: references to references, kids that are direct dictionaries, the bytes of text and image (parameters), filters (the decoded bodies are there)."
  },
  {
   "property": "C101",
   "status": "partial",
   "theorems": [
    "C101_resaved_partial",
    "C101_resaved_pageless_partial",
    "C101_resaved_malformed_partial",
    "C101_saved_partial",
    "C101_dangling_refuted",
    "C101_succeeds",
    "C101_pageless",
    "C101_malformed"
   ],
   "note": "Proved: the file conforms to the standard; its trailer is that of the document; there is one more object, the font, under the first number that is not listed; every other object is what it was but for the new entries of the mark; every stream that begins or ends the content of a page decodes to its content between the lines that save and restore the state, followed by the marks, and all other streams have the data they had; all numbers that are not listed stand for null (C101_saved_partial); and for every file with tables that follows the standard, opened and saved without a license, the file is such a marked file of a document whose Root, Info and ID look at any depth as those of the source (C101_resaved_partial); and there is a file whenever the nodes of the page tree are in order and all streams can be decoded, unless the exact marked body of some stream cannot be encoded (C101_succeeds); a document without a page tree is always saved, as it is and without a mark (C101_pageless), and one whose Root or Pages is there but is not a dictionary never is (C101_malformed); a file without a page tree is saved as with a license, byte by byte (C101_resaved_pageless_partial), and a file whose Root or Pages is no dictionary is saved with a license and not without one (C101_resaved_malformed_partial). Refuted: a reference to an object that the document does not have, which means null, means the font of the mark in the file when its number is the first that is not listed (C101_dangling_refuted). Missing: files with cross-reference streams, kids that are direct dictionaries, encrypted documents; bodies of streams that are not marked are not encoded again."
  }
 ]
}