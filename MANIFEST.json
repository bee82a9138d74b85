{
 "claims": [
  {
   "property": "C01",
   "status": "proved",
   "theorems": [
    "C01_parse_exact",
    "C01_failure_value",
    "C01_parse_long"
   ],
   "note": "Both signednesses of char. For lengths above 10 the C code reads only the first character and fails."
  },
  {
   "property": "C02",
   "status": "proved",
   "theorems": [
    "C02_serialize",
    "C02_deserialize",
    "C02_roundtrip_value",
    "C02_roundtrip_buffer"
   ],
   "note": "Memory is pre ++ field ++ post, so the equations also say that nothing else changes and that any offset works."
  },
  {
   "property": "C03",
   "status": "proved",
   "theorems": [
    "C03_serializeBlobBE",
    "C03_deserializeBlobBE",
    "C03_serializeBlobLE",
    "C03_deserializeBlobLE",
    "C03_roundtrip",
    "C03_LE_size_2_31_undefined",
    "C03_LE_larger_copies_nothing"
   ],
   "note": "Source and destination are different objects. The LE variants are shown undefined at size 2^31 and to copy nothing above."
  },
  {
   "property": "C04",
   "status": "proved",
   "theorems": [
    "C04_swap_disjoint",
    "C04_swap_same_range",
    "C04_swap_twice"
   ],
   "note": "Two disjoint ranges in either order, or the same range twice."
  },
  {
   "property": "C05",
   "status": "proved",
   "theorems": [
    "C05_pow10",
    "C05_pow10_out_of_range",
    "C05_isUpperChar",
    "C05_isLowerChar",
    "C05_isAlpha",
    "C05_char_sign_irrelevant"
   ],
   "note": ""
  },
  {
   "property": "C06",
   "status": "proved",
   "theorems": [
    "C06_reflect_mirrors",
    "C06_reflect_twice",
    "C06_reflect_wide"
   ],
   "note": ""
  },
  {
   "property": "C07",
   "status": "proved",
   "theorems": [
    "C07_bitSet",
    "C07_setBit",
    "C07_clearBit",
    "C07_toggleBit",
    "C07_out_of_range"
   ],
   "note": ""
  },
  {
   "property": "C08",
   "status": "proved",
   "theorems": [
    "C08_rotl32",
    "C08_inverse",
    "C08_compose",
    "C08_zero_undefined",
    "C08_wide_undefined"
   ],
   "note": "Counts 0 and >= 32 are shown to be undefined behaviour."
  },
  {
   "property": "C09",
   "status": "proved",
   "theorems": [
    "C09_encode_success",
    "C09_length"
   ],
   "note": "The specification cuts the bit string in groups of six; it shares no code with the model. Data may be followed by anything in memory."
  },
  {
   "property": "C10",
   "status": "proved",
   "theorems": [
    "C10_encode_safe",
    "C10_exact_buffer_overrun",
    "C10_within_limit_refuted"
   ],
   "note": "max_result_length + 1 bytes suffice for all data (proved); max_result_length bytes do not (general overrun theorem and a refutation witness)."
  },
  {
   "property": "C11",
   "status": "proved",
   "theorems": [
    "C11_encode_failure",
    "C11_encode_success"
   ],
   "note": "Both the success and the failure result are given exactly."
  },
  {
   "property": "C12",
   "status": "proved",
   "theorems": [
    "C12_roundtrip",
    "C12_roundtrip_short_fails",
    "C12_roundtrip_any_length_refuted"
   ],
   "note": "Round trip proved for 3 bytes and more, failure proved for fewer."
  },
  {
   "property": "C13",
   "status": "proved",
   "theorems": [
    "C13_decode_safe",
    "C13_overread",
    "C13_reads_inside_refuted"
   ],
   "note": "Safe for every input and claimed length except length 1 mod 4 without a readable extra byte; in that case the over-read is proved to happen."
  },
  {
   "property": "C14",
   "status": "proved",
   "theorems": [
    "C14_decode_valid",
    "C14_no_validation",
    "C14_any_text",
    "C14_taken_for",
    "C14_malformed_rejected_refuted"
   ],
   "note": "Exact result for every valid text, with and without padding and room; C14_any_text: the exact result for every text without padding, by what each character is taken for."
  },
  {
   "property": "C15",
   "status": "proved",
   "theorems": [
    "C15_fifo"
   ],
   "note": "For every operation sequence; the specification is a list of byte strings."
  },
  {
   "property": "C16",
   "status": "proved",
   "theorems": [
    "C16_capacity",
    "C16_enqueue",
    "C16_dequeue",
    "C16_front",
    "C16_rear",
    "C16_full",
    "C16_empty"
   ],
   "note": "For every state reachable by operations from an initialised queue."
  },
  {
   "property": "C17",
   "status": "proved",
   "theorems": [
    "C17_enqueue",
    "C17_dequeue",
    "C17_peek",
    "C17_config"
   ],
   "note": "Together with C15 (no undefined behaviour). Sizes with capacity*element_size <= 2^32."
  },
  {
   "property": "C18",
   "status": "proved",
   "theorems": [
    "C18_init_rejects",
    "C18_init_accepts",
    "C18_init_null",
    "C18_null_arguments",
    "C18_predicates_of_null"
   ],
   "note": ""
  },
  {
   "property": "C19",
   "status": "proved",
   "theorems": [
    "C19_wrap_overwrites",
    "C19_any_size_refuted"
   ],
   "note": "Refutation of the unrestricted claim, with a general theorem for three slots of 2^31 bytes."
  },
  {
   "property": "C20",
   "status": "proved",
   "theorems": [
    "C20_behaves",
    "C20_dequeue",
    "C20_dequeue_empty",
    "C20_empty"
   ],
   "note": "For every operation sequence; dequeue also stated without the functional specification."
  },
  {
   "property": "C21",
   "status": "proved",
   "theorems": [
    "C21_enqueue_room",
    "C21_enqueue_full"
   ],
   "note": ""
  },
  {
   "property": "C22",
   "status": "proved",
   "theorems": [
    "C22_drain"
   ],
   "note": "Permutation, sorted and stable (equal priorities filtered out appear in the same order)."
  },
  {
   "property": "C23",
   "status": "proved",
   "theorems": [
    "C23_memory",
    "C23_safe"
   ],
   "note": "Storage is exactly or more than the stated size; memory beyond never changes. Overlapping memcpy would be UB."
  },
  {
   "property": "C24",
   "status": "proved",
   "theorems": [
    "C24_init_rejects",
    "C24_init_accepts",
    "C24_null_queue",
    "C24_null_item"
   ],
   "note": "Also NULL item and NULL element in reachable states."
  },
  {
   "property": "C25",
   "status": "proved",
   "theorems": [
    "C25_behaves",
    "C25_getValue"
   ],
   "note": "For every operation sequence; the specification is a finite map (gmap) of byte strings."
  },
  {
   "property": "C26",
   "status": "proved",
   "theorems": [
    "C26_insert",
    "C26_count"
   ],
   "note": "The exact status, effect on contents and effect on every later lookup."
  },
  {
   "property": "C27",
   "status": "proved",
   "theorems": [
    "C27_independent",
    "C27_memory"
   ],
   "note": "Storage exactly or more than the stated size; memory beyond never changes."
  },
  {
   "property": "C28",
   "status": "proved",
   "theorems": [
    "C28_init_rejects",
    "C28_init_accepts",
    "C28_init_null",
    "C28_null_map",
    "C28_negative",
    "C28_usable_refuted",
    "C28_negative_capacity_refuted"
   ],
   "note": "Rejections, acceptance of every other argument, and two refutations of 'accepted means usable'."
  },
  {
   "property": "C29",
   "status": "proved",
   "theorems": [
    "C29_run"
   ],
   "note": "Calling a task is an arbitrary function on the program state."
  },
  {
   "property": "C30",
   "status": "proved",
   "theorems": [
    "C30_add_first_free",
    "C30_add_full",
    "C30_init",
    "C30_init_add",
    "C30_null_function",
    "C30_added_occupies_refuted"
   ],
   "note": "Both outcomes of an addition, and every sequence of additions after initialisation; NULL functions separately."
  },
  {
   "property": "C31",
   "status": "proved",
   "theorems": [
    "C31_run",
    "C31_at_most_n"
   ],
   "note": "Tasks may change the table arbitrarily; the pass is specified by conditions on the list of calls, not by a loop."
  },
  {
   "property": "C32",
   "status": "proved",
   "theorems": [
    "C32_bubble",
    "C32_selection",
    "C32_insertion",
    "C32_heap"
   ],
   "note": "One theorem per sort. The comparator is an arbitrary pure function of the bytes of two elements. Sizes are bounded only by int32_t offsets (heap sort: twice the size, since it computes offsets of elements up to 2n). Insertion sort is stated for memory that makes it defined (see C36), heap sort for n+1 readable elements after the buffer."
  },
  {
   "property": "C33",
   "status": "proved",
   "theorems": [
    "C33_heap_whenever",
    "C33_bubble",
    "C33_selection",
    "C33_insertion",
    "C33_heap",
    "C33_by_key"
   ],
   "note": "One theorem per sort, for every comparator that is a strict weak order on the elements at hand; C33_by_key shows that comparing by a numerical key is one."
  },
  {
   "property": "C34",
   "status": "proved",
   "theorems": [
    "C34_bubble",
    "C34_insertion",
    "C34_selection_refuted",
    "C34_heap_refuted"
   ],
   "note": "Proved for bubble and insertion sort; the false claim for selection and heap sort is refuted by a concrete run."
  },
  {
   "property": "C35",
   "status": "proved",
   "theorems": [
    "C35_bubble",
    "C35_selection",
    "C35_heap",
    "C35_insertion"
   ],
   "note": "For every memory, base, count (also negative) and element size; the outcome may be undefined behaviour (C36) but never endless."
  },
  {
   "property": "C36",
   "status": "proved",
   "theorems": [
    "C36_heap_exact",
    "C36_heap_extent",
    "C36_heap_run_unique",
    "C36_heap_ascending",
    "C36_heap_flat",
    "C36_bubble",
    "C36_selection",
    "C36_insertion_inside",
    "C36_insertion_outside",
    "C36_insertion_stays_inside_refuted",
    "C36_heap_outside",
    "C36_heap_stays_inside_refuted"
   ],
   "note": "Bubble and selection sort never leave the buffer. Insertion sort: exact condition in both directions. Heap sort: C36_heap_exact gives the exact number of elements that must be readable, as the extent of a run of the textbook heap sort (Spec_HeapReads); the bounds, the worst case (strictly ascending input, 2n+1 elements) and the best case (an odd number of equal elements, n) are theorems. Independence of the surroundings: in C32 the same ys serves every pre and post. Precondition: 2n and 2n*element_size below 2^31."
  },
  {
   "property": "C37",
   "status": "proved",
   "theorems": [
    "C37_bubble",
    "C37_selection",
    "C37_heap",
    "C37_insertion",
    "C37_insertion_large_elements"
   ],
   "note": "Every byte outside the elements keeps its value. Element sizes above 64 are undefined behaviour in insertion sort."
  },
  {
   "property": "C38",
   "status": "proved",
   "theorems": [
    "C38_encrypt"
   ],
   "note": "The message is any NUL-terminated string of bytes 1..255 of any length, with anything behind its NUL."
  },
  {
   "property": "C39",
   "status": "proved",
   "theorems": [
    "C39_decrypt",
    "C39_round_trip",
    "C39_round_trip_iff",
    "C39_round_trip_refuted",
    "C39_undo"
   ],
   "note": "The exact result of decryption and of the round trip for all inputs, the exact set of messages that survive, and a concrete counterexample to the round trip. C39_undo shows the correct inverse."
  },
  {
   "property": "C40",
   "status": "proved",
   "theorems": [
    "C40_encrypt",
    "C40_decrypt",
    "C40_round_trip"
   ],
   "note": "For char signed and unsigned (a parameter of the model where it matters)."
  },
  {
   "property": "C41",
   "status": "proved",
   "theorems": [
    "C41_encrypt",
    "C41_decrypt",
    "C41_encrypt_false",
    "C41_decrypt_false",
    "C41_header_refuted",
    "C41_long",
    "C41_long_refuted"
   ],
   "note": "C41_encrypt/decrypt give the returned flag for every int key_length; the header's wording is refuted; C41_long covers messages of 2^31 and more characters."
  },
  {
   "property": "C42",
   "status": "proved",
   "theorems": [
    "C42_keys",
    "C42_round_trip_refuted"
   ],
   "note": "Equivalence: the keys that restore every message are exactly those of letters and the character [ (code 91)."
  },
  {
   "property": "C43",
   "status": "proved",
   "theorems": [
    "C43_block",
    "C43_crypt_after",
    "C43_crypt_before"
   ],
   "note": "The block function and the whole cipher against a separate transcription of RFC 8439 (with the counter taken mod 2^32, as the code does); the transcription is tested on RFC vectors."
  },
  {
   "property": "C44",
   "status": "proved",
   "theorems": [
    "C44_twice",
    "C44_back"
   ],
   "note": "In place, and from place to place."
  },
  {
   "property": "C45",
   "status": "proved",
   "theorems": [
    "C45_in_place",
    "C45_placement",
    "C45_frame",
    "C45_reads",
    "C45_overlap_refuted"
   ],
   "note": "Any placement in which the result does not begin inside the message; otherwise the result is wrong (C45_overlap_refuted)."
  },
  {
   "property": "C46",
   "status": "proved",
   "theorems": [
    "C46_pieces",
    "C46_local",
    "C46_any_cut_refuted"
   ],
   "note": "Cuts at multiples of 64 bytes; any other cut is refuted. Locality holds between any two calls with the same parameters."
  },
  {
   "property": "C47",
   "status": "proved",
   "theorems": [
    "C47_calculator8",
    "C47_calculator16",
    "C47_calculator32",
    "C47_tables",
    "C47_tables_calculated8",
    "C47_tables_calculated16",
    "C47_tables_calculated32",
    "C47_documented_refuted"
   ],
   "note": "The calculators for every polynomial, and every one of the 45 tables, against remainders of GF(2) polynomial division (relation `remainder`, defined by carry-less products); tables also equal to the calculator's output. The refutation records polynomials in file comments that are not those of the tables."
  },
  {
   "property": "C48",
   "status": "proved",
   "theorems": [
    "C48_crc",
    "C48_crc_exists"
   ],
   "note": "Iff: a result is returned exactly when it is the catalogued CRC of the message; the catalogue parameters are written out in Spec_Crc.v. Tested on the 45 catalogue check values."
  },
  {
   "property": "C49",
   "status": "proved",
   "theorems": [
    "C49_pieces",
    "C49_final_passed_on_refuted"
   ],
   "note": "Any number of pieces, each in its own memory. The refutation: final_crc set before the last piece."
  },
  {
   "property": "C50",
   "status": "proved",
   "theorems": [
    "C50_burst",
    "C50_burst_bytes",
    "C50_single_bit",
    "C50_longer_burst_refuted"
   ],
   "note": "Window stated on the bits in the order the CRC takes them; corollaries for bytes and single bits. The refutation: a window one bit wider is not always detected."
  },
  {
   "property": "C51",
   "status": "proved",
   "theorems": [
    "C51_affine"
   ],
   "note": "All 45 functions."
  },
  {
   "property": "C52",
   "status": "proved",
   "theorems": [
    "C52_residue",
    "C52_residue_zero"
   ],
   "note": "Iff, so a wrong appended CRC never gives the residue; the residue is characterised by polynomial division, and is 0 when the final xor is 0."
  },
  {
   "property": "C53",
   "status": "proved",
   "theorems": [
    "C53_safe8",
    "C53_safe16",
    "C53_safe32",
    "C53_variants",
    "C53_short8",
    "C53_short16",
    "C53_short32"
   ],
   "note": "Exact: any table with 256 entries of the right width; data shorter than crc_length is an out-of-bounds read. Precondition: entries within the type (which C guarantees)."
  },
  {
   "property": "C54",
   "status": "proved",
   "theorems": [
    "C54_build",
    "C54_build_only"
   ],
   "note": "All pairs and sizes; the converse too (all calls succeed only when text and NUL fit). Preconditions: keys and values contain no NUL, sizes below 2^63."
  },
  {
   "property": "C55",
   "status": "proved",
   "theorems": [
    "C55_start",
    "C55_add",
    "C55_end",
    "C55_sequence",
    "C55_failed_add_unchanged_refuted",
    "C55_valid_text_refuted"
   ],
   "note": "Exact result of each call (status, buffer, undefined behaviour) for every buffer holding a non-empty text, and of every sequence of calls against a small state machine over texts. Two refutations: a failed addData changes the text; the finished text can end in ,}."
  },
  {
   "property": "C56",
   "status": "proved",
   "theorems": [
    "C56_start",
    "C56_end",
    "C56_add",
    "C56_add_overrun",
    "C56_add_empty",
    "C56_in_bounds_refuted"
   ],
   "note": "Bounds exact: the only overrun is the one-byte one stated, and it always happens there; the empty text is always undefined. The refutation reaches the overrun from startString."
  },
  {
   "property": "C57",
   "status": "proved",
   "theorems": [
    "C57_safe"
   ],
   "note": "Every buffer content and key with buffer_size < 2^32 (the index is uint32_t); independence from the bytes behind both buffers is part of the statement."
  },
  {
   "property": "C58",
   "status": "proved",
   "theorems": [
    "C58_find",
    "C58_unique",
    "C58_build_find",
    "C58_wrap_refuted"
   ],
   "note": "C58_find is an iff for every buffer (buffer_size < 2^32 - 1); C58_build_find gives a readable sufficient condition for built text. The refutation: at buffer_size 2^32 - 1 the index wraps round."
  },
  {
   "property": "C59",
   "status": "proved",
   "theorems": [
    "C59_found_refuted",
    "C59_value_refuted",
    "C59_value_as_key_refuted",
    "C59_empty_key"
   ],
   "note": "Three refutations on built text with distinct keys; the empty key is never found."
  },
  {
   "property": "C60",
   "status": "proved",
   "theorems": [
    "C60_absent",
    "C60_no_value",
    "C60_too_long",
    "C60_unterminated",
    "C60_build_absent",
    "C60_stale_refuted"
   ],
   "note": "All four ways of failing, with the exact contents left in value. The refutation: bytes behind the terminating NUL are searched."
  },
  {
   "property": "C61",
   "status": "proved",
   "theorems": [
    "C61_undetected"
   ],
   "note": "Exact (iff) for every pair of messages of equal length."
  },
  {
   "property": "C62",
   "status": "proved",
   "theorems": [
    "C62_odd_errors",
    "C62_which",
    "C62_crc32_refuted"
   ],
   "note": "Exact (iff) per function, with the list of which functions satisfy it; the error missed otherwise is the generator itself. Refutation for CRC-32."
  },
  {
   "property": "C63",
   "status": "proved",
   "theorems": [
    "C63_two_errors",
    "C63_orders",
    "C63_short_messages"
   ],
   "note": "Exact (iff) for any distance; the orders are proved least, from their prime factors (trial division inside Coq)."
  },
  {
   "property": "C64",
   "status": "proved",
   "theorems": [
    "C64_forge"
   ],
   "note": "Existence and uniqueness."
  },
  {
   "property": "C65",
   "status": "proved",
   "theorems": [
    "C65_leading_zero",
    "C65_leading_zeros"
   ],
   "note": "Exact (iff) for one zero byte; any number of zero bytes for initial value 0."
  },
  {
   "property": "C66",
   "status": "proved",
   "theorems": [
    "C66_final_value",
    "C66_mirrored"
   ],
   "note": "For any pair of functions with so related parameters; the pairs exist (examples: CRC-32 with JAMCRC and BZIP2)."
  },
  {
   "property": "C67",
   "status": "proved",
   "theorems": [
    "C67_write",
    "C67_read",
    "C67_roundtrip",
    "C67_update",
    "C67_layout_faithful"
   ],
   "note": "Any list of fields, by induction; layout stated in Spec_Record without the model."
  },
  {
   "property": "C68",
   "status": "proved",
   "theorems": [
    "C68_other_order",
    "C68_number_as_blob"
   ],
   "note": "Exact for all widths."
  },
  {
   "property": "C69",
   "status": "proved",
   "theorems": [
    "C69_print_parse",
    "C69_leading_zeros"
   ],
   "note": "Every n < 2^32; the text is the shortest one."
  },
  {
   "property": "C70",
   "status": "proved",
   "theorems": [
    "C70_shape",
    "C70_injective",
    "C70_pieces",
    "C70_recode",
    "C70_one_text_refuted"
   ],
   "note": "The round trip text-data-text is an iff; the refutation gives two texts for the same data."
  },
  {
   "property": "C71",
   "status": "proved",
   "theorems": [
    "C71_roundtrip",
    "C71_text",
    "C71_short_fails",
    "C71_other_key"
   ],
   "note": "The lower bound of 3 bytes is exact (C71_short_fails). No statement about secrecy is made."
  },
  {
   "property": "C72",
   "status": "proved",
   "theorems": [
    "C72_json_data"
   ],
   "note": "Sufficient conditions on the pairs before the key, as in C58_build_find; all are used only through that theorem."
  },
  {
   "property": "C73",
   "status": "proved",
   "theorems": [
    "C73_send",
    "C73_sent_accepted",
    "C73_receive",
    "C73_residue",
    "C73_equal",
    "C73_burst"
   ],
   "note": "Exact (iff) for every frame; the client code around the library functions is modelled in Drive_Pipeline."
  },
  {
   "property": "C74",
   "status": "proved",
   "theorems": [
    "C74_bubble",
    "C74_insertion",
    "C74_selection",
    "C74_bubble_only",
    "C74_selection_only",
    "C74_heap_refuted"
   ],
   "note": "Exact (iff) for bubble and selection sort; for insertion sort one direction. Heap sort: refuted with equal elements."
  },
  {
   "property": "C75",
   "status": "proved",
   "theorems": [
    "C75_stable",
    "C75_all"
   ],
   "note": "Insertion sort needs a readable element before the buffer unless no element is below all earlier ones; heap sort needs n+1 readable elements after it (C36)."
  },
  {
   "property": "C76",
   "status": "proved",
   "theorems": [
    "C76_bubble",
    "C76_selection",
    "C76_insertion",
    "C76_heap",
    "C76_bubble_state",
    "C76_selection_state",
    "C76_insertion_state",
    "C76_heap_state"
   ],
   "note": "Model_SortState repeats the sorts with the state threaded through; C76_*_state proves it equal to Model_Sort for every comparator whose answers do not depend on the state, also outside the preconditions."
  },
  {
   "property": "C77",
   "status": "proved",
   "theorems": [
    "C77_bubble",
    "C77_selection",
    "C77_insertion",
    "C77_heap",
    "C77_bubble_ordered",
    "C77_insertion_ordered"
   ],
   "note": "Calls counted in the model of C76. The bounds of bubble and insertion sort are reached (Example); for heap sort the upper bound is not tight."
  },
  {
   "property": "C78",
   "status": "proved",
   "theorems": [
    "C78_utils",
    "C78_serialize",
    "C78_deserialize",
    "C78_blob",
    "C78_bits",
    "C78_base64",
    "C78_queue",
    "C78_priority_queue",
    "C78_map",
    "C78_scheduler",
    "C78_sorts_with_state",
    "C78_crypto",
    "C78_crc_tables",
    "C78_crc",
    "C78_json_build",
    "C78_json_find",
    "C78_json_find_refuted"
   ],
   "note": "Outcome Diverge excluded for all arguments; the ranges of the C types are assumed where they matter. The loop fuel of the model suffices, so no run is cut short. JSON search: condition plus refutation. The sorts with a comparator without state: C35."
  },
  {
   "property": "C79",
   "status": "proved",
   "theorems": [
    "C79_queue",
    "C79_priority_queue",
    "C79_map"
   ],
   "note": "If and only if. The map limit is stated for max_map_size <= 256^key_size (otherwise the map cannot be filled)."
  },
  {
   "property": "C80",
   "status": "proved",
   "theorems": [
    "C80_map_insert"
   ],
   "note": "General statement on any map structure; that such states are reached is the only-if direction of C79_map."
  },
  {
   "property": "C81",
   "status": "proved",
   "theorems": [
    "C81_short",
    "C81_empty"
   ],
   "note": "Exact kind of undefined behaviour (out-of-bounds read)."
  },
  {
   "property": "C82",
   "status": "proved",
   "theorems": [
    "C82_window",
    "C82_window_refuted"
   ],
   "note": "Proved for sizes up to 2^64; below 4 GiB the search is characterised by C57-C60."
  },
  {
   "property": "C83",
   "status": "proved",
   "theorems": [
    "C83_bubble",
    "C83_selection",
    "C83_insertion",
    "C83_heap"
   ],
   "note": "Some undefined behaviour: signed overflow, or an earlier out-of-bounds access if the memory is small."
  },
  {
   "property": "C84",
   "status": "proved",
   "theorems": [
    "C84_serialize8",
    "C84_serialize16BE",
    "C84_serialize24BE",
    "C84_serialize32BE",
    "C84_serialize16LE",
    "C84_serialize24LE",
    "C84_serialize32LE",
    "C84_deserialize8",
    "C84_deserialize16BE",
    "C84_deserialize24BE",
    "C84_deserialize32BE",
    "C84_deserialize16LE",
    "C84_deserialize24LE",
    "C84_deserialize32LE",
    "C84_isUpperChar",
    "C84_isLowerChar",
    "C84_isAlpha",
    "C84_bitSet",
    "C84_setBit",
    "C84_clearBit",
    "C84_toggleBit",
    "C84_rotl32",
    "C84_serializeBlobBE",
    "C84_deserializeBlobBE",
    "C84_serializeBlobLE",
    "C84_deserializeBlobLE",
    "C84_reflect",
    "C84_swapElements",
    "C84_quickUint32Pow10",
    "C84_stringToUint32"
   ],
   "note": "The fuel of the interpreter's loops is any number above the iteration count. Source and destination of the blob functions are different objects; Utils_swapElements works within one object."
  },
  {
   "property": "C85",
   "status": "proved",
   "theorems": [
    "C85_Crc8Base_tableCalculator",
    "C85_Crc16Base_tableCalculator",
    "C85_Crc32Base_tableCalculator",
    "C85_Crc8Base",
    "C85_Crc16Base",
    "C85_Crc32Base",
    "C85_Crc8",
    "C85_Crc8_8h2f",
    "C85_Crc8_cdma2000",
    "C85_Crc8_darc",
    "C85_Crc8_dvbS2",
    "C85_Crc8_ebu",
    "C85_Crc8_icode",
    "C85_Crc8_itu",
    "C85_Crc8_maxim",
    "C85_Crc8_rohc",
    "C85_Crc8_saeJ1850",
    "C85_Crc8_saeJ1850Zero",
    "C85_Crc8_wcdma",
    "C85_Crc16_a",
    "C85_Crc16_arc",
    "C85_Crc16_augCcit",
    "C85_Crc16_buypass",
    "C85_Crc16_ccitFalse",
    "C85_Crc16_ccitZero",
    "C85_Crc16_cdma2000",
    "C85_Crc16_dds110",
    "C85_Crc16_dectR",
    "C85_Crc16_dectX",
    "C85_Crc16_dnp",
    "C85_Crc16_en13757",
    "C85_Crc16_genibus",
    "C85_Crc16_kermit",
    "C85_Crc16_maxim",
    "C85_Crc16_mcrf4xx",
    "C85_Crc16_modbus",
    "C85_Crc16_riello",
    "C85_Crc16_t10Dif",
    "C85_Crc16_teledisk",
    "C85_Crc16_tms37157",
    "C85_Crc16_usb",
    "C85_Crc16_x25",
    "C85_Crc32",
    "C85_Crc32_bzip2",
    "C85_Crc32_c",
    "C85_Crc32_d",
    "C85_Crc32_jamcrc",
    "C85_Crc32_mpeg2",
    "C85_Crc32_posix",
    "C85_Crc32_q",
    "C85_Crc32_xfer"
   ],
   "note": "The data pointer is the start of its object (the model's data argument is that object); the fuel is any number above the length and 32."
  },
  {
   "property": "C86",
   "status": "proved",
   "theorems": [
    "C86_encode",
    "C86_decode",
    "C86_decode_in_place",
    "C86_encode_in_place_refuted"
   ],
   "note": "The pointers are the starts of their objects; the fuel is any number above the length of the input object. That the encoder works in place is refuted by C86_encode_in_place_refuted."
  },
  {
   "property": "C87",
   "status": "proved",
   "theorems": [
    "C87_caesar_encrypt",
    "C87_caesar_decrypt",
    "C87_vernam_encrypt",
    "C87_vernam_decrypt",
    "C87_QuarterRound_list",
    "C87_Block",
    "C87_Chacha20_crypt",
    "C87_Chacha20_crypt_apart"
   ],
   "note": "Message and key of the Vernam cipher are different objects; the result of ChaCha20 is in neither the key nor the nonce. The fuel is any number above the length of the message (Caesar, Vernam), above 64 and the number of blocks (ChaCha20)."
  },
  {
   "property": "C88",
   "status": "proved",
   "theorems": [
    "C88_BubbleSort_sort",
    "C88_SelectionSort_sort",
    "C88_InsertionSort_sort",
    "C88_Heapify",
    "C88_HeapSort_sort"
   ],
   "note": "The kind of undefined behaviour is not compared: the text forms an address before it computes the next offset. The buffer address is inside its object (selection sort, heap sort). The comparator does not change memory. The fuel is any number above the number and the size of the elements."
  },
  {
   "property": "C89",
   "status": "proved",
   "theorems": [
    "C89_Json_startString",
    "C89_Json_endString",
    "C89_Json_addData",
    "C89_Json_findByKey"
   ],
   "note": "Buffer, key and value are different objects, smaller than 2^64. For Json_findByKey the model must not be Diverge (C78: it is not for buffers below 4 GiB); the fuel is any number above the size of the buffer plus one."
  },
  {
   "property": "C90",
   "status": "proved",
   "theorems": [
    "C90_Queue_full",
    "C90_Queue_empty",
    "C90_Queue_enqueue",
    "C90_Queue_dequeue",
    "C90_Queue_front",
    "C90_Queue_rear",
    "C90_Queue_init"
   ],
   "note": "The element is an object other than the buffer. Queue_init: the structure is unwritten or a queue."
  },
  {
   "property": "C91",
   "status": "proved",
   "theorems": [
    "C91_PQ_Full",
    "C91_PriorityQueue_empty",
    "C91_GetHighestPriorityIndex",
    "C91_GetLowestPriorityIndex",
    "C91_PriorityQueue_init",
    "C91_PriorityQueue_enqueue",
    "C91_PriorityQueue_dequeue",
    "C91_PriorityQueue_enqueue_null",
    "C91_PriorityQueue_dequeue_null"
   ],
   "note": "The item's arrays and the element are objects other than the arrays of the queue. With a NULL item or element the two sides agree up to the kind of undefined behaviour. The fuel is any number above the number of items."
  },
  {
   "property": "C92",
   "status": "proved",
   "theorems": [
    "C92_Map_GetIndex",
    "C92_Map_init",
    "C92_Map_insert",
    "C92_Map_getValue"
   ],
   "note": "The key is an object other than the map's arrays when it is inserted; the value is an object other than the arrays. The fuel is any number above the number of entries."
  },
  {
   "property": "C93",
   "status": "proved",
   "theorems": [
    "C93_Scheduler_addTask",
    "C93_Scheduler_init",
    "C93_Scheduler_run"
   ],
   "note": "The new task is an object outside the array of tasks. The fuel is any number above the count of tasks."
  },
  {
   "property": "C94",
   "status": "proved",
   "theorems": [
    "C94_queue"
   ],
   "note": ""
  },
  {
   "property": "C95",
   "status": "proved",
   "theorems": [
    "C95_priority_queue"
   ],
   "note": ""
  },
  {
   "property": "C96",
   "status": "proved",
   "theorems": [
    "C96_map"
   ],
   "note": ""
  },
  {
   "property": "C97",
   "status": "proved",
   "theorems": [
    "C97_schedule",
    "C97_pass"
   ],
   "note": ""
  },
  {
   "property": "C98",
   "status": "proved",
   "theorems": [
    "C98_bubble",
    "C98_selection",
    "C98_heap",
    "C98_heap_outside",
    "C98_insertion",
    "C98_insertion_outside"
   ],
   "note": ""
  },
  {
   "property": "C99",
   "status": "proved",
   "theorems": [
    "C99_encode",
    "C99_encode_safe",
    "C99_decode_safe",
    "C99_roundtrip"
   ],
   "note": ""
  },
  {
   "property": "C100",
   "status": "proved",
   "theorems": [
    "C100_caesar_encrypt",
    "C100_caesar_decrypt",
    "C100_caesar_round",
    "C100_caesar_undo",
    "C100_vernam_encrypt",
    "C100_vernam_round",
    "C100_vernam_refuse",
    "C100_chacha20",
    "C100_chacha20_back"
   ],
   "note": ""
  },
  {
   "property": "C101",
   "status": "proved",
   "theorems": [
    "C101_crc",
    "C101_crc_exists",
    "C101_pieces",
    "C101_calculator8",
    "C101_calculator16",
    "C101_calculator32"
   ],
   "note": ""
  },
  {
   "property": "C102",
   "status": "proved",
   "theorems": [
    "C102_build",
    "C102_sequence",
    "C102_find_safe",
    "C102_find",
    "C102_find_absent",
    "C102_find_long",
    "C102_build_find",
    "C102_build_absent",
    "C102_confused_refuted"
   ],
   "note": ""
  },
  {
   "property": "C103",
   "status": "proved",
   "theorems": [
    "C103_serialize",
    "C103_deserialize",
    "C103_codec_round",
    "C103_codec_back",
    "C103_blob",
    "C103_swap",
    "C103_swap_same",
    "C103_parse",
    "C103_pow10",
    "C103_char_classes",
    "C103_reflect",
    "C103_rotl32",
    "C103_bit",
    "C103_bitSet"
   ],
   "note": ""
  },
  {
   "property": "C104",
   "status": "proved",
   "theorems": [
    "C104_program",
    "C104_names",
    "C104_run"
   ],
   "note": ""
  },
  {
   "property": "C105",
   "status": "proved",
   "theorems": [
    "C105_order"
   ],
   "note": ""
  },
  {
   "property": "C106",
   "status": "proved",
   "theorems": [
    "C106_more_fuel",
    "C106_one_result"
   ],
   "note": ""
  },
  {
   "property": "C107",
   "status": "proved",
   "theorems": [
    "C107_sizes"
   ],
   "note": ""
  },
  {
   "property": "C108",
   "status": "proved",
   "theorems": [
    "C108_reach",
    "C108_frame"
   ],
   "note": ""
  },
  {
   "property": "C109",
   "status": "proved",
   "theorems": [
    "C109_sound",
    "C109_exact",
    "C109_unambiguous",
    "C109_type_sound",
    "C109_type_complete"
   ],
   "note": ""
  },
  {
   "property": "C110",
   "status": "proved",
   "theorems": [
    "C110_statements_sound",
    "C110_statements_complete",
    "C110_statements_unambiguous",
    "C110_file",
    "C110_file_unambiguous",
    "C110_translate",
    "C110_sources"
   ],
   "note": ""
  },
  {
   "property": "C111",
   "status": "proved",
   "theorems": [
    "C111_layout",
    "C111_library",
    "C111_no_callback",
    "C111_comparison",
    "C111_one_array",
    "C111_encode",
    "C111_chacha20"
   ],
   "note": ""
  },
  {
   "property": "C112",
   "status": "proved",
   "theorems": [
    "C112_exact",
    "C112_joined_unique",
    "C112_unambiguous"
   ],
   "note": ""
  },
  {
   "property": "C113",
   "status": "proved",
   "theorems": [
    "C113_replaced",
    "C113_replaced_unique",
    "C113_file",
    "C113_unique",
    "C113_sources"
   ],
   "note": ""
  },
  {
   "property": "C114",
   "status": "proved",
   "theorems": [
    "C114_program",
    "C114_other",
    "C114_CaesarCipher_encrypt",
    "C114_VernamCipher_encrypt",
    "C114_CaesarCipher_decrypt",
    "C114_VernamCipher_decrypt",
    "C114_Json_startString",
    "C114_Json_endString",
    "C114_Json_addData",
    "C114_Json_findByKey",
    "C114_Base64_encode",
    "C114_Base64_encode_long",
    "C114_Base64_decode",
    "C114_Map_insert",
    "C114_Map_getValue",
    "C114_InsertionSort_sort",
    "C114_Json_addData_same_refuted",
    "C114_Json_endString_same_refuted"
   ],
   "note": ""
  },
  {
   "property": "C115",
   "status": "proved",
   "theorems": [
    "C115_same",
    "C115_Chacha20_crypt",
    "C115_Block",
    "C115_memory",
    "C115_serialize",
    "C115_bits",
    "C115_rotl32",
    "C115_caesar_refuted",
    "C115_caesar_key_refuted",
    "C115_vernam_refuted",
    "C115_encode_refuted",
    "C115_decode_refuted",
    "C115_Crc8_refuted",
    "C115_Crc16_refuted",
    "C115_Crc32_refuted",
    "C115_reflect_refuted",
    "C115_isUpperChar_refuted",
    "C115_rotl32_amount_refuted"
   ],
   "note": ""
  }
 ]
}