{
 "C01": "Both signednesses of char. For lengths above 10 the C code reads only the first character and fails.",
 "C02": "Memory is pre ++ field ++ post, so the equations also say that nothing else changes and that any offset works.",
 "C03": "Source and destination are different objects. The LE variants are shown undefined at size 2^31 and to copy nothing above.",
 "C04": "Two disjoint ranges in either order, or the same range twice.",
 "C05": "",
 "C06": "",
 "C07": "",
 "C08": "Counts 0 and >= 32 are shown to be undefined behaviour.",
 "C09": "The specification cuts the bit string in groups of six; it shares no code with the model. Data may be followed by anything in memory.",
 "C10": "max_result_length + 1 bytes suffice for all data (proved); max_result_length bytes do not (general overrun theorem and a refutation witness).",
 "C11": "Both the success and the failure result are given exactly.",
 "C12": "Round trip proved for 3 bytes and more, failure proved for fewer.",
 "C13": "Safe for every input and claimed length except length 1 mod 4 without a readable extra byte; in that case the over-read is proved to happen.",
 "C14": "Exact result for every valid text, with and without padding and room; C14_any_text: the exact result for every text without padding, by what each character is taken for.",
 "C15": "For every operation sequence; the specification is a list of byte strings.",
 "C16": "For every state reachable by operations from an initialised queue.",
 "C17": "Together with C15 (no undefined behaviour). Sizes with capacity*element_size <= 2^32.",
 "C18": "",
 "C19": "Refutation of the unrestricted claim, with a general theorem for three slots of 2^31 bytes.",
 "C20": "For every operation sequence; dequeue also stated without the functional specification.",
 "C21": "",
 "C22": "Permutation, sorted and stable (equal priorities filtered out appear in the same order).",
 "C23": "Storage is exactly or more than the stated size; memory beyond never changes. Overlapping memcpy would be UB.",
 "C24": "Also NULL item and NULL element in reachable states.",
 "C25": "For every operation sequence; the specification is a finite map (gmap) of byte strings.",
 "C26": "The exact status, effect on contents and effect on every later lookup.",
 "C27": "Storage exactly or more than the stated size; memory beyond never changes.",
 "C28": "Rejections, acceptance of every other argument, and two refutations of 'accepted means usable'.",
 "C29": "Calling a task is an arbitrary function on the program state.",
 "C30": "Both outcomes of an addition, and every sequence of additions after initialisation; NULL functions separately.",
 "C31": "Tasks may change the table arbitrarily; the pass is specified by conditions on the list of calls, not by a loop.",
 "C32": "One theorem per sort. The comparator is an arbitrary pure function of the bytes of two elements. Sizes are bounded only by int32_t offsets (heap sort: twice the size, since it computes offsets of elements up to 2n). Insertion sort is stated for memory that makes it defined (see C36), heap sort for n+1 readable elements after the buffer.",
 "C33": "One theorem per sort, for every comparator that is a strict weak order on the elements at hand; C33_by_key shows that comparing by a numerical key is one.",
 "C34": "Proved for bubble and insertion sort; the false claim for selection and heap sort is refuted by a concrete run.",
 "C35": "For every memory, base, count (also negative) and element size; the outcome may be undefined behaviour (C36) but never endless.",
 "C36": "Bubble and selection sort never leave the buffer. Insertion sort: exact condition in both directions. Heap sort: C36_heap_exact gives the exact number of elements that must be readable, as the extent of a run of the textbook heap sort (Spec_HeapReads); the bounds, the worst case (strictly ascending input, 2n+1 elements) and the best case (an odd number of equal elements, n) are theorems. Independence of the surroundings: in C32 the same ys serves every pre and post. Precondition: 2n and 2n*element_size below 2^31.",
 "C37": "Every byte outside the elements keeps its value. Element sizes above 64 are undefined behaviour in insertion sort.",
 "C38": "The message is any NUL-terminated string of bytes 1..255 of any length, with anything behind its NUL.",
 "C39": "The exact result of decryption and of the round trip for all inputs, the exact set of messages that survive, and a concrete counterexample to the round trip. C39_undo shows the correct inverse.",
 "C40": "For char signed and unsigned (a parameter of the model where it matters).",
 "C41": "C41_encrypt/decrypt give the returned flag for every int key_length; the header's wording is refuted; C41_long covers messages of 2^31 and more characters.",
 "C42": "Equivalence: the keys that restore every message are exactly those of letters and the character [ (code 91).",
 "C43": "The block function and the whole cipher against a separate transcription of RFC 8439 (with the counter taken mod 2^32, as the code does); the transcription is tested on RFC vectors.",
 "C44": "In place, and from place to place.",
 "C45": "Any placement in which the result does not begin inside the message; otherwise the result is wrong (C45_overlap_refuted).",
 "C46": "Cuts at multiples of 64 bytes; any other cut is refuted. Locality holds between any two calls with the same parameters.",
 "C47": "The calculators for every polynomial, and every one of the 45 tables, against remainders of GF(2) polynomial division (relation `remainder`, defined by carry-less products); tables also equal to the calculator's output. The refutation records polynomials in file comments that are not those of the tables.",
 "C48": "Iff: a result is returned exactly when it is the catalogued CRC of the message; the catalogue parameters are written out in Spec_Crc.v. Tested on the 45 catalogue check values.",
 "C49": "Any number of pieces, each in its own memory. The refutation: final_crc set before the last piece.",
 "C50": "Window stated on the bits in the order the CRC takes them; corollaries for bytes and single bits. The refutation: a window one bit wider is not always detected.",
 "C51": "All 45 functions.",
 "C52": "Iff, so a wrong appended CRC never gives the residue; the residue is characterised by polynomial division, and is 0 when the final xor is 0.",
 "C53": "Exact: any table with 256 entries of the right width; data shorter than crc_length is an out-of-bounds read. Precondition: entries within the type (which C guarantees).",
 "C54": "All pairs and sizes; the converse too (all calls succeed only when text and NUL fit). Preconditions: keys and values contain no NUL, sizes below 2^63.",
 "C55": "Exact result of each call (status, buffer, undefined behaviour) for every buffer holding a non-empty text, and of every sequence of calls against a small state machine over texts. Two refutations: a failed addData changes the text; the finished text can end in ,}.",
 "C56": "Bounds exact: the only overrun is the one-byte one stated, and it always happens there; the empty text is always undefined. The refutation reaches the overrun from startString.",
 "C57": "Every buffer content and key with buffer_size < 2^32 (the index is uint32_t); independence from the bytes behind both buffers is part of the statement.",
 "C58": "C58_find is an iff for every buffer (buffer_size < 2^32 - 1); C58_build_find gives a readable sufficient condition for built text. The refutation: at buffer_size 2^32 - 1 the index wraps round.",
 "C59": "Three refutations on built text with distinct keys; the empty key is never found.",
 "C60": "All four ways of failing, with the exact contents left in value. The refutation: bytes behind the terminating NUL are searched.",
 "C61": "Exact (iff) for every pair of messages of equal length.",
 "C62": "Exact (iff) per function, with the list of which functions satisfy it; the error missed otherwise is the generator itself. Refutation for CRC-32.",
 "C63": "Exact (iff) for any distance; the orders are proved least, from their prime factors (trial division inside Coq).",
 "C64": "Existence and uniqueness.",
 "C65": "Exact (iff) for one zero byte; any number of zero bytes for initial value 0.",
 "C66": "For any pair of functions with so related parameters; the pairs exist (examples: CRC-32 with JAMCRC and BZIP2).",
 "C67": "Any list of fields, by induction; layout stated in Spec_Record without the model.",
 "C68": "Exact for all widths.",
 "C69": "Every n < 2^32; the text is the shortest one.",
 "C70": "The round trip text-data-text is an iff; the refutation gives two texts for the same data.",
 "C71": "The lower bound of 3 bytes is exact (C71_short_fails). No statement about secrecy is made.",
 "C72": "Sufficient conditions on the pairs before the key, as in C58_build_find; all are used only through that theorem.",
 "C73": "Exact (iff) for every frame; the client code around the library functions is modelled in Drive_Pipeline.",
 "C74": "Exact (iff) for bubble and selection sort; for insertion sort one direction. Heap sort: refuted with equal elements.",
 "C75": "Insertion sort needs a readable element before the buffer unless no element is below all earlier ones; heap sort needs n+1 readable elements after it (C36).",
 "C76": "Model_SortState repeats the sorts with the state threaded through; C76_*_state proves it equal to Model_Sort for every comparator whose answers do not depend on the state, also outside the preconditions.",
 "C77": "Calls counted in the model of C76. The bounds of bubble and insertion sort are reached (Example); for heap sort the upper bound is not tight.",
 "C78": "Outcome Diverge excluded for all arguments; the ranges of the C types are assumed where they matter. The loop fuel of the model suffices, so no run is cut short. JSON search: condition plus refutation. The sorts with a comparator without state: C35.",
 "C79": "If and only if. The map limit is stated for max_map_size <= 256^key_size (otherwise the map cannot be filled).",
 "C80": "General statement on any map structure; that such states are reached is the only-if direction of C79_map.",
 "C81": "Exact kind of undefined behaviour (out-of-bounds read).",
 "C82": "Proved for sizes up to 2^64; below 4 GiB the search is characterised by C57-C60.",
 "C83": "Some undefined behaviour: signed overflow, or an earlier out-of-bounds access if the memory is small.",
 "C84": "The fuel of the interpreter's loops is any number above the iteration count. Source and destination of the blob functions are different objects; Utils_swapElements works within one object.",
 "C85": "The data pointer is the start of its object (the model's data argument is that object); the fuel is any number above the length and 32.",
 "C86": "The pointers are the starts of their objects; the fuel is any number above the length of the input object. That the encoder works in place is refuted by C86_encode_in_place_refuted.",
 "C87": "Message and key of the Vernam cipher are different objects; the result of ChaCha20 is in neither the key nor the nonce. The fuel is any number above the length of the message (Caesar, Vernam), above 64 and the number of blocks (ChaCha20).",
 "C88": "The kind of undefined behaviour is not compared: the text forms an address before it computes the next offset. The buffer address is inside its object (selection sort, heap sort). The comparator does not change memory. The fuel is any number above the number and the size of the elements.",
 "C89": "Buffer, key and value are different objects, smaller than 2^64. For Json_findByKey the model must not be Diverge (C78: it is not for buffers below 4 GiB); the fuel is any number above the size of the buffer plus one.",
 "C90": "The element is an object other than the buffer. Queue_init: the structure is unwritten or a queue.",
 "C91": "The item's arrays and the element are objects other than the arrays of the queue. With a NULL item or element the two sides agree up to the kind of undefined behaviour. The fuel is any number above the number of items.",
 "C92": "The key is an object other than the map's arrays when it is inserted; the value is an object other than the arrays. The fuel is any number above the number of entries.",
 "C93": "The new task is an object outside the array of tasks. The fuel is any number above the count of tasks."
}
