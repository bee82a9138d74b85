{"id": "C01", "title": "Decimal string parsing is exact", "statement": "Utils_stringToUint32 returns true exactly when the given characters (at most 10 of them, possibly none) are all decimal digits and the number they denote is at most 4294967295; it then stores exactly that number, and on failure what it leaves is the number of the leading digits (of the first nine characters) scaled as if zeros followed. It reads no character beyond the given length, and for lengths above 10 it reads only the first character and reports failure.", "quantifier": "every character string, every length 0..255, both signednesses of char", "why_tests_cant": "there are more than 10^10 accepted strings and the overflow boundary interacts with leading zeros and the special 10-digit path", "anchors": ["Src/utils.c:Utils_stringToUint32", "Src/utils.c:Utils_quickUint32Pow10"]}
{"id": "C02", "title": "Fixed-width (de)serializers are inverse and put bytes in the stated order", "statement": "Utils_serialize8/16/24/32 BE/LE write exactly 1/2/3/4 bytes at the pointer, most significant first for BE and least significant first for LE, and change nothing else; the matching Utils_deserialize returns sum(byte * 256^position) of those bytes; so deserialize(serialize v) = v (modulo 2^24 for the 24-bit pair) and serialize(deserialize buf) = buf.", "quantifier": "every value, every buffer, every offset that fits", "why_tests_cant": "2^32 values per function and every surrounding memory content", "anchors": ["Src/utils.c:Utils_serialize8", "Src/utils.c:Utils_serialize16BE", "Src/utils.c:Utils_serialize24BE", "Src/utils.c:Utils_serialize32BE", "Src/utils.c:Utils_serialize16LE", "Src/utils.c:Utils_serialize24LE", "Src/utils.c:Utils_serialize32LE", "Src/utils.c:Utils_deserialize32BE", "Src/utils.c:Utils_deserialize32LE"]}
{"id": "C03", "title": "Blob (de)serializers copy or reverse", "statement": "For sizes below 2^31, Utils_serializeBlobBE/deserializeBlobBE copy size bytes unchanged and Utils_serializeBlobLE/deserializeBlobLE copy them in reverse order, changing only those size bytes; each deserialize undoes its serialize. The LE variants do not work for sizes of 2^31 or more: size 2^31 is undefined behaviour (signed overflow) and larger sizes silently copy nothing.", "quantifier": "every source, destination, offset and every uint32_t size", "why_tests_cant": "sizes are unbounded for a test, and the signed-counter defect appears only above 2 GiB", "anchors": ["Src/utils.c:Utils_serializeBlobBE", "Src/utils.c:Utils_serializeBlobLE", "Src/utils.c:Utils_deserializeBlobBE", "Src/utils.c:Utils_deserializeBlobLE"]}
{"id": "C04", "title": "swapElements exchanges two byte ranges and nothing else", "statement": "Utils_swapElements(first, second, size) on two disjoint (or identical) ranges leaves each range holding the other one's former contents and every other byte of memory unchanged; doing it twice restores memory.", "quantifier": "every memory content, every pair of disjoint or equal ranges, every size", "why_tests_cant": "unbounded sizes and surrounding memory", "anchors": ["Src/utils.c:Utils_swapElements"]}
{"id": "C05", "title": "Powers of ten and character classes", "statement": "Utils_quickUint32Pow10 returns true and 10^exponent for exponents 0..9 and false, leaving the result untouched, for 10..255. Utils_isUpperChar / isLowerChar / isAlpha hold exactly for A-Z / a-z / both, whatever the signedness of char.", "quantifier": "every exponent and every character", "why_tests_cant": "small domains, but every caller of the library (parser, ciphers) relies on all of them", "anchors": ["Src/utils.c:Utils_quickUint32Pow10", "Src/utils.c:Utils_isUpperChar", "Src/utils.c:Utils_isLowerChar", "Src/utils.c:Utils_isAlpha"]}
{"id": "C06", "title": "Bit reflection mirrors the low n bits", "statement": "For 0 <= n <= 32 BitManipulation_reflect(data, n) has bit k equal to bit n-1-k of data for k < n and zero above; applied twice it returns data modulo 2^n. For 32 <= n <= 255 bit k of the result is bit (n-1-k) mod 32 of data; no undefined shift occurs for any n.", "quantifier": "every 32-bit word and every n in 0..255", "why_tests_cant": "2^40 input pairs", "anchors": ["Src/bit_manipulation.c:BitManipulation_reflect"]}
{"id": "C07", "title": "Single-bit operations touch exactly one bit", "statement": "For n <= 31 bitSet reports bit n of data, setBit / clearBit / toggleBit return data with exactly bit n set / cleared / inverted; for n > 31 all four report failure and leave the output untouched.", "quantifier": "every 32-bit word and every n in 0..255", "why_tests_cant": "2^40 input pairs per function", "anchors": ["Src/bit_manipulation.c:BitManipulation_bitSet", "Src/bit_manipulation.c:BitManipulation_setBit", "Src/bit_manipulation.c:BitManipulation_clearBit", "Src/bit_manipulation.c:BitManipulation_toggleBit"]}
{"id": "C08", "title": "rotl32 is a rotation for 1..31 and undefined outside", "statement": "For 1 <= n <= 31 BitManipulation_rotl32 moves bit i to bit (i+n) mod 32, is inverted by rotating by 32-n, and rotations compose additively. For n = 0 and for n >= 32 the call is undefined behaviour (shift by the full width), so a caller must never pass them.", "quantifier": "every word and every 32-bit count", "why_tests_cant": "undefined behaviour is not observable by a test, and 2^37 pairs", "anchors": ["Src/bit_manipulation.c:BitManipulation_rotl32"]}
{"id": "C09", "title": "Base64 encoding is RFC 4648", "statement": "When Base64_encode reports success the result buffer starts with exactly the RFC 4648 encoding of the data (the bit string cut in 6-bit groups, standard alphabet, padded with = to a multiple of 4) followed by one NUL; bytes after the NUL are unchanged.", "quantifier": "every byte string of every length and every result buffer", "why_tests_cant": "unbounded inputs; all three padding cases with all byte values", "anchors": ["Src/base64.c:Base64_encode"]}
{"id": "C10", "title": "Base64 encoder never writes beyond max_result_length + 1 bytes", "statement": "Base64_encode writes only at offsets 0..4*ceil(n/3) and never beyond offset max_result_length; the terminating NUL can land at offset max_result_length, one byte past the stated limit, so the buffer must have max_result_length + 1 bytes. That the function stays within max_result_length bytes, as its parameter suggests, is false.", "quantifier": "every data, every claimed limit, every real buffer size", "why_tests_cant": "an off-by-one write past the buffer is silent in a test unless it runs under a memory checker with the exact size", "anchors": ["Src/base64.c:Base64_encode"]}
{"id": "C11", "title": "Base64 encoder success condition", "statement": "For data shorter than 2^62 bytes Base64_encode returns 0 exactly when 4*ceil(n/3) <= max_result_length, and 1 otherwise; on failure what has been written is a prefix of the correct encoding, in whole groups of four, followed by NUL.", "quantifier": "every data length and limit", "why_tests_cant": "unbounded", "anchors": ["Src/base64.c:Base64_encode"]}
{"id": "C12", "title": "Base64 decode inverts encode for three bytes and more", "statement": "For every data of at least 3 bytes, Base64_decode applied to the encoder's output with max_out_len at least the data length returns 0 and yields exactly the data, changing no further output byte. For 1 or 2 bytes of data (and for none) decoding the encoder's output fails: the round trip claim without the length condition is false.", "quantifier": "every byte string", "why_tests_cant": "unbounded; the short-input failure is a boundary case existing tests miss", "anchors": ["Src/base64.c:Base64_encode", "Src/base64.c:Base64_decode"]}
{"id": "C13", "title": "Base64 decoder memory safety", "statement": "Base64_decode never writes at or beyond max_out_len and terminates on every input, whatever the characters. It reads only inside the in_len input bytes when in_len mod 4 is not 1; when in_len mod 4 = 1 (and in_len >= 5) it reads one byte beyond the input, so that reads always stay inside is false.", "quantifier": "every byte string (also malformed), every claimed size", "why_tests_cant": "arbitrary malformed input from the outside; a one-byte over-read is invisible to a test", "anchors": ["Src/base64.c:Base64_decode"]}
{"id": "C14", "title": "Base64 decoder on valid text, and no validation of malformed text", "statement": "On every text of at least 4 alphabet characters (a number of them that is not 1 modulo 4), with or without its padding, the decoder returns 0 and the RFC 4648 decoding when it fits in max_out_len, and 1 otherwise. It performs no validation: every text of a multiple of 4 characters not ending in = is accepted, whatever the characters, and each character stands for a value: + - and . for 62, / , and _ for 63, and any character outside the alphabet for 0.", "quantifier": "every valid text and every malformed text of such a length", "why_tests_cant": "unbounded", "anchors": ["Src/base64.c:Base64_decode"]}
{"id": "C15", "title": "Queue is a FIFO", "statement": "After initialisation, any sequence of enqueue, dequeue, front, rear, full and empty calls behaves like a bounded mathematical FIFO of byte strings: dequeue and front deliver the oldest element not yet dequeued, rear the newest, with exactly the bytes enqueued.", "quantifier": "every capacity, element size and every finite sequence of operations", "why_tests_cant": "unbounded histories and wrap-around positions", "anchors": ["Src/queue.c:Queue_init", "Src/queue.c:Queue_enqueue", "Src/queue.c:Queue_dequeue", "Src/queue.c:Queue_front", "Src/queue.c:Queue_rear"]}
{"id": "C16", "title": "Queue capacity is exact", "statement": "Enqueue succeeds exactly while fewer than capacity elements are stored, dequeue and the peeks exactly while at least one is; full and empty report exactly that. A failed operation changes neither the queue nor the caller's element.", "quantifier": "every reachable queue state", "why_tests_cant": "unbounded histories", "anchors": ["Src/queue.c:Queue_full", "Src/queue.c:Queue_empty", "Src/queue.c:Queue_enqueue", "Src/queue.c:Queue_dequeue"]}
{"id": "C17", "title": "Queue operations touch only their memory", "statement": "In every reachable state enqueue writes only the element_size bytes of one free slot of the first capacity*element_size buffer bytes, dequeue and the peeks write only element_size bytes of the caller's element, and none is undefined behaviour, provided (capacity-1)*element_size < 2^32 and the buffer has capacity*element_size bytes.", "quantifier": "every reachable state", "why_tests_cant": "memory safety of every history", "anchors": ["Src/queue.c:Queue_enqueue", "Src/queue.c:Queue_dequeue", "Src/queue.c:Queue_front", "Src/queue.c:Queue_rear"]}
{"id": "C18", "title": "Queue argument validation", "statement": "Queue_init returns false and changes nothing for a zero capacity, zero element size or NULL buffer; enqueue, dequeue and the peeks return false and change nothing for a NULL queue or element. Queue_init with a NULL queue and valid other arguments, and Queue_full/Queue_empty of NULL, are undefined behaviour.", "quantifier": "every argument combination", "why_tests_cant": "NULL and zero cases in all combinations", "anchors": ["Src/queue.c:Queue_init", "Src/queue.c:Queue_enqueue", "Src/queue.c:Queue_dequeue", "Src/queue.c:Queue_front", "Src/queue.c:Queue_rear"]}
{"id": "C19", "title": "Queue corrupts data when the buffer exceeds 4 GiB", "statement": "The claim that the FIFO property holds for every capacity and element size with a large enough buffer is false: slot offsets are computed modulo 2^32, so with (capacity-1)*element_size >= 2^32 two slots share storage.", "quantifier": "existence", "why_tests_cant": "needs a buffer above 4 GiB", "anchors": ["Src/queue.c:Queue_enqueue"]}
{"id": "C20", "title": "Priority queue serves the highest priority first, FIFO among equals", "statement": "Dequeue delivers and removes an element of maximal priority, and among those the one enqueued earliest; all other elements keep their relative order. Any sequence of operations behaves like the obvious list specification.", "quantifier": "every reachable state and every operation sequence", "why_tests_cant": "unbounded histories", "anchors": ["Src/priority_queue.c:PriorityQueue_dequeue", "Src/priority_queue.c:PriorityQueue_enqueue"]}
{"id": "C21", "title": "Priority queue overflow evicts the earliest lowest-priority element", "statement": "Enqueue on a non-full queue always succeeds. On a full queue it succeeds exactly when the new priority is strictly greater than the lowest stored priority, and then removes the earliest enqueued element of that lowest priority; otherwise it returns false and changes nothing.", "quantifier": "every reachable state and item", "why_tests_cant": "unbounded histories", "anchors": ["Src/priority_queue.c:PriorityQueue_enqueue"]}
{"id": "C22", "title": "Priority queue drains in sorted order", "statement": "Dequeuing until empty delivers every stored element exactly once, with priorities non-increasing and equal priorities in insertion order.", "quantifier": "every reachable state", "why_tests_cant": "unbounded", "anchors": ["Src/priority_queue.c:PriorityQueue_dequeue"]}
{"id": "C23", "title": "Priority queue memory safety", "statement": "In every reachable state the operations read and write only the first capacity priorities and capacity*element_size buffer bytes (with (capacity-1)*element_size below 2^32) and never copy between overlapping ranges; the number of stored elements never exceeds capacity.", "quantifier": "every reachable state", "why_tests_cant": "overlapping memcpy and out-of-bounds access are invisible to tests", "anchors": ["Src/priority_queue.c:PriorityQueue_enqueue", "Src/priority_queue.c:PriorityQueue_dequeue"]}
{"id": "C24", "title": "Priority queue argument validation", "statement": "PriorityQueue_init returns false and changes nothing for a NULL queue, NULL items, zero capacity or zero element size. The other operations do not check: a NULL queue is undefined behaviour.", "quantifier": "every argument combination", "why_tests_cant": "combinatorial", "anchors": ["Src/priority_queue.c:PriorityQueue_init"]}
{"id": "C25", "title": "Map returns the latest value stored under a key", "statement": "After initialisation with positive sizes, any sequence of inserts and lookups behaves like a bounded finite map from key byte strings to value byte strings: getValue delivers exactly the bytes of the last successful insert with that key, or returns false and leaves the destination unchanged if there was none.", "quantifier": "every sequence of operations, every key and value size", "why_tests_cant": "unbounded histories", "anchors": ["Src/map.c:Map_insert", "Src/map.c:Map_getValue", "Src/map.c:Map_init"]}
{"id": "C26", "title": "Map capacity, update in place, no duplicate keys", "statement": "Insert of a new key succeeds exactly while fewer than max_map_size keys are stored and otherwise returns false changing nothing; insert of a present key always succeeds, also when full, and does not consume a slot. No key is ever stored twice.", "quantifier": "every reachable map", "why_tests_cant": "unbounded histories", "anchors": ["Src/map.c:Map_insert"]}
{"id": "C27", "title": "Map entries are independent and memory safe", "statement": "Inserting under one key never changes the value found under another key; only the slots inside the first max_map_size*key_size key bytes and max_map_size*value_size value bytes are written ((max_map_size-1)*key_size and (max_map_size-1)*value_size below 2^31).", "quantifier": "every reachable map, every two keys", "why_tests_cant": "unbounded", "anchors": ["Src/map.c:Map_insert"]}
{"id": "C28", "title": "Map initialisation validates zero and NULL but accepts negative sizes", "statement": "Map_init returns false and changes nothing for a zero size or NULL storage. It accepts negative sizes; with a negative key size the first insert is undefined behaviour, so that an accepted initialisation gives a usable map is false.", "quantifier": "every argument combination; existence", "why_tests_cant": "negative sizes are not tested", "anchors": ["Src/map.c:Map_init", "Src/map.c:Map_insert"]}
{"id": "C29", "title": "Scheduler runs each active task once, in array order", "statement": "Scheduler_run calls exactly the functions of the slots that are occupied and active, each once, in increasing slot order, and changes nothing itself (for tasks that do not modify the task array).", "quantifier": "every task array", "why_tests_cant": "unbounded", "anchors": ["Src/scheduler.c:Scheduler_run"]}
{"id": "C30", "title": "Adding tasks", "statement": "Scheduler_addTask puts the task into the first free slot below max_num_tasks and returns true, changing no other slot; if no slot is free it returns false and changes nothing. After Scheduler_init all slots are free, so exactly max_num_tasks tasks can be added. A task with a NULL function is reported as added but occupies no slot.", "quantifier": "every task array and every sequence of additions", "why_tests_cant": "unbounded", "anchors": ["Src/scheduler.c:Scheduler_addTask", "Src/scheduler.c:Scheduler_init"]}
{"id": "C31", "title": "Scheduler with tasks that modify the task table", "statement": "If a running task changes the table, a slot below num_of_tasks later than the running one is run according to its new contents in the same pass, and an earlier or the current one is not run again in that pass; the pass makes at most num_of_tasks calls and terminates.", "quantifier": "every behaviour of the task functions", "why_tests_cant": "all re-entrancy patterns", "anchors": ["Src/scheduler.c:Scheduler_run", "Src/scheduler.c:Scheduler_addTask"]}
{"id": "C32", "title": "Sorting permutes the elements", "statement": "Each of the four sorts, when it finishes without undefined behaviour, leaves the buffer holding a permutation of the original elements (whole elements, byte for byte), for any comparator whatsoever.", "quantifier": "every comparator (also inconsistent), every number and size of elements, every content", "why_tests_cant": "unbounded inputs and arbitrary comparators", "anchors": ["Src/sort/bubble_sort.c:BubbleSort_sort", "Src/sort/insertion_sort.c:InsertionSort_sort", "Src/sort/selection_sort.c:SelectionSort_sort", "Src/sort/heap_sort.c:HeapSort_sort"]}
{"id": "C33", "title": "Sorting sorts", "statement": "If the comparator is a strict weak order (greater-than), then no element of the output is greater than a later one, for bubble, insertion and selection sort with the documented comparator and heap sort with it.", "quantifier": "every comparator that is a strict weak order, every input", "why_tests_cant": "unbounded", "anchors": ["Src/sort/bubble_sort.c:BubbleSort_sort", "Src/sort/insertion_sort.c:InsertionSort_sort", "Src/sort/selection_sort.c:SelectionSort_sort", "Src/sort/heap_sort.c:HeapSort_sort"]}
{"id": "C34", "title": "Stability", "statement": "Bubble sort and insertion sort keep equal elements in their original order. Selection sort and heap sort do not (counterexamples).", "quantifier": "every input; existence", "why_tests_cant": "unbounded", "anchors": ["Src/sort/bubble_sort.c:BubbleSort_sort", "Src/sort/insertion_sort.c:InsertionSort_sort", "Src/sort/selection_sort.c:SelectionSort_sort", "Src/sort/heap_sort.c:HeapSort_sort"]}
{"id": "C35", "title": "Sorting terminates for any comparator", "statement": "All four sorts terminate for every comparator, also an inconsistent one such as one always returning true.", "quantifier": "every comparator and input", "why_tests_cant": "all inconsistent comparators", "anchors": ["Src/sort/bubble_sort.c:BubbleSort_sort", "Src/sort/heap_sort.c:Heapify"]}
{"id": "C36", "title": "Sorting memory safety", "statement": "Bubble and selection sort access only the n*element_size bytes of the buffer. Insertion sort passes the comparator a pointer to element -1 (before the buffer) exactly when some element is strictly smaller than all elements before it, and heap sort passes it a pointer to an element beyond the buffer whenever n = 1 or n is even and positive, whatever the elements are; in general it needs exactly as many readable elements as the children of the indices visited by the textbook heap sort reach (Spec_HeapReads), at most 2n+1, which strictly ascending input attains; so that these two stay inside the buffer is false. Given readable memory at those places (element -1, elements n to 2n) they are free of undefined behaviour and their result does not depend on it.", "quantifier": "every input and every surrounding memory", "why_tests_cant": "out-of-bounds reads do not show in tests", "anchors": ["Src/sort/insertion_sort.c:InsertionSort_sort", "Src/sort/heap_sort.c:Heapify", "Src/sort/bubble_sort.c:BubbleSort_sort", "Src/sort/selection_sort.c:SelectionSort_sort"]}
{"id": "C37", "title": "Sorting changes nothing outside the elements", "statement": "None of the sorts changes any byte outside the n*element_size bytes of the buffer; insertion sort requires element_size <= 64 and is undefined behaviour above that (for n >= 2).", "quantifier": "every input and surrounding memory", "why_tests_cant": "unbounded", "anchors": ["Src/sort/insertion_sort.c:InsertionSort_sort", "Src/sort/heap_sort.c:HeapSort_sort", "Src/sort/bubble_sort.c:BubbleSort_sort", "Src/sort/selection_sort.c:SelectionSort_sort"]}
{"id": "C38", "title": "Caesar encryption shifts letters", "statement": "CaesarCipher_encrypt replaces each letter by the letter shift places further in the alphabet (cyclically, case preserved) and leaves every other character and the length unchanged.", "quantifier": "every NUL-terminated string and every shift 0..255", "why_tests_cant": "unbounded strings", "anchors": ["Src/crypto/caesar_cipher.c:CaesarCipher_encrypt"]}
{"id": "C39", "title": "Caesar decryption inverts encryption only without wrap-around", "statement": "That decrypt(encrypt(msg, shift), shift) = msg for every message is false: a message is recovered exactly when for each of its letters the alphabet index plus the shift is below 26; a letter that wraps past the end of the alphabet (or any letter with a shift of 26 or more) comes back as a letter 22 places further (4 places earlier).", "quantifier": "every string and shift", "why_tests_cant": "needs the exact set of failing inputs", "anchors": ["Src/crypto/caesar_cipher.c:CaesarCipher_encrypt", "Src/crypto/caesar_cipher.c:CaesarCipher_decrypt"]}
{"id": "C40", "title": "Vernam round trip with alphabetic keys", "statement": "For every message and every key of the same length consisting of letters, encrypt adds the key letter to each message letter modulo 26, preserving case and non-letters, and decrypt with the same key restores the message.", "quantifier": "every message and alphabetic key, both signednesses of char", "why_tests_cant": "unbounded", "anchors": ["Src/crypto/vernam_cipher.c:VernamCipher_encrypt", "Src/crypto/vernam_cipher.c:VernamCipher_decrypt"]}
{"id": "C41", "title": "Vernam length check", "statement": "Both functions return true exactly when key_length equals the length of the message (for messages shorter than 2^31) and otherwise return false leaving the message unchanged; the header's claim that true is returned whenever the message is at least as long as the key is false. For messages of 2^31 characters and more the length is compared modulo 2^32, so success may be reported after encrypting only the start of the message.", "quantifier": "every message, key and key_length", "why_tests_cant": "unbounded", "anchors": ["Src/crypto/vernam_cipher.c:VernamCipher_encrypt", "Src/crypto/vernam_cipher.c:VernamCipher_decrypt"]}
{"id": "C42", "title": "Which Vernam keys round-trip", "statement": "That decryption restores the message for every key of the right length is false: a key restores every message of its length exactly when it consists of letters and [ characters only; every other character in the key loses some message.", "quantifier": "every key of bytes, both signednesses of char", "why_tests_cant": "quantifies over all messages for each key", "anchors": ["Src/crypto/vernam_cipher.c:VernamCipher_encrypt", "Src/crypto/vernam_cipher.c:VernamCipher_decrypt"]}
{"id": "C43", "title": "ChaCha20 implements RFC 8439", "statement": "Chacha20_crypt xors the input with the RFC 8439 key stream: byte i with byte i mod 64 of the ChaCha20 block for the key, the nonce and counter (inc + i/64) mod 2^32.", "quantifier": "every key, nonce, counter, message and length", "why_tests_cant": "2^352 parameters and unbounded messages", "anchors": ["Src/crypto/chacha20.c:Chacha20_crypt", "Src/crypto/chacha20.c:Block", "Src/crypto/chacha20.c:QuarterRound"]}
{"id": "C44", "title": "ChaCha20 decrypts what it encrypts", "statement": "Applying Chacha20_crypt twice with the same key, nonce and counter restores the message.", "quantifier": "every key, nonce, counter and message", "why_tests_cant": "unbounded", "anchors": ["Src/crypto/chacha20.c:Chacha20_crypt"]}
{"id": "C45", "title": "ChaCha20 memory effects, in place or not", "statement": "Chacha20_crypt writes exactly the plaintext_len bytes at result and nothing else, reads only the message, key and nonce, and gives the same result in place (result = plaintext), before the message or into a separate buffer. A result that begins strictly inside the message is not the encryption of it.", "quantifier": "every memory content and every placement in which the result does not begin inside the message; existence", "why_tests_cant": "memory frames", "anchors": ["Src/crypto/chacha20.c:Chacha20_crypt"]}
{"id": "C46", "title": "ChaCha20 messages can be processed in pieces", "statement": "Encrypting a message in two pieces, the first a multiple of 64 bytes long, the second with the counter advanced by the number of blocks, gives the same bytes as in one call; and each output byte depends only on the input byte at that position.", "quantifier": "every split point and message", "why_tests_cant": "unbounded", "anchors": ["Src/crypto/chacha20.c:Chacha20_crypt"]}
{"id": "C47", "title": "Every CRC table is the one its polynomial generates", "statement": "The 256-entry table embedded in each of the 45 CRC functions equals what the library's own table calculator produces for the polynomial of that CRC, and the calculator itself computes for each byte the polynomial remainder.", "quantifier": "all 45 tables; every polynomial for the calculator", "why_tests_cant": "45*256 constants; every polynomial", "anchors": ["Src/crc/crc8_base.c:Crc8Base_tableCalculator", "Src/crc/crc16_base.c:Crc16Base_tableCalculator", "Src/crc/crc32_base.c:Crc32Base_tableCalculator", "Src/crc/crc8_variants", "Src/crc/crc16_variants", "Src/crc/crc32_variants"]}
{"id": "C48", "title": "Every CRC function computes its catalogued CRC", "statement": "Each of the 45 functions called on a whole message returns the CRC defined by its parameters (width, polynomial, initial value, input/output reflection, final xor): the remainder of polynomial division over GF(2) of the (reflected) message, with the initial value added in, times x^width.", "quantifier": "every message of every length, all 45 functions", "why_tests_cant": "unbounded messages", "anchors": ["Src/crc/crc8_base.c:Crc8Base", "Src/crc/crc16_base.c:Crc16Base", "Src/crc/crc32_base.c:Crc32Base", "Src/crc/crc8_variants", "Src/crc/crc16_variants", "Src/crc/crc32_variants"]}
{"id": "C49", "title": "CRCs can be computed in pieces", "statement": "Feeding a message in any number of consecutive pieces, passing each non-final result as last_crc_ptr, with final_crc only on the last, gives the same result as one call. With final_crc set before the last piece this is false for some functions.", "quantifier": "every way of cutting every message, all 45 functions", "why_tests_cant": "unbounded", "anchors": ["Src/crc/crc8_variants", "Src/crc/crc16_variants", "Src/crc/crc32_variants"]}
{"id": "C50", "title": "CRCs detect all burst errors up to their width", "statement": "Two messages of the same length that differ only within a window of at most w consecutive bits (w the CRC width, in the order the CRC processes bits) and are not equal have different CRCs; in particular every single-bit error is detected.", "quantifier": "every message and every such error", "why_tests_cant": "unbounded messages", "anchors": ["Src/crc/crc8_base.c:Crc8Base", "Src/crc/crc16_base.c:Crc16Base", "Src/crc/crc32_base.c:Crc32Base"]}
{"id": "C51", "title": "CRCs are affine", "statement": "For three messages of equal length, the CRC of their bytewise xor is the xor of their CRCs.", "quantifier": "every three messages of equal length", "why_tests_cant": "unbounded", "anchors": ["Src/crc/crc8_base.c:Crc8Base", "Src/crc/crc16_base.c:Crc16Base", "Src/crc/crc32_base.c:Crc32Base"]}
{"id": "C52", "title": "Appending the CRC gives a constant residue", "statement": "For each function, the CRC of a message followed by its own CRC (in the byte order matching its reflection) is a constant that does not depend on the message (0 when the final xor is 0), and no other appended value gives it.", "quantifier": "every message", "why_tests_cant": "unbounded", "anchors": ["Src/crc/crc8_variants", "Src/crc/crc16_variants", "Src/crc/crc32_variants"]}
{"id": "C53", "title": "CRC memory safety", "statement": "The CRC functions read exactly the crc_length data bytes and the 256-entry table and are free of undefined behaviour, for every table content of 256 entries and every data.", "quantifier": "every data", "why_tests_cant": "unbounded", "anchors": ["Src/crc/crc8_base.c:Crc8Base", "Src/crc/crc16_base.c:Crc16Base", "Src/crc/crc32_base.c:Crc32Base"]}
{"id": "C54", "title": "JSON builder produces the stated text", "statement": "startString, any number of successful addData calls and endString leave in the buffer exactly {\"k1\":\"v1\",\"k2\":\"v2\",...} with the given keys and values verbatim and a terminating NUL.", "quantifier": "every list of keys and values that fits", "why_tests_cant": "unbounded", "anchors": ["Src/json.c:Json_startString", "Src/json.c:Json_addData", "Src/json.c:Json_endString"]}
{"id": "C55", "title": "JSON builder success conditions; a failed addData may corrupt the text", "statement": "Each builder call succeeds exactly when the result with its NUL fits in buffer_size. That a failed addData leaves the text unchanged is false: after a previous pair a comma has already been appended, and finishing then yields text ending in ,}.", "quantifier": "every buffer state; existence", "why_tests_cant": "boundary sizes", "anchors": ["Src/json.c:Json_addData", "Src/json.c:Json_startString", "Src/json.c:Json_endString"]}
{"id": "C56", "title": "JSON builder memory bounds", "statement": "startString and endString never write beyond buffer_size. addData stays within buffer_size unless the text already fills the buffer and ends in a quote, when it writes one byte beyond (the NUL after the comma); on an empty text it reads the byte before the buffer. That addData stays inside its buffer is false.", "quantifier": "every buffer state", "why_tests_cant": "one-byte overruns are invisible to tests", "anchors": ["Src/json.c:Json_addData"]}
{"id": "C57", "title": "JSON search is memory safe on arbitrary input", "statement": "Json_findByKey on any buffer contents of buffer_size < 2^32 bytes terminates, reads only the buffer_size bytes of the buffer and the key string, and writes only the first max_value_size bytes of value.", "quantifier": "every buffer content (hostile input), key and size", "why_tests_cant": "hostile input", "anchors": ["Src/json.c:Json_findByKey"]}
{"id": "C58", "title": "JSON build then find", "statement": "For text made by the builder, findByKey of a key returns true and the value, NUL-terminated, whenever the value fits, provided the key is not part of an earlier key or value, is not empty or one of the characters {:, and key and value contain no quote. For any buffer, findByKey succeeds exactly when the first occurrence of the key is followed by a quote and the text between the next two quotes fits.", "quantifier": "every list of pairs satisfying the condition", "why_tests_cant": "unbounded", "anchors": ["Src/json.c:Json_addData", "Src/json.c:Json_findByKey"]}
{"id": "C59", "title": "JSON search confuses keys", "statement": "That findByKey finds the value of every key present in built text is false: a key that occurs earlier as part of another key or inside a value makes it return false or a wrong string.", "quantifier": "existence", "why_tests_cant": "universal claim refuted", "anchors": ["Src/json.c:Json_findByKey"]}
{"id": "C60", "title": "JSON search reports absence", "statement": "If the key does not occur in the buffer findByKey returns false and leaves value unchanged; if the value does not fit in max_value_size (value plus NUL) it returns false after copying max_value_size bytes of it. That it returns false for keys absent from the text is false when old bytes behind the text contain them.", "quantifier": "every buffer and key", "why_tests_cant": "unbounded", "anchors": ["Src/json.c:Json_findByKey"]}
{"id": "C61", "title": "An error is missed by a CRC exactly when the generator divides it", "statement": "Two messages of the same length have the same CRC exactly when the generator polynomial divides the xor of their message polynomials.", "quantifier": "every two messages of equal length, all 45 functions", "why_tests_cant": "unbounded messages", "anchors": ["Src/crc/crc8_base.c:Crc8Base", "Src/crc/crc16_base.c:Crc16Base", "Src/crc/crc32_base.c:Crc32Base"]}
{"id": "C62", "title": "Which CRCs detect every odd number of wrong bits", "statement": "A CRC function distinguishes all messages of equal length that differ in an odd number of bits exactly when its generator has an even number of terms; this is so for 31 of the 45 functions, not for CRC-32.", "quantifier": "every two messages of equal length; existence", "why_tests_cant": "unbounded messages and errors", "anchors": ["Src/crc/crc8_variants", "Src/crc/crc16_variants", "Src/crc/crc32_variants"]}
{"id": "C63", "title": "Which two wrong bits a CRC detects", "statement": "Two wrong bits d places apart go unnoticed exactly when d is a multiple of the order of x modulo the generator. The orders of the 45 generators are 17 (CRC-8/DARC) up to 2^32 - 1 (CRC-32); all two-bit errors in messages of no more bits than the order are detected.", "quantifier": "every message, every two positions", "why_tests_cant": "distances up to 2^32 - 1", "anchors": ["Src/crc/crc8_variants", "Src/crc/crc16_variants", "Src/crc/crc32_variants"]}
{"id": "C64", "title": "Any CRC value can be forced by a suffix, in exactly one way", "statement": "For every message and every value of w bits there is exactly one suffix of w/8 bytes after which the CRC is that value.", "quantifier": "every message and value, all 45 functions", "why_tests_cant": "unbounded messages, 2^32 values", "anchors": ["Src/crc/crc8_base.c:Crc8Base", "Src/crc/crc16_base.c:Crc16Base", "Src/crc/crc32_base.c:Crc32Base"]}
{"id": "C65", "title": "Leading zero bytes are missed exactly by the CRCs with initial value 0", "statement": "Putting a zero byte before a message leaves its CRC unchanged exactly for the functions with initial value 0; for these any number of leading zero bytes goes unnoticed.", "quantifier": "every message, all 45 functions", "why_tests_cant": "unbounded messages", "anchors": ["Src/crc/crc8_variants", "Src/crc/crc16_variants", "Src/crc/crc32_variants"]}
{"id": "C66", "title": "CRC functions with related parameters give related results", "statement": "Functions whose parameters differ only in the final value give results that differ by the xor of the final values. Functions that differ in the order of all bits give mirrored results on mirrored messages.", "quantifier": "every message, all pairs of functions so related", "why_tests_cant": "unbounded messages", "anchors": ["Src/crc/crc8_variants", "Src/crc/crc16_variants", "Src/crc/crc32_variants"]}
{"id": "C67", "title": "Records written field by field are read back", "statement": "A record is a sequence of fields, each a number of 1 to 4 bytes or a blob, in either byte order. Writing the fields one after the other produces the concatenation of their encodings and changes nothing else; reading them at the same place gives the values back (numbers modulo their width). Overwriting one field in place leaves the others unchanged. Two records of the same shape with the same bytes have the same values.", "quantifier": "every sequence of fields, any values, any place in any memory", "why_tests_cant": "unboundedly many shapes of records", "anchors": ["Src/utils.c:Utils_serialize8", "Src/utils.c:Utils_serialize16BE", "Src/utils.c:Utils_serialize24BE", "Src/utils.c:Utils_serialize32BE", "Src/utils.c:Utils_serialize16LE", "Src/utils.c:Utils_serialize24LE", "Src/utils.c:Utils_serialize32LE", "Src/utils.c:Utils_serializeBlobBE", "Src/utils.c:Utils_serializeBlobLE", "Src/utils.c:Utils_deserialize8", "Src/utils.c:Utils_deserialize16BE", "Src/utils.c:Utils_deserialize24BE", "Src/utils.c:Utils_deserialize32BE", "Src/utils.c:Utils_deserialize16LE", "Src/utils.c:Utils_deserialize24LE", "Src/utils.c:Utils_deserialize32LE", "Src/utils.c:Utils_deserializeBlobBE", "Src/utils.c:Utils_deserializeBlobLE"]}
{"id": "C68", "title": "Reading a number in the other byte order reverses its bytes", "statement": "A number written least significant byte first and read most significant byte first (or the other way round) is the number with its bytes reversed; a 32-bit number is the blob of its four bytes.", "quantifier": "every value and place", "why_tests_cant": "2^32 values and every surrounding memory content", "anchors": ["Src/utils.c:Utils_serialize16BE", "Src/utils.c:Utils_serialize24BE", "Src/utils.c:Utils_serialize32BE", "Src/utils.c:Utils_serialize16LE", "Src/utils.c:Utils_serialize24LE", "Src/utils.c:Utils_serialize32LE", "Src/utils.c:Utils_serializeBlobBE", "Src/utils.c:Utils_serializeBlobLE", "Src/utils.c:Utils_deserialize16BE", "Src/utils.c:Utils_deserialize24BE", "Src/utils.c:Utils_deserialize32BE", "Src/utils.c:Utils_deserialize16LE", "Src/utils.c:Utils_deserialize24LE", "Src/utils.c:Utils_deserialize32LE"]}
{"id": "C69", "title": "The decimal text of every 32-bit number is read back", "statement": "Utils_stringToUint32 returns n for the decimal text of n, also with leading zeros up to 10 characters.", "quantifier": "every n below 2^32, every number of leading zeros that fits", "why_tests_cant": "2^32 numbers, with and without leading zeros", "anchors": ["Src/utils.c:Utils_stringToUint32"]}
{"id": "C70", "title": "Base64 texts and data correspond one to one except for unused bits", "statement": "The encoded text consists of characters of the alphabet followed by (-length) mod 3 padding characters; different data have different texts; data split after a multiple of three bytes may be encoded in pieces. Decoding a text and encoding the result gives the same text exactly if the bits that belong to no whole byte are zero. The claim that a text accepted by the decoder is the only one for its data is false.", "quantifier": "every data and every text over the alphabet of at least 4 characters", "why_tests_cant": "unbounded data", "anchors": ["Src/base64.c:Base64_encode", "Src/base64.c:Base64_decode"]}
{"id": "C71", "title": "Data encrypted, sent as base64 text, decoded and decrypted is unchanged", "statement": "For 3 to 2^32 - 1 bytes, Chacha20_crypt in place, Base64_encode, Base64_decode and Chacha20_crypt with the same key, nonce and counter restore the data. Shorter data is lost, since the decoder refuses its text. Other parameters go unnoticed and restore the data exactly if they encrypt it to the same bytes.", "quantifier": "every data, key, nonce, counter and buffer contents", "why_tests_cant": "unbounded data, 2^352 keys and nonces", "anchors": ["Src/crypto/chacha20.c:Chacha20_crypt", "Src/base64.c:Base64_encode", "Src/base64.c:Base64_decode"]}
{"id": "C72", "title": "Arbitrary bytes can be stored in JSON text through base64", "statement": "Data of at least 3 bytes, including zeros and quotes, encoded with Base64_encode and added as a value, is found with Json_findByKey and decoded back, whatever pairs come after it, and whatever pairs before it in which the key does not occur.", "quantifier": "every data, pairs, key (without quote) and buffers that are large enough", "why_tests_cant": "unbounded data and numbers of pairs", "anchors": ["Src/json.c:Json_addData", "Src/json.c:Json_findByKey", "Src/base64.c:Base64_encode", "Src/base64.c:Base64_decode"]}
{"id": "C73", "title": "Frames with a CRC are accepted exactly when the CRC is right", "statement": "A message whose CRC is appended with the serializer of its byte order is accepted by a receiver that computes the CRC of the message and compares, and such a receiver accepts exactly those frames. Computing the CRC of the whole frame and comparing with the residue is the same check. Beside an accepted frame another one is accepted exactly if both have the same CRC; so every error burst of at most as many bits as the CRC, in the message or in the CRC, is noticed.", "quantifier": "every message, frame and error burst, all 45 functions", "why_tests_cant": "unbounded messages", "anchors": ["Src/utils.c:Utils_serialize8", "Src/utils.c:Utils_serialize16BE", "Src/utils.c:Utils_serialize16LE", "Src/utils.c:Utils_serialize32BE", "Src/utils.c:Utils_serialize32LE", "Src/crc/crc8_base.c:Crc8Base", "Src/crc/crc16_base.c:Crc16Base", "Src/crc/crc32_base.c:Crc32Base"]}
{"id": "C74", "title": "Sorted elements stay as they are, with every sort but heap sort", "statement": "With any comparator, if it puts no element above the next one, bubble sort and insertion sort leave the buffer unchanged; if it puts no element above any later one, selection sort does. If the comparator is a strict weak order and elements are not empty, bubble sort and selection sort leave only sorted buffers unchanged. The claim for heap sort is false: it moves equal elements.", "quantifier": "every comparator, element size, number of elements and surrounding memory", "why_tests_cant": "unbounded buffers and all comparators", "anchors": ["Src/sort/bubble_sort.c:BubbleSort_sort", "Src/sort/insertion_sort.c:InsertionSort_sort", "Src/sort/selection_sort.c:SelectionSort_sort", "Src/sort/heap_sort.c:HeapSort_sort"]}
{"id": "C75", "title": "The sorts agree", "statement": "Under a strict weak order bubble sort and insertion sort (of elements of at most 64 bytes) produce the same buffer. If the order also tells all different elements apart, all four sorts do.", "quantifier": "every comparator that is a strict weak order on the elements, every buffer", "why_tests_cant": "unbounded buffers and all comparators", "anchors": ["Src/sort/bubble_sort.c:BubbleSort_sort", "Src/sort/insertion_sort.c:InsertionSort_sort", "Src/sort/selection_sort.c:SelectionSort_sort", "Src/sort/heap_sort.c:HeapSort_sort"]}
{"id": "C76", "title": "Sorting with comparators that have a state", "statement": "If the comparator has a state that may change at each call and influence its answers (it does not change the elements), each sort still ends, permutes the elements and changes nothing else, given the readable memory around the buffer that insertion sort and heap sort need. If the state does not influence the answers, the result is that of the comparator without state.", "quantifier": "every type of states, every comparator, every buffer", "why_tests_cant": "an arbitrary answer at each of unboundedly many calls", "anchors": ["Src/sort/bubble_sort.c:BubbleSort_sort", "Src/sort/insertion_sort.c:InsertionSort_sort", "Src/sort/selection_sort.c:SelectionSort_sort", "Src/sort/heap_sort.c:HeapSort_sort"]}
{"id": "C77", "title": "How often the sorts call the comparator", "statement": "For n elements: bubble sort calls it between n - 1 and n(n-1)/2 times, and n - 1 times if no element is above the next one; selection sort exactly n(n-1)/2 times; insertion sort between n - 1 and (n-1)(n+2)/2 times (it also calls it for the place before the buffer), and n - 1 times if no element is above the next one; heap sort between 2(n + n/2) and 2(n + n/2)(log2 n + 1) times.", "quantifier": "every comparator, also with a state, and every buffer", "why_tests_cant": "unbounded buffers and all comparators", "anchors": ["Src/sort/bubble_sort.c:BubbleSort_sort", "Src/sort/insertion_sort.c:InsertionSort_sort", "Src/sort/selection_sort.c:SelectionSort_sort", "Src/sort/heap_sort.c:HeapSort_sort"]}
{"id": "C78", "title": "Every function ends, whatever its arguments", "statement": "With any arguments, also sizes that do not fit the memories and NULL pointers, every function of the library comes to an end (possibly in undefined behaviour). The one exception is Json_findByKey: it ends if the size it is given or the object it searches is below 4 GiB, and can run for ever otherwise, because its 32-bit index goes round.", "quantifier": "all arguments of all functions", "why_tests_cant": "termination for unboundedly many arguments; the exception needs a 4 GiB buffer", "anchors": ["Src/json.c:Json_findByKey", "Src/utils.c:Utils_stringToUint32", "Src/base64.c:Base64_encode", "Src/base64.c:Base64_decode", "Src/map.c:Map_insert", "Src/scheduler.c:Scheduler_addTask", "Src/sort/bubble_sort.c:BubbleSort_sort", "Src/sort/heap_sort.c:HeapSort_sort"]}
{"id": "C79", "title": "The exact sizes up to which the containers work", "statement": "With a large enough buffer a queue behaves as a FIFO for all operation sequences exactly if (capacity-1)*element_size < 2^32, and a priority queue as its specification under the same condition. A map whose keys can take at least max_map_size values behaves as a finite map exactly if (max_map_size-1)*key_size and (max_map_size-1)*value_size are below 2^31.", "quantifier": "every capacity and every sizes", "why_tests_cant": "the limits lie at buffers of 2 and 4 GiB", "anchors": ["Src/queue.c:Queue_enqueue", "Src/queue.c:Queue_dequeue", "Src/priority_queue.c:PriorityQueue_enqueue", "Src/priority_queue.c:PriorityQueue_dequeue", "Src/map.c:Map_insert", "Src/map.c:Map_getValue"]}
{"id": "C80", "title": "Inserting a map entry beyond 2 GiB is undefined behaviour", "statement": "If the key is absent, a place is free and the offset of the next key or value is 2^31 or more, Map_insert is undefined behaviour.", "quantifier": "every map and entry", "why_tests_cant": "needs storage above 2 GiB", "anchors": ["Src/map.c:Map_insert"]}
{"id": "C81", "title": "ChaCha20 reads all of key and nonce", "statement": "With a key object below 32 bytes or a nonce object below 12 bytes, Chacha20_crypt of a message that is not empty reads beyond the object. With an empty message nothing is read or written.", "quantifier": "every message, key, nonce and counter", "why_tests_cant": "an over-read is invisible to tests", "anchors": ["Src/crypto/chacha20.c:Chacha20_crypt"]}
{"id": "C82", "title": "The JSON search looks at the first (size - key length) mod 2^32 positions", "statement": "For every buffer, also above 4 GiB, Json_findByKey returns false and leaves value unchanged if the key does not occur at the first (size - key length) mod 2^32 positions. So it misses keys in buffers above 4 GiB: that it finds a value that is there is false.", "quantifier": "every buffer and key", "why_tests_cant": "needs a buffer above 4 GiB", "anchors": ["Src/json.c:Json_findByKey"]}
{"id": "C83", "title": "Sorting beyond 2 GiB is undefined behaviour", "statement": "If (number_of_elements-1)*element_size is 2^31 or more, for two or more elements, each of the four sorts is undefined behaviour for every comparator and memory.", "quantifier": "every comparator, memory and sizes", "why_tests_cant": "needs a buffer above 2 GiB", "anchors": ["Src/sort/bubble_sort.c:BubbleSort_sort", "Src/sort/insertion_sort.c:InsertionSort_sort", "Src/sort/selection_sort.c:SelectionSort_sort", "Src/sort/heap_sort.c:HeapSort_sort"]}
{"id": "C84", "title": "The model of utils.c and bit_manipulation.c is what the C text says", "statement": "Each of the 30 functions of utils.c and bit_manipulation.c, translated mechanically from its C text into the syntax of a C fragment and run by an interpreter of that fragment, gives exactly the outcome of the hand-written model: the same result, the same change to the one object, nothing else changed, and undefined behaviour in the same cases. So every theorem about the model of these functions is one about the C text.", "quantifier": "every memory and all arguments", "why_tests_cant": "compares two semantics on unboundedly many inputs", "anchors": ["Src/utils.c:Utils_stringToUint32", "Src/utils.c:Utils_quickUint32Pow10", "Src/utils.c:Utils_swapElements", "Src/utils.c:Utils_serialize32BE", "Src/utils.c:Utils_deserializeBlobLE", "Src/bit_manipulation.c:BitManipulation_reflect", "Src/bit_manipulation.c:BitManipulation_rotl32"]}
{"id": "C85", "title": "The model of the CRC functions is what the C text says", "statement": "Each of the 51 CRC functions (three table generators, three calculators, 45 variants with their constant tables), translated mechanically from its C text and run by the interpreter of the C fragment, gives exactly the outcome of the hand-written model, for a null last_crc and for one that points anywhere in an object, undefined behaviour included, and changes no memory except the generated table.", "quantifier": "every memory, all data, lengths, flags and last_crc pointers", "why_tests_cant": "compares two semantics on unboundedly many inputs", "anchors": ["Src/crc/crc8_base.c:Crc8Base", "Src/crc/crc16_base.c:Crc16Base", "Src/crc/crc32_base.c:Crc32Base", "Src/crc/crc8_base.c:Crc8Base_tableCalculator", "Src/crc/crc8_variants", "Src/crc/crc16_variants", "Src/crc/crc32_variants"]}
{"id": "C86", "title": "The model of base64.c is what the C text says; decoding in place", "statement": "Base64_encode and Base64_decode, translated mechanically from their C text and run by the interpreter of the C fragment, give exactly the outcome of the hand-written model, undefined behaviour included. The decoder may be given the same object as input and output: the result is that of decoding a copy. The encoder may not.", "quantifier": "every memory, all contents, lengths and limits", "why_tests_cant": "compares two semantics on unboundedly many inputs", "anchors": ["Src/base64.c:Base64_encode", "Src/base64.c:Base64_decode"]}
{"id": "C87", "title": "The model of the Caesar, Vernam and ChaCha20 code is what the C text says", "statement": "The six cipher functions and the static functions QuarterRound and Block, translated mechanically from their C text and run by the interpreter of the C fragment, give exactly the outcome of the hand-written model, undefined behaviour included. For ChaCha20 the plaintext and the result may be any two places of one object, overlapping or not, or lie in two objects.", "quantifier": "every memory, all contents, offsets, lengths, keys and counters", "why_tests_cant": "compares two semantics on unboundedly many inputs", "anchors": ["Src/crypto/caesar_cipher.c:CaesarCipher_encrypt", "Src/crypto/caesar_cipher.c:CaesarCipher_decrypt", "Src/crypto/vernam_cipher.c:VernamCipher_encrypt", "Src/crypto/vernam_cipher.c:VernamCipher_decrypt", "Src/crypto/chacha20.c:QuarterRound", "Src/crypto/chacha20.c:Block", "Src/crypto/chacha20.c:Chacha20_crypt"]}
{"id": "C88", "title": "The model of the sorts is what the C text says", "statement": "The four sorts and the static function Heapify, translated mechanically from their C text and run by the interpreter of the C fragment with a comparison function that reads both elements and may have a state, give the outcome of the hand-written model: the same buffer, static array and state of the comparator, and undefined behaviour in the same cases.", "quantifier": "every memory, comparator, buffer address, number and size of elements, negative ones included", "why_tests_cant": "compares two semantics on unboundedly many inputs", "anchors": ["Src/sort/bubble_sort.c:BubbleSort_sort", "Src/sort/insertion_sort.c:InsertionSort_sort", "Src/sort/selection_sort.c:SelectionSort_sort", "Src/sort/heap_sort.c:Heapify", "Src/sort/heap_sort.c:HeapSort_sort"]}
{"id": "C89", "title": "The model of json.c is what the C text says", "statement": "The four functions of json.c, translated mechanically from their C text and run by the interpreter of the C fragment, give the outcome of the hand-written model: the same result, buffers and undefined behaviour.", "quantifier": "every memory, buffer, claimed size, key and value in different objects; both signednesses of char", "why_tests_cant": "compares two semantics on unboundedly many inputs", "anchors": ["Src/json.c:Json_startString", "Src/json.c:Json_addData", "Src/json.c:Json_endString", "Src/json.c:Json_findByKey"]}
{"id": "C90", "title": "The model of queue.c is what the C text says", "statement": "The seven functions of queue.c, translated mechanically from their C text and run by the interpreter of the C fragment, give the outcome of the hand-written model: the same result, queue, element and undefined behaviour.", "quantifier": "every memory, queue (any member values), element and NULL pointer; the element outside the buffer", "why_tests_cant": "compares two semantics on unboundedly many inputs", "anchors": ["Src/queue.c:Queue_init", "Src/queue.c:Queue_enqueue", "Src/queue.c:Queue_dequeue", "Src/queue.c:Queue_front", "Src/queue.c:Queue_rear"]}
{"id": "C91", "title": "The model of priority_queue.c is what the C text says", "statement": "The seven functions of priority_queue.c, translated mechanically from their C text and run by the interpreter of the C fragment, give the outcome of the hand-written model: the same result, queue, element and undefined behaviour.", "quantifier": "every memory, priority queue (any member values), item, element and NULL pointer; the item and the element outside the arrays of the queue", "why_tests_cant": "compares two semantics on unboundedly many inputs", "anchors": ["Src/priority_queue.c:PriorityQueue_init", "Src/priority_queue.c:PriorityQueue_enqueue", "Src/priority_queue.c:PriorityQueue_dequeue", "Src/priority_queue.c:GetHighestPriorityIndex"]}
{"id": "C92", "title": "The model of map.c is what the C text says", "statement": "The four functions of map.c, translated mechanically from their C text and run by the interpreter of the C fragment, give the outcome of the hand-written model: the same result, map, value and undefined behaviour, signed overflow included.", "quantifier": "every memory, map (any member values, negative sizes included), key, value and NULL map", "why_tests_cant": "compares two semantics on unboundedly many inputs", "anchors": ["Src/map.c:Map_init", "Src/map.c:Map_insert", "Src/map.c:Map_getValue", "Src/map.c:GetIndex"]}
{"id": "C93", "title": "The model of scheduler.c is what the C text says", "statement": "The three functions of scheduler.c, translated mechanically from their C text and run by the interpreter of the C fragment, give the outcome of the hand-written model, for tasks with any effect on the memory, the array of tasks included.", "quantifier": "every memory, array of tasks (unwritten before Scheduler_init), count, new task and effect of the tasks", "why_tests_cant": "compares two semantics on unboundedly many inputs", "anchors": ["Src/scheduler.c:Scheduler_init", "Src/scheduler.c:Scheduler_addTask", "Src/scheduler.c:Scheduler_run"]}
{"id": "C94", "title": "The C text of queue.c is a bounded first-in first-out queue", "statement": "Queue_init and any sequence of calls of the other functions, run on the mechanically translated C text, give the results and outputs of a bounded list of elements, change only the structure and the buffer, and have no undefined behaviour. No hand-written model of the code is mentioned.", "quantifier": "every memory, capacity, element size and sequence of calls", "why_tests_cant": "unboundedly many calls and memories", "anchors": ["Src/queue.c:Queue_init", "Src/queue.c:Queue_enqueue", "Src/queue.c:Queue_dequeue", "Src/queue.c:Queue_front", "Src/queue.c:Queue_rear"]}
{"id": "C95", "title": "The C text of priority_queue.c is a bounded priority queue", "statement": "PriorityQueue_init and any sequence of calls, run on the mechanically translated C text, give the results and outputs of a bounded list with priorities, change only the structure and its two arrays, and have no undefined behaviour.", "quantifier": "every memory, capacity, element size, priorities and sequence of calls", "why_tests_cant": "unboundedly many calls and memories", "anchors": ["Src/priority_queue.c:PriorityQueue_init", "Src/priority_queue.c:PriorityQueue_enqueue", "Src/priority_queue.c:PriorityQueue_dequeue", "Src/priority_queue.c:PriorityQueue_empty"]}
{"id": "C96", "title": "The C text of map.c is a bounded map", "statement": "Map_init and any sequence of insertions and look-ups, run on the mechanically translated C text, give the results and outputs of a finite map of bounded size, change only the structure and its two arrays, and have no undefined behaviour.", "quantifier": "every memory, sizes and sequence of calls", "why_tests_cant": "unboundedly many calls and memories", "anchors": ["Src/map.c:Map_init", "Src/map.c:Map_insert", "Src/map.c:Map_getValue"]}
{"id": "C97", "title": "The C text of scheduler.c runs the added tasks in order", "statement": "After Scheduler_init on an unwritten table, the first n tasks are accepted and the rest refused; each pass of Scheduler_run calls the active ones in order. If tasks change the table, a pass serves each slot as the earlier slots left it. All on the mechanically translated C text.", "quantifier": "every table, tasks, effects of tasks and number of passes", "why_tests_cant": "unboundedly many tables, effects and passes", "anchors": ["Src/scheduler.c:Scheduler_init", "Src/scheduler.c:Scheduler_addTask", "Src/scheduler.c:Scheduler_run"]}
{"id": "C98", "title": "The C text of the sorts sorts", "statement": "Each of the four sorts, run on the mechanically translated C text with a comparator that may have a state, permutes the elements, orders them if the comparator is a strict weak order, is stable for bubble and insertion sort, and changes no other byte; insertion and heap sort read outside the array in the described cases.", "quantifier": "every comparator, memory, number and size of elements", "why_tests_cant": "unboundedly many inputs and comparators", "anchors": ["Src/sort/bubble_sort.c:BubbleSort_sort", "Src/sort/insertion_sort.c:InsertionSort_sort", "Src/sort/selection_sort.c:SelectionSort_sort", "Src/sort/heap_sort.c:HeapSort_sort"]}
{"id": "C99", "title": "The C text of base64.c encodes and decodes", "statement": "The mechanically translated C text of Base64_encode writes the base64 text, or writes nothing from max_len+1 on; Base64_decode of any bytes writes nothing from max_len on; and decoding what was encoded gives the data back, also in place.", "quantifier": "every memory, data, text, lengths and limits", "why_tests_cant": "unboundedly many inputs", "anchors": ["Src/base64.c:Base64_encode", "Src/base64.c:Base64_decode"]}
{"id": "C100", "title": "The C text of the ciphers encrypts and decrypts", "statement": "On the mechanically translated C text: Caesar encryption moves each letter by the key, and decryption restores the message exactly if no letter wraps; encryption with the complementary key always restores it; Vernam encryption then decryption restores the message, and a key whose length is not the message's is refused; ChaCha20 encryption is the stream cipher of RFC 8439 and its own inverse.", "quantifier": "every memory, message, key, nonce and counter in the stated ranges", "why_tests_cant": "unboundedly many messages and keys", "anchors": ["Src/crypto/caesar_cipher.c:CaesarCipher_encrypt", "Src/crypto/caesar_cipher.c:CaesarCipher_decrypt", "Src/crypto/vernam_cipher.c:VernamCipher_encrypt", "Src/crypto/vernam_cipher.c:VernamCipher_decrypt", "Src/crypto/chacha20.c:Chacha20_crypt"]}
{"id": "C101", "title": "The C text of every CRC function computes its published CRC", "statement": "Each of the 45 CRC functions, run on the mechanically translated C text, returns the CRC with its published parameters, in one call or over any division of the message into pieces, each piece in any object; the table calculators of the three widths write the table of the given polynomial.", "quantifier": "every message, division into pieces, memory and the 45 parameter sets", "why_tests_cant": "unboundedly many messages and divisions", "anchors": ["Src/crc/crc8_base.c", "Src/crc/crc16_base.c", "Src/crc/crc32_base.c"]}
{"id": "C102", "title": "The C text of json.c builds and finds", "statement": "On the mechanically translated C text: start, one addData for each pair and end write the stated text; any sequence of calls has the stated answers and text; the search has no undefined behaviour on any bytes, succeeds exactly when the key has a value that fits, and finds the value of a built pair unless the key occurs earlier (with a counterexample then).", "quantifier": "every memory, buffer, keys, values and sequence of calls", "why_tests_cant": "unboundedly many texts and keys", "anchors": ["Src/json.c:Json_startString", "Src/json.c:Json_addData", "Src/json.c:Json_endString", "Src/json.c:Json_findByKey"]}
{"id": "C103", "title": "The C text of utils.c and bit_manipulation.c does what its names say", "statement": "On the mechanically translated C text: each serializer writes the bytes of the value in its order and its partner reads them back; blobs are copied in order or reversed; elements are swapped; a decimal number of up to ten characters is accepted exactly if it consists of digits and fits 32 bits; the bit functions are given bit by bit; a rotation by 0 or more than 31 is undefined.", "quantifier": "every memory, value, position and length in the stated ranges", "why_tests_cant": "unboundedly many inputs", "anchors": ["Src/utils.c", "Src/bit_manipulation.c"]}
{"id": "C104", "title": "The terms that the text theorems are about are the text of /repo/Src", "statement": "A C front end defined inside Coq (splices, tokens, directives, macros, grammar, names) reads the characters of all 63 files of Src and of the headers they include and returns, file by file, exactly the 120 function definitions that C84-C103 are about. No two exported functions share a name, and a call by name in the text is a call of that definition.", "quantifier": "every file and function of Src, every memory and arguments of a call", "why_tests_cant": "a transcription error would make every other theorem be about another program", "anchors": ["Src/utils.c", "Src/base64.c", "Src/queue.c", "Src/json.c", "Src/sort/heap_sort.c", "Src/crypto/chacha20.c", "Src/crc/crc32_base.c", "Inc/typedefs.h"]}
{"id": "C105", "title": "The result does not depend on the order of evaluation", "statement": "C leaves open in which order operands, arguments and the sides of an assignment are evaluated. For every function of Src and every way of choosing, at each operator, call and assignment in each state, which operand is evaluated first, a call has the same value, memory and comparator state as from left to right, and is undefined or diverges in one order only if it has no result in any.", "quantifier": "every function of Src, every choice of order, every arguments, memory and function pointers", "why_tests_cant": "a compiler shows one order; the orders are exponentially many", "anchors": ["Src/utils.c", "Src/base64.c", "Src/queue.c", "Src/json.c", "Src/sort/heap_sort.c", "Src/crypto/chacha20.c", "Src/scheduler.c"]}
{"id": "C106", "title": "Every call has one result however long it is allowed to run", "statement": "The interpreter of the C text bounds every loop by a fuel. A call that ends with some fuel (with a value or with undefined behaviour) ends in the same way with any larger fuel, and two fuels with which it ends give the same outcome; this holds of every function.", "quantifier": "every function of the C fragment, every arguments, memory and function pointers, every two fuels", "why_tests_cant": "infinitely many bounds", "anchors": ["Src/utils.c", "Src/json.c", "Src/sort/heap_sort.c", "Src/scheduler.c"]}
{"id": "C107", "title": "No call leaves an object behind or resizes one", "statement": "After a call of any function of Src the memory has the same objects with the same sizes as before: every local array and every local variable whose address was taken is gone, provided the called function pointers leave the objects alone.", "quantifier": "every function of Src, every arguments and memory", "why_tests_cant": "covers every path through every function", "anchors": ["Src/base64.c", "Src/crypto/chacha20.c", "Src/sort/insertion_sort.c", "Src/utils.c"]}
{"id": "C108", "title": "A call gets only at the memory its arguments reach", "statement": "Let R be a set of objects that contains everything the arguments point to and everything the objects in R point to. Two memories that agree on R give the same outcome (value, undefined behaviour or divergence) whatever else they hold, nothing outside R changes, and no pointer to the outside is returned or stored. So the library has no hidden state and calls on separate data are independent.", "quantifier": "every function of the C fragment, every set R, arguments and memories", "why_tests_cant": "quantifies over all contents of the rest of the memory", "anchors": ["Src/queue.c", "Src/priority_queue.c", "Src/map.c", "Src/scheduler.c", "Src/utils.c", "Src/json.c"]}
{"id": "C109", "title": "Expressions are read by the grammar of C", "statement": "The front end reads a list of tokens as an expression exactly if the grammar of C expressions (precedence and associativity by its productions: primary, postfix, unary, cast, ten levels of binary operators, conditional) derives the same tree from the tokens up to one that cannot go on the expression. The grammar derives at most one tree from a text. The same for type names.", "quantifier": "every list of tokens, every set of type names, every tree", "why_tests_cant": "quantifies over all token lists and all expressions", "anchors": ["Src/base64.c", "Src/crypto/chacha20.c", "Src/utils.c"]}
{"id": "C110", "title": "Statements and files are read by the grammar of C", "statement": "The front end reads the tokens of a file exactly if the grammar of statements, declarations, structures, typedefs and functions derives the same tree, and there is at most one tree; an else belongs to the nearest if. Every file of Src is derived by the grammar, with the functions that the translation has.", "quantifier": "every list of tokens, every tree; every file of Src", "why_tests_cant": "quantifies over all token lists and all programs of the fragment", "anchors": ["Src/utils.c", "Src/queue.c", "Src/priority_queue.c", "Src/map.c", "Src/scheduler.c", "Src/json.c"]}
{"id": "C111", "title": "Where the objects lie does not matter", "statement": "Take a call that is defined when each array, structure and string is an object of its own. If the objects are parts of larger ones instead (members of one structure, pieces of one buffer, in any order) and do not overlap, then the call is defined, has the same result and leaves the same contents in the parts, and every cell outside the parts keeps its value. In particular Base64 encoding and ChaCha20 give the result of their specification when data, key, nonce and result lie in one array.", "quantifier": "every function of Src, every layout without overlaps, every arguments and memory; every byte array for the two corollaries", "why_tests_cant": "quantifies over all ways to lay out the data in memory", "anchors": ["Src/queue.c", "Src/base64.c", "Src/crypto/chacha20.c", "Src/sort/selection_sort.c", "Src/utils.c", "Src/json.c"]}
{"id": "C112", "title": "Characters are read as the tokens of C", "statement": "The front end reads the characters of a file as a list of tokens exactly if the lexical grammar of C (C99 6.4) does: lines joined by a backslash, comments, white space, identifiers, preprocessing numbers, character constants, strings and punctuators, where the next token is always the longest possible one, and the values and types of constants. A text has at most one list of tokens. Texts with floating or octal constants, suffixes other than u, wide characters or numeric escape sequences other than \\0 are refused.", "quantifier": "every text, every list of tokens", "why_tests_cant": "quantifies over all texts", "anchors": ["Src/base64.c", "Src/json.c", "Src/utils.c"]}
{"id": "C113", "title": "Directives and macros are carried out as the standard says", "statement": "If the front end makes a list of tokens of a file with its headers, then the rules of C99 6.10 give the same list, and no other: lines, nested #ifdef, #ifndef and #endif, lines that are left out, #include, #define, and replacement of macros, where a macro is not replaced inside its own replacement. The front end refuses files with other conditionals, even in lines that are left out. For every file of Src the rules of the standard lead from its characters to exactly one list of functions, those of the translation.", "quantifier": "every set of files, every file of it, every macros; every file of Src", "why_tests_cant": "quantifies over all programs made of any number of files", "anchors": ["Src/utils.c", "Src/queue.c", "Src/json.c", "Src/crypto/chacha20.c", "Inc/utils.h"]}
{"id": "C114", "title": "The library works the same where size_t has 32 bits", "statement": "When the C text is read for a target with a 32-bit size_t, 106 of the 120 functions have the same terms as for 64 bits, and behave the same without any bound. The other 14 (the two ciphers, JSON, Base64, insertion sort and map) give the same results as on 64 bits, in every case including undefined behaviour, if strings and objects are shorter than 2^32 (than 2^32 - 1 in Json_endString; sum of the three lengths below 2^32 - 16 in Json_addData; sizes of elements, keys and values not negative). Base64_encode of a longer text refuses. Without their bounds Json_addData and Json_endString are wrong: the computed length wraps around and they write past the end of the string, where the 64-bit ones refuse. In Json_endString this happens already at the first length the bound leaves out.", "quantifier": "every function, every memory, every argument within the bounds", "why_tests_cant": "the tests run on a 64-bit machine", "anchors": ["Src/base64.c", "Src/json.c", "Src/map.c", "Src/sort/insertion_sort.c", "Src/crypto/caesar_cipher.c", "Src/crypto/vernam_cipher.c"]}
{"id": "C115", "title": "ChaCha20 and the byte and bit functions do not give their data away", "statement": "Let an observer see every branch, the address of every access to memory, the operands of multiplications, divisions and remainders and the amounts of shifts. Then two runs of Chacha20_crypt with any two keys, nonces, counters and messages of the same length at the same positions cannot be told apart. The same holds for Block, QuarterRound, Utils_swapElements, the functions that serialize and deserialize (contents and numbers), rotl32 and the functions that test, set, clear and toggle a bit (the number, not the position). It is false of the Caesar cipher (message and key), the Vernam cipher (key), Base64 (encoder and decoder), the checksums, BitManipulation_reflect, Utils_isUpperChar and the amount of rotl32: for each there are two runs on the same positions and lengths that can be told apart.", "quantifier": "every two memories that differ only in the numbers they hold, every key, nonce, counter, message and length", "why_tests_cant": "compares all pairs of runs, and what is compared is not part of any result", "anchors": ["Src/crypto/chacha20.c", "Src/utils.c", "Src/bit_manipulation.c", "Src/base64.c", "Src/crypto/caesar_cipher.c", "Src/crypto/vernam_cipher.c"]}
