{"id": "C01", "title": "Base64 encode/decode round trip", "statement": "Decoding the output of base64_encode_buffer with the same pos62/pos63 characters and the same or larger buffer returns exactly the original bytes and their count, in both whitespace modes; likewise base64_decode_simple(base64_encode_simple(x)) = x.", "quantifier": "every byte string, every admissible pair of pos62/pos63 characters (distinct, not '=', NUL, letters or digits), both ignore_wsp settings", "why_tests_cant": "The input space is all byte strings; the remainder and padding cases interact with the bit accumulator, so samples cover only a few lengths.", "anchors": ["src/base64.c:base64_encode_buffer", "src/base64.c:base64_decode_buffer", "src/base64.c:base64_encode_simple", "src/base64.c:base64_decode_simple"]}
{"id": "C02", "title": "Base64 encoder output and truncation", "statement": "base64_encode_buffer returns the length of the RFC 4648 encoding of the source and leaves in dest the first min(length, dest_size-1) characters of that encoding followed by a NUL whenever dest_size > 0, and changes no other byte of dest (and none at all if dest_size = 0).", "quantifier": "every source, every dest_size, every pos62/pos63", "why_tests_cant": "Every combination of source length and destination size is a separate case of the body/put4/terminator logic.", "anchors": ["src/base64.c:base64_encode_buffer", "src/base64.c:put4", "src/base64.c:base64_char"]}
{"id": "C03", "title": "Base64 size computation", "statement": "base64_encoding_size(n) is 4*ceil(n/3) when that number fits in size_t and SIZE_MAX (-1) otherwise; it never returns a wrapped smaller number.", "quantifier": "every size_t value", "why_tests_cant": "2^64 values; the wrap-around cases sit at the far end of the range.", "anchors": ["src/base64.c:base64_encoding_size"]}
{"id": "C04", "title": "Base64 decoder accepts exactly Base64", "statement": "base64_decode_buffer succeeds exactly on strings that consist of Base64 alphabet characters (interleaved with ' \\t\\n\\f\\r' only when ignore_wsp is set), with zero unused bits and the right '=' padding, and fails with -1/EILSEQ on every other string; in particular no byte outside the alphabet decodes to data.", "quantifier": "every source string, both whitespace modes, every choice of pos62/pos63 other than NUL, '=' and whitespace", "why_tests_cant": "Rejection is a claim about all ill-formed inputs, including each of the 256 byte values in every position.", "anchors": ["src/base64.c:base64_decode_buffer", "src/base64.c:base64_bitfield_decoding", "src/base64.c:get_bits", "src/base64.c:good_base64_tail", "src/base64.c:good_termination", "include/base64.h"]}
{"id": "C05", "title": "Base64 decoder with a short buffer", "statement": "The value returned by base64_decode_buffer does not depend on dest_size; on success the first min(result, dest_size) bytes of dest are the corresponding bytes of the full decoding, no other byte of dest is changed, and no source byte beyond source_size or beyond the first NUL is read.", "quantifier": "every source, source_size, dest_size, and all characters as pos62/pos63", "why_tests_cant": "Memory bounds and size-independence must hold for all sizes and positions of terminators.", "anchors": ["src/base64.c:base64_decode_buffer"]}
{"id": "C06", "title": "binary64_to_integer is exact", "statement": "binary64_to_integer(v,&n) returns true iff the IEEE-754 binary64 number with bit pattern v is finite, integral and representable as long long, and then n is that number.", "quantifier": "all 2^64 bit patterns", "why_tests_cant": "2^64 inputs; correctness depends on every exponent/significand combination.", "anchors": ["src/float.c:binary64_to_integer", "include/float.h"]}
{"id": "C07", "title": "binary64_to_unsigned is exact", "statement": "binary64_to_unsigned(v,&n) returns true iff the binary64 number with bit pattern v is finite, integral and representable as unsigned long long, and then n is that number.", "quantifier": "all 2^64 bit patterns", "why_tests_cant": "2^64 inputs.", "anchors": ["src/float.c:binary64_to_unsigned", "include/float.h"]}
{"id": "C08", "title": "epoch_to_utc follows the Gregorian calendar", "statement": "For every non-negative epoch (within the range where the day count fits an int), epoch_to_utc yields the date, weekday and time of day obtained by counting seconds forward from Thursday 1970-01-01 00:00:00 in the proleptic Gregorian calendar.", "quantifier": "every epoch >= 0 in range", "why_tests_cant": "Hundreds of billions of inputs over several 400-year cycles; leap-year boundaries are sparse.", "anchors": ["src/date.c:epoch_to_utc", "src/date.c:YDAY_INFO"]}
{"id": "C09", "title": "epoch_to_utc before 1970", "statement": "For negative epochs epoch_to_utc yields the same broken-down UTC date and time as gmtime_r would (fields in their normal ranges, moment equal to the epoch).", "quantifier": "every negative epoch in range", "why_tests_cant": "Sign handling of C division is a claim about a whole half of the input range.", "anchors": ["src/date.c:epoch_to_utc", "include/date.h"]}
{"id": "C10", "title": "Unboxed integers round-trip and compare correctly", "statement": "as_intptr(as_integer(v)) = v and as_uintptr(as_unsigned(v)) = v; integer_cmp and unsigned_cmp return -1, 0, 1 according to the signed (resp. unsigned) order of the values, hence are total orders usable as AVL comparators.", "quantifier": "all pairs of 64-bit values", "why_tests_cant": "2^128 pairs, with mixed signed/unsigned conversions.", "anchors": ["include/integer.h", "src/integer.c:integer_cmp", "src/integer.c:unsigned_cmp"]}
{"id": "C11", "title": "intset behaves as a finite set", "statement": "After any sequence of intset_add, intset_remove and intset_fill on a fresh intset of size n, intset_has(e) is true iff e < n and the most recent operation affecting e was an add or fill; operations on elements >= n have no effect.", "quantifier": "every size up to 2^38-64, every operation sequence, every element", "why_tests_cant": "Histories are unbounded and bit positions/word boundaries interact.", "anchors": ["src/intset.c:make_intset", "src/intset.c:intset_add", "src/intset.c:intset_remove", "src/intset.c:intset_fill", "src/intset.c:intset_has"]}
{"id": "C12", "title": "intset search", "statement": "intset_find_next_hit/miss(e) return the smallest element >= e that is (not) in the set and is smaller than the size, or -1 if there is none; intset_empty is true iff no element is in the set.", "quantifier": "every reachable intset with size <= INT_MAX+1, every start element", "why_tests_cant": "Word-skipping and the unused tail bits matter for every size and content.", "anchors": ["src/intset.c:intset_find_next", "src/intset.c:intset_find_next_hit", "src/intset.c:intset_find_next_miss", "include/intset.h:intset_empty"]}
{"id": "C13", "title": "intset memory safety", "statement": "No intset operation accesses memory outside the words allocated by make_intset, whatever the element argument.", "quantifier": "every size for which the allocation size does not wrap, every operation and element", "why_tests_cant": "Absence of out-of-bounds accesses is universal over sizes and elements.", "anchors": ["src/intset.c", "src/fsalloc.c:fscalloc"]}
{"id": "C14", "title": "Byte array content", "statement": "A byte array created with max_size m >= 1 behaves as a byte sequence of length < m: append, copy at a position, resize and clear change it as the corresponding list operation does, and byte_array_data/size expose it.", "quantifier": "every max_size, every operation sequence with arbitrary data", "why_tests_cant": "Histories and growth points are unbounded.", "anchors": ["src/bytearray.c:byte_array_append", "src/bytearray.c:byte_array_copy", "src/bytearray.c:byte_array_resize", "src/bytearray.c:byte_array_clear", "src/bytearray.c:ensure_space"]}
{"id": "C15", "title": "Byte array NUL termination and bounds", "statement": "At all times the byte following the content of a byte array is NUL, the content plus NUL fits in max_size, and no operation writes outside the allocated block.", "quantifier": "every operation sequence, including every behaviour of the stream read callback", "why_tests_cant": "Must hold after every history and for every callback.", "anchors": ["src/bytearray.c"]}
{"id": "C16", "title": "Byte array failures are atomic", "statement": "An operation on a byte array fails exactly when the result (plus NUL) would not fit in max_size (or the copy position is past the end) and a failed operation leaves the content unchanged.", "quantifier": "every state and every argument", "why_tests_cant": "Universal over states/arguments incl. size_t wrap-around.", "anchors": ["src/bytearray.c:ensure_space", "src/bytearray.c:byte_array_copy", "src/bytearray.c:byte_array_append", "src/bytearray.c:byte_array_resize"]}
{"id": "C17", "title": "Byte array stream append", "statement": "byte_array_append_stream asks the callback for at most the requested number of bytes and at most the free room, returns the callback's result, and on a positive result appends exactly the bytes delivered; with no free room it fails with ENOSPC without calling the callback.", "quantifier": "every state, length, callback behaviour", "why_tests_cant": "Callback behaviour is an arbitrary function.", "anchors": ["src/bytearray.c:byte_array_append_stream"]}
{"id": "C18", "title": "Byte array sharing", "statement": "After k calls of share_byte_array the storage is released by exactly the (k+1)-th destroy_byte_array and by no earlier one.", "quantifier": "every k below the counter limit, any interleaving of share/destroy", "why_tests_cant": "Unbounded histories.", "anchors": ["src/bytearray.c:share_byte_array", "src/bytearray.c:destroy_byte_array"]}
{"id": "C19", "title": "Lists behave as sequences", "statement": "Under any sequence of append, prepend, insert_before, remove, pop_first, pop_last the forward traversal of a list_t yields exactly the value sequence of the corresponding mathematical operations; sizes, emptiness, first/last, get and get_by_index (for nonnegative indices, or lists of at most INT_MAX elements) agree with it.", "quantifier": "every operation sequence on every list", "why_tests_cant": "Unbounded histories over pointer structures.", "anchors": ["src/list.c"]}
{"id": "C20", "title": "List elements are stable and navigable both ways", "statement": "list_next and list_previous step through the sequence in both directions (NULL at the ends), and adding or removing other elements never changes the value of, or invalidates, a list_elem_t still in the list.", "quantifier": "every list, every element, every operation", "why_tests_cant": "Aliasing/pointer claims over all heap shapes.", "anchors": ["src/list.c:list_next", "src/list.c:list_previous", "src/list.c:list_remove", "src/list.c:list_insert_before"]}
{"id": "C21", "title": "Lists do not leak or touch foreign memory", "statement": "List operations never access freed or foreign memory; each allocates/frees exactly the cells of the elements it adds/removes, and destroy_list returns the heap to what it was without the list.", "quantifier": "every operation sequence and every allocator behaviour", "why_tests_cant": "Leak/use-after-free freedom is universal over histories.", "anchors": ["src/list.c", "src/fsalloc.c"]}
{"id": "C22", "title": "list_copy and list_foreach", "statement": "list_foreach calls the function on the values in order; list_copy yields a new list with the same value sequence whose later modification does not affect the original and vice versa.", "quantifier": "every list", "why_tests_cant": "Independence is a claim about all later operations.", "anchors": ["src/list.c:list_foreach", "src/list.c:list_copy"]}
{"id": "C23", "title": "Hash tables behave as finite maps", "statement": "Under any sequence of put, pop, detach, remove and pop_any, hash_table_get(k) returns an element holding the value most recently put at a key equal to k (by cmp) and not since removed, and NULL iff there is none; put returns the replaced element or NULL; size and emptiness agree with the map.", "quantifier": "every operation sequence, every capacity, every hash function consistent with cmp, every equivalence cmp", "why_tests_cant": "All histories, all collision patterns.", "anchors": ["src/hashtable.c"]}
{"id": "C24", "title": "Hash table traversal is complete and duplicate-free", "statement": "hash_table_get_any followed by repeated hash_table_get_other visits every element of the table exactly once and then returns NULL.", "quantifier": "every reachable table", "why_tests_cant": "All bucket occupancy patterns.", "anchors": ["src/hashtable.c:hash_table_get_any", "src/hashtable.c:hash_table_get_other", "src/hashtable.c:get_next"]}
{"id": "C25", "title": "Hash table put of an identical association", "statement": "If the value already stored at the key is the very value being put, hash_table_put has no effect and returns NULL.", "quantifier": "every reachable table, key and value", "why_tests_cant": "All table states.", "anchors": ["src/hashtable.c:hash_table_put", "include/hashtable.h"]}
{"id": "C26", "title": "Hash table capacity choice", "statement": "make_hash_table picks the smallest entry of its size list that is at least the requested capacity, or the largest entry when none is, so a bucket index is always in range.", "quantifier": "every requested capacity", "why_tests_cant": "2^64 requested capacities.", "anchors": ["src/hashtable.c:make_hash_table", "src/hashtable.c:GOOD_SIZES"]}
{"id": "C27", "title": "Hash tables do not leak or touch foreign memory", "statement": "Hash table operations never access freed or foreign memory, and destroy_hash_table frees every cell owned by the table.", "quantifier": "every operation sequence and allocator", "why_tests_cant": "Universal over histories.", "anchors": ["src/hashtable.c"]}
{"id": "C28", "title": "AVL trees behave as ordered maps", "statement": "Under any sequence of put, pop, detach, remove, pop_first, pop_last with a comparator that is a total preorder, avl_tree_get(k) returns an element with the value most recently put at a key equal to k and not since removed, NULL iff none; put returns the replaced element or NULL; size/empty agree.", "quantifier": "every operation sequence, every comparator that is a total preorder", "why_tests_cant": "All histories, all rotation cases.", "anchors": ["src/avltree.c"]}
{"id": "C29", "title": "AVL neighbour queries", "statement": "get_before/get_on_or_before return the greatest element with key < / <= k and get_after/get_on_or_after the least element with key > / >= k, NULL iff there is none; get_first/get_last return the least/greatest element.", "quantifier": "every reachable tree and key", "why_tests_cant": "All tree shapes and keys.", "anchors": ["src/avltree.c:avl_tree_get_before", "src/avltree.c:avl_tree_get_on_or_before", "src/avltree.c:avl_tree_get_after", "src/avltree.c:avl_tree_get_on_or_after", "src/avltree.c:avl_tree_get_first", "src/avltree.c:avl_tree_get_last"]}
{"id": "C30", "title": "AVL iteration", "statement": "Starting from avl_tree_get_first, repeated avl_tree_next visits all elements in strictly increasing key order and then returns NULL; avl_tree_previous is the mirror image and inverse.", "quantifier": "every reachable tree", "why_tests_cant": "All tree shapes; uses parent pointers maintained by rotations.", "anchors": ["src/avltree.c:avl_tree_next", "src/avltree.c:avl_tree_previous"]}
{"id": "C31", "title": "AVL trees stay balanced", "statement": "In every reachable tree a lookup among n elements makes at most 1.45*log2(n+2) comparisons, because the heights of the two subtrees of every element differ by at most one.", "quantifier": "every operation sequence", "why_tests_cant": "Worst-case bound over all histories.", "anchors": ["src/avltree.c:rotate_left", "src/avltree.c:rotate_right", "src/avltree.c:lighten_left", "src/avltree.c:lighten_right"]}
{"id": "C32", "title": "AVL put of an identical association", "statement": "If value itself is already stored in the tree at key, avl_tree_put has no effect and returns NULL (as documented).", "quantifier": "every reachable tree, key and value", "why_tests_cant": "All tree states.", "anchors": ["src/avltree.c:avl_tree_put", "include/avltree.h"]}
{"id": "C33", "title": "AVL element identity", "statement": "Elements not involved in an operation stay valid with unchanged key and value, and are still found at the same address, after any put/detach/pop of other elements (including those that exchange or rotate nodes).", "quantifier": "every operation on every reachable tree", "why_tests_cant": "Aliasing claim over all heap shapes.", "anchors": ["src/avltree.c:exchange", "src/avltree.c:avl_tree_detach", "src/avltree.c:put"]}
{"id": "C34", "title": "AVL copy", "statement": "avl_tree_copy yields a tree with the same association sequence and balance, sharing no element with the original; changing one does not affect the other.", "quantifier": "every reachable tree", "why_tests_cant": "Independence is a claim over all later operations.", "anchors": ["src/avltree.c:avl_tree_copy", "src/avltree.c:copy_tree"]}
{"id": "C35", "title": "AVL trees do not leak or touch foreign memory", "statement": "AVL operations never dereference NULL, freed or foreign memory; put allocates one element, detach frees none, remove frees one, destroy_avl_tree frees exactly the tree and its elements.", "quantifier": "every operation sequence and allocator", "why_tests_cant": "Universal over histories.", "anchors": ["src/avltree.c"]}
{"id": "C36", "title": "Priority queue returns the minimum", "statement": "priorq_dequeue and priorq_peek return an element that compares <= every queued element; dequeue removes exactly one occurrence of it; NULL iff empty.", "quantifier": "every operation sequence, every comparator that is a total preorder", "why_tests_cant": "All histories including duplicates and ties.", "anchors": ["src/priority_queue.c:priorq_dequeue", "src/priority_queue.c:priorq_peek", "src/priority_queue.c:lower", "src/priority_queue.c:raise"]}
{"id": "C37", "title": "Priority queue content", "statement": "The queued multiset changes exactly by the enqueued/removed element in every operation (enqueue, dequeue, pop, remove); priorq_size and priorq_empty agree with it; draining by dequeue yields the elements in non-decreasing order.", "quantifier": "every operation sequence", "why_tests_cant": "All histories.", "anchors": ["src/priority_queue.c"]}
{"id": "C38", "title": "Priority queue locators", "statement": "If queued elements are pairwise distinct, then at any time the location most recently reported through reloc for a queued element is the location at which priorq_remove finds it; removal by that locator returns that element and keeps the queue correct.", "quantifier": "every operation sequence of enqueue, dequeue, pop, remove", "why_tests_cant": "Locators are invalidated and re-reported by every sift step of every history.", "anchors": ["src/priority_queue.c:assign", "src/priority_queue.c:priorq_remove"]}
{"id": "C39", "title": "Priority queue memory bounds", "statement": "No operation accesses the storage outside its allocated max_capacity slots, and the storage doubles so that it is never smaller than the number of elements.", "quantifier": "every operation sequence", "why_tests_cant": "Universal over histories.", "anchors": ["src/priority_queue.c:priorq_enqueue"]}
{"id": "C40", "title": "Case-insensitive comparison", "statement": "charstr_case_cmp(a,b) is -1/0/1 according to the lexicographic order of the byte strings with ASCII upper case mapped to lower case (a total preorder); charstr_ncase_cmp does the same on the first n characters; neither reads past a terminator.", "quantifier": "every pair of NUL-terminated strings, every n", "why_tests_cant": "All pairs of strings.", "anchors": ["src/charstr.c:charstr_case_cmp", "src/charstr.c:charstr_ncase_cmp"]}
{"id": "C41", "title": "ASCII case mapping", "statement": "charstr_lcase_char/ucase_char map exactly the ASCII letters and leave every other byte unchanged; charstr_lcase_str, ucase_str and the substr variants apply them to every character of the (sub)string in place and to nothing else.", "quantifier": "every string and substring bounds", "why_tests_cant": "All strings.", "anchors": ["src/charstr.c:charstr_lcase_char", "src/charstr.c:charstr_ucase_char", "src/charstr.c:charstr_lcase_str", "src/charstr.c:charstr_lcase_substr", "src/charstr.c:charstr_ucase_str", "src/charstr.c:charstr_ucase_substr"]}
{"id": "C42", "title": "Character classes", "statement": "charstr_char_class(c) has exactly the documented class bits: control, digit, lower, upper, HT, LF, FF, CR, space, octal, hex, underscore and print for the documented characters, and no bits for non-ASCII bytes.", "quantifier": "all 256 characters times 13 classes", "why_tests_cant": "A finite but complete cross product that unit tests sample; clients (strip, split_atoms) inherit it for all strings.", "anchors": ["src/charstr.c:char_class", "include/charstr.h:CHARSTR_CONTROL"]}
{"id": "C43", "title": "Prefix and suffix tests", "statement": "charstr_skip_prefix returns the position after prefix iff s starts with prefix, else NULL; the case variant does so up to ASCII case; charstr_ends_with is true iff s ends with suffix.", "quantifier": "all pairs of NUL-terminated strings", "why_tests_cant": "All pairs of strings.", "anchors": ["src/charstr.c:charstr_skip_prefix", "src/charstr.c:charstr_case_skip_prefix", "src/charstr.c:charstr_ends_with"]}
{"id": "C44", "title": "Splitting by a character", "statement": "Joining the strings returned by charstr_split with the delimiter gives the argument back; there are min(max_split, occurrences)+1 of them and only the last may contain the delimiter; charstr_split_into_array delivers the same strings and returns their number minus one.", "quantifier": "every string, non-NUL delimiter, every max_split", "why_tests_cant": "All strings and limits.", "anchors": ["src/charstr.c:charstr_split", "src/charstr.c:charstr_split_into_array"]}
{"id": "C45", "title": "Splitting by a string", "statement": "charstr_split_str with a nonempty delimiter splits at the leftmost non-overlapping occurrences, at most max_split of them; joining with the delimiter gives the argument back.", "quantifier": "every string, nonempty delimiter and max_split", "why_tests_cant": "All strings.", "anchors": ["src/charstr.c:charstr_split_str"]}
{"id": "C46", "title": "Splitting into atoms and stripping", "statement": "charstr_split_atoms returns the maximal runs of non-whitespace in order; charstr_strip returns the argument without leading and trailing whitespace, where whitespace is ' \\t\\n\\f\\r' as documented.", "quantifier": "every string", "why_tests_cant": "All strings.", "anchors": ["src/charstr.c:charstr_split_atoms", "src/charstr.c:charstr_strip"]}
{"id": "C47", "title": "UTF-8 encode/decode round trip", "statement": "For every Unicode scalar value, charstr_encode_utf8_codepoint writes its RFC 3629 encoding, and charstr_decode_utf8_codepoint applied to that encoding returns the codepoint and the position right after it.", "quantifier": "all 1,112,064 scalar values, any following bytes, any buffer end", "why_tests_cant": "Every code point and buffer bound.", "anchors": ["src/charstr.c:charstr_encode_utf8_codepoint", "src/charstr.c:charstr_decode_utf8_codepoint"]}
{"id": "C48", "title": "UTF-8 decoder rejects illegal encodings", "statement": "charstr_decode_utf8_codepoint returns NULL for every byte sequence that is not the (shortest-form) UTF-8 encoding of a Unicode scalar value, including surrogates, values above U+10FFFF, overlong forms, stray continuation bytes and truncated sequences.", "quantifier": "every byte sequence", "why_tests_cant": "Rejection is universal over byte sequences.", "anchors": ["src/charstr.c:charstr_decode_utf8_codepoint", "src/charstr.c:valid_unicode", "include/charstr.h"]}
{"id": "C49", "title": "UTF-8 validation of strings", "statement": "charstr_valid_utf8(_bounded) is true iff the string is a concatenation of encodings accepted by the decoder, and it reads no byte beyond the terminator or end.", "quantifier": "every string", "why_tests_cant": "All strings.", "anchors": ["src/charstr.c:charstr_valid_utf8", "src/charstr.c:charstr_valid_utf8_bounded"]}
{"id": "C50", "title": "UTF-8 sanitizing", "statement": "charstr_sanitize_utf8 returns a string that charstr_valid_utf8 accepts, equal to the argument if the argument was valid, in which exactly the undecodable bytes are replaced by EF BF BD; its computed allocation is exactly large enough.", "quantifier": "every string", "why_tests_cant": "All malformed strings; buffer size computed in a separate pass.", "anchors": ["src/charstr.c:charstr_sanitize_utf8"]}
{"id": "C51", "title": "UTF-8 encoder buffer bound", "statement": "charstr_encode_utf8_codepoint never writes at or beyond end, and returns NULL iff the whole encoding does not fit.", "quantifier": "every codepoint and every room 0..", "why_tests_cant": "All combinations.", "anchors": ["src/charstr.c:charstr_encode_utf8_codepoint"]}
{"id": "C52", "title": "URL encode/decode round trip", "statement": "charstr_url_decode(charstr_url_encode(s), true) = s for every string, and the encoding contains only printable ASCII without space.", "quantifier": "every NUL-terminated string", "why_tests_cant": "All strings.", "anchors": ["src/charstr.c:charstr_url_encode", "src/charstr.c:charstr_url_decode"]}
{"id": "C53", "title": "Custom URL encoders", "statement": "A custom encoder percent-encodes exactly the reserved characters not unreserved, leaves unreserved characters unmodified, treats the others as the default encoder; decoding (plus as space) inverts it whenever neither '%' nor '+' was unreserved; allocation is never too small.", "quantifier": "every reserve/unreserve string and every argument string", "why_tests_cant": "All encoders and strings.", "anchors": ["src/charstr.c:charstr_create_url_encoder", "src/charstr.c:charstr_url_custom_encode", "src/charstr.c:url_encoding_width"]}
{"id": "C54", "title": "URL decoding is exact", "statement": "charstr_url_decode fails with EILSEQ iff some '%' is not followed by two hexadecimal digits; otherwise the result is the byte string with each %XX replaced by the byte and '+' by space (if asked), and its length is reported; reads and writes stay in bounds.", "quantifier": "every string, both plus modes", "why_tests_cant": "All strings.", "anchors": ["src/charstr.c:charstr_url_decode"]}
{"id": "C55", "title": "URL byte encoding table", "statement": "charstr_url_encode_byte yields what its documentation says for each byte: '+', the byte itself for letters, digits and the listed punctuation, and %XX for all others.", "quantifier": "all 256 bytes", "why_tests_cant": "Complete table claim.", "anchors": ["src/charstr.c:url_encoder", "include/charstr.h:charstr_url_encode_byte"]}
{"id": "C56", "title": "Canonical decomposition", "statement": "On success charstr_unicode_decompose writes the UTF-8 encoding of the full canonical decomposition of the input, canonically ordered (NFD per UAX #15), NUL-terminated, within the buffer.", "quantifier": "every UTF-8 input and buffer size, with the repository's Unicode data", "why_tests_cant": "All strings of code points.", "anchors": ["src/charstr_decompose.c", "src/decomposition.py", "src/canonical_combining_classes.py"]}
{"id": "C57", "title": "Decomposition reports overflow", "statement": "charstr_unicode_decompose returns NULL/EOVERFLOW exactly when the NFD form plus NUL does not fit, NULL/EILSEQ exactly on badly encoded input.", "quantifier": "every input and buffer size", "why_tests_cant": "Every buffer size against every input.", "anchors": ["src/charstr_decompose.c:charstr_unicode_decompose", "src/charstr_decompose.c:decompose_fully"]}
{"id": "C58", "title": "Decomposition space bound", "statement": "Three times the input size plus one is always enough output space for charstr_unicode_decompose.", "quantifier": "every input", "why_tests_cant": "Expansion factor over all code points.", "anchors": ["src/charstr_decompose.c", "include/charstr.h"]}
{"id": "C59", "title": "Canonical recomposition", "statement": "charstr_unicode_recompose turns an NFD string into its NFC form (UAX #15 composition, including Hangul), fails only on bad UTF-8, lack of space, or more than 100 pending combining characters, and never needs more space than the input.", "quantifier": "every NFD input", "why_tests_cant": "All strings.", "anchors": ["src/charstr_recompose.c", "src/recomposition.py"]}
{"id": "C60", "title": "Normalization is stable", "statement": "Decomposing is idempotent, and recomposing then decomposing an NFD string gives it back (canonical equivalence is preserved).", "quantifier": "every string", "why_tests_cant": "All strings.", "anchors": ["src/charstr_decompose.c", "src/charstr_recompose.c"]}
{"id": "C61", "title": "Normal form quick checks are sound", "statement": "If charstr_unicode_canonically_decomposed (composed) returns true then the string is valid UTF-8 and in NFD (NFC).", "quantifier": "every string", "why_tests_cant": "All strings.", "anchors": ["src/charstr_unicode.c"]}
{"id": "C62", "title": "Punycode labels decode back", "statement": "The xn-- label produced by charstr_idna_encode for a label with non-ASCII characters is decoded by the RFC 3492 decoder to the (mapped, lower-cased) label.", "quantifier": "every label", "why_tests_cant": "All label contents; delta/bias arithmetic.", "anchors": ["src/charstr_puny.c:punycode_encode", "src/charstr_puny.c:punycode_encode_pass2", "src/charstr_puny.c:adapt"]}
{"id": "C63", "title": "IDNA output is a well-formed ASCII name", "statement": "A successful charstr_idna_encode of a non-ASCII hostname returns an ASCII string of at most 253 characters (254 with final dot) with labels of 1..63 characters from [a-z0-9-].", "quantifier": "every hostname", "why_tests_cant": "All hostnames.", "anchors": ["src/charstr_puny.c:encode_filtered", "src/charstr_puny.c:charstr_idna_encode"]}
{"id": "C64", "title": "IDNA encoding never crashes", "statement": "charstr_idna_encode returns a string or NULL for every argument; it never aborts and never accesses memory out of bounds.", "quantifier": "every hostname", "why_tests_cant": "All hostnames.", "anchors": ["src/charstr_puny.c"]}
{"id": "C65", "title": "IDNA label hyphen rule", "statement": "charstr_idna_encode of a non-ASCII hostname rejects every hostname having a label that begins or ends with a hyphen.", "quantifier": "every hostname", "why_tests_cant": "All hostnames and label positions.", "anchors": ["src/charstr_puny.c:punycode_encode_pass1"]}
{"id": "C66", "title": "All-ASCII hostnames pass through", "statement": "charstr_idna_encode of an all-ASCII string returns a lower-cased copy of it.", "quantifier": "every ASCII string", "why_tests_cant": "All strings.", "anchors": ["src/charstr_puny.c:charstr_idna_encode"]}
{"id": "C67", "title": "IDNA status and mapping tables", "statement": "For every codepoint exactly one charstr_idna_status_is_* predicate is true, the one IdnaMappingTable.txt assigns, and charstr_idna_mapping returns the mapping listed there (NULL if none).", "quantifier": "all 0x110000 code points", "why_tests_cant": "Generated code over 1.1 million code points.", "anchors": ["src/gen_idna_table.c", "idna/IdnaMappingTable.txt"]}
{"id": "C68", "title": "Unicode general category", "statement": "charstr_unicode_category returns the category UnicodeData.txt assigns, and Cn for unassigned codepoints.", "quantifier": "all 0x110000 code points", "why_tests_cant": "Generated code over 1.1 million code points.", "anchors": ["src/categorize.py", "unicode/UnicodeData.txt"]}
{"id": "C69", "title": "Zeroed array allocation", "statement": "fscalloc(n, size) returns a zero-filled block of n*size bytes.", "quantifier": "all n and size", "why_tests_cant": "2^128 argument pairs; wrap-around.", "anchors": ["src/fsalloc.c:fscalloc"]}
{"id": "C70", "title": "Hash functions", "statement": "hash_string and hash_blob compute the documented-by-code polynomial hash modulo 2^64 of every byte; equal keys have equal hashes; hash_integer/hash_unsigned are injective.", "quantifier": "all strings and blobs", "why_tests_cant": "All strings.", "anchors": ["src/hashtable.c:hash_string", "src/hashtable.c:hash_blob", "src/hashtable.c:hash_integer", "src/hashtable.c:hash_unsigned"]}
{"id": "C71", "title": "String duplication", "statement": "charstr_dupstr/dupsubstr return a fresh NUL-terminated copy of the (sub)string, NULL for NULL, with the allocation exactly large enough.", "quantifier": "every string and bounds", "why_tests_cant": "All strings.", "anchors": ["src/charstr.c:charstr_dupstr", "src/charstr.c:charstr_dupsubstr"]}
{"id": "C72", "title": "Digit values", "statement": "charstr_digit_value(c) is the numeric value of every hexadecimal digit c, in either case.", "quantifier": "all hexadecimal digit characters", "why_tests_cant": "Complete table claim used by URL decoding for all strings.", "anchors": ["src/charstr.c:charstr_digit_value"]}
{"id": "C73", "title": "Intset at any size", "statement": "make_intset(size) yields a set on which intset_add/has/find_next work (no out-of-bounds access, every call returns, results equal to the elements) for every size_t size.", "quantifier": "every size_t size", "why_tests_cant": "Wrap-around happens only at sizes no test allocates.", "anchors": ["src/intset.c:BITS_TO_LONGS", "src/intset.c:intset_find_next"]}
{"id": "C74", "title": "Negative list index", "statement": "list_get_by_index returns NULL for every negative index, for a list of any length, as documented.", "quantifier": "every list and every negative int", "why_tests_cant": "The failure needs a list of more than INT_MAX elements, which no unit test builds.", "anchors": ["src/list.c:list_get_by_index", "include/list.h:list_get_by_index"]}
{"id": "C75", "title": "Simple case conversion of codepoints", "statement": "charstr_naive_lcase_unicode turns a capital letter (category Lu) of UnicodeData.txt to its simple lower case and leaves every other int alone, charstr_naive_ucase_unicode likewise for small letters; both are idempotent, keep the range of codepoints and agree with the ASCII conversions below U+0080.", "quantifier": "all ints", "why_tests_cant": "1.1 million codepoints and a generated switch statement.", "anchors": ["src/lower_case.py", "src/upper_case.py", "include/charstr.h:charstr_naive_lcase_unicode", "include/charstr.h:charstr_naive_ucase_unicode"]}
{"id": "C76", "title": "Every conforming internationalized name is encoded", "statement": "charstr_idna_encode returns the encoded name, not NULL, for every UTF-8 name whose NFC form maps under IdnaMappingTable.txt to labels that satisfy the label rules and whose encoding respects the limits of DNS (63 octets per label, 253 per name).", "quantifier": "every name", "why_tests_cant": "A completeness claim over all names; the failures are at unusual expansions and lengths.", "anchors": ["src/charstr_puny.c:charstr_idna_encode"]}
{"id": "C77", "title": "Names that are not UTF-8 are rejected", "statement": "charstr_idna_encode returns NULL for every string that is not valid UTF-8.", "quantifier": "every byte string", "why_tests_cant": "All byte strings.", "anchors": ["src/charstr_puny.c:charstr_idna_encode"]}
{"id": "C78", "title": "No label begins with a combining mark", "statement": "charstr_idna_encode rejects every non-ASCII hostname with a label that begins with a combining mark (general category M).", "quantifier": "every hostname", "why_tests_cant": "All hostnames, labels and marks.", "anchors": ["src/charstr_puny.c:punycode_encode_pass1"]}
{"id": "C79", "title": "Canonically equivalent names have the same encoding", "statement": "charstr_idna_encode gives the same result for any two canonically equivalent names.", "quantifier": "all pairs of canonically equivalent names", "why_tests_cant": "A relation between pairs of unbounded strings.", "anchors": ["src/charstr_puny.c:charstr_idna_encode"]}
{"id": "C80", "title": "Encoding is idempotent", "statement": "charstr_idna_encode applied to a name it has returned gives that name again.", "quantifier": "every name that is encoded", "why_tests_cant": "All names.", "anchors": ["src/charstr_puny.c:charstr_idna_encode"]}
{"id": "C81", "title": "Different names have different encodings", "statement": "If charstr_idna_encode gives the same result for two names, the names are the same after normalization and mapping.", "quantifier": "all pairs of names", "why_tests_cant": "Injectivity over all pairs of strings.", "anchors": ["src/charstr_puny.c:charstr_idna_encode"]}
{"id": "C82", "title": "The encoded name is normalized", "statement": "The name that charstr_idna_encode encodes in Punycode, after mapping, is in NFC, as UTS 46 demands.", "quantifier": "every name", "why_tests_cant": "All combinations of mapped codepoints and the marks that follow them.", "anchors": ["src/charstr_puny.c:charstr_idna_encode"]}
{"id": "C83", "title": "The encoding depends on the name alone", "statement": "The result of charstr_idna_encode depends on the bytes of the string up to its NUL only: not on uninitialized memory, errno or what follows the string.", "quantifier": "every string and all contents of uninitialized memory", "why_tests_cant": "A test sees one memory content per run.", "anchors": ["src/charstr_puny.c:charstr_idna_encode"]}
{"id": "C84", "title": "The verdicts on normal forms are right", "statement": "charstr_detect_unicode_normal_form, asked about NFC, answers 0 only for strings in NFC, the \"disallowed\" flag only for strings that are not in NFC, the \"maybe\" flag only for valid UTF-8, and -1 only for invalid UTF-8. Asked about NFD it never answers \"maybe\", so charstr_unicode_canonically_decomposed is true exactly for the strings in NFD.", "quantifier": "every string, with or without an end pointer", "why_tests_cant": "The quick check tables cover the whole code space and strings have no bound.", "anchors": ["src/charstr_unicode.c:charstr_detect_unicode_normal_form", "src/charstr_unicode.c:charstr_unicode_canonically_decomposed", "src/allowed_in_normal_form.py:main"]}
{"id": "C85", "title": "The verdicts on compatibility forms are right", "statement": "charstr_detect_unicode_normal_form, asked about NFKC, answers 0 only for strings in NFKC, the \"disallowed\" flag only for strings that are not in NFKC, the \"maybe\" flag only for valid UTF-8, and -1 only for invalid UTF-8. Asked about NFKD it answers 0 exactly for the strings in NFKD and never \"maybe\".", "quantifier": "every string, with or without an end pointer", "why_tests_cant": "The quick check tables cover the whole code space and strings have no bound.", "anchors": ["src/charstr_unicode.c:charstr_detect_unicode_normal_form", "src/allowed_in_normal_form.py", "include/charstr.h:UNICODE_NFKC_DISALLOWED"]}
{"id": "C86", "title": "Allocation contract", "statement": "With the default reallocator: fsalloc returns a new block of the requested size and never NULL for a positive size (the process aborts when memory is exhausted); fsrealloc preserves the contents up to the smaller size, and with size 0 releases the block; fscalloc returns zeroed memory; fsfree releases exactly its argument and accepts NULL. None of them touches any other block.", "quantifier": "every heap state, every size, every behaviour of the C library's allocator including failure and moving blocks", "why_tests_cant": "Allocator placement, exhaustion and history are outside a test's control.", "anchors": ["src/fsalloc.c:fsalloc", "src/fsalloc.c:fsrealloc", "src/fsalloc.c:fscalloc", "src/fsalloc.c:fsfree", "src/fsalloc.c:naive_realloc"]}
{"id": "C87", "title": "Custom reallocators see every request", "statement": "Every allocation request goes to the reallocator installed last, exactly once and with the arguments (NULL,n), (p,n) or (p,0); fsfree(NULL) calls nobody; the counter is called by fs_reallocator_skew only, with its argument; the getters return what was installed last. Hence the count of a block-counting reallocator equals the number of blocks in use, corrected by the skews.", "quantifier": "every sequence of calls and every custom reallocator and counter", "why_tests_cant": "All call histories and all user-supplied functions.", "anchors": ["src/fsalloc.c:fs_set_reallocator", "src/fsalloc.c:fs_get_reallocator", "src/fsalloc.c:fs_set_reallocator_counter", "src/fsalloc.c:fs_reallocator_skew", "include/fsalloc.h"]}
{"id": "C88", "title": "Formatted strings are exact", "statement": "charstr_printf and charstr_vprintf return a new NUL-terminated string that is the formatted output, in a block of exactly the required size; if the output cannot be formatted (or is longer than INT_MAX) they return NULL with errno EILSEQ and allocate nothing.", "quantifier": "every output of the formatter, every heap state", "why_tests_cant": "All outputs and lengths.", "anchors": ["src/charstr.c:charstr_vprintf", "src/charstr.c:charstr_printf"]}
{"id": "C89", "title": "Normalization decides canonical equivalence", "statement": "Two valid strings have byte-identical results from charstr_unicode_decompose (given enough space), and likewise from charstr_unicode_recompose applied after it, if and only if they are canonically equivalent in the sense of the Unicode Standard. Whatever the two functions return is canonically equivalent to their argument.", "quantifier": "every pair of valid UTF-8 strings of any length, every buffer that is large enough", "why_tests_cant": "Equivalence classes are infinite and strings have no bound.", "anchors": ["src/charstr_decompose.c:charstr_unicode_decompose", "src/charstr_recompose.c:charstr_unicode_recompose"]}
{"id": "C90", "title": "Priority queue operations take logarithmic work", "statement": "With n queued elements, priorq_enqueue calls the comparator at most log2(n+1) times, priorq_dequeue at most 2*log2(n-1) times and priorq_remove at most 3*log2(n) times; the numbers of calls of reloc are bounded likewise. This holds for every comparator, even an inconsistent one.", "quantifier": "every history of operations, every comparator, every number of elements", "why_tests_cant": "All sizes and histories, and all comparators.", "anchors": ["src/priority_queue.c:priorq_enqueue", "src/priority_queue.c:priorq_dequeue", "src/priority_queue.c:priorq_remove"]}
{"id": "C91", "title": "The IDNA table generator reads every table of the format", "statement": "For every file of the format of IdnaMappingTable.txt (fields separated by semicolons: a codepoint or a range, a status, a mapping, possibly more; blanks around them; comments from a hash mark on; other lines without a semicolon), gen_idna_table reads exactly the ranges, statuses and mappings that the lines state, and the generated functions depend on nothing else; a file has at most one reading.", "quantifier": "every file of up to 4 GB, every layout of blanks, comments and further fields, any upper- or lowercase hexadecimal numbers", "why_tests_cant": "All files: a test sees one version of the table.", "anchors": ["src/gen_idna_table.c:main", "src/charstr.c:charstr_split", "src/charstr.c:charstr_split_str", "src/charstr.c:charstr_split_atoms", "src/charstr.c:charstr_strip"]}
{"id": "C92", "title": "The table scripts read every file of the Unicode formats", "statement": "For every file of the format of UnicodeData.txt (and of CompositionExclusions.txt and DerivedNormalizationProps.txt) the seven Python scripts finish without an exception, and the C functions that they write return exactly what the lines say: the combining class of a codepoint (0 without a line), its canonical decomposition (NULL without one), the codepoint that is composed of two others (-1 if there is none or it is excluded), the quick check flags, the lower and upper case, and the general category (as C68 says). If the lines say what the tables in UcdData.v, CategoryData.v and CaseData.v say, the written functions are those that the other claims are about.", "quantifier": "every file of the formats, with any number of lines, blanks and comments, and every codepoint", "why_tests_cant": "All files and all codepoints: a test sees one version of the database and some codepoints.", "anchors": ["src/canonical_combining_classes.py:main", "src/categorize.py:main", "src/lower_case.py:main", "src/upper_case.py:main", "src/decomposition.py:main", "src/recomposition.py:main", "src/allowed_in_normal_form.py:main"]}
{"id": "C93", "title": "AVL trees survive any comparison function", "statement": "Whatever a tree's comparison function answers, and even if it answers otherwise from one call to the next (as when keys are changed in place), no operation has undefined behaviour or runs forever: put adds exactly one element and takes out none or one that compared equal, which it returns; lookups, neighbour queries and pop give NULL or an element of the tree that compared as asked; the other operations do what they do to a sorted tree; all elements stay reachable in both directions, the tree stays balanced, comparisons stay logarithmic, nothing outside of the tree is touched, and destroying the tree frees exactly what belongs to it.", "quantifier": "every comparison function, different at every operation, and every history of operations", "why_tests_cant": "All comparison functions, lawful or not, and all histories.", "anchors": ["src/avltree.c:avl_tree_put", "src/avltree.c:avl_tree_get", "src/avltree.c:avl_tree_pop", "src/avltree.c:avl_tree_detach", "src/avltree.c:avl_tree_copy", "src/avltree.c:destroy_avl_tree"]}
{"id": "C94", "title": "Several byte arrays in one memory", "statement": "After any history of creating, sharing, destroying, appending, copying, streaming, clearing and resizing over any number of byte arrays, with sources in the caller's buffers or in other arrays (or in the same array while it need not move), every call has returned what it should, every array has the content it should followed by a NUL, the buffers and everything else in the memory are unchanged, and nothing is allocated beyond the arrays not destroyed yet; no freed block is ever used and none is freed twice.", "quantifier": "every history over any number of arrays and buffers, every source range, every initial memory", "why_tests_cant": "All histories and all overlaps of sources and targets.", "anchors": ["src/bytearray.c:make_byte_array", "src/bytearray.c:destroy_byte_array", "src/bytearray.c:share_byte_array", "src/bytearray.c:byte_array_append", "src/bytearray.c:byte_array_copy", "src/bytearray.c:byte_array_append_stream", "src/bytearray.c:byte_array_resize", "src/bytearray.c:ensure_space"]}
{"id": "C95", "title": "A byte array can be given its own bytes", "statement": "Appending to a byte array, or copying into it, bytes or a string from its own content (byte_array_data plus an offset) gives what the same operation gives with a copy of these bytes; and a pointer from byte_array_data stays valid while the array lives.", "quantifier": "every history, every array, every range of its own bytes", "why_tests_cant": "Depends on the whole history of sizes; a test that stays below 128 bytes sees nothing.", "anchors": ["src/bytearray.c:byte_array_append", "src/bytearray.c:byte_array_copy", "src/bytearray.c:byte_array_data", "src/bytearray.c:ensure_space"]}
{"id": "C96", "title": "Storage and copying of byte arrays are linear", "statement": "A byte array's storage is at most the larger of 128 bytes and twice the largest number of bytes it has been asked to hold plus one, all its reallocations together have copied fewer bytes than its storage has, and their number is logarithmic in that size.", "quantifier": "every history of every array", "why_tests_cant": "An amortized bound over all histories.", "anchors": ["src/bytearray.c:ensure_space"]}
{"id": "C97", "title": "Hash tables survive any hash and comparison functions", "statement": "Whatever a table's hash and comparison functions answer, and even if they answer otherwise from one call to the next (as when keys are changed in place), no operation has undefined behaviour or runs forever: put adds one element, or finds one that compared equal and leaves it (same value) or replaces and returns it; lookups and pop give NULL or an element of the table that compared equal; the other operations do what they always do; the size and the loop over all elements agree with the history, nothing outside of the table is touched, what leaves the table is freed or returned, and destroying the table frees exactly what belongs to it.", "quantifier": "every hash function and comparison function, different at every operation, and every history of operations", "why_tests_cant": "All functions, lawful or not, and all histories.", "anchors": ["src/hashtable.c:hash_table_put", "src/hashtable.c:hash_table_get", "src/hashtable.c:hash_table_pop", "src/hashtable.c:hash_table_detach", "src/hashtable.c:hash_table_pop_any", "src/hashtable.c:hash_table_get_other", "src/hashtable.c:destroy_hash_table"]}
{"id": "C98", "title": "Priority queues keep their content under any comparison function", "statement": "Whatever a priority queue's comparison function answers, and even if it answers otherwise from one operation to the next, every operation changes the content by exactly the element put in or returned (popping everything shows it), and the locator last reported for an element takes out that element.", "quantifier": "every comparison function, different at every operation, every history of operations and every locator", "why_tests_cant": "All functions, lawful or not, and all histories.", "anchors": ["src/priority_queue.c:priorq_enqueue", "src/priority_queue.c:priorq_dequeue", "src/priority_queue.c:priorq_pop", "src/priority_queue.c:priorq_remove", "include/priority_queue.h"]}
{"id": "C99", "title": "Priority queues follow elements whose priorities change", "statement": "Elements may change their priorities while they are not queued, and a queued element may change its priority if it is then removed by its locator (and put back): nothing else leaves the queue, and peek and dequeue return the element that is least by the present priorities.", "quantifier": "every sequence of lawful comparison functions that agree on the queued elements that have not changed, every history of operations and every locator", "why_tests_cant": "All orders of operations and of changes; the failing case depends on the slot the element happens to sit in.", "anchors": ["src/priority_queue.c:priorq_remove", "src/priority_queue.c:raise", "src/priority_queue.c:lower", "include/priority_queue.h"]}
{"id": "C100", "title": "Splitting functions hand over all they allocate", "statement": "The functions that split a string return a list (or fill the caller's array) of pairwise different newly allocated strings, the parts of the string; nothing else is allocated that is still there afterwards, no memory that was there before is changed or freed, and freeing every string and the list leaves the memory exactly as it was.", "quantifier": "every string at any place of any block, every delimiter and limit, every state of the memory and every address the allocator may choose", "why_tests_cant": "All strings and all states of memory: a leak, a shared string or a stray write on one path shows only with the right input under a memory checker.", "anchors": ["src/charstr.c:charstr_split", "src/charstr.c:charstr_split_atoms", "src/charstr.c:charstr_split_str", "src/charstr.c:charstr_split_into_array", "include/charstr.h"]}
{"id": "C101", "title": "International domain name encoding leaves no memory behind", "statement": "charstr_idna_encode returns one newly allocated string, or NULL; on every path, also those that fail half way, all work areas have been freed exactly once and none is used after that, and no other memory is changed.", "quantifier": "every name at any place of any block, every way the tables may classify characters, every state of the memory", "why_tests_cant": "The failing paths (bad UTF-8 in a later label, a refused label after some that were accepted, memory of two normal forms) are many and a leak is not observable through the interface.", "anchors": ["src/charstr_puny.c:charstr_idna_encode", "src/charstr_puny.c:idna_encode", "src/charstr_puny.c:encode_nfc", "src/charstr_puny.c:encode_nfd"]}
{"id": "C102", "title": "Many sets, queues and byte arrays in one memory do not disturb each other", "statement": "A program may hold any number of integer sets, priority queues and byte arrays at once and interleave calls on them: every call returns what the history of its own object says (when bytes of one byte array are appended to another: of these two), no call reads or writes a block of another object or of the rest of the program, a byte array lives until its last reference is destroyed, a block given up by a growing queue or byte array or by a destroyed object may be reused for others, and when all objects have been destroyed the memory is exactly as it was before.", "quantifier": "every program (sequence of calls on any number of objects), every state of the memory, every address the allocator may choose, every comparison function", "why_tests_cant": "Interference, use after free and leaks depend on the interleaving of objects and on the addresses the allocator returns.", "anchors": ["src/intset.c:make_intset", "src/intset.c:destroy_intset", "src/priority_queue.c:priorq_enqueue", "src/priority_queue.c:make_priority_queue", "src/priority_queue.c:destroy_priority_queue", "src/bytearray.c", "include/intset.h", "include/priority_queue.h", "include/bytearray.h"]}
{"id": "C103", "title": "Every time_t can be broken down", "statement": "epoch_to_utc fills in the structure without undefined behaviour for every value of time_t, and different days give different dates.", "quantifier": "every integer as the time, in particular all 2^64 values of time_t", "why_tests_cant": "All values of a 64-bit integer; the failing ones are before 1600-03-01 or millions of years ahead, and where they begin follows from arithmetic only.", "anchors": ["src/date.c:epoch_to_utc", "include/date.h"]}
{"id": "C104", "title": "A list may be changed while it is traversed", "statement": "A callback of list_foreach may change the list: elements that are removed are not visited, elements put behind the current one are, the others are visited once, in order. A loop over list_next that fetches the next element first may remove the current element.", "quantifier": "every list with any history, every callback (any function that changes the list through the interface, with any other effects), every predicate for removal, every state of the memory", "why_tests_cant": "All callbacks and all ways to change the list at each step; a read of a freed element often goes unnoticed in a test.", "anchors": ["src/list.c:list_foreach", "src/list.c:list_next", "src/list.c:list_remove", "include/list.h"]}
{"id": "C105", "title": "Associations can be removed while a table or tree is traversed", "statement": "A loop over hash_table_get_other or avl_tree_next that fetches the next element before it removes the current one visits every element once (trees: in the order of the keys), removes and frees exactly those it wants to and ends; a loop that pops elements until none is left gets every association once (trees: in order) and frees all of them.", "quantifier": "every table and tree with any history, every property of key and value to remove by, every state of the memory", "why_tests_cant": "All tables and trees and all subsets to remove; a removal may rotate the tree around the element already fetched.", "anchors": ["src/hashtable.c:hash_table_get_other", "src/hashtable.c:hash_table_remove", "src/hashtable.c:hash_table_pop_any", "src/avltree.c:avl_tree_next", "src/avltree.c:avl_tree_remove", "src/avltree.c:avl_tree_pop_first"]}
{"id": "C106", "title": "Values can be replaced while a table or tree is traversed", "statement": "A loop over hash_table_get_other or avl_tree_next that fetches the next element first and puts a new value for the current key replaces every value once and ends; afterwards the keys are the same and the values are the new ones.", "quantifier": "every table and tree with any history, every function from old to new values, every state of the memory", "why_tests_cant": "Whether the loop ends depends on collisions of the hash function and on the values; that it does not end at all cannot be observed in a test.", "anchors": ["src/hashtable.c:hash_table_put", "src/hashtable.c:hash_table_get_other", "src/avltree.c:avl_tree_put", "src/avltree.c:avl_tree_next"]}
{"id": "C107", "title": "AVL tree functions recurse to a logarithmic depth", "statement": "On a tree of n elements avl_tree_put, avl_tree_detach (and so avl_tree_remove and the pop functions), avl_tree_copy and destroy_avl_tree never have more than 1.45 * log2(n + 2) + 1 calls of their recursive functions active at one time, whatever the history of the tree and whatever the comparison function answers: they cannot exhaust the stack.", "quantifier": "every tree with any history, every comparison function, every state of the memory", "why_tests_cant": "A test sees the depth of the trees it builds; the bound must hold for every sequence of insertions and removals.", "anchors": ["src/avltree.c:put", "src/avltree.c:lighten_parent", "src/avltree.c:copy_tree", "src/avltree.c:destroy_subtree"]}
{"id": "C108", "title": "Hash tables compare sparingly", "statement": "hash_table_get, hash_table_put and hash_table_pop call the hash function once, for the key given, and call the comparison function only with the key given and keys that are in the table and whose hash is the same as that of the key given modulo the capacity of the table, and not twice with the key of one element. So the number of comparisons is at most the number of elements whose hashes collide with that of the key. If the functions break their contract (or change their answers), the number of comparisons is still at most the number of elements.", "quantifier": "every table with any history, every key, every hash and comparison function", "why_tests_cant": "A test counts calls for the keys and the hash functions it tries.", "anchors": ["src/hashtable.c:hash_table_get", "src/hashtable.c:hash_table_put", "src/hashtable.c:hash_table_pop"]}
{"id": "C109", "title": "Exactly which host names are encoded", "statement": "For a name that is not ASCII, charstr_idna_encode returns NULL or an encoding, and it is determined which. The name is normalized: its codepoints are accepted if the quick check for NFC says yes; otherwise there may be at most 100 combining characters in succession, and the decomposition of the name must take less than three times the space of the name. It is then mapped: every codepoint must be valid, mapped, ignored or a deviation. The result must have at most 254 bytes and not end in a hyphen; its labels must be acceptable, their encodings have at most 63 characters, and all together at most 252 characters without, or 253 with a final dot. The encoding returned is the one described in C62. In the one case where nothing is left after mapping the behaviour is undefined, and in the one case of an acceptable ASCII label of more than 63 characters with nothing wrong before it the program is aborted (see C64).", "quantifier": "every string that is not ASCII (valid UTF-8 or not) and short enough that three times its length fits in size_t, and every content of uninitialized memory", "why_tests_cant": "A test tries some names; this determines the result for every name, including those with overlong encodings, long runs of marks, or labels at the limits.", "anchors": ["src/charstr_puny.c:charstr_idna_encode", "src/charstr_puny.c:encode_nfc", "src/charstr_puny.c:encode_nfd", "src/charstr_puny.c:encode_filtered", "src/charstr_puny.c:punycode_encode_pass1"]}
{"id": "C110", "title": "The quick check is exactly that of the Unicode standard", "statement": "For each of the four normal forms charstr_detect_unicode_normal_form returns the verdict of the quick check of UAX #15: 'disallowed' if and only if two adjacent combining characters are out of order or some codepoint has the value N of the quick-check property of the form, 'maybe' if and only if neither holds and some codepoint has the value M, 'allowed' otherwise. If the string is not valid UTF-8 the codepoints before the first error decide between 'disallowed' and -1. charstr_allowed_unicode_normal_forms returns exactly the flags of the property, never both flags of one form, and charstr_unicode_canonical_combining_class the class of the Unicode data, between 0 and 240.", "quantifier": "every string, terminated by NUL or by an end pointer, each of the four forms, and every codepoint", "why_tests_cant": "A test tries some strings and some of the 1.1 million codepoints; the order of the marks, the values of the property and the first encoding error may be combined in any way.", "anchors": ["src/charstr_unicode.c:charstr_detect_unicode_normal_form", "src/allowed_in_normal_form.py", "src/canonical_combining_classes.py", "include/charstr.h:charstr_allowed_unicode_normal_forms"]}
{"id": "C111", "title": "Lists, hash tables, AVL trees, sets, queues, byte arrays and strings in one memory do not disturb each other", "statement": "A program may make and use any number of lists, hash tables, AVL trees, integer sets, priority queues, byte arrays and strings at the same time and interleave the calls in any way: each call does what it would do if its own object were the only one, all other objects keep their contents, elements taken out of a table or a tree stay readable until they are destroyed, the strings that the functions for duplicating, stripping, splitting, encoding and decoding return belong to the program and stay as they are until it frees them, no two objects share a block, memory that belongs to others is not touched, and when all is destroyed no memory is left allocated.", "quantifier": "every program made of the public functions of list.h, hashtable.h, avltree.h, intset.h, priority_queue.h and bytearray.h and the functions for new strings in charstr.h and base64.h, every order of the calls, every behaviour of the allocator, all legal callbacks", "why_tests_cant": "Tests use one or two objects at a time and a fixed order of calls; the freedom from interference concerns every interleaving of calls and every reuse of freed blocks by objects of another kind.", "anchors": ["src/list.c", "src/hashtable.c", "src/avltree.c", "src/intset.c", "src/priority_queue.c", "src/bytearray.c", "include/hashtable.h", "include/avltree.h"]}
{"id": "C112", "title": "A byte array of any maximum size can be made", "statement": "make_byte_array gives, for every maximum size, an empty byte array with a terminating NUL whose block is not larger than the maximum; the size 0 must give an array to which nothing can be appended.", "quantifier": "every maximum size in [0, 2^64), every content of fresh memory", "why_tests_cant": "Tests make byte arrays of a few ordinary sizes; the terminator is written before any size check, so whether it is in bounds depends on every boundary size.", "anchors": ["src/bytearray.c:make_byte_array", "include/bytearray.h:make_byte_array"]}
{"id": "C113", "title": "The storage of a priority queue is at most twice its largest size and is copied a constant number of times per element", "statement": "After any sequence of operations the storage of a priority queue has at least as many slots as the largest number of elements the queue ever had and at most twice as many; all the replacements of the storage together have copied no more slots than it now has; and the number of replacements is logarithmic in the largest size. No operation gets stuck.", "quantifier": "every sequence of enqueue, dequeue, pop and remove, every comparison function, every content of fresh memory, fewer than 2^60 elements", "why_tests_cant": "Growth is amortised: its cost is a statement about every sequence of operations, not about one call, and a test of some sequence cannot tell a doubling policy from one that is quadratic or unbounded elsewhere.", "anchors": ["src/priority_queue.c:priorq_enqueue", "src/priority_queue.c:priorq_remove", "src/priority_queue.c:priorq_dequeue", "src/priority_queue.c:priorq_pop"]}
{"id": "C114", "title": "Walking over an AVL tree takes two links per element; no step takes more than logarithmically many", "statement": "A loop over all elements of an AVL tree, with avl_tree_get_first and avl_tree_next or with avl_tree_get_last and avl_tree_previous, follows exactly 2 * (size - 1) links between elements in total, none if the tree is empty; a single one of these calls follows at most 1.45 * log2(size + 2) links. None of them changes anything.", "quantifier": "every tree that any sequence of puts, pops, removals, detachments and copies can make, whatever its comparison function answers; both directions; every element", "why_tests_cant": "The cost depends on the shape of the tree, and so on the whole history; tests time or count a few shapes, and cannot show that no shape makes a walk quadratic or a step linear.", "anchors": ["src/avltree.c:avl_tree_next", "src/avltree.c:avl_tree_previous", "src/avltree.c:avl_tree_get_first", "src/avltree.c:avl_tree_get_last", "src/avltree.c:next_descendant", "src/avltree.c:previous_descendant"]}
{"id": "C115", "title": "Walking over a hash table looks at every slot once", "statement": "A loop over all elements of a hash table with hash_table_get_any and hash_table_get_other looks at every slot of the table exactly once, in order, so that the whole walk takes time proportional to the capacity plus the number of elements.", "quantifier": "every table that any sequence of operations can make, whatever its hash and comparison functions answer", "why_tests_cant": "How often slots are looked at depends on how the elements are spread over the table; tests have a few tables only.", "anchors": ["src/hashtable.c:hash_table_get_any", "src/hashtable.c:hash_table_get_other", "src/hashtable.c:get_next"]}
{"id": "C116", "title": "URL encoders are independent objects", "statement": "Every URL encoder that a program has made and not yet destroyed encodes by the strings it was made from, byte by byte, whatever other encoders were made, used or destroyed since; charstr_url_encode is not affected by any of them. Making an encoder and encoding a string each make one new block and change nothing else; an encoder can be destroyed once, and making and destroying one leaves the memory as it was.", "quantifier": "every sequence of makings and destructions of encoders, with anything in between that does not write to them; all strings to reserve, to unreserve and to encode, also those inside an encoder's own table; every placement of the blocks in memory", "why_tests_cant": "Interference between objects depends on the order of the calls and on the allocator; tests make one or two encoders and do not look at memory outside the results.", "anchors": ["src/charstr.c:charstr_create_url_encoder", "src/charstr.c:charstr_destroy_url_encoder", "src/charstr.c:charstr_url_custom_encode", "src/charstr.c:charstr_url_custom_encode_byte", "src/charstr.c:charstr_url_encode", "src/charstr.c:charstr_url_encode_byte"]}
{"id": "C117", "title": "Functions that return a new string hand out exactly one block, and none if they fail", "statement": "charstr_dupstr, charstr_dupsubstr, charstr_strip, charstr_sanitize_utf8, charstr_url_decode, base64_encode_simple and base64_decode_simple return either NULL, and then have left the memory as it was, or one new block, which has exactly the size of the result and its terminating NUL, and have changed nothing else; freeing that block leaves the memory as it was. base64_decode_simple does so for every string: it returns the decoding exactly of the texts that base64_decode_buffer accepts.", "quantifier": "every string at every place in any block, and any other content of the memory; every placement of the new block", "why_tests_cant": "Tests compare the result for a few strings; that no path leaks, writes elsewhere or allocates a byte too few is a matter of all inputs.", "anchors": ["src/charstr.c:charstr_dupstr", "src/charstr.c:charstr_dupsubstr", "src/charstr.c:charstr_strip", "src/charstr.c:charstr_sanitize_utf8", "src/charstr.c:charstr_url_decode", "src/base64.c:base64_encode_simple", "src/base64.c:base64_decode_simple"]}
{"id": "C118", "title": "The table generator frees everything it allocates for a line but the strings of its table", "statement": "While the generator reads a file of the format of IdnaMappingTable.txt, each line is taken apart into lists and strings that are all released again, each once, after their last use; what remains of a line with a status are one new string for the status, one for the mapping and one for the fourth field, if there are these, for each codepoint of the line, all different, to which the entries of the table point. Lines without a status leave the memory as it was. At the end of a file nothing is allocated but the strings of the table, and every entry has the status and the mapping that the file gives.", "quantifier": "every line and every file of the format whose rows fit in the table and do not overlap; a table of any size; any other content of the memory and every placement of new blocks; every line at all that the reading accepts", "why_tests_cant": "The fields of a line change their owner several times (from the list to the program, and some of them do not exist); a leak or a double free shows up only for particular lines, and a test of the generator compares its output.", "anchors": ["src/gen_idna_table.c:main", "src/charstr.c:charstr_split", "src/charstr.c:charstr_split_str", "src/charstr.c:charstr_split_atoms", "src/list.c:list_pop_first", "src/list.c:destroy_list"]}
{"id": "C119", "title": "No input exhausts the stack during decomposition or IDNA encoding", "statement": "The functions with local arrays of variable length and the recursive function of the Unicode code use a bounded amount of stack: charstr_unicode_decompose declares no local array of more than 4 bytes and its recursion is at most 4 deep, and charstr_idna_encode declares no local array of more than 254 elements, whatever the string or host name is. These bounds are the least possible.", "quantifier": "every string, of any length and content, every output buffer and host name, and every content of uninitialized memory", "why_tests_cant": "A test sees a stack overflow only if it happens to use the input with the largest array or the deepest recursion, and then only with the stack size of the test machine.", "anchors": ["src/charstr_decompose.c:sort_combining_characters", "src/charstr_decompose.c:decompose_fully", "src/charstr_decompose.c:charstr_unicode_decompose", "src/charstr_puny.c:punycode_encode", "src/charstr_puny.c:encode_filtered", "src/charstr_puny.c:charstr_idna_encode"]}
{"id": "C120", "title": "The public Base64 tables are the standard alphabet and its inverse", "statement": "base64_bitfield_encoding maps 0-63 to the characters of the standard Base64 alphabet; base64_bitfield_decoding has an entry for each of the 256 byte values: the value of each character of the alphabet, and the documented negative value for white space, '=', NUL and all other bytes.", "quantifier": "every 6-bit value and every byte", "why_tests_cant": "The decoding table is written by hand; a wrong entry for a byte that no test uses goes unnoticed.", "anchors": ["include/base64.h:base64_bitfield_encoding", "include/base64.h:base64_bitfield_decoding", "src/base64.c:base64_bitfield_decoding"]}
{"id": "C121", "title": "Decomposition takes linear time", "statement": "The time that charstr_unicode_decompose takes (decoded codepoints, steps of the recursion, bytes moved while sorting) is at most proportional to the length of the string and of the buffer, whatever the string contains.", "quantifier": "every string, valid UTF-8 or not, of any length, every buffer, and every constant of proportionality", "why_tests_cant": "A test measures the time of particular strings; the strings with long unsorted sequences of combining characters that an attacker sends are not among them.", "anchors": ["src/charstr_decompose.c:sort_combining_characters", "src/charstr_decompose.c:decompose_fully", "src/charstr_decompose.c:charstr_unicode_decompose"]}
{"id": "C122", "title": "Recomposition takes linear time", "statement": "The time that charstr_unicode_recompose takes (decoded codepoints, turns of the loop that looks for a blocking character, codepoints passed on) is at most proportional to the length of the string, whatever the string contains and however long its sequences of combining characters are.", "quantifier": "every string, valid UTF-8 or not, of any length, and every buffer", "why_tests_cant": "A test measures the time of particular strings, not that of the strings that an attacker sends.", "anchors": ["src/charstr_recompose.c:recomposer_blocked", "src/charstr_recompose.c:recomposer_feed", "src/charstr_recompose.c:recomposer_read", "src/charstr_recompose.c:charstr_unicode_recompose"]}
{"id": "C123", "title": "The C++ smart pointers destroy each object once", "statement": "An object that a C++ program hands to make_fsalloc_ptr, make_byte_array_ptr or make_charstr_url_encoder_ptr is passed to fsfree, destroy_byte_array or charstr_destroy_url_encoder, respectively, exactly once, when the last smart pointer that held it is destroyed, reset or assigned to, unless the program releases it; NULL is never passed. At every point each object handed over is either held by one smart pointer, or destroyed, or released.", "quantifier": "every sequence of definitions, assignments, moves (also to itself), swaps, resets, releases and ends of scope of smart pointers of the three types, and both behaviours of a moved-from std::function", "why_tests_cant": "Each program of a test moves its pointers in one order; a double or forgotten destruction depends on the history.", "anchors": ["include/fsalloc.h:make_fsalloc_ptr", "include/bytearray.h:make_byte_array_ptr", "include/charstr.h:make_charstr_url_encoder_ptr"]}
{"id": "C124", "title": "Threads do not disturb each other", "statement": "Threads that each use lists, hash tables, trees, integer sets, priority queues and byte arrays of their own, and beside these only look at shared ones that nobody changes, need no locks: however their single memory accesses are interleaved, nothing is undefined, no two threads access the same block at the same time unless both read it, each gets results that it may get when it runs alone, the shared objects stay as they are, and a thread that runs comes to its end whatever the others do.", "quantifier": "any number of threads, all programs of such calls (the next call depending on earlier results), all schedules of single accesses, all addresses that the allocator may return", "why_tests_cant": "Threads that interfere do so under rare schedules; a test runs a few.", "anchors": ["src/list.c:list_append", "src/list.c:list_get", "src/hashtable.c:hash_table_get", "src/hashtable.c:hash_table_put", "src/avltree.c:avl_tree_get", "src/avltree.c:avl_tree_put", "src/intset.c:intset_has", "src/priority_queue.c:priorq_enqueue", "src/bytearray.c:byte_array_append", "src/fsalloc.c:fsalloc"]}
{"id": "C125", "title": "What the comparison of a tree or a table says may change", "statement": "A program may change keys in place, or what its comparison and hash functions say, while keys are in a tree or a table: as long as the keys that are in a tree keep their order among each other (those in a table: their hash values, and no two become equal), lookups and insertions by the new order are right, whatever happens to the order of other keys. Sweep-line algorithms rely on this.", "quantifier": "every history of a tree or table, every two orders (hash functions), every key, any number of changes", "why_tests_cant": "A test changes one order in one way; that the functions remember nothing about earlier comparisons has to hold for all.", "anchors": ["src/avltree.c:avl_tree_get", "src/avltree.c:avl_tree_put", "src/hashtable.c:hash_table_get", "src/hashtable.c:hash_table_put"]}
{"id": "C126", "title": "Evenly spaced hash values spread over a hash table", "statement": "The number of slots of a hash table is a prime number, at least the capacity asked for (up to 1610612741), and never changes. So if the hash values of the keys in a table are different members of an arithmetic progression of n numbers whose step is not a multiple of the number of slots (integers, multiples of 2^k, aligned addresses, ...), a lookup, insertion or removal compares the key with at most ceil(n / slots) others; with at most one, if n is no more than the capacity asked for.", "quantifier": "every history of a table, every progression, every key", "why_tests_cant": "A test measures a few key sets; that no stride makes all keys collide is a statement about all strides and all table sizes.", "anchors": ["src/hashtable.c:GOOD_SIZES", "src/hashtable.c:make_hash_table", "src/hashtable.c:hash_table_get", "src/hashtable.c:hash_table_put", "src/hashtable.c:hash_integer"]}
{"id": "C127", "title": "Results do not depend on whether char is signed", "statement": "C leaves it to the platform whether char is signed (x86) or unsigned (ARM). The results of the Base64 functions, of the string hash, and of the functions for comparing, classifying, validating and URL-encoding strings are the same on both; in particular -1 selects the default characters '+' and '/' of Base64, as documented.", "quantifier": "every string and buffer, every pair of characters for 62 and 63, both kinds of platform", "why_tests_cant": "The unit tests run on one platform, with a few strings.", "anchors": ["src/base64.c:base64_encode_buffer", "src/base64.c:base64_decode_buffer", "src/base64.c:base64_encode_simple", "src/base64.c:base64_decode_simple", "include/base64.h:base64_encode_buffer", "src/hashtable.c:hash_string", "src/charstr.c:charstr_case_cmp", "src/charstr.c:charstr_valid_utf8", "src/charstr.c:charstr_url_custom_encode"]}
{"id": "C128", "title": "Strings can be processed in pieces", "statement": "Encoding, decoding, checking, splitting and comparing strings piece by piece gives the same as for the whole string: Base64 encoding of pieces of a multiple of 3 bytes (also one after the other into one buffer), Base64 decoding of texts without padding but in the last (a text that goes on after padding is rejected), URL encoding of any pieces, URL decoding after a piece that can be decoded, UTF-8 validation and sanitizing of pieces cut between characters, splitting of strings at a delimiter or white space, and case-insensitive comparison after equal beginnings.", "quantifier": "all strings, all ways to cut them", "why_tests_cant": "Tests try a few strings and cuts; the equality is about every cut of every string.", "anchors": ["src/base64.c:base64_encode_buffer", "src/base64.c:base64_encode_simple", "src/base64.c:base64_decode_simple", "src/charstr.c:charstr_url_custom_encode", "src/charstr.c:charstr_url_decode", "src/charstr.c:charstr_valid_utf8", "src/charstr.c:charstr_sanitize_utf8", "src/charstr.c:charstr_split", "src/charstr.c:charstr_split_atoms", "src/charstr.c:charstr_case_cmp"]}
{"id": "C129", "title": "Sizes on platforms with another word size", "statement": "The results of URL encoding and decoding, UTF-8 sanitizing, Base64 sizes, integer sets and byte-array appends are right on every platform, whatever the width of size_t and of unsigned long: no computation of a size wraps in such a way that memory outside the allocated block is used.", "quantifier": "every width of size_t and of unsigned long, every string that fits in half of the address space, every size of a set and every history of operations on it, every sequence of appends", "why_tests_cant": "The unit tests run on one platform (64 bits) and cannot process gigabytes.", "anchors": ["src/charstr.c:charstr_url_custom_encode", "src/charstr.c:charstr_url_encode", "src/charstr.c:charstr_url_decode", "src/charstr.c:charstr_sanitize_utf8", "src/base64.c:base64_encoding_size", "src/intset.c:make_intset", "src/intset.c:intset_add", "src/intset.c:intset_has", "src/bytearray.c:byte_array_append"]}
{"id": "C130", "title": "Read callbacks that use byte arrays", "statement": "A read callback of byte_array_append_stream may use byte arrays while it runs, among them the one it is called for; when it returns, the bytes it has put in its buffer are appended to what the array has then, other arrays have what the callback left in them, and no memory is lost or used after it was freed.", "quantifier": "every history before the call, every number of bytes asked for, every sequence of operations on any arrays in the callback, all bytes it delivers", "why_tests_cant": "The unit tests use callbacks that read from memory or a file and touch no byte array; what a callback does in between is a history of its own.", "anchors": ["src/bytearray.c:byte_array_append_stream", "include/bytearray.h:byte_array_read_cb"]}
{"id": "C131", "title": "errno tells about errors and only about errors", "statement": "charstr_url_decode, base64_decode_buffer and base64_decode_simple set errno to EILSEQ exactly when they return NULL or -1, which is exactly when the text is not an encoding; then the place for the size is left as it was. When they succeed errno is as it was before the call, and the place for the size, which may be NULL for charstr_url_decode, holds the length. The operations on byte arrays other than the stream append set errno to ENOSPC exactly if the result would not fit, and leave it alone otherwise, also when a copy fails because it starts behind the end.", "quantifier": "all texts, all buffers, all earlier values of errno and of the size, all histories of a byte array", "why_tests_cant": "Tests look at errno after a few failing calls; that it is set after every failing call and never by another is about all inputs.", "anchors": ["src/charstr.c:charstr_url_decode", "src/base64.c:base64_decode_buffer", "src/base64.c:base64_decode_simple", "src/bytearray.c:byte_array_copy", "src/bytearray.c:byte_array_append", "src/bytearray.c:byte_array_resize", "src/bytearray.c:ensure_space"]}
{"id": "C132", "title": "The project's test programs pass whatever the data", "statement": "test/avltest.c passes for any comparison that is a total preorder and any elements with different keys, however many, and leaves nothing but three empty trees; test/priorq_test.c passes for the same and frees everything; test/priorq_perf.c, whose elements lie in memory and note their own locators, runs to its end for any elements with different keys of any length, and changes nothing but these notes (for equal keys its tree part loses the elements that are replaced, its queue parts lose nothing); test/intset_test.c passes for any selection of elements of a set of any size; test/base64_test.c passes for any strings with their encodings in its table; test/charstr_normalization_test.c accepts a line exactly if its five columns are related by normalization as NormalizationTest.txt says they should be, and a file of such lines, comments and titles exactly if all lines are so, and it frees all memory; test/date_test.c passes exactly if gmtime_r gives the calendar date for each moment compared, up to the year 9999; test/charstr_idna_test.c accepts a file of any lines (whose names charstr_idna_encode can deal with, see C64) exactly if on each line with at least four fields the encoding of the first field is refused or is the one that the line gives, and it frees all memory.", "quantifier": "all comparisons, all sequences of elements, all heaps, all tables of strings, all lines of columns, all contents of uninitialized memory", "why_tests_cant": "The programs are the unit tests. A run is about one million random keys, five strings or one file of lines; that no other data would make them fail is beyond them.", "anchors": ["test/avltest.c:main", "test/priorq_test.c:test_correctness", "test/priorq_perf.c:test_performance", "test/intset_test.c:main", "test/base64_test.c:main", "test/charstr_normalization_test.c:test_normalization", "test/charstr_normalization_test.c:decode_line", "test/charstr_normalization_test.c:main", "test/charstr_idna_test.c:test", "test/charstr_idna_test.c:main", "test/date_test.c:test_epoch_to_utc", "src/avltree.c:avl_tree_put", "src/avltree.c:avl_tree_pop", "src/avltree.c:avl_tree_copy", "src/priority_queue.c:priorq_dequeue"]}
{"id": "C133", "title": "Threads may take and give up references of the same byte array", "statement": "Threads that each have a reference of a byte array may take further references with share_byte_array and give theirs up with destroy_byte_array while others do the same: the array stays allocated as long as one of them has a reference, and is freed, once, when the last reference is given up.", "quantifier": "any number of threads, every sequence of such calls in each, every schedule of their single memory accesses", "why_tests_cant": "Whether a change of the counter is lost depends on the schedule of single accesses, which tests cannot control and hardly ever meet.", "anchors": ["src/bytearray.c:share_byte_array", "src/bytearray.c:destroy_byte_array", "include/bytearray.h"]}
{"id": "C134", "title": "Operations that should take constant time do", "statement": "Appending, prepending, inserting before an element, removing an element, taking the first or last value, stepping forward and backward, and asking for the size of a list take a number of memory accesses that is bounded by a constant, however long the list is; so do removing a known element from a hash table (however many keys share its slot), the size and emptiness of tables and trees, keys and values of elements, adding to, removing from and looking in an integer set of any size, the size, the first and the last element of a priority queue, and share, destroy, size, data and clear of a byte array.", "quantifier": "every argument of these functions and every content of the memory (also memory that does not hold a list, table, ... at all)", "why_tests_cant": "Tests measure no time and use small objects; that no loop is hidden on any path is a statement about all states.", "anchors": ["src/list.c:list_append", "src/list.c:list_insert_before", "src/list.c:list_remove", "src/list.c:list_pop_last", "src/list.c:list_size", "src/hashtable.c:hash_table_detach", "src/hashtable.c:hash_table_size", "src/avltree.c:avl_tree_size", "src/intset.c:intset_add", "src/priority_queue.c:priorq_pop", "src/bytearray.c:byte_array_clear"]}
{"id": "C135", "title": "A hash table finds keys by what they say, while they stay as they are", "statement": "The keys of a hash table are usually addresses of strings or structures, and its hash and comparison functions read what is there. When these functions compute an equality of contents and a hash value that respects it, the table is a map from contents to values: a key is found through any address of equal contents, no other key is found, putting, replacing and popping do what they should, and nothing else in memory changes. This holds while the program changes, allocates and frees other memory at will, as long as the keys that are in the table are not altered and do not lie in the table. hash_string together with strcmp are such functions.", "quantifier": "every type of keys that can be read from memory, all callbacks that compute an equality of it and a hash value, every sequence of operations with arbitrary changes of other memory in between", "why_tests_cant": "Tests use integer keys or string literals, which never move or change; here the contents are read again at every call, from memory that changes.", "anchors": ["src/hashtable.c:hash_table_get", "src/hashtable.c:hash_table_put", "src/hashtable.c:hash_table_pop", "src/hashtable.c:hash_string", "src/hashtable.c:make_hash_table", "include/hashtable.h:hash_table_put"]}
{"id": "C136", "title": "An AVL tree orders keys by what they say, while they stay as they are", "statement": "The keys of an AVL tree are usually addresses of strings or structures, and its comparison function reads what is there. When this function computes a total preorder of contents, the tree is a sorted map from contents to values: a key is found through any address of equal contents, no other key is found, the neighbours of a key are the nearest ones in the order, the traversal is sorted, putting, replacing, popping and copying do what they should, and nothing else in memory changes. This holds while the program changes, allocates and frees other memory at will, as long as the keys that are in the tree are not altered. strcmp is such a function, and its order is that of a dictionary.", "quantifier": "every type of keys that can be read from memory, all callbacks that compute a total preorder of it, every sequence of operations with arbitrary changes of other memory in between", "why_tests_cant": "Tests use integer keys or string literals, which never move or change; here the contents are read again at every call, from memory that changes.", "anchors": ["src/avltree.c:avl_tree_get", "src/avltree.c:avl_tree_put", "src/avltree.c:avl_tree_pop", "src/avltree.c:avl_tree_get_before", "src/avltree.c:avl_tree_get_on_or_before", "src/avltree.c:avl_tree_get_after", "src/avltree.c:avl_tree_get_on_or_after", "src/avltree.c:avl_tree_copy", "include/avltree.h:avl_tree_put"]}
{"id": "C137", "title": "A priority queue orders elements by what they say and keeps their own notes of their place right", "statement": "The elements of a priority queue are usually addresses of structures: the comparison function reads them and the reloc function writes the locator into them. When the comparison computes a total preorder of what the elements say, and reloc changes nothing but the noted locator, dequeue and peek give a least element by what it says, emptying the queue gives all elements in order, each element has noted a locator of its own at all times, removing with that noted locator returns exactly this element, an element may be taken out, changed and put back, size and emptiness are right, an empty queue gives NULL, and nothing else in memory changes. Destroying the queue frees its own memory and no element. This holds while the program changes, allocates and frees other memory at will, as long as the queued elements say the same and keep their notes.", "quantifier": "every type of elements that can be read from memory, all callbacks that compute a total preorder and note locators, every sequence of operations with arbitrary changes of other memory in between", "why_tests_cant": "Tests use a few integers and ignore or count the locators; here the notes are in the same memory as the queue, every move of an element writes to it, and later calls depend on them.", "anchors": ["src/priority_queue.c:make_priority_queue_2", "src/priority_queue.c:destroy_priority_queue", "src/priority_queue.c:assign", "src/priority_queue.c:raise", "src/priority_queue.c:lower", "src/priority_queue.c:priorq_enqueue", "src/priority_queue.c:priorq_dequeue", "src/priority_queue.c:priorq_peek", "src/priority_queue.c:priorq_pop", "src/priority_queue.c:priorq_remove", "include/priority_queue.h:priorq_remove"]}
{"id": "C138", "title": "Sorting by date is sorting by epoch", "statement": "From 1600-03-01 to the last day whose number fits an int, epoch_to_utc gives a result, and one epoch is before another exactly if its result is: by year, then month, day, hour, minute and second. So no two epochs have the same result. This holds before 1970 as well, although the fields are not in their normal ranges there (C09).", "quantifier": "all pairs of epochs in this range", "why_tests_cant": "The claim is about all pairs of epochs, with borders of days, months, leap years, centuries and the change of sign at 1970 between them.", "anchors": ["src/date.c:epoch_to_utc", "src/date.c:YDAY_INFO", "include/date.h:epoch_to_utc"]}
{"id": "C139", "title": "Strings in UTF-8 remain UTF-8", "statement": "If charstr_valid_utf8 accepts a string, it accepts every part that charstr_split or charstr_split_into_array makes of it at an ASCII character, that charstr_split_str makes at a string it accepts (empty or not), and that charstr_split_atoms makes; what charstr_strip returns; what charstr_skip_prefix and charstr_case_skip_prefix leave after a prefix it accepts; and the string after charstr_lcase_str and charstr_ucase_str. charstr_case_cmp and any comparison of bytes order UTF-8 strings as their codepoints are ordered.", "quantifier": "all strings charstr_valid_utf8 accepts (overlong encodings, C48, included), all delimiters, prefixes and limits; for the order: all sequences of scalar values", "why_tests_cant": "Whether a delimiter's bytes can be found in the middle of a codepoint, or a part can end in one, depends on every combination of neighbouring encodings.", "anchors": ["src/charstr.c:charstr_split", "src/charstr.c:charstr_split_into_array", "src/charstr.c:charstr_split_str", "src/charstr.c:charstr_split_atoms", "src/charstr.c:charstr_strip", "src/charstr.c:charstr_skip_prefix", "src/charstr.c:charstr_case_skip_prefix", "src/charstr.c:charstr_lcase_str", "src/charstr.c:charstr_ucase_str", "src/charstr.c:charstr_case_cmp", "src/charstr.c:charstr_valid_utf8"]}
{"id": "C140", "title": "Lists of strings survive URL encoding", "statement": "Strings of any content, URL-encoded one by one and joined by a delimiter the encoder never emits, come back from charstr_split and charstr_url_decode: as many as there were, in the same order, each unchanged. The same holds for records of fields with two delimiters (key=value&key=value). A custom encoder never emits a character it was told to reserve, except '%', '+', digits and the letters A-F, which are parts of other encodings; charstr_url_encode never emits any of !#$&'()*,:;=?@[, newline and space.", "quantifier": "all non-empty lists (of lists) of strings without NUL, all encoders that leave '%' and '+' reserved, all delimiters they never emit, all limits of charstr_split that are large enough", "why_tests_cant": "The delimiter may occur anywhere in the data, fields may be empty, and any number of fields of any length may be neighbours.", "anchors": ["src/charstr.c:charstr_url_encode", "src/charstr.c:charstr_create_url_encoder", "src/charstr.c:charstr_url_custom_encode", "src/charstr.c:charstr_url_decode", "src/charstr.c:charstr_split"]}
{"id": "C141", "title": "The case of ASCII letters in host names does not matter", "statement": "charstr_idna_encode gives the same result for any two host names that charstr_case_cmp considers equal.", "quantifier": "all pairs of host names that differ only in the case of ASCII letters", "why_tests_cant": "A letter may be followed by any combining characters, and the result of composing them may depend on its case.", "anchors": ["src/charstr_puny.c:charstr_idna_encode", "src/charstr.c:charstr_case_cmp"]}
{"id": "C142", "title": "The encoding of a host name ends with that of its parent domain", "statement": "If charstr_idna_encode encodes the name a.b, it also encodes its parent domain b, and the encoding of a.b is something followed by a dot and the encoding of b, so that comparing encoded names tells whether a host belongs to a domain.", "quantifier": "all names a and b in UTF-8, all contents of uninitialized memory", "why_tests_cant": "Normalization, mapping and the limits apply to the whole name at once; tests try a few names.", "anchors": ["src/charstr_puny.c: charstr_idna_encode, encode_nfc, encode_filtered, punycode_encode", "src/charstr_unicode.c: charstr_unicode_canonically_composed"]}
