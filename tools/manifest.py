#!/usr/bin/env python3
# Generates /verif/MANIFEST.json: the theorems named Cnn_* in theories/*Props.v,
# with the status and note of the table below.
import json, re, glob, os
here = os.path.dirname(os.path.abspath(__file__)) + '/..'
STATUS = {}
def s(id, status, note=""):
    STATUS[id] = (status, note)

s("C01", "proved")
s("C02", "proved")
s("C03", "proved")
s("C04", "partial", "The statement is false of the code (missing comma in the decoding table: 0xFF decodes as 0, DEL counts as whitespace): refuted by witness; proved for texts without 0x7F/0xFF, and the exact language accepted is characterised for all texts.")
s("C05", "proved")
s("C06", "proved", "Stated against an integer definition of binary64 and again against Flocq's B2R (the latter uses the standard library's real-number axioms).")
s("C07", "proved", "As C06.")
s("C08", "proved")
s("C09", "partial", "False of the code: C division truncates, so every negative epoch that is not midnight yields negative time fields (C09_refuted, C09_refuted_always). Proved: what the fields mean for every epoch back to 1600-03-01, and exactly when all of them are in their normal ranges (C09_normal_exact).")
s("C10", "proved")
s("C11", "proved")
s("C12", "proved")
s("C13", "proved")
s("C73", "partial", "False of the code: word count wraps for the 63 largest sizes; results above INT_MAX become negative; above 2^32-64 a search without a hit (intset_empty of an empty set) never ends, and above 64*(2^32-1) intset_fill never ends. Proved: right modulo 2^32 up to size 2^32-64; above it, the exact result of the search that goes round.")
s("C14", "proved")
s("C15", "partial", "Bounds proved for every callback within its contract; NUL termination proved for callbacks that leave the buffer alone when they deliver nothing, refuted otherwise (C15_refuted).")
s("C16", "proved")
s("C17", "proved")
s("C18", "proved")
s("C36", "proved")
s("C37", "proved")
s("C38", "proved")
s("C39", "proved", "For every comparator, legal or not.")
s("C40", "proved")
s("C41", "proved")
s("C42", "partial", "False of the code: five entries of the class table are misplaced (C42_refuted; their content: C42_misplaced_exact). Proved for all other bytes.")
s("C43", "proved")
s("C44", "proved", "For delimiters other than NUL.")
s("C45", "proved", "Also what happens with an empty delimiter.")
s("C46", "partial", "False of the code: whitespace is ' ', BS, HT, LF, VT instead of the documented set (C46_refuted). Proved with the documented set for strings without BS, VT, FF, CR, and for all strings with the set the code uses.")
s("C47", "proved")
s("C48", "partial", "False of the code: overlong forms are accepted (C48_refuted). Proved: exactly the one- to four-byte patterns of scalar values are accepted, so overlong forms are the only deviation.")
s("C49", "proved")
s("C50", "proved")
s("C51", "proved")
s("C52", "proved")
s("C53", "proved")
s("C54", "proved")
s("C55", "partial", "False of the code for three bytes: double quote, closing bracket, closing brace (C55_refuted). Proved for all others.")
s("C19", "proved")
s("C20", "proved")
s("C21", "proved")
s("C22", "proved")
s("C23", "proved")
s("C24", "proved")
s("C25", "proved")
s("C26", "proved")
s("C27", "proved")
s("C28", "proved")
s("C29", "proved")
s("C30", "proved")
s("C31", "proved")
s("C32", "partial", "false of the code: avl_tree_put of the same key and value replaces the element and returns the old one (C32_put_identical_refuted). C32_put_identical_partial: the keys and values are unchanged, and exactly what is returned.")
s("C33", "proved")
s("C34", "proved")
s("C35", "proved")
s("C74", "partial", "False of the code for lists of more than INT_MAX elements: the int counter overflows (C74_negative_index_refuted, C74_exact). Proved for all shorter lists.")
s("C71", "proved")
s("C72", "proved")
s("C69", "partial", "False of the code: the size multiplication can wrap (C69_refuted; in general: C69_exact). Proved for products below 2^64.")
s("C70", "proved")
s("C56", "partial", "False of the code for Hangul: a syllable whose decomposition does not fit is returned undecomposed (C56_refuted). Proved when the decomposition fits, and for all strings without Hangul syllables; C56_exact says for every string and every amount of space whether the call succeeds and what it writes.")
s("C57", "partial", "False of the code for Hangul in the same way (C57_refuted). Proved: NULL for a valid string only for lack of space, always NULL for lack of space without Hangul syllables, always NULL for bad UTF-8 (EILSEQ unless space runs out first). C57_exact and C57_invalid_exact say when each error is returned.")
s("C58", "proved")
s("C59", "proved", "For any input the canonical composition algorithm of the standard; for NFD input the result is the NFC.")
s("C60", "partial", "False of the code for strings with an overlong NUL (C60_refuted). Proved for all others.")
s("C61", "proved")
s("C68", "partial", "False of the code in gaps before a lone codepoint (C68_unassigned_refuted: U+0378 gives Lm). Proved for all assigned codepoints and any data file of the format; C68_unassigned_exact_partial says exactly what unassigned codepoints get.")
s("C75", "proved")

s("C67", "partial", "Mapping proved for every codepoint. Status proved for every codepoint except U+2FA1D, U+3134A and U+E01F0..U+10FFFF, where the claim is false (C67_status_refuted): all predicates return false and charstr_idna_status returns '?'. C67_generator describes the generator exactly for every input file.")
s("C62", "proved")
s("C63", "partial", "False of the code: empty labels are accepted (C63_refuted). Proved: the characters, labels of at most 63 characters, names of at most 253 (252 without final dot).")
s("C64", "partial", "False of the code: a name of ignored codepoints creates a zero-length array (C64_refuted_undefined) and an ASCII label of more than 63 characters next to a non-ASCII label fails an assertion (C64_refuted_abort). C64_safe_partial proves that these are the only cases; C109 says for which names they occur.")
s("C65", "partial", "False of the code: labels other than the last may end with a hyphen (C65_refuted). Proved for the beginning of every label and the end of the name.")
s("C66", "proved")
s("C76", "partial", "False of the code: U+1D160 expands threefold and is rejected (C76_refuted_room), a mapped name of more than 254 UTF-8 bytes is rejected though its encoding is short (C76_refuted_long). C76_complete_partial proves acceptance in all other cases; C109 is the exact condition.")
s("C77", "partial", "False of the code: overlong forms are accepted (C77_refuted). Proved for all other invalid strings.")
s("C78", "partial", "False of the code: nonspacing marks are accepted at the beginning of a label (C78_refuted). Proved for spacing marks (Mc).")
s("C79", "partial", "False of the code where decomposition expands threefold (C79_refuted) and between ASCII and other names (C79_refuted_ascii). Proved for non-ASCII names otherwise.")
s("C80", "proved")
s("C81", "partial", "False of the code: labels that already begin with xn-- are accepted (C81_refuted). Proved for names without such labels.")
s("C82", "partial", "False of the code: the name is not normalized again after the mapping (C82_refuted). Proved when the mapping changes nothing.")
s("C83", "proved")
s("C84", "proved")
s("C85", "proved")
s("C86", "proved")
s("C87", "proved")
s("C88", "proved", "The C library's formatter is abstract: any output or an error.")
s("C89", "proved", "Recomposition: for strings without U+0000 (an overlong NUL), when it succeeds; it does unless a character has more than 100 combining characters.")
s("C90", "proved", "The comparator calls are counted by copies of the functions with a counter, which the theorems show to be the same functions otherwise.")
s("C91", "proved", "For lines that end with a newline; with carriage return and newline the status of a line that ends after it is not recognized (C91_carriage_return).")
s("C92", "proved", "The format demands ascending codepoints and no carriage returns. That the files of the repository have the formats is checked by tools/check_ucd.py, not by a theorem.")
s("C93", "proved", "Within one operation the answers are a function of the two keys and the context; they may differ between operations.")
s("C94", "proved", "The read callback writes to the buffer it is given only and leaves it alone when it delivers nothing.")
s("C95", "partial", "False of the code: when the array has to move, the source is in a block that has been freed (C95_refuted). Proved exactly when it works, and exactly as long as a pointer stays valid.")
s("C96", "proved", "The reallocations are recorded by the model's allocator, in a list the code does not read.")
s("C97", "proved", "Within one operation the answers are functions of the keys; they may differ between operations.")
s("C98", "partial", "False of the code in one case (C98_refuted): removing the element of the last slot when the function puts it before the element above it. The _partial theorems cover everything else, C98_misplaced says exactly what happens in that case.")
s("C99", "partial", "False of the code (C99_refuted): an element of the last slot whose priority has been raised stays queued when it is removed, and another element is lost. The _partial theorems cover every other slot and every change that does not put the element before another; C99_lost is the exact effect of the rest.")
s("C100", "proved", "All four splitting functions on the heap; C100_release frees what they return.")
s("C101", "proved", "All paths of charstr_idna_encode, with the work areas on the heap.")
s("C102", "proved", "C102_call and C102_memory for lawful programs, in terms of sets, multisets and byte sequences; C102_independent for all programs without undefined behaviour.")
s("C103", "partial", "False in general (C103_refuted: out-of-bounds read at 1600-02-29, signed overflow in the year 5 881 210; C103_refuted_wraps: dates repeat after 2^32 days). C103_defined_partial says exactly for which integers it is defined.")
s("C104", "partial", "False if the callback removes the current element (C104_refuted: read of a freed element, for every such callback). Every other change is covered by C104_foreach_partial and C104_visits_partial; C104_removing_loop is the part about loops, in full.")
s("C105", "proved", "In full, for tables and trees. (include/hashtable.h does not promise that an element stays valid while others are removed; the code keeps it.)")
s("C106", "partial", "True of AVL trees (C106_tree_partial). False of hash tables: with two keys in one bucket and a function without fixed points the loop never ends (C106_refuted, for every such table). C106_table_partial covers tables without collisions and idempotent functions.")
s("C107", "proved", "In full, with the depth as an argument of the functions of the model.")
s("C108", "proved", "In full, for functions that record the keys they compare; that the hash function is called once is how the functions are defined.")
s("C109", "proved", "In full: the four outcomes (an encoding, NULL, abort, undefined behaviour) are each characterized by an equivalence.")
s("C110", "proved", "In full, for all four forms and for invalid strings as well.")
s("C111", "proved", "For all programs of makes, actions and destroys. The strings are those of C100 and C117, except for charstr_split_into_array; a list of strings and its strings are separate things. Data for byte arrays comes from the caller (C102 has data from other byte arrays).")
s("C112", "partial", "False at 0: the NUL is written to a block of no bytes, undefined in every memory (C112_refuted). All other sizes are proved (C112_made_partial).")
s("C113", "proved", "For all histories and all comparison functions; n + 1 < 2^60 so that the size of the storage in bytes fits.")
s("C114", "proved", "The links are counted by copies of the functions that are proved to be the functions of the model (C114_same).")
s("C115", "proved", "The slots are recorded by copies of the functions that are proved to be the functions of the model (C115_same).")
s("C116", "proved", "The table is modelled as one block of 1024 bytes, and every access as one to a byte of it.")
s("C117", "proved", "The content of the block is that of the models of C04, C46, C50, C54 and C71; strings of fewer than 2^60 bytes for the Base64 functions.")
s("C118", "proved", "The line buffer of getline(3) is modelled as a new block for each line. Lines on which an assertion of the generator fails are outside.")
s("C119", "proved", "The functions are written a second time with limits for the number of elements of local arrays and for the depth of the recursion, and proved equal to those without limits; smaller limits are refuted. The bytes of a stack frame are not modelled. The recursion of AVL trees is bounded by C107.")
s("C120", "partial", "A comma is missing in the decoding table: the entries of DEL and of the byte 0xFF are wrong (C120_refuted). All others are right, and on them the tables are inverse to each other.")
s("C121", "partial", "False: strings with many combining characters in the wrong order take time quadratic in their length (C121_refuted_family), so no linear bound holds (C121_refuted). charstr_idna_encode normalizes host names before it checks their length. Quadratic time is an upper bound for all strings (C121_quadratic_partial), and the time is linear for strings without long sequences of combining characters (C121_linear_partial). The functions with costs are the same functions (C121_same).")
s("C122", "proved", "The constant is 102, because no more than 100 combining characters are kept (longer sequences are refused with ENOBUFS, C59). The functions with costs are the same functions (C122_same).")
s("C123", "proved", "For programs that end normally (C123_once, C123_end). A smart pointer that was declared without make_..._ptr or has been moved from may have an empty deleter; handing it an object with reset() ends the program (C123_reset_default), and nothing else does (C123_no_terminate). std::unique_ptr and std::function are modelled from the C++ standard.")
s("C124", "proved", "A program is a tree of calls of functions of the model; each has a description access by access (C124_looks for those that only look, C124_changes) with the same effect. Memory is sequentially consistent, which is no restriction because there are no data races (C124_race_free). Allocation and release are atomic. Not covered: list_copy, avl_tree_copy, list_foreach and appending the bytes of a shared byte array: calls that look at a shared object and change own memory at once.")
s("C125", "proved", "The histories of C23-C35 (and of all theorems that use them) contain such changes (AH_reorder, HH_change), so all those theorems hold after them, too. C125_tree_needed: where keys in the tree have changed places, a lookup misses.")
s("C126", "proved", "C126_needed: with a step that is a multiple of the number of slots all keys collide. Tables for more than 1610612741 keys have 1610612741 slots.")
s("C127", "partial", "False for Base64 with the default characters: where char is unsigned, (char) -1 is 255, which the test for -1 does not recognise. Standard Base64 with '+' or '/' is then rejected, and data is changed by encoding and decoding (C127_round_trip_refuted). hash_string differs for strings that are not ASCII (C127_hash_refuted). Exact behaviour on both platforms: C127_encode, C127_decode, C127_hash. The rest is proved in full.")
s("C128", "proved", "C128_needed: UTF-8 cut inside a character.")
s("C129", "partial", "False for URL encoding and sanitizing: the size of the result can exceed SIZE_MAX for a string that fits in less than half of the address space, and then memory beyond the block is written (C129_url_encode_refuted, C129_sanitize_refuted; exact condition: C129_url_encode, C129_url_encode_default, C129_sanitize). False for sets with a size above SIZE_MAX + 1 - LONG_BIT, which is possible for the elements of a set where size_t has 32 bits (C129_intset_refuted; all other sizes: C129_intset_partial). The rest is proved in full.")
s("C130", "partial", "False if the callback makes the array move (bytes go to freed memory: C130_refuted, C130_moved), destroys it (C130_destroyed) or changes its length in place (bytes go to the wrong place: second part of C130_refuted). C130_callback_partial: it holds for any operations on other arrays, and for those on the array itself that leave its length and its place.")
s("C131", "proved", "fsalloc is taken to leave errno alone when it succeeds.")
s("C132", "proved", "The programs of test/ that work on concrete data only (bytearray_test.c, charstr_test.c, float_test.c) are not included. The columns in the file of charstr_normalization_test.c have normal forms that fit its arrays. The limit on the height in avltest.c is computed with doubles there and with integers here.")
s("C133", "partial", "False: the counter is changed by a plain read and write (C133_race_refuted). Two threads that give up the last two references may leave the array allocated for ever (C133_leak_refuted), and an array may be freed while a thread has a reference (C133_use_after_free_refuted). C133_locked_partial: true if only one thread at a time is in a call, for any number of threads and any order of the calls.")
s("C134", "proved", "Each function has the same effect, in every state of the memory, as a sequence of at most so many accesses. An access to a block counts as one; allocation and release count as one, as the allocator is not part of the library.")
s("C135", "proved", "The callbacks are functions on the heap; a key is the address of a block with contents that the callbacks can read. The callbacks change no memory. strcmp is written from the C standard. The example shows that a key that is altered in place is lost.")
s("C136", "proved", "The callback is a function on the heap; a key is the address of a block with contents that the callback can read. The callback changes no memory. strcmp is written from the C standard. The example shows that a key that is altered in place is lost.")
s("C137", "proved", "Both callbacks are functions on the heap; an element is the address of a block that the comparison can read and reloc can write. An element is in the queue at most once. Fewer than 2^60 elements. The theorems are about queues with a reloc function; those without are in C36-C39.")
s("C138", "proved")
s("C139", "proved")
s("C140", "proved")
s("C141", "partial", "False of the code: H with U+0331 is xn--h-oeb, h with U+0331 is xn--ckg (C141_refuted), since the mapped name is not normalized again. Proved for ASCII names, and for others if their NFC forms differ only in the case of ASCII letters (with the exceptions of C79), or if charstr_unicode_canonically_composed says of one of them that it is composed.")
s("C142", "partial", "False of the code: U+4E00 . U+1D160 is encoded, but U+1D160 is not (C142_refuted), since the space for decomposition depends on the size of the whole name. Proved for ASCII names, and for others if charstr_unicode_canonically_composed says of both parts that they are composed and the encoding does not end in a dot; conversely, composed names that are encoded can be joined while they are short enough.")
thms = {}
for f in sorted(glob.glob(here + '/rocq/theories/*Props*.v')):
    for m in re.finditer(r'^Theorem ((C\d\d+)_\w+)', open(f).read(), re.M):
        thms.setdefault(m.group(2), []).append(m.group(1))
ids = [json.loads(l)["id"] for l in open(here + '/properties.jsonl')]
claims = []
for i in ids:
    if i in STATUS:
        st, note = STATUS[i]
        if not thms.get(i): print("no theorems for", i)
        claims.append(dict(property=i, status=st, theorems=thms.get(i, []), note=note))
    elif i in thms:
        print("theorems without status:", i, thms[i])
for i in thms:
    if i not in ids: print("theorem for unknown property", i)
json.dump({"claims": claims}, open(here + '/MANIFEST.json', 'w'), indent=1)
print(len(claims), "claims,", sum(len(c["theorems"]) for c in claims), "theorems")
