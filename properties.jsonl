{"id": "C01", "title": "Vector behaves as a sequence", "statement": "Starting from vt_vec_create, any sequence of push_back, push_front, insert, set, remove (stable or fast), pop, clear, reserve, shrink and resize-to-smaller calls whose arguments satisfy the documented ranges leaves the vector holding exactly the elements that the same operations produce on a plain mathematical sequence; vt_vec_len is the sequence length and vt_vec_get(v,i) yields the bytes of its i-th element. Nothing is lost, duplicated or reordered, whatever reallocations happen on the way, in debug and release builds alike.", "quantifier": "all element sizes, all initial capacities, all finite operation sequences with in-range arguments and no size_t overflow", "why_tests_cant": "tests run one short scripted sequence on doubles; the number of sequences, element sizes and growth points is unbounded", "anchors": ["src/vita/container/vec.c: vt_vec_create, vt_vec_push_back, vt_vec_push_front, vt_vec_insert, vt_vec_set, vt_vec_get, vt_vec_remove, vt_vec_pop, vt_vec_clear, vt_vec_reserve, vt_vec_shrink, vt_vec_resize"]}
{"id": "C02", "title": "Out-of-range vector access is stopped in debug builds", "statement": "In a debug build a call to vt_vec_get, vt_vec_set, vt_vec_insert or vt_vec_remove with an index at or beyond vt_vec_len terminates the process before any memory is read or written; it never returns and never corrupts memory.", "quantifier": "all vectors, all indices >= length, all values", "why_tests_cant": "tests would need to observe the absence of every out-of-bounds access for every index", "anchors": ["src/vita/container/vec.c: vt_vec_get, vt_vec_set, vt_vec_insert, vt_vec_remove", "src/vita/container/common.c: vt_array_get, vt_array_set"]}
{"id": "C03", "title": "Vector memory safety in debug builds for arbitrary calls", "statement": "In a debug build, whatever sequence of vector calls a program makes, with arbitrary (also invalid) indices, counts and strategies, as long as byte sizes stay below the addressable limit the vector never reads or writes outside its storage and always satisfies length <= capacity with storage of exactly capacity*elsize bytes: every call either succeeds or terminates the process.", "quantifier": "all finite call sequences with arbitrary arguments whose sizes do not overflow", "why_tests_cant": "memory safety over all call sequences cannot be sampled", "anchors": ["src/vita/container/vec.c", "src/vita/container/common.c"]}
{"id": "C04", "title": "Oversized vector requests are rejected", "statement": "vt_vec_create and vt_vec_reserve either provide storage for the capacity they then report or terminate the process; they never report a capacity larger than the memory obtained.", "quantifier": "all element counts and element sizes representable in size_t", "why_tests_cant": "requires multiplications that wrap around 2^64; tests never allocate near the limit", "anchors": ["src/vita/container/vec.c: vt_vec_create, vt_vec_reserve"]}
{"id": "C05", "title": "Vector removal strategies", "statement": "vt_vec_remove with the stable strategy deletes exactly the addressed element and keeps the relative order of all others; with the fast strategy it deletes exactly the addressed element, moves the former last element into its place and leaves every other position unchanged, so the remaining elements are a permutation of the stable result.", "quantifier": "all vectors and all valid indices, both strategies", "why_tests_cant": "tests check a few positions of one seven-element vector", "anchors": ["src/vita/container/vec.c: vt_vec_remove", "src/vita/core/core.c: vt_gswap, vt_memmove"]}
{"id": "C06", "title": "Vector search finds the first occurrence", "statement": "vt_vec_can_find returns i exactly when element i equals the value byte for byte and no earlier element does, and returns -1 exactly when no element equals it; the vector is not modified.", "quantifier": "all vectors, all values", "why_tests_cant": "quantifies over all contents and duplicates", "anchors": ["src/vita/container/vec.c: vt_vec_can_find"]}
{"id": "C07", "title": "Forward sliding enumerates every element once", "statement": "Starting from a fresh or reset slider, the first len calls of vt_vec_slide_front (also vt_str_slide_front, vt_plist_slide_front) yield the elements 0,1,...,len-1 in order, the next call yields NULL and resets the slider, so that repeated sweeps are identical.", "quantifier": "all containers of every length, any number of sweeps", "why_tests_cant": "unbounded number of calls and lengths", "anchors": ["src/vita/container/common.c: vt_array_slide_front, vt_array_slide_reset", "src/vita/container/plist.c: vt_plist_slide_front"]}
{"id": "C08", "title": "Backward sliding enumerates every element once in reverse", "statement": "Starting from a fresh or reset slider, the first len calls of vt_vec_slide_back (vt_str_slide_back, vt_plist_slide_back) yield the elements len-1,...,0 and the next call yields NULL.", "quantifier": "all containers of every length", "why_tests_cant": "tests never call slide_back; the property ranges over all lengths", "anchors": ["src/vita/container/common.c: vt_array_slide_back", "src/vita/container/plist.c: vt_plist_slide_back"]}
{"id": "C09", "title": "Appending is amortised constant time", "statement": "Appending n elements one by one to a fresh vector performs at most logarithmically many reallocations, and the total number of elements moved by all those reallocations is at most proportional to n.", "quantifier": "all n and all initial capacities", "why_tests_cant": "asymptotic statement over unbounded n", "anchors": ["src/vita/container/vec.c: vt_vec_push_back, vt_vec_reserve"]}
{"id": "C10", "title": "Vector duplicate is equal and independent", "statement": "vt_vec_dup of a non-empty vector has the same length, element size and elements, with capacity equal to the length; afterwards operations on one vector never change the other.", "quantifier": "all non-empty vectors and all later operation sequences on either copy", "why_tests_cant": "requires all later histories", "anchors": ["src/vita/container/vec.c: vt_vec_dup"]}
{"id": "C11", "title": "Vector resize keeps the common prefix", "statement": "vt_vec_resize(v,n) with n>0 makes length and capacity n and keeps the first min(len,n) elements unchanged.", "quantifier": "all vectors, all n > 0 without overflow", "why_tests_cant": "ranges over all lengths and contents", "anchors": ["src/vita/container/vec.c: vt_vec_resize"]}
{"id": "C12", "title": "Pointer list behaves as a sequence of pointers", "statement": "Any sequence of vt_plist_push_back, push_front, insert, set, remove, remove_element, pop, clear, reserve, shrink calls with in-range arguments leaves the list holding the pointers that the same operations produce on a mathematical sequence, and pop_get returns the last pointer or NULL when empty.", "quantifier": "all finite operation sequences with in-range arguments and no size overflow", "why_tests_cant": "unbounded histories", "anchors": ["src/vita/container/plist.c"]}
{"id": "C13", "title": "Pointer list element removal and search", "statement": "vt_plist_can_find returns the index of the first occurrence or -1; vt_plist_remove_element removes exactly the first occurrence of the pointer and leaves the list unchanged when it does not occur.", "quantifier": "all lists, all pointers, both strategies", "why_tests_cant": "ranges over all contents and duplicates", "anchors": ["src/vita/container/plist.c: vt_plist_can_find, vt_plist_remove_element"]}
{"id": "C14", "title": "Span is a live view", "statement": "A span built with vt_span_from over n elements reads exactly those elements; a vt_span_set at index i is visible through the underlying storage at element i and nowhere else, and changes of the storage are visible through the span.", "quantifier": "all buffers, lengths, element sizes and indices", "why_tests_cant": "aliasing behaviour for all contents", "anchors": ["src/vita/container/span.c: vt_span_from, vt_span_get, vt_span_set"]}
{"id": "C15", "title": "Span over an index range", "statement": "vt_span_from_to(ptr, from, to, elsize) views exactly elements from..to-1 of ptr for every from <= to.", "quantifier": "all buffers, all ranges with from <= to", "why_tests_cant": "ranges over all index pairs including the boundary from=0", "anchors": ["src/vita/container/span.c: vt_span_from_to"]}
{"id": "C16", "title": "2D index mapping is a bijection", "statement": "For every matrix with ncols > 0 columns, vt_index_1d_to_2d inverts vt_index_2d_to_1d on all in-range coordinates and vice versa, and distinct coordinates get distinct indices (as long as the element count fits size_t).", "quantifier": "all nrows, ncols and coordinates", "why_tests_cant": "tests check one coordinate of a 4x5 matrix", "anchors": ["src/vita/container/common.c: vt_index_2d_to_1d, vt_index_1d_to_2d"]}
{"id": "C17", "title": "3D index mapping is a bijection", "statement": "For every nrows, ncols > 0, vt_index_1d_to_3d inverts vt_index_3d_to_1d on all in-range coordinates and vice versa (as long as the element count fits size_t).", "quantifier": "all dimensions and coordinates", "why_tests_cant": "tests check one coordinate of a 4x5x3 array", "anchors": ["src/vita/container/common.c: vt_index_3d_to_1d, vt_index_1d_to_3d"]}
{"id": "C18", "title": "Core memory helpers", "statement": "vt_gswap exchanges the contents of two disjoint elements and touches nothing else; vt_pswap exchanges two pointers; vt_memcmp returns true exactly when the byte ranges are equal and non-empty; vt_memmove behaves as if through a temporary even when the ranges overlap; vt_status_to_str yields a distinct name for every status and NULL for other values.", "quantifier": "all buffers, offsets and sizes", "why_tests_cant": "overlap cases and contents are unbounded", "anchors": ["src/vita/core/core.c: vt_gswap, vt_pswap, vt_memcmp, vt_memmove, vt_status_to_str"]}
{"id": "C19", "title": "Allocator statistics are exact", "statement": "After any sequence of alloc/realloc/free calls on pointers the allocator owns, the statistic 'bytes currently allocated' equals the sum of the sizes of the live blocks, 'bytes freed' equals the bytes released by frees and shrinking reallocations, and the counters equal the number of successful alloc, realloc and free calls.", "quantifier": "all finite call histories on owned pointers", "why_tests_cant": "unbounded histories; tests never check the statistics", "anchors": ["src/vita/allocator/mallocator.c: vt_mallocator_alloc, vt_mallocator_realloc, vt_mallocator_free"]}
{"id": "C20", "title": "Allocator tracks exactly the live blocks", "statement": "After any sequence of alloc/realloc/free calls on owned pointers the allocator's records contain each live block exactly once with its current size and nothing else, with the bookkeeping table never overrun.", "quantifier": "all finite call histories on owned pointers", "why_tests_cant": "unbounded histories", "anchors": ["src/vita/allocator/mallocator.c: vt_mallocator_obj_list_add, vt_mallocator_obj_list_remove, vt_mallocator_obj_list_resize, vt_mallocator_obj_list_find"]}
{"id": "C21", "title": "Destroying the allocator releases everything exactly once", "statement": "vt_mallocator_destroy frees every block still owned exactly once, frees the bookkeeping, and touches no other block: after it no memory obtained through the allocator is leaked and none is freed twice.", "quantifier": "all finite call histories followed by destroy", "why_tests_cant": "leak and double-free freedom over all histories", "anchors": ["src/vita/allocator/mallocator.c: vt_mallocator_create, vt_mallocator_destroy"]}
{"id": "C22", "title": "Containers with an allocator never leak", "statement": "Creating any number of vectors, lists and strings through an allocator, operating on them and destroying them leaves the allocator with no live block belonging to them; every storage block is freed exactly once.", "quantifier": "all container lifetimes and operation sequences", "why_tests_cant": "leak freedom over all histories", "anchors": ["src/vita/container/vec.c: vt_vec_create, vt_vec_destroy", "src/vita/container/plist.c: vt_plist_destroy", "src/vita/container/str.c: vt_str_create, vt_str_destroy", "src/vita/allocator/mallocator.c"]}
{"id": "C23", "title": "Strings stay terminated and within capacity", "statement": "After any sequence of string operations with valid arguments, vt_str_z is a NUL-terminated C string whose strlen equals vt_str_len, vt_str_len <= vt_str_capacity, and the storage has room for capacity+1 bytes.", "quantifier": "all finite operation sequences with NUL-free arguments", "why_tests_cant": "invariant over all histories", "anchors": ["src/vita/container/str.c"]}
{"id": "C24", "title": "String editing matches sequence editing", "statement": "vt_str_append, append_n, insert, insert_n, remove, clear, set and set_at produce exactly the text obtained by the corresponding edit of the character sequence (concatenate, splice in, cut out with the count clamped at the end, replace the text from a position on), for any capacity and any number of reallocations.", "quantifier": "all strings, arguments and positions in range", "why_tests_cant": "tests check a few literals", "anchors": ["src/vita/container/str.c: vt_str_append, vt_str_append_n, vt_str_insert, vt_str_insert_n, vt_str_remove, vt_str_clear, vt_str_set_n, vt_str_set_at, vt_str_set_c"]}
{"id": "C25", "title": "Substring search", "statement": "vt_str_find / vt_str_index_find return the position of the leftmost occurrence of the substring, or NULL / -1 exactly when it does not occur.", "quantifier": "all strings and substrings", "why_tests_cant": "quantifies over all texts", "anchors": ["src/vita/container/str.c: vt_str_find, vt_str_index_find"]}
{"id": "C26", "title": "Counting occurrences", "statement": "vt_str_can_find returns the number of non-overlapping occurrences found scanning left to right, for every non-empty substring not longer than the string.", "quantifier": "all strings and non-empty substrings", "why_tests_cant": "quantifies over all texts and overlaps", "anchors": ["src/vita/container/str.c: vt_str_can_find"]}
{"id": "C27", "title": "Removing the first occurrence", "statement": "vt_str_remove_first deletes exactly the leftmost occurrence and reports success, or reports not-found and changes nothing when the substring does not occur.", "quantifier": "all strings and substrings", "why_tests_cant": "quantifies over all texts", "anchors": ["src/vita/container/str.c: vt_str_remove_first"]}
{"id": "C28", "title": "Removing the last occurrence", "statement": "vt_str_remove_last deletes exactly the last occurrence of the substring and reports success, or reports not-found and changes nothing when it does not occur.", "quantifier": "all strings and non-empty substrings", "why_tests_cant": "the single test passes by coincidence of positions", "anchors": ["src/vita/container/str.c: vt_str_remove_last"]}
{"id": "C29", "title": "Removing all occurrences", "statement": "vt_str_remove_all terminates for every substring and afterwards the string contains no occurrence of it; a string without occurrences is unchanged.", "quantifier": "all strings and substrings", "why_tests_cant": "termination and absence over all texts", "anchors": ["src/vita/container/str.c: vt_str_remove_all"]}
{"id": "C30", "title": "Removing characters", "statement": "vt_str_remove_c deletes exactly the characters in the given set and keeps all other characters in order.", "quantifier": "all strings and character sets", "why_tests_cant": "quantifies over all texts", "anchors": ["src/vita/container/str.c: vt_str_remove_c"]}
{"id": "C31", "title": "Replacing all occurrences", "statement": "vt_str_replace replaces each occurrence of a non-empty substring found scanning left to right without overlap, never rescanning inserted text, and terminates even when the replacement contains the substring; with an empty substring or replacement nothing changes.", "quantifier": "all strings, substrings and replacements", "why_tests_cant": "termination and correctness over all texts", "anchors": ["src/vita/container/str.c: vt_str_replace"]}
{"id": "C32", "title": "Replacing the first occurrence", "statement": "vt_str_replace_first replaces exactly the leftmost occurrence, and leaves a string without occurrence unchanged.", "quantifier": "all strings, substrings and replacements", "why_tests_cant": "quantifies over all texts including substrings longer than the string", "anchors": ["src/vita/container/str.c: vt_str_replace_first"]}
{"id": "C33", "title": "Replacing the last occurrence", "statement": "vt_str_replace_last replaces exactly the last occurrence, and leaves a string without occurrence unchanged.", "quantifier": "all strings, substrings and replacements", "why_tests_cant": "quantifies over all texts including those without a match", "anchors": ["src/vita/container/str.c: vt_str_replace_last"]}
{"id": "C34", "title": "Replacing characters", "statement": "vt_str_replace_c maps each character that occurs in the source set to the replacement at the same position (or the last replacement when the sets differ in length), changes nothing else, and keeps the length.", "quantifier": "all strings and character sets with |r| <= |c|", "why_tests_cant": "quantifies over all texts", "anchors": ["src/vita/container/str.c: vt_str_replace_c"]}
{"id": "C35", "title": "Stripping whitespace", "statement": "vt_str_strip (strip_punct, strip_c) removes the maximal prefix and suffix consisting of strippable characters and keeps the middle unchanged, for every string.", "quantifier": "all strings, including empty and fully strippable ones", "why_tests_cant": "boundary inputs; memory effects are invisible to assertions", "anchors": ["src/vita/container/str.c: vt_str_strip, vt_str_strip_punct, vt_str_strip_c"]}
{"id": "C36", "title": "Splitting yields the non-empty pieces", "statement": "vt_str_split returns NULL when the separator does not occur and otherwise the list of non-empty pieces between separators, in order, for every string.", "quantifier": "all strings and non-empty separators", "why_tests_cant": "boundary inputs such as strings made of separators only", "anchors": ["src/vita/container/str.c: vt_str_split"]}
{"id": "C37", "title": "Joining and splitting are inverse", "statement": "For non-empty pieces free of the separator, vt_str_split of vt_str_join gives back the pieces, and vt_str_join yields the pieces interleaved with the separator.", "quantifier": "all lists of non-empty pieces and separators", "why_tests_cant": "quantifies over all lists", "anchors": ["src/vita/container/str.c: vt_str_join, vt_str_join_n, vt_str_split"]}
{"id": "C38", "title": "Text between two markers", "statement": "vt_str_split_between returns the text between the first left marker and the next right marker after it, or NULL when there is no such pair.", "quantifier": "all texts and markers", "why_tests_cant": "markers may coincide or appear in the other order", "anchors": ["src/vita/container/str.c: vt_str_split_between"]}
{"id": "C39", "title": "Popping the part before the first separator", "statement": "vt_str_pop_get_first moves the non-empty text before the first separator into the result and leaves the text after the separator in the source; when the separator is absent, or nothing precedes it, nothing changes.", "quantifier": "all strings and separators", "why_tests_cant": "quantifies over all texts", "anchors": ["src/vita/container/str.c: vt_str_pop_get_first"]}
{"id": "C40", "title": "Popping the part after the last separator", "statement": "vt_str_pop_get_last moves the non-empty text after the last separator into the result and leaves the text before the separator in the source; when the separator is absent, or nothing follows it, nothing changes.", "quantifier": "all strings and separators", "why_tests_cant": "quantifies over all texts", "anchors": ["src/vita/container/str.c: vt_str_pop_get_last"]}
{"id": "C41", "title": "String comparison", "statement": "vt_str_equals and vt_str_equals_z hold exactly for equal texts; vt_str_starts_with / ends_with hold exactly when the text has the given prefix / suffix.", "quantifier": "all pairs of strings", "why_tests_cant": "quantifies over all texts", "anchors": ["src/vita/container/str.c: vt_str_equals, vt_str_equals_z, vt_str_equals_n, vt_str_starts_with, vt_str_ends_with"]}
{"id": "C42", "title": "Case conversion", "statement": "vt_str_to_uppercase and vt_str_to_lowercase change exactly the ASCII letters of the other case, keep length and all other bytes, are idempotent, and lower-after-upper equals lower.", "quantifier": "all strings", "why_tests_cant": "quantifies over all texts", "anchors": ["src/vita/container/str.c: vt_str_to_uppercase, vt_str_to_lowercase"]}
{"id": "C43", "title": "Numeric check", "statement": "vt_str_is_numeric accepts exactly the strings made of decimal digits and dots.", "quantifier": "all strings", "why_tests_cant": "quantifies over all texts", "anchors": ["src/vita/container/str.c: vt_str_is_numeric, vt_str_is_numeric_z"]}
{"id": "C44", "title": "Length revalidation", "statement": "After the caller shortened the text in place by writing a NUL, vt_str_validate_len restores length = strlen, keeps the capacity, and re-establishes the string invariant.", "quantifier": "all owned strings and positions of the NUL", "why_tests_cant": "quantifies over all contents", "anchors": ["src/vita/container/str.c: vt_str_validate_len"]}
{"id": "C45", "title": "Views cannot be modified", "statement": "No vt_str operation modifies a view created by vt_str_create_static (its storage may be read-only): attempts terminate the process.", "quantifier": "all mutating operations on views", "why_tests_cant": "needs every mutating entry point", "anchors": ["src/vita/container/str.c: vt_str_create_static, vt_str_clear, vt_str_set_c, vt_str_remove, vt_str_reserve"]}
{"id": "C46", "title": "Unsigned number text round trip", "statement": "For every uint8/16/32/64 value v, converting v to text and back (vt_conv_u*_to_str then vt_conv_str_to_u*) returns v whenever the buffer is large enough, and the conversion refuses buffers that are too small.", "quantifier": "all values of the unsigned types", "why_tests_cant": "2^64 values", "anchors": ["src/vita/core/conv.c"]}
{"id": "C47", "title": "Signed number text round trip", "statement": "For every int8/16/32/64 value v, vt_conv_i*_to_str writes its decimal text with its sign (or ends the program if the buffer is too small), and converting that text back (vt_conv_str_to_i*) returns v.", "quantifier": "all values of the signed types", "why_tests_cant": "2^64 values, negative numbers untested", "anchors": ["src/vita/core/conv.c"]}
{"id": "C48", "title": "Palindrome test", "statement": "vt_math_is_palindrome(n) is true exactly when the decimal digits of n read the same backwards, for every 64-bit n, although the reversed number may overflow 64 bits.", "quantifier": "all 2^64 inputs", "why_tests_cant": "2^64 inputs; overflow wrap-around could create false positives", "anchors": ["src/vita/math/math.c: vt_math_is_palindrome"]}
{"id": "C49", "title": "Greatest common divisor and least common multiple", "statement": "For positive a and b vt_math_gcd returns their greatest common divisor and vt_math_lcm their least common multiple when it fits 64 bits; zero arguments are handled without undefined behaviour.", "quantifier": "all int64 pairs", "why_tests_cant": "2^128 pairs; zero and negative inputs untested", "anchors": ["src/vita/math/math.c: vt_math_gcd, vt_math_lcm"]}
{"id": "C50", "title": "Pseudo random range", "statement": "Every value produced by vt_math_random_u64 lies in its documented range and the sequence is a function of the clock value at the first call and the number of calls only.", "quantifier": "any number of calls", "why_tests_cant": "unbounded sequences", "anchors": ["src/vita/math/math.c: vt_math_random_u64"]}
{"id": "C51", "title": "Minimum, maximum and clamp", "statement": "vt_cmp_min/max return the smaller/larger argument; vt_cmp_clamp(x,l,h) returns l if x<l, otherwise h if h<x, otherwise x, for all integer types.", "quantifier": "all argument triples", "why_tests_cant": "all triples of 64-bit values", "anchors": ["src/vita/algorithm/comparison.c"]}
{"id": "C52", "title": "Leap years follow the Gregorian calendar", "statement": "vt_datetime_is_leap_year is true exactly for years divisible by 4 and not by 100 unless divisible by 400.", "quantifier": "all years in the supported range", "why_tests_cant": "century years", "anchors": ["src/vita/time/datetime.c: vt_datetime_is_leap_year"]}
{"id": "C53", "title": "Days in month and year", "statement": "vt_datetime_find_days_in_month and find_days_in_year return the Gregorian number of days, clamping invalid months as documented.", "quantifier": "all years and months", "why_tests_cant": "century years, clamped inputs", "anchors": ["src/vita/time/datetime.c: vt_datetime_find_days_in_month, vt_datetime_find_days_in_year"]}
{"id": "C54", "title": "Date text round trip", "statement": "For every datetime with a four-digit year and in-range fields, formatting with vt_datetime_to_text / to_text_iso / to_text_iso_ext and parsing back yields the same date and time fields.", "quantifier": "all in-range datetimes and the three formats", "why_tests_cant": "about 10^13 values", "anchors": ["src/vita/time/datetime.c: vt_datetime_to_text, vt_datetime_from_text"]}
{"id": "C55", "title": "Date text validation", "statement": "vt_datetime_is_valid_text (iso, iso_ext) accepts exactly the strings of the documented shape (digits at the digit positions and the documented separators elsewhere) and never reads beyond the end of the string.", "quantifier": "all strings", "why_tests_cant": "all strings of any length", "anchors": ["src/vita/time/datetime.c: vt_datetime_is_valid_text"]}
{"id": "C56", "title": "Datetime creation clamps fields", "statement": "vt_datetime_create brings every field into its documented range and leaves in-range fields unchanged.", "quantifier": "all int16 argument combinations", "why_tests_cant": "2^128 combinations", "anchors": ["src/vita/time/datetime.c: vt_datetime_create"]}
{"id": "C57", "title": "Seconds arithmetic", "statement": "Converting a valid datetime to seconds and back is the identity (fixed UTC offset), ordering of seconds agrees with chronological order, and vt_datetime_op adds days, hours, minutes and seconds.", "quantifier": "all valid datetimes and deltas", "why_tests_cant": "unbounded range of dates", "anchors": ["src/vita/time/datetime.c: vt_datetime_to_secs, vt_datetime_from_secs, vt_datetime_op"]}
{"id": "C58", "title": "Datetime differences", "statement": "vt_datetime_diff_minutes/hours/days equal the second difference divided by 60/3600/86400 truncated toward zero, and vt_datetime_diff decomposes the difference so that days*86400+hours*3600+minutes*60+seconds equals it.", "quantifier": "all pairs of datetimes", "why_tests_cant": "unbounded pairs", "anchors": ["src/vita/time/datetime.c: vt_datetime_diff_secs, vt_datetime_diff"]}
{"id": "C59", "title": "Path basename", "statement": "vt_path_basename yields the part after the last path separator, for every path.", "quantifier": "all paths", "why_tests_cant": "paths with the only separator in front, or none", "anchors": ["src/vita/system/path.c: vt_path_basename"]}
{"id": "C60", "title": "Stepping up a path", "statement": "vt_path_pop shortens a path by its last component, never lengthens it, and stays a prefix of the input; it never touches memory outside the string.", "quantifier": "all paths", "why_tests_cant": "empty and root paths", "anchors": ["src/vita/system/path.c: vt_path_pop"]}
{"id": "C61", "title": "Path building", "statement": "vt_path_build(_n) joins the components with exactly one separator between neighbours; vt_path_validate replaces foreign separators and changes nothing else.", "quantifier": "all component lists, all paths", "why_tests_cant": "quantifies over all lists", "anchors": ["src/vita/system/path.c: vt_path_build, vt_path_build_n, vt_path_validate"]}
{"id": "C62", "title": "Tilde expansion", "statement": "vt_path_expand_tilda replaces a leading ~ by the home directory and returns other paths unchanged.", "quantifier": "all paths and home directories", "why_tests_cant": "path consisting of ~ only", "anchors": ["src/vita/system/path.c: vt_path_expand_tilda"]}
{"id": "C63", "title": "Creating nested directories", "statement": "After vt_path_mkdir_parents(p) returns true, every ancestor of p and p itself exist as directories and nothing else was created.", "quantifier": "all paths and file-system states", "why_tests_cant": "all trees and all paths", "anchors": ["src/vita/system/path.c: vt_path_mkdir_parents"]}
{"id": "C64", "title": "Directory listing", "statement": "vt_path_dir_list returns exactly the entries of the directory except . and .. (and dot files when asked), and the recursive listing returns every descendant exactly once with contents before their directory.", "quantifier": "all directory trees", "why_tests_cant": "all finite trees", "anchors": ["src/vita/system/path.c: vt_path_dir_list, vt_path_dir_list_recurse"]}
{"id": "C65", "title": "Recursive directory removal", "statement": "vt_path_rmdir_recurse removes the directory with all its contents and nothing outside it, and returns true exactly if it did.", "quantifier": "all directory trees", "why_tests_cant": "all finite trees", "anchors": ["src/vita/system/path.c: vt_path_rmdir_recurse"]}
{"id": "C66", "title": "File write/read round trip", "statement": "Reading a file after vt_file_write returns exactly the text written; vt_file_append adds at the end; the ln variants add one newline; other files are untouched.", "quantifier": "all texts, file names and file-system states", "why_tests_cant": "all contents and histories", "anchors": ["src/vita/system/fileio.c: vt_file_write, vt_file_append, vt_file_read, vt_file_writefc"]}
{"id": "C67", "title": "Reading into a caller buffer", "statement": "vt_file_read_to_buffer writes at most buffer_len bytes, namely the first bytes of the file.", "quantifier": "all files and buffer sizes", "why_tests_cant": "all sizes", "anchors": ["src/vita/system/fileio.c: vt_file_read_to_buffer"]}
{"id": "C68", "title": "Command line parsing is faithful", "statement": "vt_argopt_parse stores, for every option given as opt=value, opt value or a bare flag, the value of its last occurrence into its variable, leaves variables of absent options untouched, and reports an error when an argument matches no option.", "quantifier": "all option tables and argument vectors", "why_tests_cant": "unbounded argument vectors", "anchors": ["src/vita/util/argopt.c: vt_argopt_parse"]}
{"id": "C69", "title": "Help detection", "statement": "Parsing reports that help is wanted exactly for a single argument asking for help.", "quantifier": "all argument vectors", "why_tests_cant": "unbounded argument vectors", "anchors": ["src/vita/util/argopt.c: vt_argopt_parse, vt_argopt_is_help"]}
{"id": "C70", "title": "Re-assigning a C-string option is safe", "statement": "Assigning a command line value to a char* option that already holds a string leaves it holding exactly that value, within its allocated memory.", "quantifier": "all old and new values", "why_tests_cant": "heap overflow is invisible to assertions", "anchors": ["src/vita/util/argopt.c: vt_argopt_assign_value"]}
{"id": "C71", "title": "Log routing", "statement": "After redirecting one level or all levels, each log call writes its record to the destination of its own level only; fatal and failed-assert records terminate the program.", "quantifier": "all redirect and log call sequences", "why_tests_cant": "unbounded histories", "anchors": ["src/vita/util/log.c"]}
{"id": "C72", "title": "Checks terminate the program", "statement": "A failed VT_ENFORCE terminates the process in every build whatever the output settings; VT_CHECK never terminates it; a satisfied check has no effect.", "quantifier": "all output settings and conditions", "why_tests_cant": "all settings", "anchors": ["src/vita/util/debug.c: vt_debug_assert"]}
{"id": "C73", "title": "Timed receive", "statement": "vt_socket_receive_timed returns 0 on timeout without touching the buffer, a negative error code on failure, and otherwise the number of bytes received. vt_socket_poll returns its error code exactly if poll fails.", "quantifier": "all outcomes of poll and recv", "why_tests_cant": "needs arbitrary network behaviour", "anchors": ["src/vita/network/sockets.c: vt_socket_receive_timed"]}
{"id": "C74", "title": "Storing a vector's own element", "statement": "Passing a pointer to an element of the same vector (as obtained from vt_vec_get) to vt_vec_push_back, vt_vec_insert or vt_vec_set stores a copy of that element.", "quantifier": "all vectors, element indices and positions", "why_tests_cant": "whether the storage moves during the call depends on capacity history", "anchors": ["src/vita/container/vec.c: vt_vec_push_back, vt_vec_insert, vt_vec_set, vt_vec_get"]}
{"id": "C75", "title": "Pointer list iteration", "statement": "Repeated vt_plist_slide_front visits the pointers in order, then returns NULL and starts over, for any number of sweeps; vt_plist_apply calls the function once per pointer, in order, with its index.", "quantifier": "all lists and any number of sweeps", "why_tests_cant": "unbounded call sequences with hidden state", "anchors": ["src/vita/container/plist.c: vt_plist_slide_front, vt_plist_slide_reset, vt_plist_apply"]}
{"id": "C76", "title": "Pointer list duplicate", "statement": "vt_plist_dup of a non-empty list holds the same pointers with capacity equal to the length.", "quantifier": "all non-empty lists", "why_tests_cant": "all lists", "anchors": ["src/vita/container/plist.c: vt_plist_dup"]}
{"id": "C77", "title": "Allocator memory contents", "statement": "A block from the allocator is zeroed; reallocating keeps the contents up to the smaller of the two sizes wherever the block ends up; no alloc, realloc or free changes the contents of any other live block.", "quantifier": "all call histories, block sizes and address choices of the system allocator", "why_tests_cant": "address reuse and moving reallocations depend on the system", "anchors": ["src/vita/allocator/mallocator.c: vt_mallocator_alloc, vt_mallocator_realloc, vt_mallocator_free"]}
{"id": "C78", "title": "Foreign blocks are not counted", "statement": "vt_mallocator_free of a block that was not obtained from the allocator releases the block and changes neither the statistics nor the records.", "quantifier": "all call histories and foreign blocks", "why_tests_cant": "unbounded histories", "anchors": ["src/vita/allocator/mallocator.c: vt_mallocator_free, vt_mallocator_obj_list_remove"]}
{"id": "C79", "title": "String iteration", "statement": "Calling vt_str_slide_front until it returns NULL visits every character exactly once, in order, and the next call starts over.", "quantifier": "all strings", "why_tests_cant": "unbounded call sequences with hidden state", "anchors": ["src/vita/container/str.c: vt_str_slide_front"]}
{"id": "C80", "title": "Reading numbers from text", "statement": "vt_conv_str_to_u*/i* of a text of decimal digits whose value fits the type returns that value (leading zeros allowed); a text with any other character except dots gives 0.", "quantifier": "all texts, all eight integer types", "why_tests_cant": "unbounded texts", "anchors": ["src/vita/core/conv.c: vt_conv_str_to_*"]}
{"id": "C81", "title": "Out-of-range numbers are rejected", "statement": "vt_conv_str_to_* returns 0 (the documented failure value) for a number that does not fit the target type.", "quantifier": "all digit texts whose value is out of range", "why_tests_cant": "all texts", "anchors": ["src/vita/core/conv.c: vt_conv_str_to_*"]}
{"id": "C82", "title": "Week day and year day", "statement": "vt_datetime_find_week_day and find_year_day return the calendar week day (Monday 1 .. Sunday 7) and day of the year of every valid date.", "quantifier": "all valid dates", "why_tests_cant": "hundreds of thousands of dates, sign of the time stamp", "anchors": ["src/vita/time/datetime.c: vt_datetime_find_week_day, vt_datetime_find_year_day"]}
{"id": "C83", "title": "Pretty date text", "statement": "vt_datetime_to_text_pretty writes exactly 'Www Mmm dd hh:mm:ss yyyy' (24 characters, day padded with a blank) without newline into any buffer of at least 26 bytes.", "quantifier": "all in-range datetimes and buffer sizes", "why_tests_cant": "all dates and sizes", "anchors": ["src/vita/time/datetime.c: vt_datetime_to_text_pretty"]}
{"id": "C84", "title": "Parsed dates carry their week day", "statement": "The week_day and year_day fields of a datetime parsed from text are those of its date.", "quantifier": "all texts of valid dates", "why_tests_cant": "all dates", "anchors": ["src/vita/time/datetime.c: vt_datetime_from_text_fmt"]}
{"id": "C85", "title": "Time stamps name valid dates", "statement": "vt_datetime_from_secs of every time stamp within years 1-32767 is a valid date, and converting it back gives the same time stamp.", "quantifier": "all time stamps", "why_tests_cant": "billions of time stamps", "anchors": ["src/vita/time/datetime.c: vt_datetime_from_secs, vt_datetime_to_secs"]}
{"id": "C86", "title": "Calendar arithmetic normalises", "statement": "vt_datetime_op with arbitrary (also negative, also out-of-range) year, month, day and time deltas yields the valid date reached by carrying months into years and days into months.", "quantifier": "all datetimes and deltas whose result is within years 1-32767", "why_tests_cant": "all combinations of deltas", "anchors": ["src/vita/time/datetime.c: vt_datetime_op"]}
{"id": "C87", "title": "Nested creation succeeds when it can", "statement": "vt_path_mkdir_parents creates the directory whenever its ancestors are directories or missing, also when the path is a single name.", "quantifier": "all paths and file-system states", "why_tests_cant": "all trees and all paths", "anchors": ["src/vita/system/path.c: vt_path_mkdir_parents"]}
{"id": "C88", "title": "Removing one entry", "statement": "vt_path_rmdir and vt_path_remove, when they return true, removed exactly the entry the path denotes, which was an empty directory (or, for remove, a file), and otherwise changed nothing.", "quantifier": "all paths (also through . and ..) and file-system states", "why_tests_cant": "all trees and all paths", "anchors": ["src/vita/system/path.c: vt_path_rmdir, vt_path_remove"]}
{"id": "C89", "title": "Creating one directory", "statement": "vt_path_mkdir returns true exactly when the path is a directory afterwards; it changes nothing but the path, and nothing at all if the path existed or it returns false.", "quantifier": "all paths and file-system states", "why_tests_cant": "all trees and all paths", "anchors": ["src/vita/system/path.c: vt_path_mkdir"]}
{"id": "C90", "title": "Bad option tables are rejected", "statement": "vt_argopt_parse reports an error and assigns nothing when an option lacks a name or variable, has a short name of more than 3 characters or an invalid type, whatever the arguments.", "quantifier": "all tables and argument vectors", "why_tests_cant": "all tables", "anchors": ["src/vita/util/argopt.c: vt_argopt_parse, vt_argopt_validate"]}
{"id": "C91", "title": "Debug output falls back to stderr", "statement": "A debug message whose output file cannot be opened appears on stderr, every time, and stderr stays usable.", "quantifier": "all call sequences", "why_tests_cant": "depends on histories and on the environment", "anchors": ["src/vita/util/debug.c: vt_debug_assert, vt_debug_printf"]}
{"id": "C92", "title": "The wait is limited", "statement": "vt_socket_receive_timed and vt_socket_poll wait at most the given number of milliseconds.", "quantifier": "all 32-bit limits", "why_tests_cant": "waiting times of days", "anchors": ["src/vita/network/sockets.c: vt_socket_poll"]}
{"id": "C93", "title": "Starting sockets", "statement": "vt_socket_startup_server and vt_socket_startup_client return the new socket, bound and (TCP) listening or connected; on failure they return a negative code telling the step that failed and leave no socket open. Accepting returns the new socket or the invalid one.", "quantifier": "all outcomes of the system calls", "why_tests_cant": "needs arbitrary system failures", "anchors": ["src/vita/network/sockets.c: vt_socket_startup_server, vt_socket_startup_client"]}
{"id": "C94", "title": "Ports in network byte order", "statement": "The port bound by vt_socket_startup_server or stored by vt_socket_make_address is the port given, high byte first; ports outside 0..65535 are refused.", "quantifier": "all ports", "why_tests_cant": "all ports", "anchors": ["src/vita/network/sockets.c: vt_socket_startup_server, vt_socket_make_address"]}
{"id": "C95", "title": "Replying to a sender", "statement": "Sending to the address filled in by a successful vt_socket_receive_from reaches the sender of that packet.", "quantifier": "all packets and senders", "why_tests_cant": "needs arbitrary network behaviour", "anchors": ["src/vita/network/sockets.c: vt_socket_receive_from, vt_socket_send_to"]}
{"id": "C96", "title": "Sending", "statement": "vt_socket_send and vt_socket_send_to return the number of bytes the system took, or the send error code if it failed.", "quantifier": "all outcomes of send", "why_tests_cant": "needs arbitrary network behaviour", "anchors": ["src/vita/network/sockets.c: vt_socket_send, vt_socket_send_to"]}
{"id": "C97", "title": "Emptiness and apply", "statement": "The is_empty functions of vectors, pointer lists and strings are true exactly for containers without elements; vt_vec_apply and vt_str_apply call the function once per element, in order, with its index.", "quantifier": "all containers and functions", "why_tests_cant": "unbounded containers", "anchors": ["src/vita/container/vec.c: vt_vec_apply, vt_vec_is_empty", "src/vita/container/str.c: vt_str_apply, vt_str_is_empty", "src/vita/container/plist.c: vt_plist_is_empty"]}
{"id": "C98", "title": "Backward iteration of lists and strings", "statement": "Calling vt_plist_slide_back or vt_str_slide_back until NULL visits every element exactly once, last first.", "quantifier": "all lists and strings", "why_tests_cant": "unbounded call sequences with hidden state", "anchors": ["src/vita/container/plist.c: vt_plist_slide_back", "src/vita/container/str.c: vt_str_slide_back"]}
{"id": "C99", "title": "Copying and filling memory", "statement": "vt_memcopy between ranges that do not overlap copies exactly the range; vt_memset sets exactly the range to the low byte of the value.", "quantifier": "all blocks, ranges and values", "why_tests_cant": "all sizes and offsets", "anchors": ["src/vita/core/core.c: vt_memcopy, vt_memset"]}
{"id": "C100", "title": "Path queries", "statement": "vt_path_exists, is_dir, is_file and get_file_size agree with the file system: existence, kind and size of what the path denotes, -1 for the size of what does not exist; a path ending in a separator never denotes a regular file.", "quantifier": "all paths and file-system states", "why_tests_cant": "all trees and all paths", "anchors": ["src/vita/system/path.c: vt_path_exists, vt_path_is_dir, vt_path_is_file, vt_path_get_file_size"]}
{"id": "C101", "title": "Containers behave as independent values", "statement": "In a program using any number of vectors, pointer lists and strings, with or without the tracking allocator, on one heap, every container always has the value it would have alone; results do not depend on which addresses the C allocator returns or when realloc moves a block.", "quantifier": "all programs of creations, duplications, calls, transfers between containers and destructions; all address policies", "why_tests_cant": "all interleavings and all heap layouts", "anchors": ["src/vita/container/common.c: vt_array_new, vt_array_free", "src/vita/container/vec.c", "src/vita/container/plist.c", "src/vita/container/str.c", "src/vita/allocator/mallocator.c"]}
{"id": "C102", "title": "Destroying the allocator releases its containers", "statement": "vt_mallocator_destroy called while containers made with the allocator are still live frees exactly their blocks and its own; blocks of containers made without it and all earlier blocks are untouched.", "quantifier": "all programs and all points in them", "why_tests_cant": "leak freedom over all histories", "anchors": ["src/vita/allocator/mallocator.c: vt_mallocator_destroy"]}
{"id": "C103", "title": "Typed containers hold numbers", "statement": "A vector created for elements of an integer or floating type and used with the typed functions (vt_vec_push_backT, push_frontT, insertT, setT, getT, pop_getT, can_findT, ...) behaves as a list of numbers of that type: values come back with sign and full width, an empty pop_get gives 0, searches give the first index; vt_span_getT/setT read and write the numbers of the underlying memory.", "quantifier": "all types, all values and all call sequences", "why_tests_cant": "all 64-bit values and unbounded histories", "anchors": ["src/vita/container/vec.c: vt_vec_push_backT .. vt_vec_can_findT", "src/vita/container/span.c: vt_span_getT, vt_span_setT"]}
{"id": "C104", "title": "Element type mismatches are caught", "statement": "In debug builds a typed vector call whose type does not have the element size of the vector is refused.", "quantifier": "all types and vectors", "why_tests_cant": "needs every combination of type and element size", "anchors": ["src/vita/container/vec.c: vt_vec_push_backT, vt_vec_setT"]}
{"id": "C105", "title": "Clamping floating point numbers", "statement": "vt_cmp_clamp of floating point numbers lies between its bounds for every input, also NaN and infinities; a number already between the bounds is kept.", "quantifier": "all floating point numbers of every IEEE format, bounds in order", "why_tests_cant": "all bit patterns", "anchors": ["src/vita/algorithm/comparison.c: vt_cmp_clampf, vt_cmp_clampd"]}
{"id": "C106", "title": "Smaller and larger of two floats", "statement": "vt_cmp_min and vt_cmp_max of floating point numbers return the smaller / larger argument and do not depend on the order of the arguments.", "quantifier": "all pairs of floating point numbers, also NaN", "why_tests_cant": "all pairs of bit patterns", "anchors": ["src/vita/algorithm/comparison.c: vt_cmp_minf, vt_cmp_maxf, vt_cmp_mind, vt_cmp_maxd"]}
{"id": "C107", "title": "Closeness", "statement": "vt_math_is_close is true exactly when the numbers differ by less than the relative tolerance, with FLT_EPSILON for negative tolerances.", "quantifier": "all triples of floats", "why_tests_cant": "all triples of bit patterns", "anchors": ["src/vita/math/math.c: vt_math_is_close"]}
{"id": "C108", "title": "Mapping ranges", "statement": "vt_math_map_to maps [xMin,xMax] monotonically onto [outMin,outMax]: ends to ends, no result outside the output range, close to the exact linear map.", "quantifier": "all finite doubles", "why_tests_cant": "rounding behaviour for all doubles", "anchors": ["src/vita/math/math.c: vt_math_map_to"]}
{"id": "C109", "title": "Fast square roots", "statement": "For every positive normal float, vt_math_sqrt_carmack and vt_math_isqrt_carmack are finite and within a relative error of 6*2^-24 and 5*2^-24 of the square root and the inverse square root.", "quantifier": "all 2^31 - 2^24 positive normal floats", "why_tests_cant": "a bound for the rounding errors of all inputs", "anchors": ["src/vita/math/math.c: vt_math_sqrt_carmack, vt_math_isqrt_carmack"]}
{"id": "C110", "title": "Square roots of special values", "statement": "vt_math_sqrt_carmack of zero is zero, of +infinity +infinity, of NaN and negative numbers NaN, and it is accurate for subnormal numbers.", "quantifier": "all floats that are not positive normal numbers", "why_tests_cant": "all special bit patterns", "anchors": ["src/vita/math/math.c: vt_math_sqrt_carmack"]}
{"id": "C111", "title": "Reading decimal fractions", "statement": "vt_conv_str_to_f, vt_conv_str_to_d and vt_conv_str_to_r of digits, or digits with a dot, give the number of their type nearest to that decimal fraction (ties to even), +infinity if it is too large, and 0 for any other text.", "quantifier": "all texts", "why_tests_cant": "all texts of all lengths; correct rounding", "anchors": ["src/vita/core/conv.c: vt_conv_str_to_f, vt_conv_str_to_d, vt_conv_str_to_r"]}
{"id": "C112", "title": "Printing floats", "statement": "vt_conv_f_to_str, vt_conv_d_to_str and vt_conv_r_to_str write the number with six decimals, within half a millionth of its value, NUL-terminated, and stop the program when the buffer is too small.", "quantifier": "all finite floats, doubles and long doubles, all buffers", "why_tests_cant": "all bit patterns", "anchors": ["src/vita/core/conv.c: vt_conv_f_to_str, vt_conv_d_to_str, vt_conv_r_to_str"]}
{"id": "C113", "title": "Float text round trip", "statement": "Reading back the text written by vt_conv_f_to_str / vt_conv_d_to_str / vt_conv_r_to_str gives the same number.", "quantifier": "all floats, doubles and long doubles", "why_tests_cant": "all bit patterns", "anchors": ["src/vita/core/conv.c: vt_conv_f_to_str, vt_conv_str_to_f, vt_conv_d_to_str, vt_conv_str_to_d"]}
{"id": "C114", "title": "A string's own text as argument", "statement": "vt_str_set, vt_str_append, vt_str_insert and vt_str_set_at called with a pointer into the string's own text have the effect they have with a separate copy of that text.", "quantifier": "all strings, all offsets and positions", "why_tests_cant": "aliasing bugs show only for some lengths and capacities", "anchors": ["src/vita/container/str.c: vt_str_set, vt_str_append, vt_str_insert, vt_str_set_at"]}
{"id": "C115", "title": "Temporaries are released", "statement": "vt_path_mkdir_parents, vt_path_rmdir_recurse, vt_path_dir_list, vt_path_dir_list_recurse, the vt_file functions, vt_str_insertf and vt_argopt_parse destroy or close every object they make for themselves exactly once, on every way out; the objects left are those handed to the caller.", "quantifier": "all file-system states, arguments and failures of the system calls", "why_tests_cant": "needs every failure path; leaks are not observable from results", "anchors": ["src/vita/system/path.c: vt_path_mkdir_parents, vt_path_rmdir_recurse, vt_path_dir_list, vt_path_dir_list_recurse", "src/vita/system/fileio.c", "src/vita/util/argopt.c: vt_argopt_parse", "src/vita/container/str.c: vt_str_insertf"]}
{"id": "C116", "title": "Freeing a directory listing", "statement": "vt_path_dir_free destroys the list and all its strings.", "quantifier": "all lists and iteration states", "why_tests_cant": "hidden iteration state", "anchors": ["src/vita/system/path.c: vt_path_dir_free", "src/vita/container/plist.c: vt_plist_slide_front"]}
{"id": "C117", "title": "Refilling a list of strings", "statement": "Refilling a list with vt_str_split or vt_path_dir_list and freeing it with vt_path_dir_free leaves none of its strings live.", "quantifier": "all lists and all refills", "why_tests_cant": "leaks over all histories", "anchors": ["src/vita/container/str.c: vt_str_split", "src/vita/system/path.c: vt_path_dir_list, vt_path_dir_free"]}
{"id": "C118", "title": "Failed extraction leaves nothing", "statement": "vt_str_split_between returning NULL leaves no new object.", "quantifier": "all texts and marks", "why_tests_cant": "leaks on rare paths", "anchors": ["src/vita/container/str.c: vt_str_split_between"]}
{"id": "C119", "title": "Help text", "statement": "vt_argopt_print_help prints the header, one line per option in table order, the line of --help and the footer, nothing cut off, with aligned columns as narrow as the names allow.", "quantifier": "all option tables, headers and footers", "why_tests_cant": "all lengths of names", "anchors": ["src/vita/util/argopt.c: vt_argopt_print_help"]}
{"id": "C120", "title": "Statistics table", "statement": "vt_mallocator_print_stats prints the exact numbers of calls and bytes, right-aligned in a fixed table.", "quantifier": "all allocator histories", "why_tests_cant": "all histories and number widths", "anchors": ["src/vita/allocator/mallocator.c: vt_mallocator_print_stats"]}
{"id": "C121", "title": "Adopted blocks", "statement": "A block taken over by a string that has an allocator (vt_str_take_ownership, vt_path_get_cwd) is released by vt_mallocator_destroy like all other blocks of the allocator.", "quantifier": "all allocator histories before and after, all blocks", "why_tests_cant": "leaks over all histories", "anchors": ["src/vita/container/str.c: vt_str_take_ownership", "src/vita/allocator/mallocator.c: vt_mallocator_realloc, vt_mallocator_destroy"]}
{"id": "C122", "title": "Renaming", "statement": "vt_path_rename returning true has moved the file or whole directory tree to the new place, left nothing at the old one and changed nothing else; returning false it has changed nothing; it succeeds when the old path exists, the new place is free or replaceable and the system permits it.", "quantifier": "all file-system states and paths", "why_tests_cant": "all trees and all paths", "anchors": ["src/vita/system/path.c: vt_path_rename"]}
{"id": "C123", "title": "Floating point options", "statement": "After a successful vt_argopt_parse a float, double or real option holds the number nearest to the decimal number given last for it.", "quantifier": "all tables, command lines and numbers", "why_tests_cant": "all texts; correct rounding", "anchors": ["src/vita/util/argopt.c: vt_argopt_parse, vt_argopt_assign_value", "src/vita/core/conv.c: vt_conv_str_to_f, vt_conv_str_to_d, vt_conv_str_to_r"]}
{"id": "C124", "title": "Random floats below a bound", "statement": "vt_math_random_f32 returns a finite number from 0 to its bound (to the float nearest to the bound, where the bound is no float).", "quantifier": "all bounds, all states of the generator, every sine function with values between -1 and 1", "why_tests_cant": "all states of the generator; rounding", "anchors": ["src/vita/math/math.c: vt_math_random_f32"]}
{"id": "C125", "title": "Random floats in an interval", "statement": "vt_math_random_f32_uniform of two finite bounds in order returns a number between them.", "quantifier": "all pairs of finite floats, all states of the generator, every sine function with values between -1 and 1", "why_tests_cant": "all bounds; rounding and overflow", "anchors": ["src/vita/math/math.c: vt_math_random_f32_uniform"]}
{"id": "C126", "title": "The program's location", "statement": "vt_path_get_this_exe_location returns a string whose C string and length are those of the path of the program, or NULL when the system cannot tell it.", "quantifier": "all program paths and system failures", "why_tests_cant": "all path lengths", "anchors": ["src/vita/system/path.c: vt_path_get_this_exe_location"]}
{"id": "C127", "title": "The working directory", "statement": "vt_path_get_cwd returns a string holding an absolute path that denotes the working directory from anywhere; if the directory has been removed debug builds stop the program.", "quantifier": "all file-system states and working directories", "why_tests_cant": "all trees; needs a removed directory", "anchors": ["src/vita/system/path.c: vt_path_get_cwd"]}
{"id": "C128", "title": "Debug checks only stop", "statement": "A program that makes the same calls in a debug build and in a release build is either stopped by a failed check of the debug build or gets exactly the same results, bytes and undefined behaviour.", "quantifier": "all functions of containers, strings, spans, allocator, options, date texts, paths and files, all states, arguments and sequences of calls", "why_tests_cant": "all inputs in two builds", "anchors": ["inc/vita/util/debug.h: VT_DEBUG_ASSERT", "src/vita/container/vec.c", "src/vita/container/str.c", "src/vita/container/plist.c", "src/vita/allocator/mallocator.c"]}
{"id": "C129", "title": "Log records in both builds", "statement": "The functions of the log and debug modules write the same records in debug and release builds, unless a check stops the debug build.", "quantifier": "all sequences of calls, all sets of files that can be opened", "why_tests_cant": "files that cannot be opened; closed streams", "anchors": ["src/vita/util/log.c: vt_log", "src/vita/util/debug.c: vt_debug_printf"]}
{"id": "C130", "title": "String memory safety in debug builds", "statement": "Whatever calls are made on a string in a debug build, they are stopped by a check or access only valid memory and leave a terminated string within its capacity.", "quantifier": "all strings, all calls and arguments", "why_tests_cant": "arbitrary wrong arguments in any order", "anchors": ["src/vita/container/str.c: all functions"]}
{"id": "C131", "title": "Pointer list memory safety in debug builds", "statement": "Whatever calls are made on a pointer list in a debug build, they are stopped by a check or access only valid memory and leave a list whose elements can all be read.", "quantifier": "all lists, all calls and arguments", "why_tests_cant": "arbitrary wrong arguments in any order", "anchors": ["src/vita/container/plist.c: all functions"]}
{"id": "C132", "title": "Appending to a string is amortised constant time", "statement": "There is a constant bounding the bytes moved per appended character, however many characters are appended one by one.", "quantifier": "all strings and numbers of appends", "why_tests_cant": "all lengths", "anchors": ["src/vita/container/str.c: vt_str_append, vt_str_reserve"]}
{"id": "C133", "title": "Appending to a pointer list is amortised constant time", "statement": "Pushing k pointers one by one makes at most logarithmically many reallocations and moves at most 1.5 k pointers.", "quantifier": "all initial capacities and numbers of pointers", "why_tests_cant": "all lengths", "anchors": ["src/vita/container/plist.c: vt_plist_push_back, vt_plist_reserve"]}
{"id": "C134", "title": "Normal samples stay near the mean", "statement": "Every number returned by vt_math_random_f32_normal is finite and at most 9 standard deviations (up to the rounding of the sum) from the mean.", "quantifier": "all call sequences, means, deviations and states of the generator; any sine and logarithm within their ranges", "why_tests_cant": "extreme samples occur once in billions of draws", "anchors": ["src/vita/math/math.c:69-93 vt_math_random_f32_normal"]}
{"id": "C135", "title": "Normal samples do not depend on the parameters", "statement": "The i-th call of vt_math_random_f32_normal returns mean + deviation * x_i where x_i depends only on the generator; the second call of each pair draws nothing; with deviation 0 the mean is returned.", "quantifier": "all call sequences and parameters", "why_tests_cant": "hidden static state, all parameter sequences", "anchors": ["src/vita/math/math.c:69-93 vt_math_random_f32_normal"]}
{"id": "C136", "title": "Calendar queries are defined for every date", "statement": "vt_datetime_find_week_day, vt_datetime_find_year_day and vt_datetime_create have defined behaviour for every date, in debug and in release builds alike.", "quantifier": "all dates, time zone offsets and both builds", "why_tests_cant": "undefined behaviour may go unnoticed in a test run; all dates", "anchors": ["src/vita/time/datetime.c:38-67 vt_datetime_create", "src/vita/time/datetime.c:152-172 vt_datetime_find_year_day, vt_datetime_find_week_day", "inc/vita/util/debug.h:32 VT_DEBUG_PRINTF"]}
{"id": "C137", "title": "The current time as a date and as text", "statement": "vt_datetime_get_now names the clock's second; vt_datetime_get_now_as_text writes its documented text, NUL-terminated and inside the buffer, which parses back to the same second; the pretty variant writes the documented pretty text; in debug builds buffers below 26 bytes are refused.", "quantifier": "every value of the clock in the years 1000 to 9999, every time zone offset, every buffer", "why_tests_cant": "the clock cannot be set by a test; all instants", "anchors": ["src/vita/time/datetime.c:9-36 vt_datetime_get_now, vt_datetime_get_now_as_text, vt_datetime_get_now_as_text_pretty"]}
{"id": "C138", "title": "A write that reports success stored the text", "statement": "If vt_file_write, vt_file_writeln, vt_file_append or vt_file_appendln returns true, the file ends in the whole text; if it returns false nothing was changed.", "quantifier": "all file-system states, paths, texts and amounts of free space", "why_tests_cant": "a full disk at every possible byte", "anchors": ["src/vita/system/fileio.c:249-276 vt_file_writefc"]}
{"id": "C139", "title": "One record is one line", "statement": "Every file or stream receives exactly as many lines as records were written to it.", "quantifier": "all sequences of log and debug calls, all texts", "why_tests_cant": "all texts, including hostile ones", "anchors": ["src/vita/util/log.c:34-76 vt_log", "src/vita/util/debug.c:7-73"]}
{"id": "C140", "title": "A record can be read back", "statement": "Two records with equal texts have equal time, level, expression, file, line and message.", "quantifier": "all pairs of records", "why_tests_cant": "all pairs of texts", "anchors": ["src/vita/util/log.c:34-76 vt_log"]}
{"id": "C141", "title": "Searching floats", "statement": "vt_vec_can_find in a vector of floats or doubles returns the index of the first element that compares equal to the given number, or -1.", "quantifier": "all vectors and numbers", "why_tests_cant": "all bit patterns", "anchors": ["src/vita/container/vec.c: vt_vec_can_find"]}
{"id": "C142", "title": "Order and spelling of options do not matter", "statement": "Two command lines that give every option the same last value, in whatever order and spelling, have the same effect.", "quantifier": "all option tables and command lines", "why_tests_cant": "all permutations and spellings", "anchors": ["src/vita/util/argopt.c: vt_argopt_parse"]}
{"id": "C143", "title": "Replacing back", "statement": "Replacing every occurrence of a by b and then every occurrence of b by a restores the text.", "quantifier": "all strings, all a and b", "why_tests_cant": "all texts and overlaps", "anchors": ["src/vita/container/str.c: vt_str_replace"]}
{"id": "C144", "title": "Doing it twice", "statement": "Changing case, removing and stripping leave the same text whether done once or twice.", "quantifier": "all strings", "why_tests_cant": "all texts and overlaps", "anchors": ["src/vita/container/str.c: vt_str_to_uppercase, vt_str_to_lowercase, vt_str_remove_c, vt_str_remove_all, vt_str_strip, vt_str_strip_punct, vt_str_strip_c"]}
{"id": "C145", "title": "Any sequence of calls leaves a proper tree", "statement": "After any sequence of path and file calls with any path texts every entry has a possible name and lies in an existing directory; making directories only adds directories, removing only removes, writing changes at most one file and never a directory, renaming moves one subtree.", "quantifier": "all file-system states, all sequences of calls, all path texts", "why_tests_cant": "all sequences and unusual paths", "anchors": ["src/vita/system/path.c: vt_path_mkdir, vt_path_mkdir_parents, vt_path_remove, vt_path_rmdir, vt_path_rmdir_recurse, vt_path_rename", "src/vita/system/fileio.c:249-276"]}
{"id": "C146", "title": "Built paths come apart again", "statement": "For a path built by vt_path_build, vt_path_basename gives the last piece, vt_path_pop leaves the path of the other pieces, and building from these two gives an equal path.", "quantifier": "all lists of at least two non-empty pieces", "why_tests_cant": "all lists of pieces", "anchors": ["src/vita/system/path.c: vt_path_build, vt_path_basename, vt_path_pop"]}
{"id": "C147", "title": "Vectors of long doubles", "statement": "A vector used with the functions for real (all but the search) behaves as a list of numbers and a span of real gives back the numbers stored, whatever the padding bytes of the numbers contain.", "quantifier": "all sequences of calls, all numbers and paddings, both builds", "why_tests_cant": "padding bytes are arbitrary and invisible to a test", "anchors": ["src/vita/container/vec.c: vt_vec_push_backr and its siblings", "src/vita/container/span.c: vt_span_getr, vt_span_setr"]}
{"id": "C148", "title": "Searching long doubles", "statement": "vt_vec_can_findr returns the index of the first element that is the number searched for, or -1, whatever the padding bytes contain.", "quantifier": "all sequences of calls, all numbers and paddings", "why_tests_cant": "padding bytes are arbitrary and invisible to a test", "anchors": ["src/vita/container/vec.c: vt_vec_can_findr"]}
{"id": "C149", "title": "Seconds in summer", "statement": "In a time zone with daylight saving a time turned into a date (also the current time) and back is the same time, and a date turned into a time and back is the same date.", "quantifier": "all time zones, times and dates", "why_tests_cant": "the machine that runs the tests has one time zone and one date", "anchors": ["src/vita/time/datetime.c:9-13, 229-237, 326-338"]}
{"id": "C150", "title": "Adding to a date in summer", "statement": "In a time zone with daylight saving vt_datetime_op moves a date by the days, hours, minutes and seconds given; with nothing to add the date stays as it is.", "quantifier": "all time zones, dates and amounts", "why_tests_cant": "the machine that runs the tests has one time zone and one date", "anchors": ["src/vita/time/datetime.c: vt_datetime_op"]}
{"id": "C151", "title": "Differences across the seasons", "statement": "In a time zone with daylight saving the difference of two dates is the time that passed between them.", "quantifier": "all time zones and pairs of times", "why_tests_cant": "the machine that runs the tests has one time zone", "anchors": ["src/vita/time/datetime.c: vt_datetime_diff_secs"]}
{"id": "C152", "title": "Week day in summer", "statement": "In a time zone with daylight saving the week day and the day of the year found for a date are those of the date.", "quantifier": "all time zones and dates", "why_tests_cant": "the machine that runs the tests has one time zone", "anchors": ["src/vita/time/datetime.c: vt_datetime_find_week_day, vt_datetime_find_year_day"]}
{"id": "C153", "title": "Invalid years count as 1900", "statement": "For a date whose year is zero or negative the seconds, the differences and the leap year are those of the year 1900 (datetime.h).", "quantifier": "all dates with such a year and all time zone offsets", "why_tests_cant": "all years and dates", "anchors": ["inc/vita/time/datetime.h:185-283", "src/vita/time/datetime.c:200-203, 229-237, 326-338"]}
{"id": "C154", "title": "Days of a month of an invalid date", "statement": "vt_datetime_find_days_in_month gives 28 for February of an invalid year and takes a month outside 1 to 12 as the nearest month (datetime.h).", "quantifier": "all years and months", "why_tests_cant": "all years and months", "anchors": ["inc/vita/time/datetime.h:172-178", "src/vita/time/datetime.c:174-194"]}
{"id": "C155", "title": "Invalid dates have no week day", "statement": "vt_datetime_find_week_day and vt_datetime_find_year_day return -1 exactly for invalid dates (datetime.h).", "quantifier": "all dates, valid or not, and all time zone offsets", "why_tests_cant": "all combinations of fields", "anchors": ["inc/vita/time/datetime.h:153-170", "src/vita/time/datetime.c:152-172"]}
{"id": "C156", "title": "Stripping control symbols", "statement": "vt_str_strip removes white space and control symbols from both ends of the text (str.h).", "quantifier": "all strings", "why_tests_cant": "all texts and all control symbols", "anchors": ["inc/vita/container/str.h:364-367", "src/vita/container/str.c: vt_str_strip"]}
{"id": "C157", "title": "Recognising numbers", "statement": "vt_str_is_numeric is true exactly if the whole text is a number (str.h).", "quantifier": "all strings", "why_tests_cant": "all texts", "anchors": ["inc/vita/container/str.h:498-503", "src/vita/container/str.c: vt_str_is_numeric"]}
{"id": "C158", "title": "Numeric addresses", "statement": "vt_socket_make_address turns the text of four byte values with dots between them and a port into the address with these bytes in this order and the port in network order.", "quantifier": "all four bytes, ports and texts that end there or in white space", "why_tests_cant": "2^48 addresses and ports", "anchors": ["src/vita/network/sockets.c: vt_socket_make_address"]}
{"id": "C159", "title": "Bad addresses are noticed", "statement": "vt_socket_make_address does not turn a text that is no address into an address of some machine.", "quantifier": "all texts", "why_tests_cant": "all texts", "anchors": ["src/vita/network/sockets.c: vt_socket_make_address"]}
{"id": "C160", "title": "A stream loses nothing", "statement": "For every sequence of vt_socket_send, vt_socket_receive and their timed versions on a connected pair, whatever part of the data the system takes or hands out at each call and whatever fails or times out, the bytes reported as sent are those reported as received followed by those under way.", "quantifier": "all sequences of calls, buffer sizes and behaviours of the system", "why_tests_cant": "partial sends and receives depend on the system", "anchors": ["src/vita/network/sockets.c: vt_socket_send, vt_socket_receive, vt_socket_receive_timed"]}
{"id": "C161", "title": "No socket is forgotten", "statement": "The open sockets are always those the program was given and has not closed; closing succeeds exactly for those and closes no other.", "quantifier": "all sequences of start-ups, accepts and closings and all answers of the system", "why_tests_cant": "start-ups that fail half way", "anchors": ["src/vita/network/sockets.c: vt_socket_startup_server, vt_socket_startup_client, vt_socket_close"]}
{"id": "C162", "title": "Redirecting keeps the name of the file", "statement": "The name of a file given to vt_log_redirect_level_output, vt_log_redirect_all_output or vt_debug_redirect_output is the one at the time of the call, whatever the caller does with its buffer afterwards.", "quantifier": "all programs that write and free buffers, redirect and write messages, both builds", "why_tests_cant": "all orders of writing and freeing buffers", "anchors": ["src/vita/util/debug.c:5, 28, 60, 75-77", "src/vita/util/log.c:13-25"]}
{"id": "C163", "title": "Recursive removal stays inside the directory", "statement": "vt_path_rmdir_recurse changes nothing outside the directory it is given, also if there are symbolic links.", "quantifier": "all file systems with symbolic links, working directories and paths", "why_tests_cant": "all arrangements of links", "anchors": ["src/vita/system/path.c:385-435, 139-203, 366-383, 437-448"]}
{"id": "C164", "title": "Links can be removed", "statement": "vt_path_remove removes a symbolic link and leaves what it leads to, and everything else, alone.", "quantifier": "all file systems with symbolic links and all paths of links", "why_tests_cant": "all arrangements of links", "anchors": ["src/vita/system/path.c:437-448"]}
{"id": "C165", "title": "Matrices behave as tables", "statement": "For every sequence of mat_set, mat_get, mat_clear, mat_apply, mat_resize, mat_dup and mat_size a matrix made by mat_create answers as a table of elements of the size given, all zero at first; a place outside is refused without change (debug builds end).", "quantifier": "all sizes that fit in memory, all sequences of calls and functions, both builds", "why_tests_cant": "all sequences of calls and all sizes", "anchors": ["archive/mat.c"]}
{"id": "C166", "title": "Resizing a matrix keeps the places", "statement": "After mat_resize an element whose place exists before and after is where it was.", "quantifier": "all matrices and new sizes", "why_tests_cant": "all pairs of sizes", "anchors": ["archive/mat.c:189-217 mat_resize"]}
{"id": "C167", "title": "Matrices of any size are safe", "statement": "Setting an element at a place inside a matrix that mat_create or mat_resize answered for is defined, whatever sizes were asked for.", "quantifier": "all sizes and sequences of calls", "why_tests_cant": "sizes near 2^64 cannot be tried", "anchors": ["archive/mat.c:13-39, 79-95, 189-217"]}
{"id": "C168", "title": "Typed access to a matrix", "statement": "A number stored by the set function of its type is read back by the get function of that type and no other element changes; using the function of another type is refused.", "quantifier": "all types, numbers, places and matrices", "why_tests_cant": "all types and places", "anchors": ["archive/mat.c:237-325 mat_setT, 341-379 mat_getT"]}
{"id": "C169", "title": "A vector as a matrix", "statement": "A vector created and resized for r*c elements and used with vt_index_2d_to_1d is a matrix of zeros with r rows and c columns for every sequence of sets and gets; in debug builds a row or column outside is stopped.", "quantifier": "all shapes that fit in memory, all types, numbers and sequences", "why_tests_cant": "all shapes and sequences", "anchors": ["docs/wiki/page2.md", "src/vita/container/vec.c: vt_vec_resize, vt_vec_setT, vt_vec_getT", "src/vita/container/common.c:149-151 vt_index_2d_to_1d"]}
{"id": "C170", "title": "Paths on Windows", "statement": "In the Windows build vt_path_basename gives the part after the last separator ('\\\\' or '/'), vt_path_pop takes it away, vt_path_build puts it back, and vt_path_validate leaves one kind of separator.", "quantifier": "all paths, pieces and target strings", "why_tests_cant": "the tests run on one system", "anchors": ["src/vita/system/path.c:3-25, 221-259, 529-580", "inc/vita/system/path.h:40"]}
{"id": "C171", "title": "Files on Windows", "statement": "In the Windows build vt_file_read gives back the text written by vt_file_write and its siblings.", "quantifier": "all file-system states, paths and texts, text and binary mode", "why_tests_cant": "the tests run on one system", "anchors": ["src/vita/system/fileio.c:3-54, 150-276"]}
{"id": "C172", "title": "Loop macros", "statement": "VT_FOREACH visits from up to to-1, VT_FOREACH_R the same numbers backwards, VT_FOREACH_STEP every step-th of them, and all of them end.", "quantifier": "all bounds and steps of size_t", "why_tests_cant": "all bounds and steps", "anchors": ["inc/vita/core/core.h:65-71"]}
{"id": "C173", "title": "The name of the source file", "statement": "The file name in messages (__SOURCE_FILENAME__) is the part of the path of the source file after its last separator.", "quantifier": "all paths, both separators", "why_tests_cant": "the paths of all builds", "anchors": ["inc/vita/core/core.h:36-43"]}
{"id": "C174", "title": "Changing a container while sliding over it", "statement": "A loop that slides over a list or vector until NULL visits every element that is there from its beginning to its end exactly once, whatever else it does with the container.", "quantifier": "all containers, sequences of calls mixed with slides and resets, both builds", "why_tests_cant": "all interleavings of changes and slides", "anchors": ["src/vita/container/plist.c:296-336", "src/vita/container/common.c:107-147"]}
{"id": "C175", "title": "Records of several processes stay whole", "statement": "If several processes log to the same file or terminal, what is there afterwards is a sequence of whole records, those of each process in their order.", "quantifier": "all numbers of processes, records, buffer sizes and orders of the writes", "why_tests_cant": "the order of writes of processes cannot be controlled", "anchors": ["src/vita/util/log.c:34-76", "src/vita/util/debug.c:7-73"]}
{"id": "C176", "title": "A command line is the sequence of its assignments", "statement": "Parsing a command line performs the assignments of its options in order, each changing its own variable only, and stops with an error at the first argument that names no option; two parts may be given to two calls. In particular the program of README.md gets the values it is called with.", "quantifier": "all option tables, values, arguments, both builds", "why_tests_cant": "all command lines", "anchors": ["src/vita/util/argopt.c:6-89", "README.md:17-71"]}
{"id": "C177", "title": "Threads do not disturb each other", "statement": "Threads that ask for dates and random numbers at the same time get what each would get alone.", "quantifier": "all numbers of threads, calls and orders of their steps", "why_tests_cant": "orders of steps of threads cannot be controlled", "anchors": ["src/vita/time/datetime.c:9-38, 234-237", "src/vita/math/math.c:47-57"]}
{"id": "C178", "title": "Formatted text is what the format says", "statement": "Functions that take a printf format produce the text the format describes; this is defined exactly if the format is well formed and every conversion gets an argument of its type; a text of the user given as the format is kept as it is exactly if it contains no %.", "quantifier": "all formats and arguments", "why_tests_cant": "all formats and arguments", "anchors": ["src/vita/container/str.c:324-450, 1385-1462", "src/vita/system/fileio.c:150-280", "src/vita/util/log.c:56-58", "src/vita/util/debug.c:32, 64", "src/vita/util/argopt.c:112", "src/vita/core/conv.c:36-47"]}
{"id": "C179", "title": "Every message the library prints is well defined", "statement": "Each format in the source fits the arguments passed to it, so that its message is printed for all values of them and contains the texts it is given.", "quantifier": "all messages of the library, all values of their arguments", "why_tests_cant": "error paths that are hard to reach; a wrong conversion may look right on one machine", "anchors": ["src/vita/allocator/mallocator.c:77, 108, 128, 139-169", "src/vita/util/log.c:50-58", "src/vita/time/datetime.c:116-167", "all uses of VT_DEBUG_PRINTF, VT_LOG_ERROR, VT_ENFORCE and VT_ASSERT in src/vita"]}
{"id": "C180", "title": "Blocks the allocator does not own are refused", "statement": "vt_mallocator_free and vt_mallocator_realloc of a block that the allocator did not give out, or that was freed already, are refused and leave everything as it was.", "quantifier": "all sequences of calls, all addresses, both builds, all choices of the C library", "why_tests_cant": "double frees need not show in a test", "anchors": ["src/vita/allocator/mallocator.c:82-137, 198-224"]}
{"id": "C181", "title": "Running out of memory", "statement": "If the C library refuses requests for memory, a program that uses containers and the allocator ends at the first refused request it makes (with the message of vt_calloc or vt_realloc) and until then behaves as with unlimited memory; it never goes on with a NULL block.", "quantifier": "all programs of container and allocator calls, all choices of the C library of what to refuse, where to put blocks and when to move them, both builds", "why_tests_cant": "a test cannot make the n-th request fail for every n", "anchors": ["src/vita/core/core.c:12-57", "src/vita/allocator/mallocator.c:9-137, 177-239", "src/vita/container/vec.c:3-130", "src/vita/container/plist.c:3-120", "src/vita/container/str.c:35-225"]}
{"id": "C182", "title": "Processes in the same directories", "statement": "Processes that call vt_path_mkdir_parents at the same time, for the same or different paths, all find their directories and change nothing else; of several that remove the same file exactly one is told so; a process that calls vt_path_mkdir is told true if the directory is there afterwards.", "quantifier": "all file systems, numbers of processes, paths and interleavings of their system calls", "why_tests_cant": "the order of the system calls of processes cannot be controlled", "anchors": ["src/vita/system/path.c:261-283, 285-364, 437-448"]}
{"id": "C183", "title": "Nested directories on Windows", "statement": "In the Windows build vt_path_mkdir_parents makes the missing directories of a path, on the drive or share the path names, and nothing else.", "quantifier": "all machines with drives and shares, working directories and paths, both builds", "why_tests_cant": "the tests run on one system", "anchors": ["src/vita/system/path.c:261-364", "inc/vita/system/path.h:35-47"]}
{"id": "C184", "title": "Recursive removal on Windows", "statement": "In the Windows build vt_path_rmdir_recurse removes the directory it is given with all contents and nothing else, and the paths listed by vt_path_dir_list_recurse name the entries.", "quantifier": "all machines with drives and shares, working directories and paths", "why_tests_cant": "the tests run on one system", "anchors": ["src/vita/system/path.c:139-203, 366-448", "inc/vita/system/path.h:35-47"]}
{"id": "C185", "title": "Renaming on Windows", "statement": "In the Windows build vt_path_rename moves the entry to a free place and returns true, or changes nothing and returns false; nothing that exists is replaced.", "quantifier": "all machines with drives and shares, working directories and paths", "why_tests_cant": "the tests run on one system", "anchors": ["src/vita/system/path.c:449-467", "inc/vita/system/path.h:46"]}
{"id": "C186", "title": "Directories that may not be read", "statement": "vt_path_dir_list_recurse returns NULL for a directory that may not be read; otherwise it lists, in the order of the whole listing, everything the caller may read.", "quantifier": "all file systems, sets of unreadable directories and paths", "why_tests_cant": "needs an account without permissions and every order of entries", "anchors": ["src/vita/system/path.c:139-203"]}
{"id": "C187", "title": "Removing where directories may not be read", "statement": "vt_path_rmdir_recurse leaves directories that may not be read and all that lies in them, touches nothing outside, and returns true only if the directory is gone.", "quantifier": "all file systems, sets of unreadable and unremovable entries and paths", "why_tests_cant": "needs an account without permissions and every order of entries", "anchors": ["src/vita/system/path.c:385-435"]}
{"id": "C188", "title": "Texts beyond ASCII", "statement": "vt_str_strip, vt_str_strip_punct, vt_str_is_numeric, vt_str_to_uppercase and vt_str_to_lowercase are defined for every text, whatever bytes it contains.", "quantifier": "all texts, platforms with signed or unsigned char, C libraries", "why_tests_cant": "the outcome depends on the C library and on whether char is signed", "anchors": ["src/vita/container/str.c:768-834, 1266-1322"]}
{"id": "C189", "title": "UTF-8 texts stay well-formed", "statement": "A string that holds well-formed UTF-8 still does after every call given well-formed texts; parts made by splitting, popping and searching are well-formed.", "quantifier": "all texts, call sequences and arguments", "why_tests_cant": "UTF-8 texts are not tested", "anchors": ["src/vita/container/str.c"]}
{"id": "C190", "title": "Floating point numbers in formatted text", "statement": "A floating point number in formatted text is written with the number of places asked for, correctly rounded; \"%f\" writes what vt_conv_d_to_str writes; what is written is read back by vt_conv_str_to_d as the same number.", "quantifier": "all numbers, places and widths", "why_tests_cant": "all doubles and numbers of places", "anchors": ["src/vita/container/str.c:324-450, 1385-1462", "src/vita/core/conv.c:7-56"]}
{"id": "C191", "title": "NULL arguments", "statement": "In debug builds a function that needs a pointer and is given NULL, or an object without storage, stops the program before anything undefined happens; NULL where the documentation allows it does no harm in any build.", "quantifier": "all functions that take pointers, all combinations of NULL, objects without storage and valid pointers, both builds", "why_tests_cant": "a test per function and combination of NULL arguments that all stop the program", "anchors": ["inc/vita", "src/vita"]}
{"id": "C192", "title": "A killed program leaves a proper tree", "statement": "Whenever a program that calls path and file functions is killed, every entry on the disk has a possible name and lies in an existing directory; the calls before did all they do, the interrupted one only what its kind may do, the later ones nothing.", "quantifier": "all file-system states, sequences of calls, path texts and moments", "why_tests_cant": "killing the program at every moment", "anchors": ["src/vita/system/path.c: vt_path_mkdir, vt_path_mkdir_parents, vt_path_remove, vt_path_rmdir, vt_path_rmdir_recurse, vt_path_rename", "src/vita/system/fileio.c:198-276"]}
{"id": "C193", "title": "Interrupted writes", "statement": "If the program is killed while it writes a file, the file holds the old or the whole new text, nothing else is touched, and making the call again gives the result of the uninterrupted call.", "quantifier": "all file-system states, paths, texts and moments, writing and appending", "why_tests_cant": "killing the program after every byte", "anchors": ["src/vita/system/fileio.c:198-276"]}
{"id": "C194", "title": "Interrupted directory calls can be made again", "statement": "After vt_path_mkdir_parents or vt_path_rmdir_recurse was killed, every entry is as before the call or as after it; calling again gives what the uninterrupted call gives.", "quantifier": "all file-system states, paths and moments", "why_tests_cant": "killing the program between any two system calls", "anchors": ["src/vita/system/path.c:285-364, 385-435"]}
{"id": "C195", "title": "Replacing a file through a temporary one", "statement": "If a text is written to another name and, as the call returned true, renamed to the name of a file, this file holds the old or the whole new text at every moment, whenever the program is killed and however little room there is on the disk.", "quantifier": "all file-system states, paths, texts, moments and amounts of free space", "why_tests_cant": "killing the program at every moment; full disks", "anchors": ["src/vita/system/fileio.c:198-276", "src/vita/system/path.c:437-466"]}
{"id": "C196", "title": "Formatted integers, characters and texts", "statement": "In formatted text an integer is written in the base of its directive, of the value converted to the type the length names, with the sign, the least number of digits and the least width asked for, padded on the side asked for; \"%c\" writes the character of that code and \"%s\" the text up to the precision; appending two formats at once writes one text after the other.", "quantifier": "all flags, widths, precisions (also given as arguments), lengths, conversions and values", "why_tests_cant": "all combinations of flags, widths and values", "anchors": ["src/vita/container/str.c:324-450, 1385-1462"]}
{"id": "C197", "title": "Texts of dates of any year", "statement": "The text of a date with a year other than the four digits the formats show gives this year, and is read back as the same date.", "quantifier": "all years of an int16_t, times, formats and buffers", "why_tests_cant": "years below 1000, negative years and year 0 are not tested", "anchors": ["src/vita/time/datetime.c:69-150, 326-380"]}
{"id": "C198", "title": "A file of lines", "statement": "Lines written one by one with vt_file_appendln to a new or empty file come back, in order, from vt_file_read and vt_str_split at line feeds.", "quantifier": "all file-system states, paths and lists of lines without line feeds", "why_tests_cant": "all lists of lines, with empty lines at every place", "anchors": ["src/vita/system/fileio.c:55-103, 249-276", "src/vita/container/str.c: vt_str_split"]}
{"id": "C199", "title": "Texts of dates sort in the order of time", "statement": "Texts of two dates in the same format compare, as strcmp does, as their seconds do, and are equal only for the same second.", "quantifier": "all pairs of dates, formats and time zones", "why_tests_cant": "all pairs of dates", "anchors": ["src/vita/time/datetime.c:69-150", "inc/vita/time/datetime.h:106-140"]}
{"id": "C200", "title": "Random numbers do not start over", "statement": "The numbers vt_math_random_u64 returns do not start over before as many calls as its modulus, 2^32 - 1.", "quantifier": "all start times of the program and numbers of calls", "why_tests_cant": "the period of every seed", "anchors": ["src/vita/math/math.c:47-57"]}
{"id": "C201", "title": "Programs started at different times get different numbers", "statement": "Two programs started at different seconds get different random numbers.", "quantifier": "all pairs of start times", "why_tests_cant": "all pairs of seeds", "anchors": ["src/vita/math/math.c:47-57"]}
{"id": "C202", "title": "Every call for a normal sample returns", "statement": "The loop of vt_math_random_f32_normal ends whatever was drawn before and whenever the program was started.", "quantifier": "all start times, states of the generator, means, deviations and sines of the C library", "why_tests_cant": "a loop that ends for almost all seeds", "anchors": ["src/vita/math/math.c:47-62, 69-93"]}
{"id": "C203", "title": "Adding and taking away", "statement": "Adding two durations to a date one after the other with vt_datetime_op is adding their sum, and taking a duration away again gives the date back.", "quantifier": "all dates, durations and time zones", "why_tests_cant": "all dates and durations; the ends of months", "anchors": ["src/vita/time/datetime.c:239-254"]}
{"id": "C204", "title": "Adding keeps the order", "statement": "Of two dates the earlier one stays the earlier one when the same duration is added to both.", "quantifier": "all pairs of dates, durations and time zones", "why_tests_cant": "all pairs of dates and durations", "anchors": ["src/vita/time/datetime.c:239-254"]}
{"id": "C205", "title": "A table in a file", "statement": "Rows of fields joined with a separator by vt_str_join and written with vt_file_appendln, one per line, come back from vt_file_read and vt_str_split at line feeds and then at separators.", "quantifier": "all file-system states, paths, separators and tables whose fields contain neither separator nor line feed", "why_tests_cant": "all tables; fields that are empty at every place", "anchors": ["src/vita/system/fileio.c:55-103, 249-276", "src/vita/container/str.c: vt_str_join, vt_str_split"]}
{"id": "C206", "title": "Copying a file", "statement": "What vt_file_read or vt_file_readb returned for a file, written to another file with vt_file_write or vt_file_writeb, makes a file with the same bytes.", "quantifier": "all file-system states, paths and file contents", "why_tests_cant": "all contents; bytes of every value at every place", "anchors": ["src/vita/system/fileio.c:3-102, 150-196, 249-276"]}
{"id": "C207", "title": "A table of numbers in a file", "statement": "Rows of integers written as texts with a separator, one row per line (vt_conv_*_to_str, vt_str_join, vt_file_appendln), come back from vt_file_read, vt_str_split and vt_conv_str_to_*.", "quantifier": "all file-system states, paths, separators other than digits, integer types and tables", "why_tests_cant": "all tables of all numbers", "anchors": ["src/vita/core/conv.c", "src/vita/system/fileio.c:55-103, 249-276", "src/vita/container/str.c: vt_str_join, vt_str_split"]}
{"id": "C208", "title": "Listing with few open files", "statement": "vt_path_dir_list_recurse, called by a process that can open only some more files, lists everything below the directory or returns NULL.", "quantifier": "all file systems, paths and numbers of files that can still be opened", "why_tests_cant": "needs every limit and every depth of directories", "anchors": ["src/vita/system/path.c:139-203"]}
{"id": "C209", "title": "Removing with few open files", "statement": "vt_path_rmdir_recurse, called by a process that can open only some more files, touches nothing outside the directory and returns true only if the directory is gone.", "quantifier": "all file systems, paths and numbers of files that can still be opened", "why_tests_cant": "needs every limit and every depth of directories", "anchors": ["src/vita/system/path.c:385-435"]}
{"id": "C210", "title": "Files when none can be opened", "statement": "When no more files can be opened vt_file_read returns NULL, and the writing functions return false and leave every file as it was.", "quantifier": "all file systems, paths and texts", "why_tests_cant": "needs a process at its limit", "anchors": ["src/vita/system/fileio.c:3-54, 249-276"]}
{"id": "C211", "title": "Listing long paths", "statement": "vt_path_dir_list_recurse lists everything below the directory, also where paths are longer than the system accepts, or returns NULL.", "quantifier": "all file systems, paths and limits", "why_tests_cant": "needs trees with paths of every length around the limit", "anchors": ["src/vita/system/path.c:139-203"]}
{"id": "C212", "title": "Removing long paths", "statement": "vt_path_rmdir_recurse returns true only if the directory is gone, also where paths are longer than the system accepts, and touches nothing outside it.", "quantifier": "all file systems, paths and limits", "why_tests_cant": "needs trees with paths of every length around the limit", "anchors": ["src/vita/system/path.c:385-435"]}
{"id": "C213", "title": "Making long paths", "statement": "vt_path_mkdir_parents makes every path the system accepts and returns true only if the directory is there.", "quantifier": "all file systems, paths and limits", "why_tests_cant": "needs paths of every length around the limit", "anchors": ["src/vita/system/path.c:285-364"]}
{"id": "C214", "title": "The end of a connection is noticed", "statement": "A program receiving with vt_socket_receive or vt_socket_receive_timed can tell that the peer has closed the connection from nothing having come yet; receiving until then gives everything the peer has sent.", "quantifier": "all streams, buffers and sizes of pieces", "why_tests_cant": "needs every way a stream is cut into pieces", "anchors": ["src/vita/network/sockets.c:159-170, 206-223"]}
{"id": "C215", "title": "Datagrams stay whole", "statement": "Each call of vt_socket_receive_from or vt_socket_receive_timed_from returns one datagram, whole, with its sender, in order of arrival.", "quantifier": "all queues of datagrams, buffers and sizes", "why_tests_cant": "needs every size of datagram and buffer", "anchors": ["src/vita/network/sockets.c:172-191, 225-242"]}
{"id": "C216", "title": "A file of lines on Windows", "statement": "In the Windows build lines written one by one with vt_file_appendln or vt_file_appendbln to a new or empty file come back, in order, from vt_file_read and vt_str_split at line feeds.", "quantifier": "all file-system states, paths and lists of lines without line feeds, text and binary mode", "why_tests_cant": "the tests run on one system; all lists of lines", "anchors": ["src/vita/system/fileio.c:3-54, 180-196, 249-276", "src/vita/container/str.c: vt_str_split"]}
{"id": "C217", "title": "A table in a file on Windows", "statement": "In the Windows build rows of two or more fields, none of them empty, joined with a separator by vt_str_join and written with vt_file_appendln or vt_file_appendbln, one per line, come back from vt_file_read and vt_str_split at line feeds and then at separators.", "quantifier": "all file-system states, paths, separators and such tables, text and binary mode", "why_tests_cant": "the tests run on one system; all tables", "anchors": ["src/vita/system/fileio.c:3-54, 180-196, 249-276", "src/vita/container/str.c: vt_str_join, vt_str_split"]}
{"id": "C218", "title": "Saving what was loaded", "statement": "In the Windows build a text file that is loaded with vt_file_read and saved with vt_file_write or vt_file_writeb, any number of times, stays as it is, and no other file is touched.", "quantifier": "all file-system states, paths, contents without NUL, numbers of times, text and binary mode", "why_tests_cant": "the tests run on one system; all contents and numbers of times", "anchors": ["src/vita/system/fileio.c:3-54, 150-166, 249-276"]}
{"id": "C219", "title": "A table of numbers in a file on Windows", "statement": "In the Windows build rows of two or more integers that are not negative, written as texts with a separator, one row per line (vt_conv_*_to_str, vt_str_join, vt_file_appendln or vt_file_appendbln), come back from vt_file_read, vt_str_split and vt_conv_str_to_*.", "quantifier": "all file-system states, paths, separators other than digits, integer types and such tables, text and binary mode", "why_tests_cant": "the tests run on one system; all tables of all numbers", "anchors": ["src/vita/core/conv.c", "src/vita/system/fileio.c:3-54, 180-196, 249-276", "src/vita/container/str.c: vt_str_join, vt_str_split"]}
{"id": "C220", "title": "A file of settings", "statement": "Settings written as lines key=value with vt_file_writefc in append mode (or vt_file_appendln) come back, in order, from vt_file_read, vt_str_split at line feeds and vt_str_pop_get_first at '=', also if a value is empty or contains '='.", "quantifier": "all file-system states, paths and lists of settings whose keys are not empty and contain no '=', without line feeds", "why_tests_cant": "all keys and values; values that contain the separator", "anchors": ["src/vita/system/fileio.c:3-54, 249-276", "src/vita/container/str.c: vt_str_split, vt_str_pop_get_first"]}
{"id": "C221", "title": "A file of settings on Windows", "statement": "In the Windows build settings written as lines key=value, in text or binary mode, come back, in order, from vt_file_read, vt_str_split at line feeds and vt_str_pop_get_first at '='.", "quantifier": "all file-system states, paths and lists of such settings, text and binary mode", "why_tests_cant": "the tests run on one system; all keys and values", "anchors": ["src/vita/system/fileio.c:3-54, 180-196, 249-276", "src/vita/container/str.c: vt_str_split, vt_str_pop_get_first"]}
{"id": "C222", "title": "Reading a file that is being replaced", "statement": "While another process replaces a file by writing another one and renaming it to this name, vt_file_read and vt_file_readb return the old or the new text.", "quantifier": "all file-system states at the opening, the size query and the read calls, all sizes the read calls deliver", "why_tests_cant": "the file must change between two system calls of one function; all texts and moments", "anchors": ["src/vita/system/fileio.c:3-102", "src/vita/system/path.c: vt_path_get_file_size"]}
{"id": "C223", "title": "Reading a file that is being written", "statement": "While another process writes a file anew with vt_file_write, vt_file_read and vt_file_readb return the old text, the new text or NULL.", "quantifier": "all file-system states at the opening, the size query and the read calls, all sizes the read calls deliver", "why_tests_cant": "the file must change between two system calls of one function; all texts and moments", "anchors": ["src/vita/system/fileio.c:3-102", "src/vita/system/path.c: vt_path_get_file_size"]}
{"id": "C224", "title": "Reading a file that grows", "statement": "While other processes append to a file, vt_file_read and vt_file_readb return exactly what the file held at one moment of the call, and do return it unless a read call fails.", "quantifier": "all contents, all growth between the calls, all sizes the read calls deliver", "why_tests_cant": "the file must grow between two system calls of one function; all growths", "anchors": ["src/vita/system/fileio.c:3-102", "src/vita/system/path.c: vt_path_get_file_size"]}
{"id": "C225", "title": "Popping into the string itself", "statement": "vt_str_pop_get_first and vt_str_pop_get_last called with one string as source and as target leave the popped part in it.", "quantifier": "all strings and separators, debug and release builds", "why_tests_cant": "all texts, separators and capacities; a write in front of the storage need not show", "anchors": ["src/vita/container/str.c:1084-1186"]}
{"id": "C226", "title": "The base name in place", "statement": "vt_path_basename called with a string and its own text does to the string what it does with a separate copy of the text: a path is cut down to its name.", "quantifier": "all strings, debug and release builds", "why_tests_cant": "all texts and capacities; that the text is not overwritten before it is read", "anchors": ["src/vita/system/path.c:221-259"]}
{"id": "C227", "title": "Extracting in place", "statement": "vt_str_split_between called with a string and its own text leaves the text between the markers in the string.", "quantifier": "all strings and markers, debug and release builds", "why_tests_cant": "whether storage that was moved is read depends on the C library", "anchors": ["src/vita/container/str.c:991-1027"]}
{"id": "C228", "title": "Removing a string's own text", "statement": "vt_str_remove_first and vt_str_remove_all called with a pointer into the text of the string remove the first or all occurrences of what the pointer pointed to.", "quantifier": "all strings and all places in them", "why_tests_cant": "a call that never returns for every input; all places", "anchors": ["src/vita/container/str.c:537-565, 594-604"]}
{"id": "C229", "title": "Reading into a buffer while the file changes", "statement": "Whatever other processes do to a file while vt_file_read_to_buffer reads it, only the first buffer_len bytes of the buffer change, each to a byte the file held at this place, and a non-NULL result means that as many bytes were read as the file had or the buffer holds; of a file that only grows they are the beginning of what it held at one moment.", "quantifier": "all file-system states at the opening, the size query and the read calls, all buffers, all sizes the read calls deliver", "why_tests_cant": "the file must change between two system calls of one function; all changes", "anchors": ["src/vita/system/fileio.c:104-148"]}
{"id": "C230", "title": "Removing a directory while others work stays inside it", "statement": "Whatever other processes do to the file system between the system calls of vt_path_rmdir_recurse, a place outside the directory that they leave alone is left alone by the call.", "quantifier": "all file systems without symbolic links, paths, fuel and all actions of other processes before each system call", "why_tests_cant": "needs every interleaving of two processes", "anchors": ["src/vita/system/path.c:139-203, 366-448"]}
{"id": "C231", "title": "Removing a directory while others remove", "statement": "While other processes remove files and directories, vt_path_rmdir_recurse returns true only if the directory is gone.", "quantifier": "all file systems without symbolic links, paths and all removals by others before each system call", "why_tests_cant": "the other process must act between two system calls of one function; every interleaving", "anchors": ["src/vita/system/path.c:139-203, 366-448"]}
{"id": "C232", "title": "Doubling the percent signs", "statement": "A text in which vt_str_replace has doubled every percent sign can be used as a format, or as its beginning: vt_str_appendf appends the text itself; no other format without arguments gives this text.", "quantifier": "all strings, formats and arguments, debug and release builds", "why_tests_cant": "all texts; percent signs at every place, also in runs", "anchors": ["src/vita/container/str.c:324-340, 646-677, 1428-1462"]}
{"id": "C233", "title": "Replacing single bytes", "statement": "vt_str_replace of a text of one byte replaces each occurrence of the byte and nothing else, and doubling a byte and halving it again gives the text back.", "quantifier": "all strings, bytes and replacements, debug and release builds", "why_tests_cant": "all texts; runs of the byte of every length", "anchors": ["src/vita/container/str.c:646-677"]}
{"id": "C234", "title": "Others working elsewhere do not disturb", "statement": "While other processes work on the file system but leave a directory and what is below it alone, vt_path_dir_list_recurse lists it and vt_path_rmdir_recurse removes it as if they were alone.", "quantifier": "all file systems without symbolic links, paths and all actions of other processes elsewhere before each system call", "why_tests_cant": "needs every interleaving of two processes", "anchors": ["src/vita/system/path.c:139-203, 366-448"]}
{"id": "C235", "title": "Any text in one line", "statement": "A text in which vt_str_replace writes % as %25 and then line feeds as %0A has no line feeds, and the replacements backwards give the text back; so any texts that are not empty can be kept in a file, one per line.", "quantifier": "all strings; all file-system states, paths and lists of texts, debug and release builds", "why_tests_cant": "all texts; texts that contain the codes themselves", "anchors": ["src/vita/container/str.c:646-677", "src/vita/system/fileio.c:3-54, 249-276"]}
