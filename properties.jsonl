{"id": "C01", "title": "Elementwise equality with na_equal=TRUE is an equivalence relation", "statement": "For logical, integer, double, complex, character, raw elements and for data frame rows over such columns, vec_equal(x, y, na_equal = TRUE) never returns NA and is reflexive, symmetric and transitive; NA and NaN are each equal to themselves, different from each other and from every number, and -0 equals +0.", "quantifier": "every element of every atomic type (all 2^64 double bit patterns, all complex pairs) and all rows of every width", "why_tests_cant": "The input space (all vectors of all sizes and all element values, including every NaN payload and signed zero) is infinite; a test samples it.", "anchors": ["src/equal.h:dbl_equal_na_equal", "src/equal.h:cpl_equal_na_equal", "src/equal.c:vec_equal", "src/poly-op.c:p_df_equal_na_equal"]}
{"id": "C02", "title": "Elementwise equality with na_equal=FALSE propagates missingness", "statement": "vec_equal(x, y, na_equal = FALSE) is NA exactly when an element is missing (complex: either part missing); otherwise it agrees with na_equal = TRUE. For data frame rows the result is that of the first column that is not TRUE, else TRUE, and the early exit on already-decided rows never changes any row's answer.", "quantifier": "all element pairs, all data frames with any number of rows and columns", "why_tests_cant": "Short-circuit bookkeeping depends on every combination of rows already decided by earlier columns; tests cover a handful.", "anchors": ["src/equal.h:*_equal_na_propagate", "src/equal.c:df_equal,EQUAL_COL"]}
{"id": "C03", "title": "vec_compare with na_equal=TRUE is a total order compatible with vec_equal", "statement": "vec_compare(x, y, na_equal = TRUE) returns -1/0/1; it is antisymmetric, transitive and total, returns 0 exactly when vec_equal says TRUE, sorts NaN before NA before every number, NA_character_ before every string, and compares data frame rows lexicographically with short-circuiting that changes no answer.", "quantifier": "all logical, integer, double, character elements and all data frame rows over them", "why_tests_cant": "The input space (all vectors of all sizes and all element values, including every NaN payload and signed zero) is infinite; a test samples it.", "anchors": ["src/compare.h:dbl_compare_na_equal,chr_compare_na_equal", "src/compare.c:vec_compare,df_compare", "src/poly-op.c:p_df_compare_na_equal"]}
{"id": "C04", "title": "Equal values hash equally", "statement": "If two elements are equal under vec_equal(na_equal = TRUE) then vec_hash gives them the same 32-bit hash (doubles: all NA payloads together, all NaN payloads together, both zeros together), for atomic vectors and rows of any width, both in the na_equal and the na_propagate hashing mode.", "quantifier": "all element pairs of all hashable proxies, all prior hash states", "why_tests_cant": "Collision freedom of 'equal implies same hash' ranges over 2^128 pairs of doubles and unbounded rows.", "anchors": ["src/hash.c:dbl_hash_scalar,cpl_hash_scalar,hash_fill", "src/hash.h:HASH_MISSING"]}
{"id": "C05", "title": "obj_equal is an equivalence relation and is compatible with obj_hash", "statement": "obj_equal(x, y) on arbitrary nested R objects with attributes is reflexive, symmetric and transitive, distinguishes different attribute sets, and obj_equal(x, y) implies obj_hash(x) = obj_hash(y).", "quantifier": "all finite trees of R objects with attribute lists", "why_tests_cant": "Objects nest without bound; attribute lists of different lengths/tags are an unbounded family.", "anchors": ["src/equal.c:equal_object_normalized,vec_equal_attrib", "src/hash.c:hash_object,node_hash"]}
{"id": "C06", "title": "The hash table is always big enough and probing always finds a slot", "statement": "For every vector that fits R's short-vector limit the table size is a power of two, at least 16 and strictly larger than the number of elements; quadratic probing with 32-bit wrap-around visits every slot, so looking an element up never raises the internal 'Dictionary is full' error and returns either a slot holding an equal element or an empty slot, in which case no stored element equals it.", "quantifier": "every vector size up to 2^31-1, every hash value, every set of keys stored so far (every insertion history)", "why_tests_cant": "Probe overflow only shows at tables with more than 2^16 probes and adversarial hashes; cannot be enumerated.", "anchors": ["src/dictionary.c:u32_safe_ceil2,dict_key_size,dict_hash_with,dict_put"]}
{"id": "C07", "title": "vec_unique_loc / vec_unique return exactly the first occurrences", "statement": "vec_unique_loc(x) lists, in increasing order, exactly the locations whose element equals no earlier element; vec_unique(x) therefore has no two equal elements and every element of x equals exactly one of its elements.", "quantifier": "all vectors of any size, any hash function consistent with equality", "why_tests_cant": "The input space (all vectors of all sizes and all element values, including every NaN payload and signed zero) is infinite; a test samples it.", "anchors": ["src/dictionary.c:vctrs_unique_loc,vec_unique"]}
{"id": "C08", "title": "Duplicate detection is exact", "statement": "vec_duplicate_detect(x)[i] is TRUE iff some other element equals x[i]; vec_duplicate_any(x) is TRUE iff two locations hold equal elements; vec_unique_count(x) is the number of equality classes; vec_duplicate_id(x)[i] is the first location equal to x[i].", "quantifier": "all vectors of any size", "why_tests_cant": "The input space (all vectors of all sizes and all element values, including every NaN payload and signed zero) is infinite; a test samples it.", "anchors": ["src/dictionary.c:vctrs_duplicated,duplicated_any,vctrs_n_distinct,vctrs_id"]}
{"id": "C09", "title": "vec_match and vec_in find the first match or report absence", "statement": "vec_match(needles, haystack)[i] is the smallest location of haystack equal to needles[i], or NA if there is none; vec_in says whether there is one. With na_equal = FALSE an incomplete needle gives NA and every other needle behaves as above.", "quantifier": "all pairs of vectors, all hash values (including a complete value whose hash collides with the missing-value sentinel)", "why_tests_cant": "Needs hash collisions with the sentinel value 1 and with each other, which tests cannot construct for pointers or murmur hashes.", "anchors": ["src/dictionary.c:vec_match_params,vec_match_loop_propagate,vctrs_in,dict_is_incomplete"]}
{"id": "C10", "title": "vec_count counts every class once", "statement": "vec_count(x, sort = 'location'-free core) returns each equality class exactly once (represented by its first location) together with its exact number of members; counts sum to vec_size(x). The in-place compaction of the count buffer never reads an overwritten entry.", "quantifier": "all vectors of any size", "why_tests_cant": "The input space (all vectors of all sizes and all element values, including every NaN payload and signed zero) is infinite; a test samples it.", "anchors": ["src/dictionary.c:vctrs_count"]}
{"id": "C11", "title": "vec_group_id numbers groups by first appearance", "statement": "vec_group_id(x)[i] = vec_group_id(x)[j] iff x[i] equals x[j]; ids are 1..n with n attribute = number of groups, and the k-th new id appears only after ids 1..k-1.", "quantifier": "all vectors", "why_tests_cant": "The input space (all vectors of all sizes and all element values, including every NaN payload and signed zero) is infinite; a test samples it.", "anchors": ["src/group.c:vctrs_group_id"]}
{"id": "C12", "title": "vec_group_loc is a partition", "statement": "vec_group_loc(x) has one row per equality class in order of first appearance, key = first member, and loc lists all locations of the class in increasing order; every location appears exactly once overall.", "quantifier": "all vectors", "why_tests_cant": "The input space (all vectors of all sizes and all element values, including every NaN payload and signed zero) is infinite; a test samples it.", "anchors": ["src/group.c:vec_group_loc"]}
{"id": "C13", "title": "vec_group_rle decodes back to vec_group_id", "statement": "Repeating each group of vec_group_rle(x) by its length yields vec_group_id(x), and consecutive run groups differ.", "quantifier": "all vectors", "why_tests_cant": "The input space (all vectors of all sizes and all element values, including every NaN payload and signed zero) is infinite; a test samples it.", "anchors": ["src/group.c:vctrs_group_rle"]}
{"id": "C14", "title": "Set operations have set semantics and keep first-appearance order", "statement": "vec_set_intersect/difference/union/symmetric_difference return, without duplicates and in order of first appearance (x then y), exactly the elements in the respective set combination, in terms of equality.", "quantifier": "all pairs of vectors", "why_tests_cant": "The input space (all vectors of all sizes and all element values, including every NaN payload and signed zero) is infinite; a test samples it.", "anchors": ["src/set.c"]}
{"id": "C15", "title": "Run functions agree with the run decomposition", "statement": "vec_detect_run_bounds, vec_locate_run_bounds, vec_identify_runs and vec_run_sizes describe the maximal runs of equal consecutive elements (starts or ends), run sizes are positive and sum to the size of x.", "quantifier": "all vectors and data frames, both values of `which`", "why_tests_cant": "The input space (all vectors of all sizes and all element values, including every NaN payload and signed zero) is infinite; a test samples it.", "anchors": ["src/runs.c"]}
{"id": "C16", "title": "Run functions write only inside their output vectors", "statement": "Computing run bounds, ids and sizes never stores outside the allocated output vector.", "quantifier": "all vectors and data frames, both values of `which`", "why_tests_cant": "An out-of-bounds store of one int usually goes unnoticed in a test run.", "anchors": ["src/runs.c:vec_locate_run_bounds,vec_run_sizes"]}
{"id": "C17", "title": "vec_rep_each inverts vec_unrep", "statement": "For every vector x, vec_rep_each(key, times) of vec_unrep(x) has the size of x and elements equal to those of x; consecutive keys differ and times are positive.", "quantifier": "all vectors", "why_tests_cant": "The input space (all vectors of all sizes and all element values, including every NaN payload and signed zero) is infinite; a test samples it.", "anchors": ["src/rep.c:vec_unrep,vec_rep_each_impl"]}
{"id": "C18", "title": "vec_rep and vec_rep_each replicate as documented or error", "statement": "vec_rep(x, n) is x concatenated n times, vec_rep_each(x, times) repeats element i times[i] times; negative or missing times and results longer than 2^31-1 are errors, nothing else is, and no index overflows.", "quantifier": "all vectors and all integer times (including NA, negative and overflowing)", "why_tests_cant": "Overflow boundaries at 2^31-1 cannot be allocated in tests.", "anchors": ["src/rep.c"]}
{"id": "C19", "title": "vec_expand_grid enumerates the cartesian product once", "statement": "vec_expand_grid(...) has prod(sizes) rows and row k holds the k-th combination in mixed-radix order (slowest: first input varies slowest; fastest: first varies fastest), so each combination of locations occurs exactly once; oversize results are errors.", "quantifier": "all lists of vectors of all sizes including empty", "why_tests_cant": "Product structure over any number of inputs.", "anchors": ["src/expand.c:vec_expand_grid"]}
{"id": "C20", "title": "vec_fill_missing fills with the nearest non-missing element", "statement": "vec_fill_missing(direction, max_fill): non-missing elements are unchanged; each missing element takes the nearest preceding (down) / following (up) non-missing element at distance at most max_fill, leading ones are back-filled for downup/updown, all others stay as they are.", "quantifier": "all missingness patterns of all sizes, all four directions, all max_fill", "why_tests_cant": "The input space (all vectors of all sizes and all element values, including every NaN payload and signed zero) is infinite; a test samples it.", "anchors": ["src/fill.c"]}
{"id": "C21", "title": "Missing / complete detection is exact", "statement": "vec_detect_missing is TRUE exactly at elements that are missing (rows: all columns missing), vec_any_missing iff some is, vec_detect_complete iff no column is missing, vec_locate_complete lists those locations and vec_slice_complete keeps exactly those rows.", "quantifier": "all vectors and data frames with any number of columns", "why_tests_cant": "Column-by-column narrowing of a location buffer in place over arbitrary column counts.", "anchors": ["src/missing.c", "src/complete.c"]}
{"id": "C22", "title": "vec_size_common / vec_recycle_common implement the recycling rule independent of argument order", "statement": "The common size is absent iff all inputs are NULL; otherwise all non-NULL sizes other than 1 agree and are the result (1 if all are 1), and an error is raised iff two sizes different from 1 differ; the result does not depend on the order of the inputs. vec_recycle_common returns every input with the common size, repeating size-1 inputs and leaving others untouched.", "quantifier": "all finite lists of inputs of all sizes, all permutations", "why_tests_cant": "Reduction over arbitrarily many inputs, all orders.", "anchors": ["src/size-common.c", "src/size.c:vec_check_recycle"]}
{"id": "C23", "title": "vec_as_location converts subscripts correctly", "statement": "For every n and subscript, positive/negative/zero/missing/logical/character subscripts are converted to in-range positive locations per the documented options, or an error; results never contain an out-of-range non-missing location (unless OOB extension is requested), negative subscripts select the ordered complement.", "quantifier": "all n, all integer/logical/character subscripts, all option combinations", "why_tests_cant": "The input space (all vectors of all sizes and all element values, including every NaN payload and signed zero) is infinite; a test samples it.", "anchors": ["src/subscript-loc.c"]}
{"id": "C24", "title": "vec_slice and vec_assign obey the array laws", "statement": "vec_slice(x, i)[k] = x[i[k]] with NA giving the missing value; vec_assign(x, i, v) changes exactly locations i, sets them to (recycled) v, last write wins, and leaves all other elements, and the original x, unchanged.", "quantifier": "all vectors, all location vectors (including compact sequences)", "why_tests_cant": "The input space (all vectors of all sizes and all element values, including every NaN payload and signed zero) is infinite; a test samples it.", "anchors": ["src/slice.c", "src/slice-assign.c"]}
{"id": "C25", "title": "list_unchop inverts vec_chop", "statement": "For indices that partition 1..n, list_unchop(vec_chop(x, indices), indices) is x; vec_chop with sizes cuts x in consecutive pieces whose concatenation is x.", "quantifier": "all vectors and all partitions", "why_tests_cant": "The input space (all vectors of all sizes and all element values, including every NaN payload and signed zero) is infinite; a test samples it.", "anchors": ["src/slice-chop.c", "src/c-unchop.c"]}
{"id": "C26", "title": "vec_interleave interleaves", "statement": "Element (i*k+j) of vec_interleave of k vectors of common size n is element i of the j-th one, after dropping NULLs and recycling.", "quantifier": "all lists of vectors", "why_tests_cant": "The input space (all vectors of all sizes and all element values, including every NaN payload and signed zero) is infinite; a test samples it.", "anchors": ["src/slice-interleave.c", "R/slice-interleave.R"]}
{"id": "C27", "title": "vec_order_radix returns a stable sorted permutation", "statement": "vec_order_radix(x) is a permutation of 1..n under which x is sorted for the requested direction and na_value, and equal elements keep their original order; the chosen internal algorithm (sortedness detection, insertion, counting, radix) does not matter.", "quantifier": "all vectors and data frames, all directions/na_value/nan_distinct settings", "why_tests_cant": "Algorithm switches happen at size/range thresholds; correctness for each of infinitely many inputs.", "anchors": ["src/order.c", "src/order-sortedness.c", "src/order-groups.c"]}
{"id": "C28", "title": "The double-to-integer key used for ordering preserves order", "statement": "The 64-bit key computed for doubles orders exactly like the numbers, places NA/NaN where na_value says, and merges -0 with +0.", "quantifier": "all 2^64 bit patterns", "why_tests_cant": "2^128 pairs", "anchors": ["src/order.c:dbl_map_to_uint64"]}
{"id": "C29", "title": "vec_rank is consistent with the order", "statement": "vec_rank(ties = min/max/dense/sequential) gives the documented rank for each element under the order, incomplete = 'na' gives NA to exactly the incomplete ones.", "quantifier": "all vectors, all ties and incomplete settings", "why_tests_cant": "The input space (all vectors of all sizes and all element values, including every NaN payload and signed zero) is infinite; a test samples it.", "anchors": ["src/rank.c"]}
{"id": "C30", "title": "vec_locate_matches returns exactly the matching pairs", "statement": "vec_locate_matches(needles, haystack, condition) returns exactly the pairs (i, j) satisfying the conditions column by column, ordered by needle then haystack location, with no_match/incomplete/remaining/multiple/filter options applied as documented.", "quantifier": "all data frames, all condition vectors, all options", "why_tests_cant": "The input space (all vectors of all sizes and all element values, including every NaN payload and signed zero) is infinite; a test samples it.", "anchors": ["src/match.c", "src/match-joint.c"]}
{"id": "C31", "title": "vec_interval_groups merges intervals into disjoint ones with the same union", "statement": "The result intervals are sorted, disjoint (or non-abutting) and cover exactly the union of the inputs; vec_interval_locate_groups assigns each input to the merged interval that contains it.", "quantifier": "all interval vectors, abutting TRUE/FALSE, missing intervals", "why_tests_cant": "The input space (all vectors of all sizes and all element values, including every NaN payload and signed zero) is infinite; a test samples it.", "anchors": ["src/interval.c"]}
{"id": "C32", "title": "vec_interval_complement is the complement", "statement": "The complement intervals with bounds lower/upper cover exactly the points between lower and upper that no input covers.", "quantifier": "all interval vectors and bounds", "why_tests_cant": "The input space (all vectors of all sizes and all element values, including every NaN payload and signed zero) is infinite; a test samples it.", "anchors": ["src/interval.c:vec_interval_complement"]}
{"id": "C33", "title": "vec_interval_locate_containers finds the maximal intervals", "statement": "The returned intervals are pairwise not contained in one another and every input interval is contained in a returned one.", "quantifier": "all interval vectors", "why_tests_cant": "The input space (all vectors of all sizes and all element values, including every NaN payload and signed zero) is infinite; a test samples it.", "anchors": ["src/interval.c:vec_interval_locate_containers"]}
{"id": "C34", "title": "Unique name repair yields unique names and is idempotent", "statement": "vec_as_names(names, repair = 'unique') returns pairwise distinct non-empty names, is idempotent, and leaves names that are already unique and unsuffixed unchanged.", "quantifier": "all lists of strings", "why_tests_cant": "The input space (all vectors of all sizes and all element values, including every NaN payload and signed zero) is infinite; a test samples it.", "anchors": ["src/names.c"]}
{"id": "C35", "title": "vec_ptype2 / vec_ptype_common is a join operation", "statement": "For built-in types, the common type is symmetric up to attributes that depend on order (factor levels, column order), NULL and unspecified are identities, it is idempotent and associative when defined.", "quantifier": "all types and all argument lists", "why_tests_cant": "All triples of types and nested data frames.", "anchors": ["src/ptype2.c", "src/typeof2.c", "src/ptype-common.c"]}
{"id": "C36", "title": "vec_cast is lossless or errors", "statement": "Casting between logical, integer, double (and character for factors) preserves every value including missing ones; a value that cannot be represented is an error, and casting back returns the original.", "quantifier": "all element values", "why_tests_cant": "The input space (all vectors of all sizes and all element values, including every NaN payload and signed zero) is infinite; a test samples it.", "anchors": ["src/cast-bare.c", "src/cast.c"]}
{"id": "C37", "title": "Factor combination keeps labels", "statement": "The common type of factors has the union of levels in order of appearance, and casting a factor to it preserves every label and missingness.", "quantifier": "all factors / level sets", "why_tests_cant": "The input space (all vectors of all sizes and all element values, including every NaN payload and signed zero) is infinite; a test samples it.", "anchors": ["src/type-factor.c"]}
{"id": "C38", "title": "Data frame common type is the column union", "statement": "The common type of data frames has the columns of x in order followed by new columns of y, common columns get the common type; casting fills absent columns with missing values and errors on extra ones.", "quantifier": "all data frames", "why_tests_cant": "The input space (all vectors of all sizes and all element values, including every NaN payload and signed zero) is infinite; a test samples it.", "anchors": ["src/type-data-frame.c"]}
{"id": "C39", "title": "integer64 packing round-trips and preserves order", "statement": "The two-double representation used as proxy for integer64 unpacks to the original value and compares like the original integers with NA first.", "quantifier": "all 2^64 values", "why_tests_cant": "2^64 values", "anchors": ["src/type-integer64.c"]}
{"id": "C40", "title": "Shape broadcasting follows the recycling rule per dimension", "statement": "The common shape of two arrays is computed dimension-wise by the recycling rule, errors iff some dimension is incompatible.", "quantifier": "all dimension vectors", "why_tests_cant": "The input space (all vectors of all sizes and all element values, including every NaN payload and signed zero) is infinite; a test samples it.", "anchors": ["src/shape.c"]}
{"id": "C41", "title": "Array slicing by strides addresses the right cells", "statement": "Slicing an array along its first dimension with stride arithmetic copies exactly the cells with that first index, for any number of dimensions.", "quantifier": "all array shapes and indices", "why_tests_cant": "The input space (all vectors of all sizes and all element values, including every NaN payload and signed zero) is infinite; a test samples it.", "anchors": ["src/slice-array.c", "src/strides.h"]}
{"id": "C42", "title": "Compact sequences and repetitions behave like their expansions", "statement": "Slicing or assigning with an internal compact sequence/repetition gives the same result as with the expanded location vector.", "quantifier": "all starts, sizes, directions, all vectors", "why_tests_cant": "Pure optimisation: must hold for all inputs.", "anchors": ["src/utils.c:compact_seq,compact_rep", "src/slice.c", "src/slice-assign.c"]}
{"id": "C43", "title": "Growable vectors keep what was pushed", "statement": "Any sequence of pushes into the growable/dynamic array is read back in order, whatever the number of reallocations.", "quantifier": "all push histories", "why_tests_cant": "Unbounded histories.", "anchors": ["src/utils.h:growable_push_int", "src/rlang/dyn-array.c"]}
{"id": "C44", "title": "Outer names are pasted to inner names within the buffer", "statement": "outer_names() returns the inner names when there is no outer name, the outer name (numbered when the size is not 1) when there are no inner names, and 'outer..inner' otherwise; the shared paste buffer is never overrun and its earlier contents never show.", "quantifier": "all strings, all sizes, all previous buffer contents", "why_tests_cant": "The input space (all vectors of all sizes and all element values, including every NaN payload and signed zero) is infinite; a test samples it.", "anchors": ["src/names.c:outer_names,r_chr_paste_prefix,r_seq_chr", "src/utils.c:r_chr_iota"]}
{"id": "C45", "title": "Run-length strings behave like the strings they stand for", "statement": "The ALTREP string vector made of run lengths has the length, elements and subsets of its expansion, before and after it is materialised.", "quantifier": "all run lengths, strings and in-bounds indices", "why_tests_cant": "The input space (all vectors of all sizes and all element values, including every NaN payload and signed zero) is infinite; a test samples it.", "anchors": ["src/altrep-rle.c:altrep_rle_Length,altrep_rle_string_Elt,find_rle_index,altrep_rle_Extract_subset,altrep_rle_string_Materialize"]}
{"id": "C46", "title": "The dictionary of rlang is a map", "statement": "After any sequence of put, poke, delete, lookup and resize, every answer of the hash table is that of a finite map, whatever the hash function, and iterating gives each entry once.", "quantifier": "all hash functions, all operation histories, all initial sizes", "why_tests_cant": "Depends on collisions and on when the table grows.", "anchors": ["src/rlang/dict.c:r_dict_put,r_dict_poke,r_dict_del,r_dict_has,r_dict_get0,r_dict_resize,dict_push,r_dict_next,r_dict_as_df_list"]}
{"id": "C47", "title": "The dynamic list-of of rlang holds what was pushed", "statement": "Whatever the order in which arrays and elements are pushed, unwrapping the list-of, its public data pointers and its element accessors give exactly the arrays pushed so far, across reallocations of the reserve, moves out of it and growth of moved arrays; no stale pointer is followed.", "quantifier": "all push histories, capacities and widths", "why_tests_cant": "Unbounded histories; stale pointers only show after particular interleavings.", "anchors": ["src/rlang/dyn-list-of.c:r_new_dyn_list_of,r_lof_push_back,r_lof_arr_push_back,r_lof_resize,reserve_push_back,reserve_move,r_lof_unwrap", "src/rlang/dyn-list-of.h:r_lof_arr_ptr"]}
{"id": "C48", "title": "Argument tags name the right input", "statement": "The tag of an argument (such as `..2$x[[3]]`) is written in full whatever its length, within its buffer, and a reduction over inputs is given the tag of the input that gave the current value and the tag of the next one, so that an error about sizes names two inputs whose sizes are incompatible.", "quantifier": "all chains of argument tags, names, numbers of inputs and reductions", "why_tests_cant": "Tags are only written when an error occurs; the buffer grows for long names only; the counters are swapped through pointers.", "anchors": ["src/arg.c:vctrs_arg,fill_arg_buffer,str_arg_fill,subscript_arg_fill,counter_arg_fill,is_empty_arg", "src/arg-counter.c:reduce,reduce_impl,reduce_splice_box,counters_shift,counters_inc,init_next_box_counters", "src/size-common.c:vctrs_size2_common"]}
{"id": "C49", "title": "Binding rows and columns", "statement": "`vec_cbind()` returns, in order, the columns of the unnamed inputs and one packed column for each named input, all recycled to the common size, with the row names of the first input that has some, made unique. `vec_rbind()` turns each input into rows (a vector becomes one row, its names are column names), casts its columns to those of the common type by name, fills in absent columns with missing values, and puts the rows of the inputs one after the other; the `.names_to` column holds the name or position of the input of each row; row names come from outer names and row names of the inputs.", "quantifier": "all inputs (vectors, matrices, data frames, NULL), sizes, names, name repairs, name specifications and prototypes", "why_tests_cant": "The input space (all vectors of all sizes and all element values, including every NaN payload and signed zero) is infinite; a test samples it.", "anchors": ["src/bind.c", "src/names.c:apply_name_spec", "src/utils.c:r_vec_fill", "src/proxy-restore.c"]}
{"id": "C50", "title": "Building and flattening data frames", "statement": "`df_list()` and `data_frame()` return the inputs in order, recycled to the common size (an error if there is none): NULL is dropped, an unnamed data frame contributes its columns (if unpacked), any other input one column under its name; names are repaired. On vectors and data frames without row names `data_frame()` and `vec_cbind()` agree. `df_flatten()` returns the columns that are not data frames at any depth, in order. `new_data_frame()` gives a list the class, names, row names and attributes asked for; row names stand for the number of rows, compact or not.", "quantifier": "all lists of inputs, names, sizes, depths of nesting, attribute lists and row names", "why_tests_cant": "The input space (all vectors of all sizes and all element values, including every NaN payload and signed zero) is infinite; a test samples it.", "anchors": ["src/type-data-frame.c", "src/size.c:df_rownames_size"]}
{"id": "C51", "title": "Names of combined vectors", "statement": "`vec_c()` and `list_unchop()` place the names of each input where they place its values: the names are the outer name (for one element without a name), the input's own names (without an outer name), or what the name specification makes of both; inputs without names have empty ones if any input has some, and the result has no names if none has. The names are then repaired; for data frames they are row names, and made unique. Without a specification, an outer name for several elements, or for elements with names, is an error.", "quantifier": "all lists of inputs (vectors, arrays, data frames with and without row names, NULL), outer names, name specifications (arbitrary functions), repairs and locations", "why_tests_cant": "The input space (all vectors of all sizes and all element values, including every NaN payload and signed zero) is infinite; a test samples it.", "anchors": ["src/c.c:vec_c_opts", "src/c-unchop.c:list_unchop", "src/names.c:apply_name_spec"]}
{"id": "C52", "title": "The object iterator visits every node once", "statement": "Iterating over an object with `r_sexp_next()` visits each node without children once, and each other node before and after its children (attributes first, then tag, car and cdr, or the elements in order), with the right depth, parent, relation and direction; a node that the caller skips is visited only once and its children not at all. The iteration ends.", "quantifier": "all finite objects (nodes, closures, environments, promises, pointers, vectors, with attributes) and all choices of nodes to skip", "why_tests_cant": "The input space (all vectors of all sizes and all element values, including every NaN payload and signed zero) is infinite; a test samples it.", "anchors": ["src/rlang/walk.c:r_new_sexp_iterator,r_sexp_next,sexp_next_incoming,init_incoming_stack_info,sexp_iterator_type", "src/rlang/dyn-array.c:r_dyn_push_back,r_dyn_resize"]}
{"id": "C53", "title": "Normalising encodings changes no object in use", "statement": "`vec_normalize_encoding()` returns the value of its argument with every string, at any depth of lists and attributes, in UTF-8 (or ASCII, or NA); a string of bytes is an error. No object that a variable or another object refers to is changed. If all strings are normalised already, the argument itself is returned and nothing is allocated; so a second call returns its argument. Two strings become the same string exactly if they have the same text.", "quantifier": "all heaps of character vectors, lists, attributes, environments and other objects, all counts of references that are sound, all translations of non-UTF-8 strings, and all values whose environments have no attributes", "why_tests_cant": "The input space (all vectors of all sizes and all element values, including every NaN payload and signed zero) is infinite; a test samples it.", "anchors": ["src/translate.c:vec_normalize_encoding,obj_normalize_encoding,chr_normalize_encoding,list_normalize_encoding,obj_attrib_normalize_encoding,attrib_normalize_encoding", "src/translate.h:string_normalize,string_is_normalized", "src/utils.c:r_clone_referenced"]}
{"id": "C54", "title": "Assignment changes no object in use", "statement": "`vec_assign()` returns the value of `x` with the values put at the locations (the last one where a location is there twice; none where it is missing), column by column in data frames and records at any depth. If a variable or another object refers to `x`, no object that existed is changed: neither `x`, nor its columns, nor fields of records in columns, nor elements of lists. If nothing refers to `x` and its columns are unshared, nothing but `x` and its columns is changed.", "quantifier": "all heaps of vectors, lists, data frames and records, all counts of references that are sound, all locations, and all values cast and recycled to fit", "why_tests_cant": "The input space (all vectors of all sizes and all element values, including every NaN payload and signed zero) is infinite; a test samples it.", "anchors": ["src/slice-assign.c:vec_assign_opts,vec_proxy_assign_opts,vec_assign_switch,df_assign", "src/owned.h:vec_owned,vec_clone_referenced", "src/proxy.c:vec_proxy,vec_proxy_invoke", "src/proxy-restore.c:vec_restore_default,vec_restore,vec_bare_df_restore", "R/type-rcrd.R:vec_proxy.vctrs_rcrd,vec_restore.vctrs_rcrd"]}
{"id": "C55", "title": "Restoring attributes keeps the data and takes the class of the target", "statement": "`vec_restore_default()` returns the data of `x` with the class and the other attributes of `to`, while names, dim and dimnames, and row names if `to` is a data frame, stay those of `x` (names and row names only if `x` has no dim). For bare data frames and tibbles names are made up if there are none, character row names are made unique, and missing row names are made from the size of the first column; with recursion the same holds for all columns at any depth. No object other than `x` (and, with recursion, its columns) is changed, and `x` is not either if it is in use and there is no recursion. The class type is the one that the class vector says.", "quantifier": "all heaps of vectors and lists with distinct attributes, all classes, all counts of references, all repairs of row names, and all shapes of data frames without shared columns", "why_tests_cant": "The input space (all vectors of all sizes and all element values, including every NaN payload and signed zero) is infinite; a test samples it.", "anchors": ["src/proxy-restore.c:vec_restore_4,vec_restore_default,vec_bare_df_restore,vec_restore,vec_restore_recurse", "src/utils-dispatch.c:class_type,class_type_impl", "src/type-data-frame.c:is_data_frame,init_compact_rownames,rownames_type", "src/size.c:df_raw_size,df_rownames_size", "src/names.c:vec_proxy_set_names"]}
{"id": "C56", "title": "Ordering strings by appearance groups equal strings and leaves no mark on them", "statement": "`chr_appearance()` returns the rows ordered by where their string first appears, equal strings in their original order, and the sizes of the groups of equal strings in that order. `chr_appearance_chunk()` permutes a chunk of an order in the same way and appends the group sizes. Both leave the truelength of every string as it was, also of those for which R uses it, and never read or write outside the buffers.", "quantifier": "all vectors of strings of up to INT_MAX elements, all non-negative truelengths, all chunks of orders, and all group buffers with room", "why_tests_cant": "The input space (all vectors of all sizes and all element values, including every NaN payload and signed zero) is infinite; a test samples it.", "anchors": ["src/order.c:chr_appearance_counting,chr_appearance_chunk,chr_appearance,chr_appearance_internal", "src/order-truelength.h:truelength_save_string,truelength_save_unique", "src/order-truelength.c:truelength_reset"]}
{"id": "C57", "title": "A field index names one position or is an error", "statement": "`find_offset()` returns the position that a whole number counts to (from 1), that a double counts to when its fraction is dropped, or that of the first name that reads the same in UTF-8 with no missing name before it; every other index is an error and none is undefined. `field()` reads that position, and `field<-` replaces that field only, keeps the names and keeps all fields of one size.", "quantifier": "all lists with or without names, all integers, all doubles, all strings in any encoding, and all values", "why_tests_cant": "The input space (all vectors of all sizes and all element values, including every NaN payload and signed zero) is infinite; a test samples it.", "anchors": ["src/fields.c:find_offset,equal_string,vctrs_list_get,vctrs_list_set,check_rcrd,vctrs_field_get,vctrs_field_set"]}
{"id": "C58", "title": "Lists of nodes are copied, searched and changed as values", "statement": "`r_attrib_set()` gives a new object whose attributes are those of the old one with one attribute replaced, dropped or put in front, and leaves every cell and object that was there unchanged, also where lists are shared. `node_compact_d()` and `r_pairlist_rev()` change the cells of their list only and give the list without NULL values and the reversed list. `r_node_tree_clone()` gives the same tree in new cells only. `r_pairlist_find()` gives the first cell with a tag and `r_new_pairlist()` the list of its arguments.", "quantifier": "all heaps of cells and all lists and trees on them, shared or not", "why_tests_cant": "The input space (all vectors of all sizes and all element values, including every NaN payload and signed zero) is infinite; a test samples it.", "anchors": ["src/rlang/attrib.c:r_attrib_push,r_pairlist_clone_until,r_attrs_set_at,r_attrs_zap_at,r_clone2,r_attrib_set", "src/rlang/node.c:r_new_pairlist,r_node_tree_clone,r_pairlist_find,r_pairlist_rev", "src/utils.c:node_compact_d"]}
{"id": "C59", "title": "Ordering proxies are flat and the flags of vec_order() follow their columns", "statement": "The proxies for equality, comparison and ordering are never data frames inside data frames nor data frames of one column, and their columns are those of the proxies of the columns, in order. The `direction` and `na_value` given for a column of a data frame go to exactly the columns of the proxy that come from this column; other numbers of flags and other strings are errors.", "quantifier": "all nestings of data frames, all proxy methods, all vectors of flags", "why_tests_cant": "The input space (all vectors of all sizes and all element values, including every NaN payload and signed zero) is infinite; a test samples it.", "anchors": ["src/proxy.c:vec_proxy_equal,vec_proxy_compare,vec_proxy_order,df_proxy,vec_proxy_unwrap", "src/type-data-frame.c:df_flatten,df_flatten_info,df_flatten_loop,df_flat_width", "src/order.c:vec_order_expand_args,df_expand_args,expand_arg,vec_decreasing_expansion,parse_na_value,parse_direction"]}
{"id": "C60", "title": "Sizes given as arguments and sizes of list elements are exact", "statement": "A number given as a size is used exactly if it is a whole number in range and is an error otherwise, whatever its type. `list_sizes()` gives the size of each element, `list_all_size()` and `list_check_all_size()` tell whether all have the size, `list_all_vectors()` and `list_check_all_vectors()` whether all are vectors, and `list_drop_empty()` keeps the elements of size other than 0.", "quantifier": "all double bit patterns and integers, all lists", "why_tests_cant": "The input space (all vectors of all sizes and all element values, including every NaN payload and signed zero) is infinite; a test samples it.", "anchors": ["src/size.c:vec_as_short_length,vec_as_ssize,list_sizes,list_all_size,ffi_list_all_size", "src/rlang/rlang.c:r_arg_as_ssize", "src/assert.c:vec_check_size,list_check_all_size,ffi_list_check_all_vectors", "src/empty.c:list_drop_empty", "src/type-info.c:list_all_vectors"]}
{"id": "C61", "title": "The method that is called is the one for the classes", "statement": "A method name is pasted exactly and never past its buffer of 200 bytes, whatever the buffer held before; the method of the first class that has one is found, in the global environment before the table. For two objects the method for the pair of first classes is found, or else the one in the table of the method of the first class. Concatenation falls back to `c()` only if all elements have the same class and that class has a method for `c()` and none for `vec_ptype2()`.", "quantifier": "all strings, all environments, all classes, all lists", "why_tests_cant": "The input space (all vectors of all sizes and all element values, including every NaN payload and signed zero) is infinite; a test samples it.", "anchors": ["src/utils.c:s3_paste_method_sym,s3_sym_get_method,s3_get_method,s3_class_find_method,s3_find_method,s3_get_class,s3_find_method_xy,s3_find_method2,s4_find_method,list_first_non_null,list_is_homogeneously_classed", "src/c.c:needs_vec_c_homogeneous_fallback,df_needs_fallback", "src/ptype2-dispatch.c:vec_ptype2_dispatch_s3", "src/cast.c:vec_cast_dispatch_s3"]}
{"id": "C62", "title": "Casts between dates and date-times keep the times", "statement": "A cast of a date-time to a date-time changes its zone and no time; a date or date-time stored as integers becomes doubles of the same numbers. A cast to dates gives dates only if every time that is not missing is the start of its date, and is lossy otherwise. A cast of broken-down times to the same zone changes nothing.", "quantifier": "all data, all zones, all conversions of base R with the stated properties", "why_tests_cant": "The input space (all vectors of all sizes and all element values, including every NaN payload and signed zero) is infinite; a test samples it.", "anchors": ["src/type-date-time.c:datetime_validate,date_validate,datetime_rezone,tzone_equal,posixct_as_posixct,posixt_as_date,posixct_as_date,posixlt_as_posixct,posixlt_as_posixlt"]}
{"id": "C63", "title": "Proxies of two vectors compare like the proxy of both combined", "statement": "The joint proxies of two vectors of one type are the rows of the proxy of the two combined, column by column and at any depth of nesting, so that values compare across the two as they do within one vector. Collation replaces exactly the character columns of a proxy, and fails where the function gives no character vector of the same size.", "quantifier": "all vectors, all nestings of data frames, all proxy methods and collation functions", "why_tests_cant": "The input space (all vectors of all sizes and all element values, including every NaN payload and signed zero) is infinite; a test samples it.", "anchors": ["src/match-joint.c:vec_joint_proxy_order,vec_joint_proxy_order_independent,vec_joint_proxy_order_dependent,vec_joint_proxy_order_s3,df_joint_proxy_order", "src/order-collate.c:proxy_apply_chr_proxy_collate,chr_apply,df_apply"]}
{"id": "C64", "title": "Small utilities copy, search, set attributes and count exactly", "statement": "Searching a character vector gives the first position of a string or -1; copying a part of a vector changes exactly that part and is an error if it does not fit; strings are added and joined in order; `NULL` elements are dropped and the others kept in order; sequences hold the consecutive integers. Setting attributes from a list gives exactly the attributes of the list in whatever order they come, `dimnames` before `dim` included. Objects stay preserved exactly as long as they were preserved more often than released, and releasing too often is an error.", "quantifier": "all vectors, positions and sizes, all lists of attributes, all sequences of calls", "why_tests_cant": "The input space (all vectors of all sizes and all element values, including every NaN payload and signed zero) is infinite; a test samples it.", "anchors": ["src/rlang/vec-chr.c:r_chr_detect_index,r_chr_has,r_chr_has_any,chr_prepend,chr_append", "src/rlang/vec.c:r_list_compact,r_vec_poke_n,r_vec_poke_range", "src/rlang/obj.c:_r_preserve,_r_unpreserve,push_precious,pop_precious", "src/utils.c:vctrs_set_attributes,r_int_fill_seq,r_seq,chr_c", "src/slice.c:vec_is_restored"]}
{"id": "C65", "title": "Environments are searched and merged exactly and lazy vectors behave like plain ones", "statement": "An environment inherits from exactly the environments of its chain of parents up to the top given, and a search up to an ancestor finds the first binding on the way. Merging environments keeps the bindings that were there and adds the others as they are, without forcing promises or calling active bindings. A new formula has the sides it was made of. A lazy character vector behaves like the vector its function gives at the first call, under every sequence of uses, and the function is called once at most unless it fails.", "quantifier": "all chains of environments, all frames, all formulas, all functions and sequences of uses", "why_tests_cant": "The input space (all vectors of all sizes and all element values, including every NaN payload and signed zero) is infinite; a test samples it.", "anchors": ["src/rlang/env.c:r_env_clone,r_env_coalesce,env_coalesce_plain,r_env_inherits,r_env_find_until", "src/rlang/env-binding.c:which_env_binding,detect_special_binding,r_env_binding_types", "src/rlang/formula.c:r_f_rhs,r_f_lhs,r_is_formula,new_raw_formula,r_new_formula", "src/altrep-lazy-character.c:altrep_lazy_character_Materialize,altrep_lazy_character_Dataptr,altrep_lazy_character_Dataptr_or_null,altrep_lazy_character_Length,altrep_lazy_character_Elt,altrep_lazy_character_Set_elt"]}
{"id": "C66", "title": "Native dispatch calls the function for the two types", "statement": "The tables of pairs of types name the two types in a fixed order and tell which is which, so that exchanging the two changes the side only. A native cast calls a conversion that takes what is there and gives what is wanted, and one is called whenever there is one. The native common type does not depend on the order, absorbs both types, and both can be cast to it. `obj_is_list()` holds of bare lists, of those whose last class is \"list\" and of those of class \"AsIs\"; `obj_is_vector()` of everything whose proxy is a vector, and lists are vectors. A type used for dispatch is that of data frames exactly for data frames.", "quantifier": "all pairs of types and classes, all objects, all proxy methods", "why_tests_cant": "The input space (all vectors of all sizes and all element values, including every NaN payload and signed zero) is infinite; a test samples it.", "anchors": ["src/typeof2.c:vec_typeof2_impl", "src/typeof2-s3.c:vec_typeof2_s3_impl,vec_typeof2_s3_impl2", "src/cast.c:vec_cast_switch_native", "src/cast-dispatch.c:vec_cast_dispatch_native", "src/ptype2.c:vec_ptype2_switch_native", "src/ptype2-dispatch.c:vec_ptype2_dispatch_native", "src/type-info.c:vec_proxy_info,vec_base_typeof,obj_is_list,obj_is_vector,vec_typeof"]}
{"id": "C67", "title": "The common type of two objects is found in a fixed order", "statement": "`vec_ptype2()` gives the prototype of the other object for `NULL` and for unspecified vectors, refuses scalars, uses the native type if there is one and the native type of the prototypes or their method otherwise. It ends for all prototypes and methods, calling itself four deep at most. The result does not depend on the order of the two if the functions called do not, and the side said to have given the type is the one that has it.", "quantifier": "all objects, prototypes and methods", "why_tests_cant": "The input space (all vectors of all sizes and all element values, including every NaN payload and signed zero) is infinite; a test samples it.", "anchors": ["src/ptype2.c:vec_ptype2_opts_impl,vec_ptype2_opts,vec_ptype2_from_unspecified"]}
