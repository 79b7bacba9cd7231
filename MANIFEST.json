{
 "claims": [
  {
   "property": "C01",
   "status": "proved",
   "theorems": [
    "C01_vec_equal_na_equal",
    "C01_reflexive",
    "C01_symmetric",
    "C01_transitive",
    "C01_double_classes"
   ],
   "note": "All atomic column types, list columns of attribute-free objects, rows of any width."
  },
  {
   "property": "C02",
   "status": "proved",
   "theorems": [
    "C02_vec_equal_na_propagate",
    "C02_bare_vector",
    "C02_complete_rows",
    "C02_result_unique"
   ],
   "note": "Includes the short-circuit loop with row_known/remaining."
  },
  {
   "property": "C03",
   "status": "proved",
   "theorems": [
    "C03_vec_compare_na_equal",
    "C03_vec_compare_na_propagate",
    "C03_order_irreflexive",
    "C03_order_transitive",
    "C03_order_asymmetric",
    "C03_order_congruent",
    "C03_result_unique",
    "C03_antisymmetric",
    "C03_zero_iff_equal",
    "C03_equal_gives_zero",
    "C03_agrees_with_vec_equal"
   ],
   "note": "Nested data frame proxies included; strings assumed interned (otherwise chr_compare_scalar divides by zero)."
  },
  {
   "property": "C04",
   "status": "proved",
   "theorems": [
    "C04_equal_rows_hash_equally",
    "C04_hash_total",
    "C04_vec_equal_implies_same_hash"
   ],
   "note": "Both hashing modes; string addresses are an arbitrary function of the string."
  },
  {
   "property": "C05",
   "status": "partial",
   "theorems": [
    "C05_reflexive",
    "C05_transitive",
    "C05_both_directions_partial",
    "C05_no_attributes_partial",
    "C05_hash_both_directions_partial",
    "C05_hash_no_attributes_partial",
    "C05_symmetric_refuted",
    "C05_attribute_names_refuted",
    "C05_hash_refuted"
   ],
   "note": "False in general: vec_equal_attrib ignores attribute names and accepts extra attributes on the right. True when equality is asked in both directions, and for objects without attributes."
  },
  {
   "property": "C21",
   "status": "proved",
   "theorems": [
    "C21_vec_detect_missing",
    "C21_vec_any_missing",
    "C21_vec_detect_complete",
    "C21_vec_locate_complete"
   ],
   "note": ""
  },
  {
   "property": "C06",
   "status": "proved",
   "theorems": [
    "C06_table_size",
    "C06_probe_visits_every_slot",
    "C06_lookup"
   ],
   "note": "Any insertion history, any needle vector, both hashing modes."
  },
  {
   "property": "C07",
   "status": "partial",
   "theorems": [
    "C07_unique_loc_partial",
    "C07_unique_cover_partial",
    "C07_unique_loc_overflow",
    "C07_unique_loc_refuted"
   ],
   "note": "Holds for up to 2^30 equality classes; with more, growable_push_int doubles an int capacity of 2^30 (undefined behaviour)."
  },
  {
   "property": "C08",
   "status": "proved",
   "theorems": [
    "C08_duplicate_detect",
    "C08_duplicate_any",
    "C08_unique_count",
    "C08_duplicate_id"
   ],
   "note": ""
  },
  {
   "property": "C09",
   "status": "partial",
   "theorems": [
    "C09_match",
    "C09_in",
    "C09_match_complete_needle",
    "C09_match_propagate_partial",
    "C09_in_propagate_partial",
    "C09_match_propagate_refuted"
   ],
   "note": "na_equal = TRUE: full. na_equal = FALSE: complete needles full; incomplete needles give NA unless a raw column follows a missing one (refuted there)."
  },
  {
   "property": "C10",
   "status": "proved",
   "theorems": [
    "C10_count"
   ],
   "note": ""
  },
  {
   "property": "C11",
   "status": "proved",
   "theorems": [
    "C11_group_id",
    "C11_group_id_equal"
   ],
   "note": ""
  },
  {
   "property": "C12",
   "status": "proved",
   "theorems": [
    "C12_group_loc"
   ],
   "note": ""
  },
  {
   "property": "C13",
   "status": "proved",
   "theorems": [
    "C13_group_rle"
   ],
   "note": ""
  },
  {
   "property": "C14",
   "status": "proved",
   "theorems": [
    "C14_intersect",
    "C14_difference",
    "C14_union",
    "C14_symmetric_difference"
   ],
   "note": "Stated on the locations sliced out of x and y."
  },
  {
   "property": "C43",
   "status": "partial",
   "theorems": [
    "C43_growable_partial",
    "C43_growable_refuted",
    "C43_dyn_array",
    "C43_dyn_array_capacity0_refuted"
   ],
   "note": "Dynamic arrays: any sequence of pushes and pops. growable: up to 2^30 values, then int overflow."
  },
  {
   "property": "C24",
   "status": "partial",
   "theorems": [
    "C24_slice",
    "C24_assign",
    "C24_slice_after_assign"
   ],
   "note": "Bare vectors, arrays and data frames, nested to any depth. The in-place/ownership side (original x unchanged) is not part of this model, where values are immutable: see C54."
  },
  {
   "property": "C41",
   "status": "partial",
   "theorems": [
    "C41_array_cells",
    "C41_overflow_refuted",
    "C41_init_overflow_refuted"
   ],
   "note": "For arrays whose dimension products are C ints; otherwise the int strides overflow (refuted with witnesses)."
  },
  {
   "property": "C42",
   "status": "partial",
   "theorems": [
    "C42_materialize",
    "C42_slice",
    "C42_assign",
    "C42_compact_seq",
    "C42_assign_rep_refuted"
   ],
   "note": "Slicing: sequences and repetitions. Assigning: sequences; compact repetitions are misread by the assign code (never passed by a caller)."
  },
  {
   "property": "C15",
   "status": "partial",
   "theorems": [
    "C15_detect",
    "C15_locate_partial",
    "C15_identify",
    "C15_sizes"
   ],
   "note": "Detection, identification and run sizes in full. vec_locate_run_bounds: under the exact condition for which it stays in bounds (see C16); otherwise it writes past its output."
  },
  {
   "property": "C16",
   "status": "partial",
   "theorems": [
    "C16_others",
    "C16_locate_ub",
    "C16_locate_refuted"
   ],
   "note": "False: vec_locate_run_bounds writes one int past its output exactly when the last row is not itself a run start (first row not a run end, for which = end). Memory safety of the other run functions is proved."
  },
  {
   "property": "C17",
   "status": "proved",
   "theorems": [
    "C17_unrep_rep_each"
   ],
   "note": "Vectors, arrays and data frames."
  },
  {
   "property": "C18",
   "status": "proved",
   "theorems": [
    "C18_rep",
    "C18_rep_each"
   ],
   "note": "Including every error condition; arrays under shape_fits (see C41)."
  },
  {
   "property": "C19",
   "status": "proved",
   "theorems": [
    "C19_grid",
    "C19_once"
   ],
   "note": "Both vary modes, NULL inputs, exact error condition; arrays under shape_fits (see C41). Names are not modelled."
  },
  {
   "property": "C20",
   "status": "partial",
   "theorems": [
    "C20_fill",
    "C20_rows",
    "C20_max_fill_error",
    "C20_unchanged_refuted"
   ],
   "note": "All directions and max_fill. 'All others stay as they are' holds up to missingness only: unfilled leading values take the first row, so NaN can become NA (refuted)."
  },
  {
   "property": "C22",
   "status": "partial",
   "theorems": [
    "C22_size_common",
    "C22_order",
    "C22_recycle_common",
    "C22_recycle",
    "C22_recycle_empty_size_refuted"
   ],
   "note": "Full for sizes of length one; vec_recycle(x, integer()) reads past the end of size (refuted)."
  },
  {
   "property": "C36",
   "status": "partial",
   "theorems": [
    "C36_cast",
    "C36_roundtrip",
    "C36_roundtrip_nan_refuted",
    "C36_chr_as_logical"
   ],
   "note": "Logical, integer and double in all nine directions, C code and R fallbacks: exact or an error, never undefined. Casting back gives the same vector except that NaN comes back as NA through integer or logical (refuted). Character to logical in C (no caller) is also covered; other casts are not."
  },
  {
   "property": "C23",
   "status": "partial",
   "theorems": [
    "C23_lgl",
    "C23_int",
    "C23_invert",
    "C23_dbl",
    "C23_chr",
    "C23_in_range",
    "C23_vec_slice",
    "C23_abs_na_refuted",
    "C23_chr_range_refuted"
   ],
   "note": "All option combinations, with names. Excluded by refutation: out-of-bounds removal with propagated missing values evaluates abs(NA_INTEGER); character locations are past the end when names is longer than n."
  },
  {
   "property": "C25",
   "status": "partial",
   "theorems": [
    "C25_chop_indices",
    "C25_chop_sizes",
    "C25_chop_elements",
    "C25_unchop",
    "C25_unchop_bounds",
    "C25_unchop_chop",
    "C25_roundtrip_names_refuted",
    "C25_c",
    "C25_c_chop"
   ],
   "note": "Chopping by indices, sizes or elements gives exactly the slices, with the exact error condition; unchopping puts rows back (last wins; names when no overlap); both round trips give x with missing names replaced by empty ones (the literal statement is refuted for missing names). Integer locations; the cast to the prototype is a parameter."
  },
  {
   "property": "C26",
   "status": "proved",
   "theorems": [
    "C26_interleave",
    "C26_errors"
   ],
   "note": "Row i*k+j of the result is row i of the j-th recycled, cast non-NULL input, with names; errors for incompatible sizes and long results."
  },
  {
   "property": "C28",
   "status": "proved",
   "theorems": [
    "C28_double_key",
    "C28_double_key_merges",
    "C28_integer_key"
   ],
   "note": "Integer and double radix keys, both directions and both placements of missing values: comparing keys as unsigned integers is the same as comparing values."
  },
  {
   "property": "C27",
   "status": "partial",
   "theorems": [
    "C27_order_info_sound",
    "C27_order_info_total",
    "C27_order_info_flags",
    "C27_order_sound",
    "C27_order_total",
    "C27_sorted_groups_sound",
    "C27_complex_oob_refuted",
    "C27_complex_loop_refuted"
   ],
   "note": "Vectors and data frames of all base types, all directions, placements and nan_distinct: whatever is returned is the stable order with its group sizes, whichever algorithm runs, and truelengths are restored. It returns unless a column after the first is complex: then the C code can read out of bounds or loop forever (both refuted by witness). chr_ordered = TRUE; strings compare by bytes (collation is a separate transformation)."
  },
  {
   "property": "C39",
   "status": "proved",
   "theorems": [
    "C39_roundtrip",
    "C39_order",
    "C39_missing",
    "C39_sort"
   ],
   "note": "The proxy's two exactly represented doubles restore the original 64-bit integer, compare lexicographically like the integers, are both missing exactly for NA; ordering the proxy orders the integers."
  },
  {
   "property": "C40",
   "status": "proved",
   "theorems": [
    "C40_shape2",
    "C40_shape2_null",
    "C40_shape2_errors",
    "C40_shape2_comm",
    "C40_shape2_assoc",
    "C40_broadcast",
    "C40_broadcast_common"
   ],
   "note": "The common shape of any two arrays is the recycling rule on every axis but the first, an error iff some axis is incompatible; symmetric and associative. Broadcasting to a shape gives the recycled array, errors exactly when not recyclable, and always succeeds for the common shape."
  },
  {
   "property": "C29",
   "status": "partial",
   "theorems": [
    "C29_rank_sound",
    "C29_rank_total"
   ],
   "note": "For vectors and data frames of all base types and all options: whatever vec_rank returns is the documented rank of every row (min, max, sequential, dense) among the ranked rows, NA exactly for incomplete rows with incomplete = 'na'. It returns whenever ordering does; a complex column that is not the first can make ordering fail (C27 refutations). chr_proxy_collate is not part of this model: see C63_collate."
  },
  {
   "property": "C31",
   "status": "partial",
   "theorems": [
    "C31_groups",
    "C31_union"
   ],
   "note": "Both merging modes, dropping or grouping missing intervals, with or without locations; start and end vectors or data frames of any non-complex base types (complex: see C27), each interval wholly missing or wholly complete. Groups partition the intervals, are ordered, are minimal and cannot be cut; the merged intervals cover exactly the same points and do not overlap. Proxies, casts and the slicing of start/end are not modelled."
  },
  {
   "property": "C33",
   "status": "partial",
   "theorems": [
    "C33_containers"
   ],
   "note": "Same inputs as C31: the containers are intervals of the input, each interval is in one, none is inside another; the earliest of equal intervals is kept; one location for all missing intervals, last."
  },
  {
   "property": "C32",
   "status": "partial",
   "theorems": [
    "C32_complement"
   ],
   "note": "Same inputs as C31 (non-complex; no empty intervals, which the documentation requires), any bounds, including no bounds, bounds inside or outside the intervals and lower >= upper: succeeds without out-of-bounds access, and gives exactly the points between the bounds not in any interval, as non-empty intervals which do not touch, in order."
  },
  {
   "property": "C37",
   "status": "partial",
   "theorems": [
    "C37_common_partial",
    "C37_cast_common_partial",
    "C37_ptype2_partial",
    "C37_cast",
    "C37_cast_used_partial",
    "C37_cast_missing_refuted",
    "C37_chr",
    "C37_chr_self_partial",
    "C37_as_character",
    "C37_ordered",
    "C37_ptype2_duplicates_refuted"
   ],
   "note": "Common levels are the union in order of first appearance, and casting each factor to them keeps every label and missingness (C37_cast_common_partial), for factors without duplicated levels and at most 2^30 distinct levels in all (beyond that the unique-location table of C07 overflows). Also: casts to any target that has the levels (C37_cast), targets that lack unused levels (C37_cast_used_partial, no NA level in the target; with one, a missing value turns into the level NA: C37_cast_missing_refuted), casts from character, ordered factors. Duplicated levels: C37_ptype2_duplicates_refuted. Encodings and other attributes are not modelled; the R fallback method is modelled from R/type-factor.R with base R's factor() and match()."
  },
  {
   "property": "C35",
   "status": "partial",
   "theorems": [
    "C35_identity",
    "C35_table_partial",
    "C35_total_partial",
    "C35_symmetric_partial",
    "C35_idempotent_partial",
    "C35_associative_partial",
    "C35_associative_defined_partial",
    "C35_common_specified",
    "C35_common_null_partial",
    "C35_associative_defined_refuted",
    "C35_associative_intermediate_refuted",
    "C35_idempotent_refuted",
    "C35_symmetric_duplicates_refuted"
   ],
   "note": "For the classes in the tables of src/typeof2.c and src/typeof2-s3.c, nested to any depth, with column names and levels without duplicates and at most 2^28 of them. Not associative as to definedness (logical, integer, complex), not idempotent for POSIXlt or a time zone with more than one element, and not symmetric with duplicated column names: see the _refuted theorems. Other S3 classes and partial types are not modelled."
  },
  {
   "property": "C38",
   "status": "partial",
   "theorems": [
    "C38_ptype2",
    "C38_cast",
    "C38_cast_absent",
    "C38_cast_duplicates_refuted"
   ],
   "note": "For data frames whose column names have no duplicates, for any cast function of the columns that are not data frames. With duplicated names in `to` a column can be dropped silently (C38_cast_duplicates_refuted)."
  },
  {
   "property": "C34",
   "status": "partial",
   "theorems": [
    "C34_unique",
    "C34_repaired",
    "C34_unchanged",
    "C34_positions",
    "C34_idempotent_partial",
    "C34_twice",
    "C34_iota",
    "C34_minimal",
    "C34_idempotent_refuted",
    "C34_banned_refuted"
   ],
   "note": "Distinct, non-empty and unchanged-when-tidy are proved in full, and C34_repaired gives every repaired name. Idempotence holds for names that are not `...` followed by suffixes (C34_idempotent_partial) and fails for `......1` (C34_idempotent_refuted); a second repair is always the last (C34_twice). Lengths must leave room for the suffix in an int. Universal repair (R code) and encodings are not modelled."
  },
  {
   "property": "C44",
   "status": "proved",
   "theorems": [
    "C44_paste",
    "C44_outer"
   ],
   "note": "For strings whose lengths sum to less than INT_MAX. Encodings and the R_CheckStack2() error are not modelled."
  },
  {
   "property": "C30",
   "status": "partial",
   "theorems": [
    "C30_locate_matches",
    "C30_pairs",
    "C30_condition_size",
    "C30_filter_size",
    "C30_no_columns",
    "C30_incomplete_refuted",
    "C30_filter_refuted",
    "C30_packed_refuted"
   ],
   "note": "C30_pairs gives exactly the matching pairs in order for the default options; C30_locate_matches covers every option. The documented meaning fails in three places, each refuted with a witness: incomplete needles that are skipped, filters that are applied column by column, and packed data frame columns with inequalities. With filters the best match is proved when only the last column or == columns are filtered. Option parsing and casts are not modelled."
  },
  {
   "property": "C45",
   "status": "proved",
   "theorems": [
    "C45_length",
    "C45_elt",
    "C45_materialize",
    "C45_same",
    "C45_extract",
    "C45_past_end_refuted",
    "C45_empty_refuted"
   ],
   "note": "For non-negative run lengths and indices that are NA or within the expansion. Beyond the end the last string is returned instead of NA, and an empty vector is read out of bounds (both refuted)."
  },
  {
   "property": "C46",
   "status": "proved",
   "theorems": [
    "C46_dict",
    "C46_entries",
    "C46_get",
    "C46_size",
    "C46_load",
    "C46_del_refuted",
    "C46_prevent_refuted"
   ],
   "note": "For every hash function. Deleting does not update the number of entries, so that the list of entries then ends with NULLs (refuted); resizing forgets prevent_resize (refuted). Allocation failures and sizes above 2^63 are not modelled."
  },
  {
   "property": "C47",
   "status": "proved",
   "theorems": [
    "C47_list_of",
    "C47_front",
    "C47_back_refuted",
    "C47_back_bounds_refuted",
    "C47_zero_refuted",
    "C47_negative_refuted"
   ],
   "note": "For positive capacity and width, within r_ssize. r_lof_arr_ptr_back() uses the number of arrays as the index of the last element (refuted); capacity or width 0 and negative locations are out of bounds (refuted)."
  },
  {
   "property": "C48",
   "status": "partial",
   "theorems": [
    "C48_tag",
    "C48_reduce",
    "C48_box",
    "C48_next",
    "C48_size",
    "C48_current_refuted",
    "C48_box_refuted",
    "C48_dangling_refuted"
   ],
   "note": "Proved for tags that R can hold and for inputs without names, the last of which may be a splice box; with names the tag of the next input is right. Refuted: with names, the current value is named after the first input; after a splice box inputs are numbered one too high; counters of an earlier splice box are used after they are unprotected."
  },
  {
   "property": "C49",
   "status": "partial",
   "theorems": [
    "C49_cbind",
    "C49_row",
    "C49_names_to",
    "C49_rbind",
    "C49_rbind_ok",
    "C49_outer_refuted",
    "C49_rbind_ptype_refuted",
    "C49_cbind_ptype_refuted"
   ],
   "note": "vec_cbind() for all inputs whose sizes are compatible; vec_rbind() for distinct column names, whatever the cast of single columns does as long as it keeps sizes. Dimnames, row names of data frame columns and the c() fallback are not modelled. Refuted: an unnamed input of several rows next to a named one is an internal error (bind.c tests `inner` instead of the names it got); a `.ptype` with character row names gives row names to the result of vec_rbind() and makes vec_cbind() fail."
  },
  {
   "property": "C50",
   "status": "partial",
   "theorems": [
    "C50_df_list",
    "C50_data_frame",
    "C50_sizes",
    "C50_cbind",
    "C50_flatten",
    "C50_rownames",
    "C50_rownames_refuted",
    "C50_new_data_frame",
    "C50_new_data_frame_errors",
    "C50_poke_at"
   ],
   "note": "Proved as stated; row names of columns and dimnames are not modelled. Refuted for row names c(NA, NA), whose second element is passed to abs() (undefined for INT_MIN)."
  },
  {
   "property": "C51",
   "status": "partial",
   "theorems": [
    "C51_c",
    "C51_unchop",
    "C51_c_error",
    "C51_unchop_error",
    "C51_unchop_stale_name_refuted",
    "C51_ptype_names_refuted"
   ],
   "note": "Proved for prototypes without names and, in list_unchop(), for locations without overlap and data frames with row names that need no recycling. Refuted otherwise: an input without a name does not clear the name that an earlier input left at the same location (c-unchop.c:143-149 skips the assignment); a prototype with names gives the result names although no input has any. The c() fallback and dimnames are not modelled."
  },
  {
   "property": "C52",
   "status": "partial",
   "theorems": [
    "C52_walk_partial",
    "C52_visits",
    "C52_deep_refuted",
    "C52_relation_refuted"
   ],
   "note": "Proved for objects whose nodes with children are nested at most 256 deep, with the relation `list_elt` for the elements of all vectors. Refuted beyond: the 257th push moves the stack, and sexp_next_incoming() goes on writing through a pointer into the old memory, so that the child is visited twice. Refuted: elements of character vectors and expressions are reported as `list_elt`."
  },
  {
   "property": "C53",
   "status": "partial",
   "theorems": [
    "C53_normalize",
    "C53_bytes",
    "C53_values",
    "C53_again",
    "C53_text",
    "C53_env_refuted",
    "C53_cycle_refuted"
   ],
   "note": "Proved for values whose environments (and other objects that are not copied) have no attributes. Refuted: attributes of an environment are normalised in place, so variables that hold it see the change; an environment that has itself as an attribute is followed until the stack is exhausted."
  },
  {
   "property": "C54",
   "status": "partial",
   "theorems": [
    "C54_assign",
    "C54_owned",
    "C54_rcrd_partial",
    "C54_size",
    "C54_type",
    "C54_rcrd_refuted",
    "C54_alias_refuted",
    "C54_self_refuted"
   ],
   "note": "Proved for vectors, lists and data frames, with records as columns. A record itself is changed in place although the caller holds it (C54_rcrd_refuted); its result is right if its fields are unshared (C54_rcrd_partial), and wrong if one vector is two fields (C54_alias_refuted) or the record is assigned into itself (C54_self_refuted). Fallbacks, shaped vectors, names and proxy methods of other classes are not modelled."
  },
  {
   "property": "C55",
   "status": "partial",
   "theorems": [
    "C55_class",
    "C55_default",
    "C55_df",
    "C55_recurse_partial",
    "C55_recurse_refuted",
    "C55_bare_refuted"
   ],
   "note": "Proved for vectors without class, factors, bare data frames and tibbles; with recursion also for their columns if none is shared (methods of dates and other classes are not modelled). Refuted: with recursion the restored columns are written into `x` before it is cloned, so `x` changes although it is in use; if `to` has no attributes, those of `x` (its class too) are all kept."
  },
  {
   "property": "C56",
   "status": "proved",
   "theorems": [
    "C56_ties",
    "C56_appearance",
    "C56_appearance_chunk"
   ],
   "note": "For one column and for one chunk; the loop over the columns of a data frame is covered for the other ordering of strings only (C27). The reset after an error in between is not modelled."
  },
  {
   "property": "C57",
   "status": "partial",
   "theorems": [
    "C57_int",
    "C57_dbl_partial",
    "C57_dbl_refuted",
    "C57_name",
    "C57_get",
    "C57_set",
    "C57_set_total"
   ],
   "note": "Proved for integers, strings and all doubles other than NaN. A NaN index is not caught and is converted to an integer, which is undefined (C57_dbl_refuted)."
  },
  {
   "property": "C58",
   "status": "proved",
   "theorems": [
    "C58_set",
    "C58_push",
    "C58_compact",
    "C58_rev",
    "C58_find",
    "C58_new",
    "C58_tree_clone"
   ],
   "note": "Proved for all heaps and all lists and trees that end; the object bit and the types of nodes are not modelled."
  },
  {
   "property": "C59",
   "status": "partial",
   "theorems": [
    "C59_flat",
    "C59_columns",
    "C59_total",
    "C59_unwrap",
    "C59_expansion",
    "C59_args_partial",
    "C59_args_refuted",
    "C59_args_error",
    "C59_parse",
    "C59_words"
   ],
   "note": "Flatness and columns are proved for all nestings and all methods. The flags follow their columns where data frame columns have no class of their own with a proxy method; with such a class it is false (C59_args_refuted)."
  },
  {
   "property": "C60",
   "status": "partial",
   "theorems": [
    "C60_short_length_partial",
    "C60_short_length_object",
    "C60_short_length_refuted",
    "C60_arg_partial",
    "C60_arg_nan_refuted",
    "C60_arg_na_refuted",
    "C60_list_sizes_partial",
    "C60_list_sizes_long_refuted",
    "C60_dim_refuted",
    "C60_proxy_refuted",
    "C60_all_size",
    "C60_check_all_size",
    "C60_all_vectors",
    "C60_drop_empty_partial"
   ],
   "note": "Proved for all doubles and integers but those whose conversion is undefined (refuted: -Inf, and NA where r_arg_as_ssize() is used), and for lists without dimensions and proxies and without long vectors (refuted otherwise)."
  },
  {
   "property": "C61",
   "status": "partial",
   "theorems": [
    "C61_paste_partial",
    "C61_paste_refuted",
    "C61_find",
    "C61_find_s4",
    "C61_xy",
    "C61_pair_partial",
    "C61_pair_refuted",
    "C61_dispatch",
    "C61_homogeneous",
    "C61_fallback",
    "C61_df",
    "C61_df_fuel"
   ],
   "note": "Proved for all strings whose lengths add up to less than 2^31 - 1 (refuted otherwise) and, that no other pair has the name, for first classes without dots (refuted otherwise)."
  },
  {
   "property": "C62",
   "status": "partial",
   "theorems": [
    "C62_validate",
    "C62_date_validate",
    "C62_cast_partial",
    "C62_cast_refuted",
    "C62_cast_attr_refuted",
    "C62_as_date",
    "C62_lt",
    "C62_lt_ct"
   ],
   "note": "Times are kept for all data. The zone is that of the target unless one of the two is missing (refuted); the attribute may keep abbreviations (refuted). What base R's conversions do is assumed as stated in the theorems."
  },
  {
   "property": "C63",
   "status": "partial",
   "theorems": [
    "C63_joint_partial",
    "C63_joint_refuted",
    "C63_collate",
    "C63_collate_one"
   ],
   "note": "Proved for all vectors and nestings of data frames whose classes have no proxy method of their own; false of those that have (C63_joint_refuted)."
  },
  {
   "property": "C64",
   "status": "partial",
   "theorems": [
    "C64_detect",
    "C64_has_partial",
    "C64_has_refuted",
    "C64_has_any_partial",
    "C64_has_any_refuted",
    "C64_poke_partial",
    "C64_range",
    "C64_poke_refuted",
    "C64_prepend",
    "C64_append",
    "C64_chr_c",
    "C64_compact",
    "C64_fill_partial",
    "C64_fill_refuted",
    "C64_seq",
    "C64_restored",
    "C64_attributes_partial",
    "C64_attributes_err",
    "C64_attributes_refuted",
    "C64_precious",
    "C64_precious_err"
   ],
   "note": "Each partial statement is the largest true one or is limited by the refutation of the same name: only the first element is looked at by r_chr_has_any(); NA is found as \"NA\"; negative sizes are not refused; the largest integer as last value overflows; names given twice lose dimnames."
  },
  {
   "property": "C65",
   "status": "partial",
   "theorems": [
    "C65_inherits_partial",
    "C65_inherits_refuted",
    "C65_find_until",
    "C65_types",
    "C65_coalesce",
    "C65_clone",
    "C65_formula",
    "C65_lazy",
    "C65_lazy_err"
   ],
   "note": "Proved in full except that the empty environment is said not to inherit from itself (C65_inherits_refuted)."
  },
  {
   "property": "C66",
   "status": "partial",
   "theorems": [
    "C66_typeof2",
    "C66_typeof2_s3",
    "C66_cast",
    "C66_common_sym",
    "C66_common_partial",
    "C66_common_refuted",
    "C66_common_absorbs",
    "C66_list",
    "C66_vector",
    "C66_list_vector_partial",
    "C66_list_vector_refuted",
    "C66_vec_typeof",
    "C66_vec_typeof_refuted"
   ],
   "note": "Tables, casts and common types are proved for all pairs. There is no native cast to complex; lists whose proxy is a scalar are no vectors; objects of class data.frame that are no lists have the type of data frames (each refuted). What the functions called do is not part of the claim."
  },
  {
   "property": "C67",
   "status": "partial",
   "theorems": [
    "C67_calls",
    "C67_identity_partial",
    "C67_identity_refuted",
    "C67_unspecified",
    "C67_scalar",
    "C67_dispatch",
    "C67_symmetric_partial",
    "C67_symmetric_fallback_partial",
    "C67_side_partial",
    "C67_side_refuted"
   ],
   "note": "NULL as identity and symmetry with NULL are proved without the fallback for classes (false with it, C67_identity_refuted); the side is right except for the pairs and cases of C67_side_refuted. Symmetry holds with the fallback too where NULL does not occur (C67_symmetric_fallback_partial); it assumes that the functions called are symmetric and that all NULL and all unspecified objects have one prototype."
  }
 ]
}