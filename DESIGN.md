# Machine-checked model of vctrs: design

The C sources of vctrs in `/repo/src` (and a little of `/repo/R`) are modelled
as total Gallina functions in Rocq (Coq 8.16.1), and the properties of
`properties.jsonl` are proved about those functions for all inputs.

## File layout (`rocq/theories`)

| prefix | content |
|---|---|
| `Base.v` | outcomes (`Ok`/`Err`/`UB`), checked arrays, C-style loops and their invariant rules |
| `Spec_*.v` | small specifications written without any model function |
| `M_*.v` | models: every definition cites the C file and lines it models |
| `L_*.v` | lemmas, invariants, refinement proofs |
| `P_*.v` | property theorems (`exact` of a lemma), `Print Assumptions`, concrete `Example`s that meet the hypotheses |

## Modelling conventions

* R errors are `Err`; undefined behaviour (out-of-bounds access, signed
  overflow, division by zero, out-of-range float to int conversion) is `UB`, a
  separate outcome, so that a proof of `f x = Ok _` excludes it.
* C `int` values are `Z`, `NA_INTEGER = NA_LOGICAL = -2^31`. Hashes are `Z`
  with explicit `mod 2^32`/`mod 2^64`. Sizes/locations are `nat` except where
  the signed value matters.
* Doubles are their 64-bit patterns (`Z` in `[0, 2^64)`), with `isnan`, `==`,
  `<` defined on the bits.
* CHARSXPs are byte strings or `NA`. R interns strings in a global cache, and
  vctrs normalises encodings before comparing, so pointer equality is content
  equality in the model. This is an assumption on R (see trusted base).
* R objects (list elements, attributes) are finite trees. The pointer-equality
  shortcuts `x == y` are justified by reflexivity theorems.
* Loops over C arrays are `for_` loops over `list` state with checked reads
  and writes; proofs use loop invariants.

## Trusted base

* The Coq kernel (and `coqchk`); the standard library and std++. The axioms
  used by each theorem are printed by `Print Assumptions` in the `P_*` files;
  see the end of this file for the list.
* The faithfulness of the hand-written model to the C text. Every model
  definition cites lines; deviations are stated in its comment.
* R itself: memory allocator, string interning, `Rf_translateCharUTF8`,
  `INTEGER()`-style accessors, S3 dispatch.

Not modelled anywhere: garbage-collection protection (except of the counters of
a reduction, C48), S3/S4 dispatch and
user-defined proxy/restore/cast/ptype2 methods, error-message text, encoding
translation (except C53), R-level argument matching, ALTREP materialisation (other than the
chr-rle class), names/attributes restoration unless a property mentions it.

## Plan per property

| id | model | proof |
|---|---|---|
| C01 | `equal.h` scalar `*_equal_na_equal`, `equal.c` vec/df loops | bit-level case analysis; row loop invariant |
| C02 | `*_equal_na_propagate`, `df_equal` with `row_known` | loop invariant relating `row_known`/`remaining` to the fold over columns |
| C03 | `compare.h`, `compare.c` | order on sign-magnitude keys, lexicographic rows; short-circuit invariant |
| C04 | `hash.c` arithmetic, fill, combine | equal elements normalise to the same word; fold over columns |
| C05 | `equal_object`, `vec_equal_attrib`, `sexp_hash` on trees | structural induction; refutation where false |
| C06 | `dict_key_size`, `dict_hash_with` | triangular numbers are a permutation mod 2^k; wrap-around lemma |
| C07-C12 | `vctrs_unique_loc`, `vctrs_duplicated`, `vctrs_duplicated_any`, `vctrs_n_distinct`, `vctrs_id`, `vec_match_params`, `vctrs_in`, `vctrs_count`, `vctrs_group_id`, `vctrs_group_loc` | dictionary invariant (table = first occurrences of the prefix), then per-client invariants |
| C13 | `vctrs_group_rle` | decode invariant |
| C14 | `set.c` | dictionary invariant + list-set specification |
| C15, C16 | `runs.c` | run decomposition invariant; OOB writes refuted with witness |
| C17, C18 | `rep.c` | list induction; overflow arithmetic |
| C19 | `expand.c` | mixed-radix numbering |
| C20 | `fill.c` | loop invariants against nearest-non-missing specification |
| C21 | `missing.c`, `complete.c` | short-circuit invariant |
| C22 | `size-common.c`, `size.c` | fold invariant, permutation invariance |
| C23 | `subscript-loc.c` | per-branch loop invariants |
| C24, C41, C42 | `slice.c`, `slice-assign.c`, `slice-array.c`, `strides.h`, `utils.c` compact vectors | loop invariants |
| C25 | `slice-chop.c`, `c-unchop.c` | partition argument |
| C26 | `slice-interleave.c` / `R/slice-interleave.R` | arithmetic on locations |
| C27, C28 | `order.c`, `order-radix*`, `order-sortedness.c`, `order-groups.c` | stable-sort refinement per algorithm; digit-wise radix invariant |
| C29 | `rank.c` | over group runs |
| C30 | `match.c` | nested binary search on ordered nested groups; ranks from the order, then expansion of compact matches |
| C31-C33 | `interval.c` | sweep invariant |
| C34 | `names.c` | strip/append suffix lemmas |
| C35 | `typeof2*.c`, `ptype2*.c` | finite case analysis on type lattice |
| C36, C37 | `cast.c`, `type-factor.c`, `conditions` | range arithmetic; levels union |
| C38 | `type-data-frame.c`, `ptype2` df | list induction |
| C39 | `type-integer64.c` | shift/bias arithmetic |
| C40 | `shape.c` | dimension-wise induction |
| C43 | `growable.c`, `vctrs.h`, `rlang/dyn-array.c` | representation invariant |

| C44 | `names.c` outer names, `utils.c` `r_chr_iota` | buffer invariant |
| C45 | `altrep-rle.c` | induction on the runs |
| C46 | `rlang/dict.c` | representation invariant: the chains are a permutation of the map |
| C47 | `rlang/dyn-list-of.c` | representation invariant: each array is in the reserve or in its own moved array, pointers carry the block they point into |
| C48 | `arg.c`, `arg-counter.c`, `size-common.c:vctrs_size2_common` | buffers of bytes that may be uninitialised; counters as a heap with the pointers swapped by `counters_shift()`; boxes no longer protected are undefined behaviour |
| C49 | `bind.c`, `names.c:apply_name_spec`, `utils.c:r_vec_fill`, row names of `proxy-restore.c` and `slice.c` | the column loop fills a fresh list block by block; the row loop simulates the loop of `vec_c()` on data frames (C25), with invariants for row names and the `.names_to` column |
| C50 | `type-data-frame.c` (`df_list`, `data_frame`, `new_data_frame`, row names, `df_flatten`, `df_poke_at`), `size.c:df_rownames_size` | each pass (dropping NULL, unpacking, flattening) fills a fresh list block by block; dropping and then unpacking equals one pass over the inputs; flattening by induction on values against an inductive relation |
| C51 | `c.c:vec_c_opts`, `c-unchop.c:list_unchop` with outer names, name specification and repair (M_Chop has the same loops without) | the loops run in lock step with those of C25 (same values); the names follow an invariant of their own: the blocks so far, or the names placed so far |
| C52 | `rlang/walk.c` (objects as finite trees; the stack with its capacity, and writes through a pointer that a push invalidates) | each stack entry stands for the children left; by induction on the nesting depth, an entry runs through the visits of its children and its own last visit |
| C53 | `translate.c`, `translate.h`, `utils.c:r_clone_referenced` (a heap of objects, attributes as pairlists, `MAYBE_REFERENCED()` as any sound function) | by induction on the depth of values: a step changes nothing that is in use and makes no new reference to an old object; frame lemma for values |
| C54 | `slice-assign.c` (`vec_assign_opts` after casts, `vec_proxy_assign_opts`, `df_assign`), `owned.h`, `proxy.c:vec_proxy`, `proxy-restore.c:vec_restore`, the methods of `R/type-rcrd.R` (a heap of vectors, lists, data frames and records; `MAYBE_REFERENCED()` as any sound function) | by induction on the depth: what an assignment may write is the rows of an owned object, its target or nothing; what the result reaches is new, written, or an element of a list; loop invariant over the columns |
| C55 | `proxy-restore.c` (without methods of other classes), `utils-dispatch.c:class_type`, `size.c:df_raw_size` (a heap of vectors and lists with attributes; the clone of the attributes as linked nodes, `MAYBE_REFERENCED()` and the repair of row names as any functions) | loop invariant of the removal of nodes; attributes as sets of tags; induction on the depth of the columns with the places that the result occupies |
| C56 | `order.c` (`chr_appearance_counting` and its callers) | counts per string as negative truelengths; cumulated sizes are the start of each bucket; the placement loop is shared with the counting sort of C27 |
| C57 | `fields.c` (the translation of strings and the sizes of fields as any functions; `val--` with rounding to the nearest double) | the rounded difference is exact for indices in range and keeps to the right side of the bounds outside; list lookups |
| C58 | `rlang/attrib.c` (`r_attrib_set`, `r_attrib_push` and helpers), `rlang/node.c`, `node_compact_d` of `utils.c`, on a heap of cells (not modelled: garbage collection, the object bit, the difference of pairlists and calls, cdrs other than pairlists) | segments of lists with their addresses; a list that ends visits no cell twice; frame conditions |
| C59 | `proxy.c` (`vec_proxy_equal`, `vec_proxy_compare`, `vec_proxy_order`, `df_proxy`, `vec_proxy_unwrap`), `df_flatten` without names, `vec_order_expand_args` and the parsers of `direction` and `na_value` in `order.c` (S3 methods are any functions; not modelled: values of vectors, dimensions other than by being not bare) | the leaves of nested objects in order; which flag belongs to which leaf |
| C60 | `vec_as_ssize`, `vec_as_short_length`, `list_sizes`, `list_all_size` of `size.c`, `assert.c`, `empty.c`, `list_all_vectors`, `r_arg_as_ssize` of `rlang/rlang.c` (doubles as bit patterns; `vec_size()` and `obj_is_vector()` of elements are any functions; `vec_slice()` by the logical vector is in C23 and C24) | the whole number an argument stands for; sizes of elements in order |
| C61 | `s3_paste_method_sym` with its buffer, `s3_find_method*`, `s4_find_method`, `s3_get_class*`, `list_is_homogeneously_classed` of `utils.c`; the search for methods in `vec_ptype2_dispatch_s3` and `vec_cast_dispatch_s3`; `needs_vec_c_homogeneous_fallback` and `df_needs_fallback` of `c.c` (environments are functions from names to values; the equality of classes is any equivalence; calling the method is not modelled) | the name `generic.class`; the first class with a method |
| C62 | the casts of `type-date-time.c` and what they check (base R's `as.Date()`, `as.POSIXct()`, `as.POSIXlt()` and the conversions by way of character vectors are any functions; names are left out) | times as exact numbers; the zone an attribute stands for |
| C63 | `vec_joint_proxy_order*` of `match-joint.c`, `order-collate.c` (a proxy is the list of its columns, which is what flattening and unwrapping give by C59; `vec_c()` of vectors of one type is concatenation; proxy methods and `chr_proxy_collate` are any functions) | rows of the proxy of both vectors combined |
| C64 | `rlang/vec-chr.c`, `rlang/vec.c:100-228`, `rlang/obj.c:37-96`, `r_seq`, `r_int_fill_seq`, `chr_c`, `vctrs_set_attributes` of `utils.c`, `vec_is_restored` of `slice.c` (two vectors of a copy are different objects; one loop for all types of `r_vec_poke_n`; of `Rf_setAttrib()` only the removal by `NULL` and the rules of `dim` and `dimnames`; the table of preserved objects is a map, see C56 for the hash table) | first positions, spliced lists, filters, sets of attributes, counts of calls |
| C65 | `r_env_coalesce`, `r_env_clone`, `r_env_inherits`, `r_env_find_until` of `rlang/env.c`, `rlang/env-binding.c`, `rlang/formula.c`, `altrep-lazy-character.c` (R 4.0 and later; frames are lists of bindings; the function of a lazy vector may give another result at each call but does not use the vector) | chains of parents, union of frames, plain vectors |
| C66 | `vec_proxy_info`, `vec_base_typeof`, `obj_is_list`, `obj_is_vector`, `vec_typeof` of `type-info.c`, the tables of `typeof2.c` and `typeof2-s3.c` entry by entry, the choice of functions in `cast.c`, `cast-dispatch.c`, `ptype2.c`, `ptype2-dispatch.c` (which function is called, not what it does: see C35 to C38 and C62; whether an object is unspecified and which proxy method it has are given) | what each conversion takes and gives |
| C67 | `vec_ptype2_opts_impl`, `vec_ptype2_from_unspecified` of `ptype2.c` (objects abstract; `vec_ptype()`, the functions named by the native tables and `vec_ptype2_dispatch_s3()` are arbitrary functions that give the same at each call) | which function gives the type, and the side it comes from |

The final status of each property, with theorem names, is in `MANIFEST.json`.

## What is modelled, and what is not

Modelled, function by function (the comments give lines): `equal.c`, `equal.h`,
`compare.c`, `compare.h`, `hash.c`, `dictionary.c`, `dictionary.h`, `set.c`,
`runs.c`, `rep.c`, `expand.c`, `fill.c`, `missing.c`, `complete.c` (detection and
location), `size.c`, `size-common.c`, `subscript-loc.c`, `slice.c`, `slice-array.c`,
`slice-assign.c`, `slice-assign-array.c`, `slice-chop.c`, `c.c` and
`c-unchop.c`, `slice-interleave.c`/R, `order.c`, `order-sortedness.c`,
`order-groups.c`, `order-truelength.c`, `rank.c`, `match.c`, `match-joint.c`,
`match-compare.h`, `interval.c`,
`type-integer64.c`, `shape.c`, `type-factor.c`, `cast-bare.c`, `typeof2*.c`,
`ptype2*.c`, `type-data-frame.c` (all but the R-level coercion methods), `bind.c`,
`names.c` (repair, outer names, `apply_name_spec`), `vctrs.h`/`growable.c`, `rlang/dyn-array.c`, `rlang/dict.c`,
`rlang/dyn-list-of.c`, `rlang/walk.c`, `arg.c`, `arg-counter.c`, `translate.c`,
`altrep-rle.c`, compact vectors of
`utils.c`.

Simplifications that matter for reading the theorems:

* Values are immutable in the model (except C53 to C55, whose models have a heap), so
  nothing is said about whether C writes into an object that R code still holds
  (ownership, `r_clone_referenced`).
* `order.c`: `chr_ordered = TRUE` only; the other mode (groups in order of
  appearance) is modelled for one column or chunk (C56), not for the loop over the
  columns; parsing of the strings `direction`
  and `na_value` and `chr_proxy_collate` are not modelled.
* `rank.c`: `vec_slice(x, complete)` is modelled as keeping those rows of the
  columns.
* `interval.c`: casts, proxies and the final slicing of `start` and `end` are
  not modelled; complex endpoints are excluded (see C27 below).
* `match.c`: the columns are taken after cast to the common type and proxy;
  parsing of the option strings, the `relationship` warnings' text and the
  dynamic arrays' growth are not modelled (growth is C43). Packed data frame
  columns are covered for `==` only (see `C30_packed_refuted`).
* `type-factor.c`: attributes other than `levels` and encodings are not
  modelled; base R's `factor()` and `match()` are modelled by their documented
  meaning. Two factors met by `vec_ptype2` have levels at different addresses.
* `ptype2*.c`: the classes in the `typeof2` tables; no names, row names,
  dimnames, S3 fallback, or partial types.
* `c.c`, `c-unchop.c`: the cast to the common type is a parameter; integer
  locations.
* `names.c`: `"universal"` repair, which is R code full of regular expressions,
  and `.name_spec` functions are not modelled.

Citations that name a function (`file:lines [function]`) are checked by a script
against the extent of that function; the others are checked by hand only.

## Axioms

Every `Print Assumptions` in the `P_*` files prints "Closed under the global
context": no theorem depends on an axiom. `coqchk` lists seven axioms of
`Coq.ssr.ssrunder` as present in the loaded library (std++ imports ssreflect);
no theorem uses them.

## Findings: statements that are false of the code

Each is proved as a theorem with a concrete witness.

| theorem | where | what happens |
|---|---|---|
| `C05_symmetric_refuted`, `C05_attribute_names_refuted`, `C05_hash_refuted` | `equal.c:389-414` `vec_equal_attrib` | attribute names are not compared, and attributes that only the right object has are ignored, so object equality is not symmetric and equal objects can hash differently |
| `C07_unique_loc_refuted`, `C43_growable_refuted` | `vctrs.h:225` `growable_push_int` | the capacity is doubled as an `int`: signed overflow at the push number 2^30 + 1 |
| `C09_match_propagate_refuted` | `hash.c:357-359` | with `na_equal = FALSE`, a raw column after a column with a missing value erases the missing mark, so an incomplete needle is matched |
| `C16_locate_refuted`, `C16_locate_ub` | `runs.c:46-76` | `vec_locate_run_bounds` writes one element past its output (exact condition proved) |
| `C20_unchanged_refuted` | `fill.c` | unfilled leading missing values take the value of row 1 (row n for "up"): a NaN can become NA |
| `C22_recycle_empty_size_refuted` | `size.c:231-254` | `vec_recycle(x, integer())` reads `size[0]` of an empty vector |
| `C23_abs_na_refuted` | `subscript-loc.c` `int_filter_oob` | evaluates `abs(NA_INTEGER)` |
| `C23_chr_range_refuted` | `subscript-loc.c` `chr_as_location` | locations beyond `n` when `names` is longer than `n` |
| `C25_roundtrip_names_refuted` | `c-unchop.c` | name repair "minimal" turns missing names into empty ones |
| `C27_complex_oob_refuted`, `C27_complex_loop_refuted` | `order.c:3898-3918` `DF_ORDER_EXTRACT_CHUNK_CPL` | `--i` runs once per group chunk, so with ties before a complex column the column index goes out of range (read out of bounds) or the loop never ends |
| `C30_incomplete_refuted` | `match.c:922-927` | with `==`, needles whose haystack range becomes empty are never visited: `incomplete = "error"` gives no error for needles `c(NA, 1, 2)` and haystack `5`, and the incomplete needle counts as unmatched |
| `C30_filter_refuted` | `match.c:700-754` | `filter` is applied column by column during the search: needle (0, 2), haystack rows (1, 1), (2, 3), conditions `<=`, `>=`, filter `max`, `none` gives no match although row 1 (0 <= 1, 2 >= 1) matches |
| `C30_packed_refuted` | `match.c:671-695` | in a packed data frame column with an inequality, incomplete haystack rows are not all sorted first, so a complete needle is matched with an incomplete row |
| `C34_idempotent_refuted` | `names.c:277-343` | the name `......1` is stripped to `...`, a banned name, which a second repair replaces |
| `C34_banned_refuted` | `names.c:356-374` | `..0` is documented as banned but kept, since `strtol()` returns 0 |
| `C35_associative_defined_refuted` | `typeof2.c` | logical and complex have no common type, while (logical, integer), complex has one |
| `C35_associative_intermediate_refuted` | `typeof2-s3.c` | factor with ordered is an error, factor with (ordered with character) is character |
| `C35_idempotent_refuted` | `type-date-time.c` | POSIXlt with itself is POSIXct; a time zone attribute of several elements is cut to the first |
| `C35_symmetric_duplicates_refuted`, `C38_cast_duplicates_refuted` | `type-data-frame.c` | duplicated column names: the common type depends on the order, and `df_cast_match` counts a column twice and then drops another silently |
| `C36_roundtrip_nan_refuted` | `cast-bare.c` | NaN comes back as NA through integer or logical |
| `C37_cast_missing_refuted` | `type-factor.c`, `R/type-factor.R` | with a level `NA` in the target, the R fallback turns a missing value into that level |
| `C37_ptype2_duplicates_refuted` | `type-factor.c` | two factors with the same levels object keep duplicated levels |
| `C41_overflow_refuted`, `C41_init_overflow_refuted` | `strides.h`, `slice-array.c` | strides are `int`: overflow for arrays of more than 2^31 - 1 cells |
| `C42_assign_rep_refuted` | `slice-assign.c` | a compact repetition is read as a location vector (no caller passes one) |
| `C43_dyn_array_capacity0_refuted` | `rlang/dyn-array.c` | an array of capacity 0 never grows |
| `C45_past_end_refuted` | `altrep-rle.c:100-135` `altrep_rle_Extract_subset` | an index past the end gives the last string, where R gives `NA` |
| `C45_empty_refuted` | `altrep-rle.c:100-135` `altrep_rle_Extract_subset` | with no runs at all, element -1 is read |
| `C46_del_refuted` | `rlang/dict.c:169-187` `r_dict_del` | `n_entries` is not decremented: `r_dict_as_df_list()` and `r_dict_as_list()` then have `NULL`s at their end |
| `C46_prevent_refuted` | `rlang/dict.c:59-92` `r_dict_resize` | everything but the shelter is copied from the new dictionary, so `prevent_resize` is reset |
| `C47_back_refuted`, `C47_back_bounds_refuted` | `rlang/dyn-list-of.h:54-57` `r_lof_arr_ptr_back` | uses the number of arrays as the index of the last element: a wrong element, or one outside of the array's memory |
| `C47_zero_refuted`, `C47_negative_refuted` | `rlang/dyn-list-of.c:144-189` | capacity or width 0 never grows; negative locations are not checked |
| `C48_current_refuted` | `arg-counter.c:87-99` `counters_shift` | `names_curr` is never updated: with named inputs, errors name the first input instead of the one that gave the current value (`vec_size_common(foo = 1, bar = 1:2, baz = 1:3)` reports `foo`; the snapshot of `vec_ptype_common(foo = TRUE, bar = 1, "foo")` in `tests/testthat/_snaps/type.md` records it) |
| `C48_box_refuted` | `arg-counter.c:146,193-194` | the index is increased by the inputs of a splice box and once more for the box: later inputs are numbered one too high |
| `C48_dangling_refuted` | `arg-counter.c:55-74` `init_next_box_counters` | only the last two boxes are protected, but the current tag may point into an earlier one |
| `C49_outer_refuted` | `bind.c:222` | tests `inner != chrs_empty` where `vec_c()` and `list_unchop()` test the names that `apply_name_spec()` returned: `vec_rbind(a = data.frame(x = 1), data.frame(x = 1:2))` assigns one empty name to two rows, an internal error |
| `C49_rbind_ptype_refuted` | `bind.c:125-150`, `ptype.c:99-115`, `slice.c:200-204` | a `.ptype` with character row names gives the result of `vec_rbind()` row names `...1`, `...2` although no input has any |
| `C49_cbind_ptype_refuted` | `bind.c:385-411` | row names learned from a `.ptype` without rows can't be recycled: `vec_cbind()` fails |
| `C50_rownames_refuted` | `type-data-frame.c:417-420` | the row names `c(NA_integer_, NA_integer_)`, which R's `attr<-` stores as they are, are taken as compact ones: `abs(INT_MIN)` overflows |
| `C51_unchop_stale_name_refuted` | `c-unchop.c:143-149` | `list_unchop(list(a = 1L, 2L), indices = list(1, 1))` is `c(a = 2L, NA)`: the name of the input that was overwritten stays, because an empty name is not assigned ("`out_names` already contains empty strings") |
| `C51_ptype_names_refuted` | `c.c:155-165`, `c-unchop.c:171-180` | `vec_c(1L, .ptype = c(a = 1L))` has names though no input has any (the FIXME there) |
| `C52_deep_refuted` | `rlang/walk.c:212-235` | for 257 nested lists `r_dyn_push_back()` moves the stack to new memory, but `p_info` still points into the old: the state of the parent is advanced there, and the child is visited a second time |
| `C52_relation_refuted` | `rlang/walk.c:187-190` | the elements of character vectors and expressions get the relation `list_elt`, not `character_elt` or `expression_elt` |
| `C53_env_refuted` | `translate.c:151-169` | `r_clone_referenced()` does not copy an environment, so `r_poke_attrib()` changes the attributes of the one that R code holds (`e <- structure(new.env(), foo = latin1); vec_equal(list(e), list(e))` re-encodes `attr(e, "foo")`) |
| `C53_cycle_refuted` | `translate.c:171-208` | an environment with an attribute that is (or contains) the environment itself is followed for ever: the C stack overflows |
| `C54_rcrd_refuted` | `slice-assign.c:34-36` | the proxy of a record is a new data frame that nothing holds, so `vec_owned()` says it is owned, and `df_assign()` changes its columns in place; they are the fields of the record that the caller holds (`x <- new_rcrd(list(a = c(1, 2))); vec_assign(x, 1, new_rcrd(list(a = 9)))` changes `x`) |
| `C54_alias_refuted` | `slice-assign.c:34-36`, `340-379` | a record with one vector as two fields (`new_rcrd(list(a = v, b = v))` does not copy `v`): both fields of the result get the values of the last one |
| `C54_self_refuted` | `slice-assign.c:34-36`, `188-210` | a record assigned into itself at other locations reads values that it has overwritten (`vec_assign(x, 3:1, x)`) |
| `C55_recurse_refuted` | `proxy-restore.c:201-204` | with recursion `r_list_poke(x, i, x_restored)` writes into `x` before `vec_restore_default()` clones it, so that a list in use changes (`vec_restore_recurse()` of a list that the caller holds) |
| `C55_bare_refuted` | `proxy-restore.c:67-69` | if `to` has no attributes, `x` is returned with its own class and attributes (`vec_restore_default(factor("a"), 1L)` is a factor) |
| `C57_dbl_refuted` | `fields.c:41-54` | `R_IsNA()` does not hold for NaN and the bounds are tested by comparisons that are false for NaN, so `field(x, NaN)` converts NaN to `int`, which is undefined (and reads out of bounds where it gives `INT_MIN`) |
| `C59_args_refuted` | `order.c:4523-4569` | the expansion counts the columns of a data frame column itself, while the proxy of a data frame of a class of its own may have another number of columns; where the sizes agree by chance a column of the proxy is ordered in the direction given for another column |
| `C60_short_length_refuted` | `size.c:339-357` | `-Inf` equals its `floor()` and is not too large, so it is converted to `r_ssize`, which is undefined; the same for doubles below -2^63 |
| `C60_arg_nan_refuted`, `C60_arg_na_refuted` | `rlang/rlang.c:36-66` | `r_arg_as_ssize()` converts missing doubles to `int64_t` (undefined) and takes a missing integer as -2^31, so `list_all_size(list(), NA)` with an integer `NA` is true |
| `C60_list_sizes_long_refuted`, `C60_dim_refuted`, `C60_proxy_refuted` | `size.c:83-113`, `empty.c:10-52` | sizes above 2^31 - 1 are truncated to `int`; for lists with dimensions only the elements of the first column count; the elements are read up to the size of the proxy, which is past the end where the proxy has more rows than the list has elements |
| `C61_paste_refuted` | `utils.c:442-459` | the lengths are added as `int`; with a class name of 2^31 - 1 bytes the sum overflows before it is compared with the size of the buffer |
| `C61_pair_refuted` | `utils.c:560-583` | the classes are joined by dots, so a method for the classes `a` and `b.c` is found for objects of the classes `a.b` and `c` |
| `C62_cast_refuted`, `C62_cast_attr_refuted` | `type-date-time.c:397-411, 457-477` | zones are compared as C strings, so a missing zone equals the zone "NA" and the cast between them does nothing; where the zones are equal the attribute stays as it is, so that date-times cast to one type may keep different attributes (abbreviations after the name of the zone) |
| `C63_joint_refuted` | `match-joint.c:320-387` | for data frames with a class of their own `df_joint_proxy_order()` takes the columns; a `vec_proxy_order()` method of the class is not called, so that `vec_locate_matches()` with conditions compares by another order than `vec_order()` |
| `C64_has_any_refuted` | `rlang/vec-chr.c:22-37` | `r_chr_has_any()` never puts its pointer back: with a first element that is none of the strings, no other element is looked at |
| `C64_has_refuted` | `rlang/vec-chr.c:5-20` | a missing string is found as the string "NA" |
| `C64_poke_refuted` | `rlang/vec.c:158-228` | `r_vec_poke_range()` with a range that ends before it starts gives a negative `n`, which passes both checks; the loop `i != n` runs out of bounds |
| `C64_fill_refuted` | `utils.c:1075-1081` | `r_int_fill_seq()` increments `start` after the last value: signed overflow if this is the largest integer, as for a logical subscript `TRUE` of 2147483647 positions |
| `C64_attributes_refuted` | `utils.c:263-318` | of attributes given twice, a second `dim` drops the `dimnames` set before it |
| `C65_inherits_refuted` | `rlang/env.c:247-272` | `r_env_inherits()` says that every environment inherits from itself but the empty one |
| `C66_common_refuted` | `ptype2.c:128-131`, `cast.c:77-126` | integers and doubles have the common type complex natively, but there is no native cast to it (an R method is called) |
| `C66_list_vector_refuted` | `type-info.c:83, 97-113` | a list whose proxy method gives a scalar is a list and no vector; an object of class `c("list", "foo")` has the type of lists but is no list |
| `C66_vec_typeof_refuted` | `type-info.c:178-182`, `type-data-frame.c:19-21` | an integer vector of class `"data.frame"` has the type of data frames |
| `C67_identity_refuted` | `ptype2.c:40-43, 158-164` | with the fallback for classes, `NULL` on the left gives the prototype of the other, on the right the type of the other with itself: the type of `x` is handed on instead of that of `y` |
| `C67_side_refuted` | `ptype2.c:44-54`, `ptype-common.c:106-110` | the side said to give the common type, whose name errors use, is wrong for a string and a factor, for an unspecified vector on the left (no side is written) and for `NULL` on the right |

Observed while modelling, not stated as theorems:

* `chr_compare_scalar` would divide by zero if two distinct CHARSXPs had the
  same bytes; excluded because strings are interned.
* `vec_as_ssize(-Inf)` casts an out-of-range double to an integer type.
* `ffi_vec_rep_each` reports errors on `x` with the name of `times`.
* `init_lazy_df_short_circuit_info` hands out memory that is not zeroed.
* `vec_as_chop_sizes` and `check_names` print `r_ssize` values with `%i`.
* `vec_c` and `vec_init` truncate a total size above `INT_MAX` when they build
  the compact repetition.
* With overlapping indices in `list_unchop`, an unnamed later value leaves the
  name of the earlier one in place.
* `fct_as_factor_impl` indexes its recoding table with whatever code it finds:
  out of bounds for an invalid factor.
* `expand.c`: the product of sizes may overflow (an error) even if a later size
  is 0.
* A zero-column data frame has every row both missing and complete.
* `isdigit()` in `suffix_pos` is given a plain `char`.
* `max_group_size` is not reset after the rollback of the sortedness check
  (unused then); "Dictionary is full" is unreachable; the overflow of the probe
  counter at `dictionary.c:127` is harmless.

* `match.c:868` pushes the address of an `r_ssize` on an array of `int`: only the
  low half is copied, which is the right half on little-endian machines only.
* `vec_locate_matches` with `multiple = "first"` or `"last"` does not check the
  total number of matches against `INT_MAX` (hypothesis `mi_one`).

## Seeded mutations

`seeded/LOG.jsonl` records edits made to a scratch copy of the model to see
which theorems fail.

`first_failing_lemmas` is what was seen: the first lemma of each file that no
longer compiles.  A file is not compiled beyond it, so `theorems_failed` is
computed: the theorems of the manifest that are one of these lemmas or use one
of them, directly or through other lemmas or definitions.  A theorem listed
there has lost its proof as written; it was not tried separately whether it
could be proved in another way.  Theorems that stand later in the same file
and also fail, and uses through hint databases or instances, are not listed.

The script that made the first 778 entries found uses by name in the text, and counted the
`Print Assumptions` lines after the last theorem of a file as part of that
theorem.  Theorems were listed that do not use the lemma: 2612 of the 5456
listings, in 319 entries.  They were removed, by the references
that the compiler records in `.glob` files.  The files are those of the present
theories, so a use that was given up since is not listed any more.  Entries
with a note say how their theorems were found and were left as they were.  No
entry lost all its theorems or all those of its claim.

Some edits fail only because a lemma repeats the text of the definition, or
because the edited definition does not compile.  That shows nothing about the
theorems.  Entries where the first failing lemma is proved by one step were
looked through for this; those found have a note that says so and whether
the edit was tried again in a way that does test the theorems.  Lemmas with
longer proofs that repeat a definition were not looked for.
