{
 "claims": [
  {
   "property": "C01",
   "status": "proved",
   "theorems": [
    "C01_order_variable_free"
   ],
   "note": "tlt restricted to variable-free terms is a strict weak order."
  },
  {
   "property": "C02",
   "status": "partial",
   "theorems": [
    "C02_order_with_variables_refuted",
    "C02_order_bare_variables_partial",
    "C02_order_ties_partial",
    "C02_order_exactly_partial",
    "C02_order_one_index_partial",
    "C02_order_renamed_partial"
   ],
   "note": "REFUTED. <$0 --> $1> and <$1 --> $0> are each less than the other. Partial: the laws can fail only among terms with variables and equal hashes; where equal hashes come from renaming, they hold on a class of terms exactly if of any two renamings in it one has all indices at most those of the other, so in particular for terms with one index each; they hold on variable-free terms together with bare variables."
  },
  {
   "property": "C03",
   "status": "proved",
   "theorems": [
    "C03_equality_laws"
   ],
   "note": "Reflexivity and symmetry for terms without dependent/query variables; equal hash for all terms."
  },
  {
   "property": "C04",
   "status": "partial",
   "theorems": [
    "C04_equality_defined_refuted",
    "C04_equality_defined_partial",
    "C04_equality_renamed_partial",
    "C04_equality_other_hash_partial"
   ],
   "note": "REFUTED. #x == #x reads the first element of an empty vector. Partial: defined on terms without dependent/query variables; for terms equal up to indices it is settled exactly, by the first place from the left that has a dependent or query variable (undefined) or two different independent ones (false); different hashes: false."
  },
  {
   "property": "C05",
   "status": "proved",
   "theorems": [
    "C05_equality_identity"
   ],
   "note": "For addresses in [2^34,2^62) with one object per address, intervals other than -126,-127,-129."
  },
  {
   "property": "C06",
   "status": "proved",
   "theorems": [
    "C06_renaming_hash"
   ],
   "note": "Any renaming of indices, all terms."
  },
  {
   "property": "C07",
   "status": "partial",
   "theorems": [
    "C07_components_kept_refuted",
    "C07_merged_only_on_collision_partial"
   ],
   "note": "REFUTED. Two products of atoms at heap-like addresses have the same 64-bit hash and are merged in a set. Partial: a component disappears only if a kept one has the same hash."
  },
  {
   "property": "C08",
   "status": "proved",
   "theorems": [
    "C08_argument_order"
   ],
   "note": "Permutations of collision-free argument lists."
  },
  {
   "property": "C09",
   "status": "proved",
   "theorems": [
    "C09_repetition"
   ],
   "note": "Repeated arguments, collision-free."
  },
  {
   "property": "C10",
   "status": "proved",
   "theorems": [
    "C10_exact_components"
   ],
   "note": "Stated with the structural normal form `tidy`; nested compounds of any depth."
  },
  {
   "property": "C11",
   "status": "partial",
   "theorems": [
    "C11_no_component_lost_refuted",
    "C11_no_component_lost_partial",
    "C11_untidy_partial"
   ],
   "note": "REFUTED. (||, A, (&&, C, C)) loses C. Partial: nothing is lost by ordered connectors, with tidy arguments, or without intersections when every set-like compound in the arguments has two components (one if it is a set)."
  },
  {
   "property": "C12",
   "status": "proved",
   "theorems": [
    "C12_sequence"
   ],
   "note": "All argument lists."
  },
  {
   "property": "C13",
   "status": "proved",
   "theorems": [
    "C13_plain"
   ],
   "note": "All argument lists."
  },
  {
   "property": "C14",
   "status": "proved",
   "theorems": [
    "C14_union_of_sets"
   ],
   "note": "All set arguments."
  },
  {
   "property": "C15",
   "status": "partial",
   "theorems": [
    "C15_intersection_of_sets_refuted",
    "C15_intersection_of_sets_partial"
   ],
   "note": "REFUTED. (&, {A,B}, {B,C}) is (&, B). Partial: the members are the common members, but the connector is the intersection."
  },
  {
   "property": "C16",
   "status": "partial",
   "theorems": [
    "C16_difference_of_sets_refuted",
    "C16_difference_kept_partial"
   ],
   "note": "REFUTED. (-, {A,B}, {B,C}) stays a difference compound. Partial: a difference always keeps its arguments as given."
  },
  {
   "property": "C17",
   "status": "partial",
   "theorems": [
    "C17_normal_form_refuted",
    "C17_normal_form_partial"
   ],
   "note": "REFUTED. {(&&, {A}, B)} becomes {{A}, B}. Partial: tidy arguments give a tidy result."
  },
  {
   "property": "C18",
   "status": "partial",
   "theorems": [
    "C18_rebuild_refuted",
    "C18_rebuild_partial"
   ],
   "note": "REFUTED. {{A}, B} is rebuilt as {A, B}. Partial: ordered connectors and tidy compounds."
  },
  {
   "property": "C19",
   "status": "proved",
   "theorems": [
    "C19_complexity"
   ],
   "note": "Structural induction."
  },
  {
   "property": "C20",
   "status": "proved",
   "theorems": [
    "C20_flags"
   ],
   "note": "Structural induction."
  },
  {
   "property": "C21",
   "status": "proved",
   "theorems": [
    "C21_independent_lists"
   ],
   "note": "Heap model of index nodes and shared cells; invariant over all runs."
  },
  {
   "property": "C22",
   "status": "partial",
   "theorems": [
    "C22_dependent_lists_refuted",
    "C22_query_lists_refuted",
    "C22_lists_partial"
   ],
   "note": "REFUTED. <#0 --> a> has an empty dependent list and <?0 --> a> an empty query list, because _init_indexvars never advances its iterator. Partial: the lists hold the independent indices."
  },
  {
   "property": "C23",
   "status": "proved",
   "theorems": [
    "C23_order",
    "C23_length",
    "C23_dense",
    "C23_renaming",
    "C23_idempotent"
   ],
   "note": "Rank among the sorted distinct values."
  },
  {
   "property": "C24",
   "status": "partial",
   "theorems": [
    "C24_clone_refuted",
    "C24_clone_unequal_refuted",
    "C24_clone_partial"
   ],
   "note": "REFUTED. (&&, <$0 --> $1>, <$1 --> $0>): cloning reverses the components and the clone is not == to the original. Partial: the value is kept for terms whose components are in the order of the library; C78 has the rest."
  },
  {
   "property": "C25",
   "status": "proved",
   "theorems": [
    "C25_union",
    "C25_intersection",
    "C25_difference",
    "C25_errors"
   ],
   "note": "Sorted-list set algebra for collision-free lists."
  },
  {
   "property": "C26",
   "status": "proved",
   "theorems": [
    "C26_arity"
   ],
   "note": "All table rows and all argument counts."
  },
  {
   "property": "C27",
   "status": "partial",
   "theorems": [
    "C27_python_connectors_refuted",
    "C27_python_connectors_partial"
   ],
   "note": "REFUTED. Python's ExtensionalDifference is bound to ParallelEvents. Partial: the other fourteen members."
  },
  {
   "property": "C28",
   "status": "partial",
   "theorems": [
    "C28_tables_partial",
    "C28_counterparts_refuted",
    "C28_counterparts_partial"
   ],
   "note": "REFUTED. Both functions return true for every copula (enum value converted to bool). Partial: what the functions give, and that the tables behind them hold the right counterparts."
  },
  {
   "property": "C29",
   "status": "proved",
   "theorems": [
    "C29_one_atom_per_name"
   ],
   "note": "State machine with use counts and re-entrant destructors; invariant over all histories."
  },
  {
   "property": "C30",
   "status": "partial",
   "theorems": [
    "C30_any_placement_refuted",
    "C30_wrong_atom_refuted",
    "C30_window_partial"
   ],
   "note": "REFUTED. Keys are hashes cut to 32 bits: atoms 4 GiB apart collide and a request for the first name returns the second atom. Partial: all placements within any 4 GiB."
  },
  {
   "property": "C31",
   "status": "proved",
   "theorems": [
    "C31_no_leak"
   ],
   "note": "Exact description of all four maps and of the living atoms."
  },
  {
   "property": "C32",
   "status": "partial",
   "theorems": [
    "C32_lookups_refuted",
    "C32_lookups_partial"
   ],
   "note": "REFUTED. get, get_object and get_by_name insert default entries for unknown keys and names. Partial: lookups of known entries and the check functions."
  },
  {
   "property": "C33",
   "status": "proved",
   "theorems": [
    "C33_registration_counted"
   ],
   "note": "Arbitrary interleavings with calls about other keys and names, including lookups."
  },
  {
   "property": "C34",
   "status": "partial",
   "theorems": [
    "C34_inverse_refuted",
    "C34_inverse_partial"
   ],
   "note": "REFUTED. put(1,\"a\"), put(2,\"a\"). Partial: one-to-one registrations."
  },
  {
   "property": "C35",
   "status": "partial",
   "theorems": [
    "C35_same_operation_refuted",
    "C35_defined_refuted",
    "C35_matched_partial",
    "C35_next_partial"
   ],
   "note": "REFUTED. ^go parsed twice gives two different operations; ^go after the atom go dereferences a null pointer. Partial: right in all histories that parse ^n only while both or neither of n and ^n are in use; parsing it while one of them is in use is wrong each time."
  },
  {
   "property": "C36",
   "status": "proved",
   "theorems": [
    "C36_overlap"
   ],
   "note": "All reachable states, including bases sharing a set; the narrowing to int is modelled."
  },
  {
   "property": "C37",
   "status": "proved",
   "theorems": [
    "C37_interleave_ends",
    "C37_interleave_exact",
    "C37_interleave_all"
   ],
   "note": "Termination and bounds for any aliasing; exact contents, evenness and the even-maximum bound when the destination is separate."
  },
  {
   "property": "C38",
   "status": "partial",
   "theorems": [
    "C38_extend_refuted",
    "C38_extend_self_refuted",
    "C38_extend_partial"
   ],
   "note": "REFUTED. extend copies the Base object but not its set, clears the shared set and so loses the base's own evidence. Partial: the result is exactly the other's evidence."
  },
  {
   "property": "C39",
   "status": "partial",
   "theorems": [
    "C39_interleave2_refuted",
    "C39_interleave2_partial"
   ],
   "note": "REFUTED. The result starts from Base(), which takes a fresh id. Partial: that one id is the only foreign one and nothing is lost below the maximum."
  },
  {
   "property": "C40",
   "status": "proved",
   "theorems": [
    "C40_nth_id",
    "C40_fresh_evidence"
   ],
   "note": "Histories of all modelled operations, one input counter."
  },
  {
   "property": "C41",
   "status": "partial",
   "theorems": [
    "C41_has_base_refuted",
    "C41_has_base_partial"
   ],
   "note": "REFUTED. In Stamp(int,int,int,pBase,bool) the parameter hides the member, so tensed sentences have no base. Partial: untensed sentences."
  },
  {
   "property": "C42",
   "status": "partial",
   "theorems": [
    "C42_hash_refuted",
    "C42_hash_partial"
   ],
   "note": "REFUTED. extend and interleave do not reset the cached hash. Partial: histories of making, adding, hashing and two-argument interleaving."
  },
  {
   "property": "C43",
   "status": "proved",
   "theorems": [
    "C43_tense",
    "C43_eternal"
   ],
   "note": "Clock and duration such that now+duration fits in int."
  },
  {
   "property": "C44",
   "status": "partial",
   "theorems": [
    "C44_markers_refuted",
    "C44_markers_partial"
   ],
   "note": "REFUTED. Markers are absolute times, not relative to the clock. Partial: exact conditions for every marker."
  },
  {
   "property": "C45",
   "status": "proved",
   "theorems": [
    "C45_deduction"
   ],
   "note": "IEEE single/double, round to nearest even, no fused multiply-add."
  },
  {
   "property": "C46",
   "status": "proved",
   "theorems": [
    "C46_induction",
    "C46_comparison"
   ],
   "note": "IEEE arithmetic; also covers frequency 0 and underflow."
  },
  {
   "property": "C47",
   "status": "proved",
   "theorems": [
    "C47_revision"
   ],
   "note": "Any k with 0 < k <= 2^100, not only 1; aliasing of the two arguments covered."
  },
  {
   "property": "C48",
   "status": "partial",
   "theorems": [
    "C48_repeated_revision_refuted",
    "C48_repeated_revision_partial"
   ],
   "note": "REFUTED. Confidence 1-2^-24 revised twice with 0.5 gives NaN. Partial: k = 1, revised-in confidences up to 1-2^-14 and a start up to 1-22*2^-24 stay proper for ever."
  },
  {
   "property": "C49",
   "status": "proved",
   "theorems": [
    "C49_revision_pools",
    "C49_revision_associative"
   ],
   "note": "Exact arithmetic, as stated."
  },
  {
   "property": "C50",
   "status": "proved",
   "theorems": [
    "C50_expectation",
    "C50_quality"
   ],
   "note": "IEEE arithmetic."
  },
  {
   "property": "C51",
   "status": "partial",
   "theorems": [
    "C51_projection_refuted",
    "C51_projection_partial",
    "C51_overflow_partial"
   ],
   "note": "REFUTED. The quotient is an integer division, so any positive decay duration keeps the confidence. Partial: exact description of the result for all times up to 2^60 in size."
  },
  {
   "property": "C52",
   "status": "proved",
   "theorems": [
    "C52_weights_back",
    "C52_weights_add",
    "C52_total"
   ],
   "note": "Exact arithmetic, as stated."
  },
  {
   "property": "C53",
   "status": "proved",
   "theorems": [
    "C53_budget"
   ],
   "note": "Numbers are read as the standard requires of std::stod (nearest double, C locale; modelled and proved against an independent meaning of decimals). Stated for inputs whose evaluation ends without exception."
  },
  {
   "property": "C54",
   "status": "proved",
   "theorems": [
    "C54_truth"
   ],
   "note": "As C53."
  },
  {
   "property": "C55",
   "status": "proved",
   "theorems": [
    "C55_numbering",
    "C55_same_name",
    "C55_afresh"
   ],
   "note": "Indices, equality and renumbering from scratch, over all accepted inputs and all earlier states with any tables."
  },
  {
   "property": "C56",
   "status": "proved",
   "theorems": [
    "C56_sugar"
   ],
   "note": "For subject and predicate trees with any value; the exclusion is of compounds that a set constructor dissolves."
  },
  {
   "property": "C57",
   "status": "partial",
   "theorems": [
    "C57_dissolved_refuted",
    "C57_wrapped_partial"
   ],
   "note": "REFUTED. `<(&&,a,b) {-- c>.` becomes `<{a,b} --> c>`: the set constructor takes the conjunction apart. Partial: what is built in the other cases (C56), when a compound of another connector is dissolved, and when the term is a normal set of that kind already."
  },
  {
   "property": "C58",
   "status": "proved",
   "theorems": [
    "C58_terminates"
   ],
   "note": "Any stack size, any leftover buffer; 20 steps per character and 20 more. One step = one lookup/shift or one reduction; the scan inside a step is structurally bounded by the text."
  },
  {
   "property": "C59",
   "status": "proved",
   "theorems": [
    "C59_tables",
    "C59_reductions"
   ],
   "note": "Stated for a stack of unlimited size (its bound is C60). The tables are transcribed from narsese.h; LR items are certificates checked by computation, the induction is over steps."
  },
  {
   "property": "C60",
   "status": "partial",
   "theorems": [
    "C60_stack_bounds_refuted",
    "C60_short_inputs_partial",
    "C60_overflow_partial"
   ],
   "note": "REFUTED. alloc_stack grows the stack only once tos is already past its end, and reductions push without growing it: 124 characters suffice to write past the 128 cells. Partial: all inputs up to 123 characters are safe; exactly the inputs needing more cells go wrong."
  },
  {
   "property": "C61",
   "status": "proved",
   "theorems": [
    "C61_grammar"
   ],
   "note": "Holds for any stack size; derivation trees, lexemes and projection are defined in Grammar.v from narsese.par, independent of the tables."
  },
  {
   "property": "C62",
   "status": "proved",
   "theorems": [
    "C62_arguments"
   ],
   "note": "All 74 actions; the grammar's shape (C61) is used, so this covers every accepted input."
  },
  {
   "property": "C63",
   "status": "proved",
   "theorems": [
    "C63_first_line",
    "C63_ascii"
   ],
   "note": "UB alternative only for the overflow of C60."
  },
  {
   "property": "C64",
   "status": "proved",
   "theorems": [
    "C64_independent"
   ],
   "note": "Members the constructor leaves uninitialised are taken to be zero."
  },
  {
   "property": "C65",
   "status": "partial",
   "theorems": [
    "C65_blanks_refuted",
    "C65_spaces_partial"
   ],
   "note": "REFUTED. A tab after a word becomes part of the word: \"a<TAB>.\" is accepted with the word \"a<TAB>\". Spaces: proved that any number of spaces before and after the tokens of an accepted, tab-free line leave the tree unchanged; missing: tabs (inserted or in the input)."
  },
  {
   "property": "C66",
   "status": "partial",
   "theorems": [
    "C66_refuted",
    "C66_partial"
   ],
   "note": "REFUTED. Variables are numbered in the order of the text: `<(&&, <$x --> a>, <b --> $y>) ==> <$x --> $y>>` is printed with the conjunction reordered and read back with $0 and $1 exchanged, which == tells apart. Partial: proved for terms whose variables are numbered from left to right and that share no key with a name (C70); copulas {--, --], {-] do not occur in terms."
  },
  {
   "property": "C67",
   "status": "partial",
   "theorems": [
    "C67_undefined_refuted",
    "C67_lost_refuted",
    "C67_call_partial"
   ],
   "note": "REFUTED. Undefined behaviour when the subject is no compound (a static cast); the copula and the connector of the subject are not printed. Calls as the parser makes them, (^op, a, b), are printed so that they can be told apart."
  },
  {
   "property": "C68",
   "status": "partial",
   "theorems": [
    "C68_negative_refuted",
    "C68_partial"
   ],
   "note": "REFUTED. A negative interval is printed as -5, which the grammar has no reading for. Partial: all intervals from 0 to 2147483647 survive."
  },
  {
   "property": "C69",
   "status": "proved",
   "theorems": [
    "C69_texts_differ",
    "C69_text_exists"
   ],
   "note": "Stated for any symbol table; includes calls of operations; statements and compounds must not share their key with a name (C70)."
  },
  {
   "property": "C70",
   "status": "partial",
   "theorems": [
    "C70_other_name_refuted",
    "C70_parts_partial"
   ],
   "note": "REFUTED. Statements and compounds are looked up by their hash value cut down to 32 bits before they are printed; the witness is a symbol table that the program can reach."
  },
  {
   "property": "C71",
   "status": "proved",
   "theorems": [
    "C71_budget"
   ],
   "note": "For every double and float, NaN and infinities included; a zero may be printed with a sign."
  },
  {
   "property": "C72",
   "status": "partial",
   "theorems": [
    "C72_coloured_refuted"
   ],
   "note": "REFUTED. No coloured sentence is ever printed: the format string of line 271 has six fields for four arguments."
  },
  {
   "property": "C73",
   "status": "partial",
   "theorems": [
    "C73_equality_transitive_refuted",
    "C73_equality_transitive_partial"
   ],
   "note": "REFUTED. $x == +-127 == $y but not $x == $y. Partial: without the interval -127."
  },
  {
   "property": "C74",
   "status": "proved",
   "theorems": [
    "C74_iteration_order"
   ],
   "note": "Any two permutation oracles."
  },
  {
   "property": "C75",
   "status": "proved",
   "theorems": [
    "C75_nothing_invented"
   ],
   "note": "All oracles."
  },
  {
   "property": "C76",
   "status": "partial",
   "theorems": [
    "C76_build_defined_refuted",
    "C76_build_defined_partial"
   ],
   "note": "REFUTED. (&, {A}, {B}, (&&, C, C)) dereferences begin() of an empty vector, and so does any set-like compound of no arguments. Partial: never throws; defined for ordered connectors and for arguments whose set-like compounds have two components each, one if they are sets, in whatever order and nesting."
  },
  {
   "property": "C77",
   "status": "partial",
   "theorems": [
    "C77_repeated_argument_refuted",
    "C77_repeated_argument_partial",
    "C77_set_compound_partial"
   ],
   "note": "REFUTED. (&&, (||,A,B), (||,A,B)) becomes (&&,A,B). Partial: what any number of copies of one term gives, for terms that are no set-like compounds and for tidy ones that are."
  },
  {
   "property": "C78",
   "status": "proved",
   "theorems": [
    "C78_clone"
   ],
   "note": "One theorem with all clauses, by induction over the object and an invariant over all runs."
  },
  {
   "property": "C79",
   "status": "proved",
   "theorems": [
    "C79_total"
   ],
   "note": "Fuel of build: number of nodes; proved sufficient."
  },
  {
   "property": "C80",
   "status": "proved",
   "theorems": [
    "C80_fields"
   ],
   "note": "Invariant over all runs."
  },
  {
   "property": "C81",
   "status": "proved",
   "theorems": [
    "C81_statement",
    "C81_compound"
   ],
   "note": "Input compounds (no cloning of the components) and all statements."
  },
  {
   "property": "C82",
   "status": "proved",
   "theorems": [
    "C82_stable"
   ],
   "note": "Invariant over all runs."
  },
  {
   "property": "C83",
   "status": "partial",
   "theorems": [
    "C83_reset_refuted",
    "C83_reset_partial",
    "C83_null_partial"
   ],
   "note": "REFUTED. get_object of an unknown key stores a null pointer that reset dereferences. Partial: without such lookups."
  },
  {
   "property": "C84",
   "status": "partial",
   "theorems": [
    "C84_overwriting_refuted",
    "C84_overwriting_partial",
    "C84_covered_partial"
   ],
   "note": "REFUTED. Copy assignment does not run ~pTerm on the old value, so the name stays registered. Partial: in every history the registered names are exactly those with a handle and those whose last handle was overwritten and that were not asked for since."
  },
  {
   "property": "C85",
   "status": "partial",
   "theorems": [
    "C85_operation_known_refuted",
    "C85_matched_partial"
   ],
   "note": "REFUTED. Destroying one of two equal-named operations removes the name of the other. Partial: right in the histories of C35."
  },
  {
   "property": "C86",
   "status": "proved",
   "theorems": [
    "C86_extend_stamp"
   ],
   "note": "Any reachable state."
  },
  {
   "property": "C87",
   "status": "partial",
   "theorems": [
    "C87_comparison_symmetric_refuted",
    "C87_comparison_symmetric_partial",
    "C87_nearly_symmetric_partial"
   ],
   "note": "REFUTED. Differs in the last place for a pair found by search. Partial: symmetric in exact arithmetic. In float arithmetic the two results differ by at most 2^-20 when one frequency is at least 2^-27."
  },
  {
   "property": "C88",
   "status": "proved",
   "theorems": [
    "C88_or_lists",
    "C88_or_range"
   ],
   "note": "All doubles."
  },
  {
   "property": "C89",
   "status": "proved",
   "theorems": [
    "C89_truth_back",
    "C89_nothing"
   ],
   "note": "Exact arithmetic, as stated."
  },
  {
   "property": "C90",
   "status": "partial",
   "theorems": [
    "C90_confidence_grows_refuted",
    "C90_confidence_kept_partial"
   ],
   "note": "REFUTED. Revision with a judgement of confidence 0 can lower the confidence by one unit in the last place; true in exact arithmetic (C49). Partial: the confidence sinks by a factor of at most 1-2^-20 (confidences that add up to at least 2^-26)."
  },
  {
   "property": "C91",
   "status": "partial",
   "theorems": [
    "C91_rejected_refuted",
    "C91_rejected_partial"
   ],
   "note": "REFUTED. An input whose number underflows (std::out_of_range from stod) leaves its tree in the parser; the next rejected input evaluates that tree and throws again. Holds for histories without exceptions."
  },
  {
   "property": "C92",
   "status": "partial",
   "theorems": [
    "C92_ranges_refuted",
    "C92_ranges_partial"
   ],
   "note": "REFUTED. `%1.0;0.99999999%` gives confidence 1.0f. The closed ranges hold, k may be infinite."
  },
  {
   "property": "C93",
   "status": "proved",
   "theorems": [
    "C93_interval",
    "C93_tense"
   ],
   "note": "The exception only beyond 2^53 (in truth only beyond the range of double)."
  },
  {
   "property": "C94",
   "status": "partial",
   "theorems": [
    "C94_colours_refuted",
    "C94_colours_partial"
   ],
   "note": "REFUTED. Names with braces and the copulas {-- and {-] are taken for format strings and throw."
  },
  {
   "property": "C95",
   "status": "partial",
   "theorems": [
    "C95_task_refuted",
    "C95_partial"
   ],
   "note": "REFUTED. `A. %1.0;0.9996%` is printed with confidence 1.000, which the grammar does not allow. Partial: tasks whose confidence and durability are not shown as 0 or 1 are read back with the same content and punctuation, numbers within 0.000501 (truth) and 0.00551 (budget)."
  },
  {
   "property": "C96",
   "status": "partial",
   "theorems": [
    "C96_accepts_refuted",
    "C96_accepts_partial",
    "C96_rejects_partial"
   ],
   "note": "REFUTED. A tab at the start of the input is read as part of a word, so a text of the grammar is rejected. Holds in both directions for all inputs without tabs, given enough stack (C60)."
  },
  {
   "property": "C97",
   "status": "proved",
   "theorems": [
    "C97_reading",
    "C97_exists",
    "C97_unique"
   ],
   "note": "For inputs without tabs (C65, C96)."
  },
  {
   "property": "C98",
   "status": "proved",
   "theorems": [
    "C98_reading",
    "C98_unique"
   ],
   "note": "Texts that fit the stack, operators not known as atoms; unlimited or real stack with at most 123 characters."
  },
  {
   "property": "C99",
   "status": "proved",
   "theorems": [
    "C99_session",
    "C99_names"
   ],
   "note": "Tasks are kept between the readings."
  },
  {
   "property": "C100",
   "status": "proved",
   "theorems": [
    "C100_settled"
   ],
   "note": "Eternal tasks; content as in C66_partial; confidence and durability not shown as 0 or 1; texts that fit the stack."
  },
  {
   "property": "C101",
   "status": "proved",
   "theorems": [
    "C101_truth"
   ],
   "note": "Uncoloured text (the coloured one is C72). fmt's fixed notation is modelled as correctly rounded, ties to even."
  },
  {
   "property": "C102",
   "status": "proved",
   "theorems": [
    "C102_deduction",
    "C102_induction"
   ],
   "note": "Proper truth values."
  },
  {
   "property": "C103",
   "status": "partial",
   "theorems": [
    "C103_comparison_refuted",
    "C103_comparison_partial"
   ],
   "note": "REFUTED. Two frequencies of 2^-60 are compared with frequency 1/2, since 1-(1-f1)*(1-f2) is 0 in double. Partial: accurate to a relative error of 2^-22 as soon as one frequency is at least 2^-27."
  },
  {
   "property": "C104",
   "status": "partial",
   "theorems": [
    "C104_revision_refuted",
    "C104_revision_partial"
   ],
   "note": "REFUTED. Two judgements of frequency 1 and confidence 2^-30 are revised to frequency 0 (threshold 1e-8 in w_to_f). Partial: accurate to 2^-20 when the confidences add up to at least 2^-26; horizon 1."
  },
  {
   "property": "C105",
   "status": "proved",
   "theorems": [
    "C105_expectation_quality"
   ],
   "note": "Proper truth values."
  },
  {
   "property": "C106",
   "status": "partial",
   "theorems": [
    "C106_bounds_refuted",
    "C106_outcomes_partial",
    "C106_session_partial"
   ],
   "note": "REFUTED. clear_input copies one character too many: after a word of 127 letters it reads behind the block of 129. Partial: outcomes are those of the plain-text parser unless 128 or more characters are looked at for one token; any session of lines of at most 127 characters is safe."
  },
  {
   "property": "C107",
   "status": "partial",
   "theorems": [
    "C107_report_refuted",
    "C107_report_partial"
   ],
   "note": "REFUTED. At the end of the input the newline overwrites the terminator, and the report reads on into unwritten or stale characters. Partial: line and column are always right; the token is right when the end has not been looked at and the text is ASCII."
  },
  {
   "property": "C108",
   "status": "proved",
   "theorems": [
    "C108_memory"
   ],
   "note": "Objects as the compilers lay them out (strict = false). Terms themselves are shared pointers and outside of this model."
  },
  {
   "property": "C109",
   "status": "partial",
   "theorems": [
    "C109_no_leak_refuted",
    "C109_no_leak_partial"
   ],
   "note": "REFUTED. std::stod throwing out_of_range leaves the vector and values made so far (five blocks for one input). Partial: any session without exception, accepted and rejected inputs mixed, gives all memory back."
  },
  {
   "property": "C110",
   "status": "partial",
   "theorems": [
    "C110_types_refuted",
    "C110_types_partial"
   ],
   "note": "REFUTED. std::tuple<int,int*> and std::tuple<int,Truth*> are read and deleted as std::tuple<int,void*>; proved undefined for every input with a tense or truth value. Partial: all other inputs are defined."
  },
  {
   "property": "C111",
   "status": "partial",
   "theorems": [
    "C111_release_refuted",
    "C111_release_partial"
   ],
   "note": "REFUTED. The sentence is held by shared_ptr<Sentence> made from a Sentence*, a class without virtual destructor; proved undefined for every task. Partial: with the usual layout exactly the parts of the task are given back."
  },
  {
   "property": "C112",
   "status": "proved",
   "theorems": [
    "C112_tree_in_memory"
   ],
   "note": ""
  },
  {
   "property": "C113",
   "status": "proved",
   "theorems": [
    "C113_tree_freed"
   ],
   "note": ""
  },
  {
   "property": "C114",
   "status": "partial",
   "theorems": [
    "C114_rejected_refuted",
    "C114_rejected_partial"
   ],
   "note": "REFUTED. parse frees the stack but not the nodes on it: n inputs like \"a b\" lose 3n blocks, for every n. Partial: exactly the trees on the stack at the error are lost; nothing when there are none."
  },
  {
   "property": "C115",
   "status": "proved",
   "theorems": [
    "C115_positions"
   ],
   "note": ""
  },
  {
   "property": "C116",
   "status": "partial",
   "theorems": [
    "C116_assignment_refuted",
    "C116_assignment_partial"
   ],
   "note": "REFUTED. Copy assignment copies the pointer: x = y leaks the block of x and both delete the one of y. Partial: every program that is defined until all variables are gone assigns no variable to another."
  },
  {
   "property": "C117",
   "status": "partial",
   "theorems": [
    "C117_post_increment_refuted",
    "C117_post_increment_partial"
   ],
   "note": "REFUTED. operator++(int) returns *this after the step. Partial: in all programs without assignment y++ behaves exactly as ++y."
  },
  {
   "property": "C118",
   "status": "partial",
   "theorems": [
    "C118_deleted_as_made_refuted",
    "C118_deleted_as_made_partial"
   ],
   "note": "REFUTED. The destructor has the two types exchanged. Partial: exactly all deletes are through the wrong type."
  },
  {
   "property": "C119",
   "status": "proved",
   "theorems": [
    "C119_loops"
   ],
   "note": ""
  },
  {
   "property": "C120",
   "status": "proved",
   "theorems": [
    "C120_separators"
   ],
   "note": ""
  },
  {
   "property": "C121",
   "status": "partial",
   "theorems": [
    "C121_python_refuted",
    "C121_python_partial"
   ],
   "note": "REFUTED. make_iterator is called without keep_alive: when the compound goes away before the last round, freed memory is read. Partial: exactly then; otherwise the members come in order and the iterators are given back."
  },
  {
   "property": "C122",
   "status": "partial",
   "theorems": [
    "C122_names_refuted",
    "C122_names_partial"
   ],
   "note": "REFUTED. parse_op makes a new atom ^n under a name that is already known; when one of the two goes, the name is removed while the other lives. Partial: names come only from living atoms, every living atom has its name in the dictionary, and names other than those of operators are known exactly as long as a handle with that name exists."
  },
  {
   "property": "C123",
   "status": "proved",
   "theorems": [
    "C123_nothing_left"
   ],
   "note": ""
  },
  {
   "property": "C124",
   "status": "proved",
   "theorems": [
    "C124_clean"
   ],
   "note": ""
  },
  {
   "property": "C125",
   "status": "proved",
   "theorems": [
    "C125_exact"
   ],
   "note": ""
  },
  {
   "property": "C126",
   "status": "partial",
   "theorems": [
    "C126_text_refuted",
    "C126_text_partial"
   ],
   "note": "REFUTED. The printer looks up the key of statements and compounds in the dictionary of atoms; an atom created later can have that key. Partial: the text stays as long as no atom has the key of a statement or compound in the task."
  },
  {
   "property": "C127",
   "status": "proved",
   "theorems": [
    "C127_reading_on"
   ],
   "note": ""
  },
  {
   "property": "C128",
   "status": "proved",
   "theorems": [
    "C128_loop"
   ],
   "note": ""
  },
  {
   "property": "C129",
   "status": "partial",
   "theorems": [
    "C129_main_refuted",
    "C129_main_partial"
   ],
   "note": "REFUTED. The order in a conjunction follows the addresses of the atoms. Partial: exactly the possible lines, for all placements and orders, and that nothing is left at the end."
  },
  {
   "property": "C130",
   "status": "partial",
   "theorems": [
    "C130_difference_refuted",
    "C130_copula_refuted",
    "C130_same_partial"
   ],
   "note": "REFUTED. Connector.ExtensionalDifference is bound to ParallelEvents, and Statement keeps the copulas Instance, Property, InstanceProperty that the parser rewrites. Partial: the same term for all expressions without these four members; undefined behaviour only where the compound of the text is undefined too."
  },
  {
   "property": "C131",
   "status": "proved",
   "theorems": [
    "C131_again"
   ],
   "note": ""
  },
  {
   "property": "C132",
   "status": "partial",
   "theorems": [
    "C132_error_refuted",
    "C132_results_partial",
    "C132_refused_partial",
    "C132_proper_partial"
   ],
   "note": "REFUTED. parse sets a RuntimeError but returns None, so that Python raises SystemError. Partial: nothing else than a Task or SystemError comes out, lines outside the grammar always give SystemError and change nothing, proper texts give a Task that says what the text says."
  },
  {
   "property": "C133",
   "status": "partial",
   "theorems": [
    "C133_repr_refuted",
    "C133_shown_partial"
   ],
   "note": "REFUTED. repr(x) of every Term, Sentence and Task raises TypeError, as __repr__ has a second parameter without default. Partial: x.__repr__(None) gives the kind and a text of the term."
  },
  {
   "property": "C134",
   "status": "partial",
   "theorems": [
    "C134_sentence_refuted",
    "C134_sentence_partial"
   ],
   "note": "REFUTED. A Sentence with punctuation Goal made in Python, and a Judgement without truth value, lead to reading outside the object or through a null pointer. Partial: exactly these do, all others show term, punctuation and truth value with three places."
  },
  {
   "property": "C135",
   "status": "partial",
   "theorems": [
    "C135_kept_refuted",
    "C135_doubles_partial",
    "C135_exactly_partial",
    "C135_truth_partial",
    "C135_budget_partial",
    "C135_others_partial"
   ],
   "note": "REFUTED. f, c, k and q are floats: 0.1 is read back as another number. Partial: p and d are kept; the other fields give the nearest float, which is the number itself exactly if a float can hold it; the constructors round all numbers."
  },
  {
   "property": "C136",
   "status": "partial",
   "theorems": [
    "C136_names_refuted",
    "C136_names_partial"
   ],
   "note": "REFUTED. The name is passed as a C string and so cut at the first NUL. Partial: for names without NUL that are not names of operators, the same term exactly for the same name."
  },
  {
   "property": "C137",
   "status": "partial",
   "theorems": [
    "C137_null_refuted",
    "C137_object_refuted",
    "C137_refused_partial"
   ],
   "note": "REFUTED. Budget.quality_from_truth(None) follows a null pointer, x.__repr__(y) takes any object y for an Interpreter. Partial: exactly these calls are undefined, all other wrong arguments raise TypeError (for Compound also RuntimeError) and change nothing."
  },
  {
   "property": "C138",
   "status": "partial",
   "theorems": [
    "C138_terms_refuted",
    "C138_statement_partial",
    "C138_terms_partial"
   ],
   "note": "REFUTED. The components of set-like compounds are merged, sorted and flattened. Partial: statements; compounds of the other connectors; set-like compounds given the components of a tidy compound in any order."
  },
  {
   "property": "C139",
   "status": "proved",
   "theorems": [
    "C139_own",
    "C139_apart"
   ],
   "note": ""
  },
  {
   "property": "C140",
   "status": "proved",
   "theorems": [
    "C140_rebuild",
    "C140_positions"
   ],
   "note": ""
  },
  {
   "property": "C141",
   "status": "partial",
   "theorems": [
    "C141_build_refuted",
    "C141_add_refuted",
    "C141_build_partial",
    "C141_again_partial"
   ],
   "note": "REFUTED. build() returns at once for an object built before, also if something was added or joined below it since. Partial: right lists and hashes in all programs that finish objects before they make them components. After a build, build() does nothing at all until something is joined to the object itself."
  },
  {
   "property": "C142",
   "status": "partial",
   "theorems": [
    "C142_add_refuted",
    "C142_add_partial",
    "C142_lost_partial"
   ],
   "note": "REFUTED. An index added at an object that has components is lost at the next rebuild. Partial: ends of the structure, with exactly the entry added at every way to the object, all others as before."
  },
  {
   "property": "C143",
   "status": "partial",
   "theorems": [
    "C143_remove_refuted",
    "C143_remove_partial"
   ],
   "note": "REFUTED. Removing at an object that has components has no effect after the next rebuild. Partial: ends of the structure."
  },
  {
   "property": "C144",
   "status": "partial",
   "theorems": [
    "C144_hash_refuted",
    "C144_joined_refuted",
    "C144_added_refuted",
    "C144_early_refuted",
    "C144_written_refuted",
    "C144_hash_partial"
   ],
   "note": "REFUTED. The hash stays that of the old lists if something was joined or added deeper, if the hash was asked for before building, or if an int was written to; rebuild() does not compute it again. Partial: right for the object on which add, remove or connect was called, and in all programs of C141."
  },
  {
   "property": "C145",
   "status": "partial",
   "theorems": [
    "C145_copy_refuted",
    "C145_structure_refuted",
    "C145_copy_partial"
   ],
   "note": "REFUTED. A copy has no components: it keeps only the lists as they were, and add or remove with a position are undefined on it. Partial: same lists, ints of its own."
  },
  {
   "property": "C146",
   "status": "partial",
   "theorems": [
    "C146_equal_refuted",
    "C146_equal_partial",
    "C146_symmetric_partial"
   ],
   "note": "REFUTED. Only 32 bits of hash are compared: 0,2,0,0,0,2,0,1,2 and 3,0,2,1,0,1,3,3,0 are equal. Partial: equal exactly if these bits agree, so equal normalised lists are equal."
  },
  {
   "property": "C147",
   "status": "partial",
   "theorems": [
    "C147_positions_refuted",
    "C147_positions_partial"
   ],
   "note": "REFUTED. connect with generate_pos inserts a vector into itself, which is undefined whenever the component has an entry. Partial: a component without entries is joined as without generate_pos."
  },
  {
   "property": "C148",
   "status": "proved",
   "theorems": [
    "C148_returns",
    "C148_endless",
    "C148_no_cycle",
    "C148_acyclic"
   ],
   "note": ""
  },
  {
   "property": "C149",
   "status": "proved",
   "theorems": [
    "C149_undefined",
    "C149_others",
    "C149_lists"
   ],
   "note": ""
  },
  {
   "property": "C150",
   "status": "proved",
   "theorems": [
    "C150_connect",
    "C150_asking",
    "C150_create",
    "C150_write"
   ],
   "note": ""
  },
  {
   "property": "C151",
   "status": "proved",
   "theorems": [
    "C151_defined",
    "C151_terms"
   ],
   "note": "Actions are those through constructors, clone, copies of members and pointers held; any choice of elements by the sets."
  },
  {
   "property": "C152",
   "status": "proved",
   "theorems": [
    "C152_alive",
    "C152_released"
   ],
   "note": "All programs of C151."
  },
  {
   "property": "C153",
   "status": "proved",
   "theorems": [
    "C153_counts"
   ],
   "note": "All programs of C151."
  },
  {
   "property": "C154",
   "status": "partial",
   "theorems": [
    "C154_memory_refuted",
    "C154_memory_partial",
    "C154_buffers_partial"
   ],
   "note": "REFUTED. Term has no virtual destructor, so ~Variable never runs: the buffer of every name of 16 characters or more is lost. Partial: all objects come to their end, and exactly these buffers are lost."
  },
  {
   "property": "C155",
   "status": "partial",
   "theorems": [
    "C155_letter_refuted",
    "C155_letter_partial"
   ],
   "note": "REFUTED. pTerm keeps shared_ptr<Term>(Term*) and ~Term is not virtual: deleting a Statement, Compound, Variable, Interval or Operation is undefined behaviour by the C++ standard. Partial: exactly the actions that end such an object."
  },
  {
   "property": "C156",
   "status": "partial",
   "theorems": [
    "C156_leak_refuted",
    "C156_build_refuted",
    "C156_connect_partial"
   ],
   "note": "REFUTED. A list joined to itself (or to one of its components) owns itself: it is never deleted, and build() recurses without end. Partial: all other joins."
  },
  {
   "property": "C157",
   "status": "proved",
   "theorems": [
    "C157_makes",
    "C157_components"
   ],
   "note": "What the sets choose is any choice of positions."
  },
  {
   "property": "C158",
   "status": "proved",
   "theorems": [
    "C158_terms",
    "C158_variables"
   ],
   "note": "The flags of a compound are at least those of its components: a copy keeps the flags of the original even if the sets leave out an element."
  },
  {
   "property": "C159",
   "status": "proved",
   "theorems": [
    "C159_own_variables"
   ],
   "note": "All copying actions: clone, deep copies, constructors with is_input = false."
  },
  {
   "property": "C160",
   "status": "proved",
   "theorems": [
    "C160_own_action",
    "C160_found_exactly",
    "C160_names_from_tables"
   ],
   "note": "Any placement of string literals in memory in which different texts lie at different addresses."
  },
  {
   "property": "C161",
   "status": "partial",
   "theorems": [
    "C161_every_action_refuted",
    "C161_merged_partial"
   ],
   "note": "REFUTED. The table of actions is searched with addresses of string literals in the tables; the standard lets the compiler place equal literals apart, and then no action is ever called and parse_task returns an empty task for every accepted input. Partial: placements that merge equal literals (as gcc and clang do within one translation unit)."
  },
  {
   "property": "C162",
   "status": "proved",
   "theorems": [
    "C162_generated",
    "C162_aligned"
   ],
   "note": "All tables, whatever their sizes and names."
  },
  {
   "property": "C163",
   "status": "partial",
   "theorems": [
    "C163_once_refuted",
    "C163_once_partial"
   ],
   "note": "REFUTED. The generator compares the address of a name with that of its own \"\": with unmerged literals all 430 unnamed entries count as names. Partial: placements that merge equal literals."
  },
  {
   "property": "C164",
   "status": "partial",
   "theorems": [
    "C164_any_line_refuted",
    "C164_any_line_partial"
   ],
   "note": "REFUTED. isdigit of a negative char is undefined: the line é. does it. Partial: exactly the lines on which a byte from 128 to 254 follows the figures at the beginning (byte 255 looks like EOF)."
  },
  {
   "property": "C165",
   "status": "proved",
   "theorems": [
    "C165_sentences_in_turn",
    "C165_every_file"
   ],
   "note": "All files and lines; a file without a closing end of line counts its last line."
  },
  {
   "property": "C166",
   "status": "partial",
   "theorems": [
    "C166_none_skipped_refuted",
    "C166_none_skipped_partial",
    "C166_marks"
   ],
   "note": "REFUTED. 'a. is a sentence about the word 'a and is taken for a comment. Partial: nothing else that the parser accepts is skipped, since every accepted text has one of . ? ! @."
  },
  {
   "property": "C167",
   "status": "proved",
   "theorems": [
    "C167_files_print"
   ],
   "note": "Texts as in C128, coloured or not."
  },
  {
   "property": "C168",
   "status": "partial",
   "theorems": [
    "C168_malformed_refuted"
   ],
   "note": "REFUTED. The task of a rejected sentence is a null pointer and is followed, wherever the sentence is in the file; what holds for well-formed files is C167."
  },
  {
   "property": "C169",
   "status": "proved",
   "theorems": [
    "C169_edits_defined"
   ],
   "note": "Programs without parsed operations (C35, C85) and with atoms placed apart modulo 2^32 (C30)."
  },
  {
   "property": "C170",
   "status": "partial",
   "theorems": [
    "C170_one_atom_refuted",
    "C170_registered_partial"
   ],
   "note": "REFUTED. After remove, erase or reset a name whose atom is still in hand gets a second atom. Partial: exact for registered atoms; a living atom that has left the table never enters it again."
  },
  {
   "property": "C171",
   "status": "partial",
   "theorems": [
    "C171_all_freed_refuted",
    "C171_left_partial",
    "C171_unedited_partial",
    "C171_null_partial"
   ],
   "note": "REFUTED. reset empties the table without deleting pTerms of atoms in hand; these pTerms and atoms are never freed. Partial: exactly the atoms registered and in hand at some reset remain; none in programs that do not edit the table."
  },
  {
   "property": "C172",
   "status": "partial",
   "theorems": [
    "C172_late_refuted",
    "C172_late_partial",
    "C172_unedited_partial",
    "C172_names_partial"
   ],
   "note": "REFUTED. When the table is gone, destroying the last but one pTerm to an atom calls erase on the destroyed table. Partial: exact condition on the handles left, for all programs and in simpler form for those that do not edit the table."
  },
  {
   "property": "C173",
   "status": "partial",
   "theorems": [
    "C173_distinct_refuted",
    "C173_exact_partial",
    "C173_one_copy_partial"
   ],
   "note": "REFUTED. GLOBAL::_input_id is static: each translation unit counts for itself, two sentences read in two units share evidence. Partial: overlap exactly if equally many ids were taken from the two copies (modulo 2^64); none with one copy and fewer than 2^64 sentences."
  },
  {
   "property": "C174",
   "status": "partial",
   "theorems": [
    "C174_clock_refuted",
    "C174_own_partial",
    "C174_unwritten_partial"
   ],
   "note": "REFUTED. GLOBAL::time is static: the clock set by the client is not the one the printer reads. Partial: places that use the copy written; places whose copy nobody writes show the tense said by the marker."
  },
  {
   "property": "C175",
   "status": "proved",
   "theorems": [
    "C175_transform_depth",
    "C175_attained"
   ],
   "note": ""
  },
  {
   "property": "C176",
   "status": "partial",
   "theorems": [
    "C176_free_depth_refuted",
    "C176_free_linear_partial"
   ],
   "note": "REFUTED. ast_free calls itself for the next sibling, so a long flat list of terms nests as many calls. Partial: at most 9 calls per character and 3 more."
  },
  {
   "property": "C177",
   "status": "proved",
   "theorems": [
    "C177_term_depth",
    "C177_attained"
   ],
   "note": ""
  },
  {
   "property": "C178",
   "status": "proved",
   "theorems": [
    "C178_typed_line"
   ],
   "note": ""
  },
  {
   "property": "C179",
   "status": "partial",
   "theorems": [
    "C179_one_line_refuted",
    "C179_left_partial",
    "C179_session_partial",
    "C179_answers_partial",
    "C179_calls_partial"
   ],
   "note": "REFUTED. A line that is refused is left where the error was noticed; the next call reads on there, so that of \"no, <a-->b>.\" the judgement <a-->b>. is taken. Partial: a call that builds a tree has read its line and the newline and nothing else; sessions of accepted lines up to 127 characters. In sessions with refused lines no line spoils another: the calls for one line say what it, and ends of it when it is refused, give as strings (C179_answers)."
  },
  {
   "property": "C180",
   "status": "proved",
   "theorems": [
    "C180_unended"
   ],
   "note": ""
  },
  {
   "property": "C181",
   "status": "partial",
   "theorems": [
    "C181_bytes_refuted",
    "C181_outline_partial"
   ],
   "note": "REFUTED. A NUL hides the rest of the word; one in front of it stops the buffer from growing, so that a long word is written outside of it; a byte outside of ASCII in a word makes the lexeme undefined. Partial: when the call is defined, whether a tree is built and which, but for the texts of its tokens, is as with the string in which control characters and DEL stand for such bytes. Lines without them: C178."
  },
  {
   "property": "C182",
   "status": "partial",
   "theorems": [
    "C182_numbering_refuted",
    "C182_first_partial",
    "C182_unnamed_partial"
   ],
   "note": "REFUTED. parse_input never clears the tables of names that parse_task clears. Partial: with empty tables it does what parse_task does, for lines up to 127 characters. Sessions of lines without variables give what the lines give as strings, whatever names are known (C182_unnamed)."
  },
  {
   "property": "C183",
   "status": "proved",
   "theorems": [
    "C183_ends"
   ],
   "note": ""
  },
  {
   "property": "C184",
   "status": "proved",
   "theorems": [
    "C184_call",
    "C184_session"
   ],
   "note": ""
  },
  {
   "property": "C185",
   "status": "proved",
   "theorems": [
    "C185_copulas",
    "C185_connectors",
    "C185_signs_differ"
   ],
   "note": "Spec by the signs themselves: mirror images, shafts and time marks."
  },
  {
   "property": "C186",
   "status": "partial",
   "theorems": [
    "C186_turned_round_refuted",
    "C186_turned_round_partial",
    "C186_both_kept_partial"
   ],
   "note": "REFUTED. `<A <-> B>` and `<B <-> A>` are different terms with different hashes. Partial: the two are equal exactly when the terms are; a set-like compound keeps both."
  },
  {
   "property": "C187",
   "status": "partial",
   "theorems": [
    "C187_defaults_refuted",
    "C187_without_partial",
    "C187_priorities_partial",
    "C187_model_partial"
   ],
   "note": "REFUTED. `<a --> b>?` gets priority 0.8 (not 0.9), durability 0.8 (not 0.9) and quality 0.5 (not 1). Partial: no task without a budget has the durability of its kind; the four default priorities are never used, whatever they are."
  },
  {
   "property": "C188",
   "status": "partial",
   "theorems": [
    "C188_delay_refuted",
    "C188_delay_partial",
    "C188_session_partial",
    "C188_dropped_partial",
    "C188_same_partial",
    "C188_refused_partial",
    "C188_sessions_partial",
    "C188_short_partial",
    "C188_accepted_partial",
    "C188_first_partial",
    "C188_accepted_session_partial",
    "C188_bufend_partial",
    "C188_pointers_partial"
   ],
   "note": "REFUTED. With error_delay = 3 in the memory of a new parser, the line `]) <a --> b>.` is accepted; with 0 it is rejected. Partial: values below 3 and values that stay above 3 change nothing; a bufend that is not NULL, or a lexem that is not null, makes every input undefined, an ast that is not null every rejected one. With 3, all characters that no input begins with are dropped from the front of a line and the rest is read as if alone, where with less than 3 the line is rejected (C188_dropped, C188_refused). Whatever error_delay is, every input of a session is answered and an accepted one has a tree of its first line without the dropped characters (C188_sessions). With the stack as first allocated this holds for inputs of at most 123 characters (C188_short). Inputs without tabs that are accepted with 0 are accepted with the same trees whatever error_delay is (C188_accepted, C188_first, C188_accepted_session)."
  },
  {
   "property": "C189",
   "status": "proved",
   "theorems": [
    "C189_default"
   ],
   "note": ""
  },
  {
   "property": "C190",
   "status": "partial",
   "theorems": [
    "C190_lost_refuted",
    "C190_freed_partial",
    "C190_once_partial",
    "C190_reset_partial"
   ],
   "note": "REFUTED. put(1, \"a\", p); put(1, \"a\", q) forgets p without deleting it. Partial: no object is deleted twice, none while the table holds it, none it was not given; without replaced objects and with resets of objects used nowhere else, every object is held or deleted."
  },
  {
   "property": "C191",
   "status": "proved",
   "theorems": [
    "C191_results"
   ],
   "note": ""
  },
  {
   "property": "C192",
   "status": "proved",
   "theorems": [
    "C192_colour"
   ],
   "note": ""
  },
  {
   "property": "C193",
   "status": "partial",
   "theorems": [
    "C193_kinds_refuted",
    "C193_kinds_partial",
    "C193_replaced_partial",
    "C193_made_partial"
   ],
   "note": "REFUTED. Sentence(term, Judgement, nullptr) has no truth value; a judgement that was moved from has neither truth value nor stamp. Partial: true without moves when Sentences are made with a truth value that fits their kind; sentences that nothing writes to keep what they were made with."
  },
  {
   "property": "C194",
   "status": "partial",
   "theorems": [
    "C194_desire_refuted",
    "C194_original_partial",
    "C194_own_partial"
   ],
   "note": "REFUTED. The member `desire` of a copied Goal still refers to the original: it misses a new truth value of the copy, is null after a move, and dangles when the original is gone. Partial: it is always the truth value of the first original, undefined exactly when that is gone; goals that are no copies have it right."
  },
  {
   "property": "C195",
   "status": "partial",
   "theorems": [
    "C195_clock_refuted",
    "C195_clock_partial",
    "C195_stamps_partial",
    "C195_eternalize_partial",
    "C195_extending_partial"
   ],
   "note": "REFUTED. The clock is an unsigned long and the time of creation an int: at 2^31 it is negative. Partial: exact below 2^31, else equal modulo 2^32; times, tense and evidence are as given, also after eternalize and extend_evidenital_base."
  },
  {
   "property": "C196",
   "status": "proved",
   "theorems": [
    "C196_budget",
    "C196_truth"
   ],
   "note": ""
  },
  {
   "property": "C197",
   "status": "partial",
   "theorems": [
    "C197_rounding_refuted",
    "C197_clamped_refuted",
    "C197_agree_partial"
   ],
   "note": "REFUTED. A task is rounded to three places before the two that are shown, and clamped; a Budget is not: 0.0246 is shown as 0.03 in the task and 0.02 in its budget, 2 as 1.00 and 2.00. Partial: for values in [0,1] the texts differ by at most one hundredth, and not at all when the value is within 0.0044 of a number of hundredths."
  }
 ]
}