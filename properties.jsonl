{"id": "C01", "title": "Ordering of variable-free terms is a strict weak order", "statement": "On terms that contain no variable, the library's `<` is irreflexive, asymmetric, transitive, and 'neither is less' is transitive; so every std::set of such terms (the components of a commutative compound) has well-defined contents.", "quantifier": "all triples of variable-free terms of any shape and depth, at any heap addresses", "why_tests_cant": "The requirement is over all triples of an infinite recursive type; a std::set with a comparator that breaks it on one triple has undefined behaviour that no finite list of insertions reveals.", "anchors": ["Narsese/include/Term.inl: Term::operator<", "Narsese/include/Term.h: Terms::compare", "utils/hash.h: Hash"]}
{"id": "C02", "title": "Ordering stays a strict weak order when terms contain variables", "statement": "The same four laws hold when the compared terms contain variables, as the comment on the operator promises ('used to compare two terms, especially those with variables').", "quantifier": "all triples of terms, with any variables of any kind and index", "why_tests_cant": "Antisymmetry and transitivity are universally quantified; a violating pair must have equal hashes and disagree in two places, which random tests do not build.", "anchors": ["Narsese/include/Term.inl: Term::operator<", "Narsese/include/Term.h: Terms::compare"]}
{"id": "C03", "title": "Term equality is reflexive and symmetric and implies equal hashes", "statement": "On terms without dependent or query variables, `==` is reflexive and symmetric, and (for all terms) two equal terms have the same hash value.", "quantifier": "all terms built from atoms, intervals, operations, independent variables, statements and compounds", "why_tests_cant": "Reflexivity and symmetry over all recursive terms cannot be enumerated.", "anchors": ["Narsese/include/Term.inl: Term::operator==", "Narsese/include/Term.h: Term::__hash__", "Narsese/include/Statement.h: Statement::do_hashing", "Narsese/include/Compound.h: Compound::do_hashing"]}
{"id": "C04", "title": "Comparing any two terms for equality is defined", "statement": "`a == b` terminates without undefined behaviour for every pair of terms the parser can produce.", "quantifier": "all pairs of parsed terms, including those with dependent (#) and query (?) variables", "why_tests_cant": "It is a claim about absence of undefined behaviour on every input; a test that happens not to crash shows nothing.", "anchors": ["Narsese/include/Term.inl: Term::operator== lines 67-79"]}
{"id": "C05", "title": "Equality of terms is structural identity", "statement": "For terms without dependent/query variables whose named atoms live at addresses of at least 2^34 and below 2^62 (one object per address) and whose intervals are none of -126, -127, -129, `a == b` holds exactly when a and b are the same tree: same atoms, same interval values, same variable kinds and indices, same copulas, connectors and component sequences.", "quantifier": "all pairs of such terms", "why_tests_cant": "Both directions range over all pairs; the 'only if' direction depends on a 64-bit hash not gluing unequal leaves, which only arithmetic can settle.", "anchors": ["Narsese/include/Term.inl: Term::operator==", "utils/hash.h: Hash::combine", "Narsese/include/Interval.h", "Narsese/include/Variable.inl"]}
{"id": "C06", "title": "Renaming variables never changes a term's hash", "statement": "Two terms that differ only in the names/indices of variables (same kinds at the same places) have the same hash, so a hash lookup never separates alphabetic variants.", "quantifier": "all pairs of terms with the same shape up to variable indices", "why_tests_cant": "Ranges over all shapes and all index assignments.", "anchors": ["Narsese/include/Variable.h: do_hashing", "Narsese/include/Statement.inl: Statement ctor", "Narsese/include/Compound.h: do_hashing", "Narsese/src/Compound.cpp: Compound ctor"]}
{"id": "C07", "title": "Distinct components of a commutative compound are never merged", "statement": "If two different (not ==) variable-free terms are given as components of a commutative compound such as a set, both are present in the result.", "quantifier": "all pairs of unequal variable-free terms at all heap addresses", "why_tests_cant": "Merging happens exactly on a 64-bit hash collision, which testing will not hit by chance but which structured addresses do produce.", "anchors": ["Narsese/include/Term.inl: Term::operator<", "Narsese/include/Term.h: Terms", "utils/hash.h: Hash::combine"]}
{"id": "C08", "title": "Commutative compounds do not depend on component order", "statement": "Building a compound with a commutative connector (&&, ||, &|, |, &, [ ], { }) from variable-free components gives the same compound (same connector, same component sequence, same undefinedness) for every permutation of the arguments.", "quantifier": "all commutative connectors, all lists of variable-free components in which unequal terms have different hashes, all permutations", "why_tests_cant": "Factorially many orders of unboundedly many components.", "anchors": ["Narsese/src/Compound.cpp: Compound ctor, prepocess_terms", "Narsese/include/Term.h: Terms"]}
{"id": "C09", "title": "Repeating a component of a commutative compound changes nothing", "statement": "Adding to the argument list a component that is already in it gives the identical compound.", "quantifier": "all commutative connectors, all variable-free component lists, any position of the repetition", "why_tests_cant": "Ranges over all lists and positions.", "anchors": ["Narsese/include/Term.h: Terms::fill_terms", "Narsese/src/Compound.cpp: prepocess_terms"]}
{"id": "C10", "title": "Commutative compounds contain exactly the flattened components", "statement": "For arguments in normal form (no set-like compound directly inside one with the same connector, no set-like compound with a single set-like component, arity respected, at most one extensional and one intensional set below an intersection), the compound keeps the requested connector and its components are exactly the arguments, with arguments of the same connector replaced by their own components, each once, in ascending hash order; nested compounds of other connectors are kept unchanged. Needed: at least two different flattened components, or one that is no set-like compound.", "quantifier": "all commutative connectors, all variable-free argument lists meeting the condition (nested to any depth), all iteration orders of the internal hash map", "why_tests_cant": "Argument lists and nesting are unbounded.", "anchors": ["Narsese/src/Compound.cpp: prepocess_terms lines 123-290", "Narsese/src/Compound.cpp: Compound ctor lines 292-331"]}
{"id": "C11", "title": "No component is lost when a compound is built", "statement": "Every atom occurring in an argument of a compound also occurs in the compound that is built.", "quantifier": "all connectors and argument lists", "why_tests_cant": "A preservation claim over all argument lists; the losing cases need a particular mix of nested connectors.", "anchors": ["Narsese/src/Compound.cpp: prepocess_terms", "Narsese/src/Compound.cpp: _merge_compounds", "Narsese/include/Connector.h: check_valid"]}
{"id": "C12", "title": "Sequences are flattened in order", "statement": "`(&/, t1, ..., tn)` has as components the arguments in order with every argument that is itself an &/ compound replaced in place by its components; if the arguments were built by the library no component is an &/ compound.", "quantifier": "all argument lists of any terms", "why_tests_cant": "Order preservation for all lists and nestings.", "anchors": ["Narsese/src/Compound.cpp: prepocess_terms lines 265-288"]}
{"id": "C13", "title": "Products, images, differences, negations and lists keep their arguments as given", "statement": "For the non-reducible connectors the compound's connector is the one requested and its component sequence is exactly the argument sequence: same order, same duplicates, no flattening, also when the arguments use the same connector.", "quantifier": "all non-reducible connectors and all argument lists", "why_tests_cant": "Ranges over all argument lists.", "anchors": ["Narsese/src/Compound.cpp: prepocess_terms lines 127-134", "Narsese/include/Connector.h: _reducible"]}
{"id": "C14", "title": "Union rules of extensional and intensional sets", "statement": "`(|, {..}, .., {..})` of extensional sets is the extensional set of the union of their members, and `(&, [..], .., [..])` of intensional sets is the intensional set of the union of their members.", "quantifier": "all non-empty lists of non-empty sets of variable-free members whose members are not themselves such sets", "why_tests_cant": "Set algebra over all lists of sets.", "anchors": ["Narsese/src/Compound.cpp: _merge_compounds", "Narsese/include/Term.h: Terms::union_"]}
{"id": "C15", "title": "Intersection rules of extensional and intensional sets", "statement": "As documented, `(&, {A,B}, {B,C})` is the set `{B}` and `(|, [A,B], [B,C])` is `[B]`: combining sets of the dual kind gives the set of the common members.", "quantifier": "all lists of at least two sets of the same kind with a common member", "why_tests_cant": "Set algebra over all lists of sets.", "anchors": ["Narsese/src/Compound.cpp: header comment lines 16-28", "Narsese/src/Compound.cpp: prepocess_terms step 4"]}
{"id": "C16", "title": "Difference rules of extensional and intensional sets", "statement": "As documented, `(-, {A,B}, {B,C})` is `{A}` and `(~, [A,B], [B,C])` is `[A]`.", "quantifier": "all pairs of sets of the right kind", "why_tests_cant": "Set algebra over all pairs of sets.", "anchors": ["Narsese/src/Compound.cpp: header comment lines 16-28", "Narsese/src/Compound.cpp: prepocess_terms lines 127-134"]}
{"id": "C17", "title": "Normal form: no compound directly contains a compound with its own reducible connector", "statement": "If the arguments contain no directly nested same-connector reducible compound, neither does the result.", "quantifier": "all connectors and argument lists built by the library", "why_tests_cant": "An invariant over all construction histories.", "anchors": ["Narsese/src/Compound.cpp: prepocess_terms"]}
{"id": "C18", "title": "Rebuilding a compound from its own parts is the identity", "statement": "Constructing a compound from the connector and components of an existing library-built compound yields the same connector and components.", "quantifier": "all compounds obtainable by the constructor", "why_tests_cant": "Idempotence over all reachable compounds.", "anchors": ["Narsese/src/Compound.cpp: prepocess_terms", "Narsese/src/Compound.cpp: Compound ctor"]}
{"id": "C19", "title": "Term complexity counts atomic occurrences and statements", "statement": "For every term, complexity is the number of atomic occurrences in it plus the number of statements in it (as long as it fits an int).", "quantifier": "all terms", "why_tests_cant": "Ranges over all recursive terms.", "anchors": ["Narsese/include/Statement.inl: Statement ctor line 19", "Narsese/src/Compound.cpp: Compound ctor lines 312-314", "Narsese/include/Term.h: complexity"]}
{"id": "C20", "title": "Variable flags are exact", "statement": "For every term, has_var / has_ivar / has_dvar / has_qvar are true exactly when a variable / an independent / a dependent / a query variable occurs in it.", "quantifier": "all terms", "why_tests_cant": "Ranges over all recursive terms.", "anchors": ["Narsese/include/Term.h: _refresh_var_status", "Narsese/include/Variable.inl: Variable ctor", "Narsese/include/Statement.inl", "Narsese/src/Compound.cpp"]}
{"id": "C21", "title": "Independent-variable index lists follow the occurrences", "statement": "For every term, the index list of its independent variables is the left-to-right list of the indices of the independent-variable occurrences, and the i-th position path leads to the i-th occurrence.", "quantifier": "all terms and all variable indices", "why_tests_cant": "Ranges over all terms; shared index cells are updated by a recursive build whose caching is only visible on some histories.", "anchors": ["utils/IndexVar.cpp: build, connect", "Narsese/include/Term.inl: _init_indexvars", "Narsese/include/Term.h: _build_indexvars"]}
{"id": "C22", "title": "Dependent- and query-variable index lists follow the occurrences", "statement": "The same as C21 for dependent and query variables.", "quantifier": "all terms and all variable indices", "why_tests_cant": "Same as C21.", "anchors": ["Narsese/include/Term.inl: _init_indexvars lines 16-42", "utils/IndexVar.cpp: build"]}
{"id": "C23", "title": "Index normalisation is a dense order-preserving renaming", "statement": "Normalising a list of variable indices gives a list of the same length whose values are exactly 0..m-1 for m the number of distinct indices, equal where and only where the originals are equal, ordered as the originals; normalising twice changes nothing, and any order-preserving renaming of the indices gives the same normal form.", "quantifier": "all lists of integers", "why_tests_cant": "Ranges over all lists and all renamings.", "anchors": ["utils/IndexVar.cpp: _normalize"]}
{"id": "C24", "title": "Cloning preserves the term and isolates its variables", "statement": "clone(t) denotes the same term as t with the same hash, complexity and flags; if t has no variable the clone is t itself; otherwise no variable-containing node of the clone is shared with t, so changing an index through the clone never changes t, while variable-free parts stay shared.", "quantifier": "all terms and all heaps", "why_tests_cant": "Aliasing claims over all object graphs.", "anchors": ["Narsese/include/Term.inl: Term::clone", "Narsese/include/Statement.inl: Statement(const Statement&,bool)", "Narsese/include/Compound.inl", "Narsese/include/Variable.inl: Variable(const Variable&)", "utils/IndexVar.h: IndexVar::clone"]}
{"id": "C25", "title": "Set operations on component lists", "statement": "Terms::union_, intersection and difference of commutative component lists are exactly the set-theoretic union, intersection and left-to-right difference of the members, and they raise an error exactly when the list of operands is empty or an operand after the first is not commutative.", "quantifier": "all lists of component lists of variable-free terms with pairwise distinct hashes for unequal terms", "why_tests_cant": "Set algebra over all lists of lists.", "anchors": ["Narsese/include/Term.h: Terms::intersection, union_, difference"]}
{"id": "C26", "title": "Arity rule", "statement": "check_valid(connector, n) accepts exactly: n=1 for negation; n=2 for the two differences; n>=2 for conjunction, disjunction, product, parallel and sequential events, both intersections and both images; n>=1 for sets and lists.", "quantifier": "all connectors and all n of type unsigned int", "why_tests_cant": "2^32 argument counts for each connector.", "anchors": ["Narsese/include/Connector.h: check_valid and tables"]}
{"id": "C27", "title": "Every connector exposed to Python denotes its own connector", "statement": "The Python enum members of Connector are pairwise different connectors and each is printed with the symbol it is documented with.", "quantifier": "all members", "why_tests_cant": "Finite but never exercised by the test-suite; the claim is about the whole binding table.", "anchors": ["Narsese/src/Connector.cpp: pybind_connnector"]}
{"id": "C28", "title": "symmetrize/reverse tell which copulas have a symmetric/reversed counterpart", "statement": "COPULA::symmetrize(c) (reverse(c)) is true exactly when the table gives a counterpart for c.", "quantifier": "all copulas", "why_tests_cant": "Finite table, but the claim concerns the implicit enum-to-bool conversion for every entry.", "anchors": ["Narsese/include/Copula.h: symmetrize, reverse"]}
{"id": "C29", "title": "Interning: one live atom per name", "statement": "While at least one handle to the atom created for a name is alive, every request for that name returns the same atom; requests for different names return different atoms.", "quantifier": "all histories of creating, copying, destroying and overwriting handles, provided live atoms have addresses that differ modulo 2^32", "why_tests_cant": "A claim over all histories of an allocator-dependent table.", "anchors": ["Narsese/src/Term.cpp: Term::create", "Interpreter/include/Interpreter.hpp: put, check_by_name, get_by_name, get_object", "Narsese/include/Term.inl: pTerm::~pTerm"]}
{"id": "C30", "title": "Interning does not depend on where atoms are allocated", "statement": "C29 holds for every placement of the atoms in a 64-bit address space.", "quantifier": "all histories and all allocator placements", "why_tests_cant": "Needs two live atoms whose addresses agree modulo 2^32, which a small test never has.", "anchors": ["Interpreter/include/Interpreter.hpp: put(int key,...), check(int key), get(int key)"]}
{"id": "C31", "title": "Interning does not leak: a name is known exactly while its atom is in use", "statement": "After any history, a name is registered exactly when some handle to its atom is alive; dropping the last handle removes the name, its atom and its count.", "quantifier": "all histories of creating, copying and dropping handles, live atoms at addresses differing modulo 2^32", "why_tests_cant": "Reference-count behaviour over all histories.", "anchors": ["Narsese/include/Term.inl: pTerm::~pTerm", "Narsese/src/Term.cpp: _free_from_interpreter", "Interpreter/include/Interpreter.hpp: remove"]}
{"id": "C32", "title": "Name lookups do not change the symbol table", "statement": "get, get_object, get_by_name, check, check_by_name and check_count leave the set of registered keys and names unchanged.", "quantifier": "all tables and all keys/names", "why_tests_cant": "Ranges over all tables, in particular for absent keys.", "anchors": ["Interpreter/include/Interpreter.hpp: get, get_object, get_by_name, check_count"]}
{"id": "C33", "title": "Reference-counted registration", "statement": "A key registered n times with put is still registered after fewer than n erases and is gone, with its name and object, after exactly n; erase reports true exactly for registered keys.", "quantifier": "all keys, names, n, and all interleavings with operations on other keys and names", "why_tests_cant": "Counting over all interleavings.", "anchors": ["Interpreter/include/Interpreter.hpp: put, erase, remove, check_count"]}
{"id": "C34", "title": "Key and name tables stay inverse to each other", "statement": "After any sequence of put/erase/remove/remove_by_name/reset, looking up the name registered for a key leads back to that key and vice versa.", "quantifier": "all operation sequences, including re-registering a name under a second key or a key under a second name", "why_tests_cant": "An invariant over all operation sequences.", "anchors": ["Interpreter/include/Interpreter.hpp: put, remove, remove_by_name, erase, reset"]}
{"id": "C35", "title": "Parsing an operator name twice denotes the same operation", "statement": "Two occurrences of ^op in parsed input denote the same (==) operation, and parsing ^op is defined whatever names have been used before.", "quantifier": "all histories of parsed inputs", "why_tests_cant": "Depends on the history of names ever interned.", "anchors": ["Narsese/Parser/NarseseParser.cpp: operation lines 455-475"]}
{"id": "C36", "title": "Evidence overlap test is exact", "statement": "is_overlaped(b) holds exactly when the two evidential bases have a common evidence id.", "quantifier": "all pairs of finite sets of 64-bit ids", "why_tests_cant": "Ranges over all pairs of sets; the implementation narrows ids to int on the way.", "anchors": ["Narsese/include/Evidence.h: Base::is_overlaped"]}
{"id": "C37", "title": "Interleaving two bases", "statement": "interleave(base, b1, b2) terminates; the result contains base's old ids and only ids of base, b1 and b2; if |b1|+|b2| does not exceed the configured maximum it contains all of them; it adds at most the configured maximum many ids (for the shipped, even maximum); both sources contribute as evenly as their sizes allow.", "quantifier": "all bases b1, b2 and all (even) configured maxima", "why_tests_cant": "Loop termination and a bound for all sizes.", "anchors": ["Narsese/include/Evidence.h: Base::interleave(Base&,const Base&,const Base&)", "Config.cpp: maximum_evidential_base_length"]}
{"id": "C38", "title": "Extending a base keeps the old evidence", "statement": "After b1.extend(b2) the base b1 contains the evidence of both (up to the configured maximum).", "quantifier": "all pairs of bases", "why_tests_cant": "Ranges over all pairs; involves aliasing of a shared set.", "anchors": ["Narsese/include/Evidence.h: Base::extend", "Narsese/include/Sentence.h: Stamp::extend_evidenital_base"]}
{"id": "C39", "title": "The interleaving of two bases holds nothing but their evidence", "statement": "interleave(b1, b2) returns a base whose ids all come from b1 or b2.", "quantifier": "all pairs of bases and all values of the input-id counter", "why_tests_cant": "Ranges over all pairs and counter values.", "anchors": ["Narsese/include/Evidence.h: interleave(const Base&,const Base&)"]}
{"id": "C40", "title": "Fresh evidence for every eternal input", "statement": "The n-th requested input id is n modulo 2^64, so evidential bases of different untensed parsed sentences never overlap before 2^64 inputs.", "quantifier": "all parse histories within one translation unit's counter", "why_tests_cant": "Freshness over all histories.", "anchors": ["Global.h: get_input_id", "Narsese/include/Sentence.h: Stamp(bool)", "Narsese/Parser/NarseseParser.cpp: judgement, question, goal, quest"]}
{"id": "C41", "title": "Every parsed sentence has an evidential base", "statement": "Each sentence returned by the parser carries a stamp with a non-null evidential base.", "quantifier": "all accepted inputs, with and without tense", "why_tests_cant": "Ranges over all accepted inputs.", "anchors": ["Narsese/include/Sentence.h: Stamp(int,int,int,pBase,bool) lines 62-66", "Narsese/Parser/NarseseParser.cpp: judgement line 139"]}
{"id": "C42", "title": "The hash of an evidential base reflects its contents", "statement": "After any sequence of add, extend and hash calls, the reported hash is the hash of the current contents.", "quantifier": "all operation sequences", "why_tests_cant": "Cache coherence over all sequences.", "anchors": ["Narsese/include/Evidence.h: __hash__, do_hashing, add, extend"]}
{"id": "C43", "title": "Tense classification", "statement": "A non-eternal stamp is Past, Present or Future exactly when its occurrence time is at most now-duration, strictly within, or at least now+duration; eternal stamps are Eternal; each stamp has exactly one tense (clock and duration within int range).", "quantifier": "all occurrence times and clock values", "why_tests_cant": "Boundary claims over all 2^32 x 2^64 combinations, with unsigned/signed conversion.", "anchors": ["Narsese/include/Sentence.h: Stamp::tense"]}
{"id": "C44", "title": "Tense markers survive parsing", "statement": "A sentence parsed with :\\:, :|: or :/: has tense Past, Present or Future, and one parsed without marker is Eternal, whatever the current system time is.", "quantifier": "all accepted inputs and all clock values", "why_tests_cant": "Ranges over all clock values.", "anchors": ["Narsese/Parser/NarseseParser.cpp: tense_future, tense_present, tense_past", "Narsese/include/Sentence.h: Stamp::tense", "Global.h: time"]}
{"id": "C45", "title": "Deduction yields a truth value and never gains confidence", "statement": "For truth values with f, c in [0,1], truth_deduction returns f, c in [0,1] with c no larger than either confidence and f no larger than either frequency, in IEEE single/double arithmetic with rounding.", "quantifier": "all pairs of single-precision truth values in range", "why_tests_cant": "2^120 input pairs with rounding in two precisions.", "anchors": ["NAL/Functions/include/TruthFunctions.h: truth_deduction", "NAL/Functions/include/ExtendedBooleanFunction.h: And"]}
{"id": "C46", "title": "Induction and comparison yield truth values with confidence at most 1/2", "statement": "For truth values with f, c in [0,1], truth_induction and truth_comparison return f in [0,1] and c in [0,1/2] (k = 1), in IEEE arithmetic with rounding.", "quantifier": "all pairs of single-precision truth values in range", "why_tests_cant": "Rounding in two precisions over 2^120 input pairs; the division by a possibly tiny weight is the risk.", "anchors": ["NAL/Functions/include/TruthFunctions.h: truth_induction, truth_comparison", "Narsese/include/Truth.h: set_w"]}
{"id": "C47", "title": "Revision yields a truth value", "statement": "For truth values with f in [0,1], c in [0,1), equal k=1, truth_revision stores f in [0,1] and c in [0,1], in IEEE arithmetic with rounding, and leaves the second argument unchanged.", "quantifier": "all pairs of single-precision truth values in range", "why_tests_cant": "Rounding in two precisions over 2^120 input pairs.", "anchors": ["NAL/Functions/include/TruthFunctions.h: truth_revision", "NAL/Functions/include/UncertaintyMappingFunctions.h: w_to_f, w_to_c", "Narsese/include/Truth.h: w, w_p"]}
{"id": "C48", "title": "Revision can be repeated forever", "statement": "Starting from truth values with c in [0,1), any number of revisions yields finite f and c in [0,1] (never NaN).", "quantifier": "all finite sequences of revisions", "why_tests_cant": "Needs enough revisions to saturate single precision; ranges over all sequences.", "anchors": ["NAL/Functions/include/TruthFunctions.h: truth_revision", "Narsese/include/Truth.h: w"]}
{"id": "C49", "title": "Revision pools evidence", "statement": "In exact arithmetic, revision adds the positive and total evidence of the two judgements: it is commutative and associative in (f, c), its confidence is at least that of either argument (strictly more when both carry evidence), and its frequency lies between the two frequencies.", "quantifier": "all truth values with f in [0,1], c in [0,1), common k > 0, total weight above the 1e-8 threshold", "why_tests_cant": "Algebraic laws over a continuum.", "anchors": ["NAL/Functions/include/TruthFunctions.h: truth_revision", "NAL/Functions/include/UncertaintyMappingFunctions.h"]}
{"id": "C50", "title": "Expectation and quality stay in range", "statement": "For f, c in [0,1], the expectation e is in [0,1] and the budget quality derived from a truth value is in [3/7 - 2^-50, 1], in IEEE arithmetic with rounding.", "quantifier": "all single-precision truth values in range", "why_tests_cant": "2^60 inputs with rounding.", "anchors": ["Narsese/include/Truth.h: e", "Narsese/include/Budget.h: quality_from_truth"]}
{"id": "C51", "title": "Projection in time lowers confidence", "statement": "Projecting a truth value to a target time different from its source time lowers a positive confidence.", "quantifier": "all truth values and all times", "why_tests_cant": "Ranges over all times.", "anchors": ["NAL/Functions/include/TemporalFunctions.h: project"]}
{"id": "C52", "title": "Evidence weights and truth values convert back and forth", "statement": "In exact arithmetic, set_w(w_p, w) followed by w_p()/w() gives back the weights for w > 0, and w_p + w_m = w.", "quantifier": "all weights 0 <= w_p <= w, w > 0, k > 0; all f in [0,1], c in [0,1)", "why_tests_cant": "Algebraic law over a continuum.", "anchors": ["Narsese/include/Truth.h: w, w_p, w_m, set_w"]}
{"id": "C53", "title": "Budget defaults", "statement": "A parsed task keeps the budget values that were written; missing durability and quality are filled in from the punctuation (quality from truth for judgements and goals, 1 for questions and quests); with no budget at all the task gets 0.8;0.8;0.5.", "quantifier": "all budgets with 0-3 components, all punctuations and truth values", "why_tests_cant": "Ranges over all numeric inputs and combinations.", "anchors": ["Narsese/Parser/NarseseParser.cpp: task lines 68-118, budget lines 823-854"]}
{"id": "C54", "title": "Truth defaults", "statement": "A parsed judgement or goal keeps the frequency, confidence and k that were written, missing ones are filled with 1.0, 0.9 and 1; questions and quests carry no truth value.", "quantifier": "all truth annotations with 0-3 components", "why_tests_cant": "Ranges over all numeric inputs.", "anchors": ["Narsese/Parser/NarseseParser.cpp: truth, judgement, goal, question, quest"]}
{"id": "C55", "title": "Variable numbering within one input", "statement": "Within one parsed input, two occurrences of variables of the same kind get the same index exactly when they have the same name; indices are 0,1,2,... in order of first occurrence; the numbering starts afresh for every input.", "quantifier": "all sequences of variable occurrences and all histories of earlier inputs", "why_tests_cant": "Ranges over all name sequences and histories.", "anchors": ["Narsese/Parser/NarseseParser.cpp: independent_var, dependent_var, query_var", "Narsese/Parser/NarseseParser.h: parse_task"]}
{"id": "C56", "title": "Copula sugar", "statement": "`<S {-- P>`, `<S --] P>`, `<S {-] P>` parse to `<{S} --> P>`, `<S --> [P]>`, `<{S} --> [P]>` for every S and P that is not itself a set or other commutative compound, and all other copulas are kept.", "quantifier": "all terms S and P", "why_tests_cant": "Ranges over all terms.", "anchors": ["Narsese/Parser/NarseseParser.cpp: statement lines 287-316", "Narsese/include/Compound.h: ExtensionalSet, IntensionalSet"]}
{"id": "C57", "title": "Copula sugar never dissolves the subject or predicate", "statement": "Desugaring wraps the subject (predicate) as the single member of the set, whatever term it is.", "quantifier": "all terms S and P, including conjunctions and sets", "why_tests_cant": "Ranges over all terms.", "anchors": ["Narsese/Parser/NarseseParser.cpp: statement lines 294-309", "Narsese/src/Compound.cpp: prepocess_terms step 4"]}
{"id": "C58", "title": "The parser terminates on every input", "statement": "parse of any input string stops after a number of steps bounded by a linear function of its length.", "quantifier": "all input strings", "why_tests_cant": "Non-termination of a table-driven parser (epsilon or unit reduction loops) shows only on particular state/lookahead combinations.", "anchors": ["Narsese/Parser/narsese.cpp: _parser::parse, lex, get_sym", "Narsese/Parser/narsese.h: actions, go, def_prod, dfa tables"]}
{"id": "C59", "title": "The parser never leaves its tables or underflows its stack", "statement": "For every input string, every table access of the parser is within bounds, every reduction finds a goto entry, and the parse stack never underflows.", "quantifier": "all input strings", "why_tests_cant": "Memory safety for all inputs of a 176-state automaton with 70 lexer DFAs.", "anchors": ["Narsese/Parser/narsese.cpp: parse, get_act, get_go, lex", "Narsese/Parser/narsese.h: tables"]}
{"id": "C60", "title": "The parser never writes beyond its allocated stack", "statement": "For every input string the parse stack stays within the memory allocated for it.", "quantifier": "all input strings of any nesting depth", "why_tests_cant": "Needs deep nesting; ordinary examples stay below 128 stack entries.", "anchors": ["Narsese/Parser/narsese.cpp: alloc_stack lines 168-208, parse lines 799-807 and 892-896"]}
{"id": "C61", "title": "Accepted input belongs to the grammar", "statement": "If the parser accepts an input, the text is a concatenation of lexemes that derives from the grammar's start symbol, and the syntax tree handed to the semantic actions is the projection of that derivation to the named productions.", "quantifier": "all input strings", "why_tests_cant": "Soundness of an LALR automaton over all inputs.", "anchors": ["Narsese/Parser/narsese.cpp: parse", "Narsese/Parser/narsese.h: productions, symbols, actions, go", "Narsese/Parser/narsese.par"]}
{"id": "C62", "title": "Semantic actions are always applied to arguments of the right kind and number", "statement": "For every accepted input, each semantic action receives exactly the number and kinds of arguments it casts its untyped pointers to (term, copula, connector, number, string, sentence, budget, tagged tense/truth).", "quantifier": "all accepted inputs", "why_tests_cant": "Type safety of void* casts for all syntax trees.", "anchors": ["Narsese/Parser/Parser.cpp: transform", "Narsese/Parser/NarseseParser.cpp: all actions", "Narsese/Parser/narsese.h: productions"]}
{"id": "C63", "title": "Only the first line of the input is read", "statement": "The result of parsing depends only on the characters before the first newline (or NUL), and any input containing a byte above 127 before that point is rejected.", "quantifier": "all input strings", "why_tests_cant": "Ranges over all strings.", "anchors": ["Narsese/Parser/narsese.h: _CharFetcher", "Narsese/Parser/narsese.cpp: get_input, lex", "Narsese/Parser/Parser.cpp: Parser ctor"]}
{"id": "C64", "title": "Parses do not influence each other", "statement": "The outcome (accept/reject and syntax tree) of parsing an input does not depend on the inputs parsed before with the same parser object, including rejected ones.", "quantifier": "all histories of inputs", "why_tests_cant": "Depends on left-over look-ahead characters of failed parses.", "anchors": ["Narsese/Parser/narsese.cpp: clear_input, get_input, parse", "Narsese/Parser/Parser.cpp: parse_string"]}
{"id": "C65", "title": "Blanks between tokens do not matter", "statement": "Inserting blanks or tabs after any token of an accepted input (outside quoted strings) leaves the syntax tree unchanged.", "quantifier": "all accepted inputs and all insertions after tokens", "why_tests_cant": "Ranges over all inputs and insertion points with state-dependent lexing.", "anchors": ["Narsese/Parser/narsese.par: #whitespaces", "Narsese/Parser/narsese.h: actions, dfa tables"]}
{"id": "C66", "title": "Printed terms parse back to the same term", "statement": "For every term built from named atoms with plain (unquoted) names, variables, non-negative intervals, statements and compounds other than operation statements, the printed text is accepted by the parser and yields the same term.", "quantifier": "all such terms whose compounds have valid arities and are in normal form", "why_tests_cant": "A round-trip over all terms through a table-driven parser.", "anchors": ["Interpreter/src/Interpreter.cpp: interpret(Term)", "Narsese/Parser/narsese.h", "Narsese/Parser/NarseseParser.cpp"]}
{"id": "C67", "title": "Printing operation statements", "statement": "A statement whose predicate is an operation is printed so that its subject and copula can be read back, and printing it is always defined.", "quantifier": "all statements with an operation predicate", "why_tests_cant": "Ranges over all subjects and copulas.", "anchors": ["Interpreter/src/Interpreter.cpp: interpret(Term) lines 139-156", "Narsese/include/Statement.inl line 26"]}
{"id": "C68", "title": "Intervals survive printing and parsing", "statement": "An interval term of any int value is printed as text that parses back to the same interval.", "quantifier": "all int values", "why_tests_cant": "2^32 values.", "anchors": ["Interpreter/src/Interpreter.cpp: interpret(Term) lines 55-62", "Narsese/Parser/narsese.par: interval"]}
{"id": "C69", "title": "Different terms print differently", "statement": "Two different terms (built from distinct named atoms with plain names, not operation statements, compounds with non-empty component lists) have different printed forms.", "quantifier": "all pairs of such terms", "why_tests_cant": "Injectivity over all pairs.", "anchors": ["Interpreter/src/Interpreter.cpp: interpret(Term)"]}
{"id": "C70", "title": "Printing a term never shows another term's name", "statement": "The printed form of a statement or compound is built from its parts; it is never the name of some unrelated atom.", "quantifier": "all terms and symbol tables", "why_tests_cant": "Occurs only when a 64-bit hash truncated to int collides with an atom's key.", "anchors": ["Interpreter/src/Interpreter.cpp: interpret(Term) lines 65-76", "Interpreter/include/Interpreter.hpp: check(int)"]}
{"id": "C71", "title": "Printed budgets are clamped to [0,1]", "statement": "The numbers printed for a task's budget lie in [0,1] for all stored values, and a value already in [0,1] is printed as a nearest two-decimal number to a three-decimal number within 0.0005002 of it (half a thousandth and the precision of a float).", "quantifier": "all stored budget values, including negative, >1 and NaN", "why_tests_cant": "Ranges over all floats.", "anchors": ["Interpreter/src/Interpreter.cpp: interpret(Task)"]}
{"id": "C72", "title": "Colored sentence printing works", "statement": "interpret(sentence, colored=true) returns a string for every sentence.", "quantifier": "all sentences", "why_tests_cant": "The format string is only evaluated at run time.", "anchors": ["Interpreter/src/Interpreter.cpp: interpret(Sentence) line 271"]}
{"id": "C73", "title": "Term equality is transitive", "statement": "On terms without dependent or query variables, a == b and b == c imply a == c.", "quantifier": "all triples of such terms", "why_tests_cant": "Needs a triple whose middle member collides in hash with both ends; `$x == +-127 == $y` is such a triple.", "anchors": ["Narsese/include/Term.inl: Term::operator==", "Narsese/include/Interval.h: do_hashing", "Narsese/include/Variable.inl: do_hashing"]}
{"id": "C74", "title": "Commutative compounds do not depend on the iteration order of the hash map", "statement": "The compound that is built (or the undefinedness) is the same for every iteration order of the unordered map that groups the components by connector.", "quantifier": "all connectors, all argument lists for which the terms gathered by the construction have no hash collision, all pairs of iteration orders", "why_tests_cant": "The order is chosen by the standard library implementation; a test sees one.", "anchors": ["Narsese/src/Compound.cpp: prepocess_terms lines 142-240"]}
{"id": "C75", "title": "Building a compound invents nothing", "statement": "Every atom, variable and interval occurring in a built compound occurs in one of the arguments.", "quantifier": "all connectors, argument lists and iteration orders", "why_tests_cant": "Argument lists and nesting are unbounded.", "anchors": ["Narsese/src/Compound.cpp: prepocess_terms, _merge_compounds"]}
{"id": "C76", "title": "Building a compound from at least one library-built component is always defined", "statement": "The constructor neither throws nor has undefined behaviour for a non-empty argument list of library-built terms.", "quantifier": "all connectors, all non-empty argument lists of terms built by the library", "why_tests_cant": "Absence of undefined behaviour on all inputs; the failing inputs need two disjoint sets and a degenerate conjunction.", "anchors": ["Narsese/src/Compound.cpp: prepocess_terms lines 226-263"]}
{"id": "C77", "title": "Repeating the only argument does not rewrite it", "statement": "(con, t, t) contains t as a component, for every term t in normal form that does not itself have connector con.", "quantifier": "all commutative connectors and all such terms", "why_tests_cant": "Ranges over all terms; fails exactly for set-like compounds, e.g. (&&, (||,A,B), (||,A,B)) becomes (&&,A,B).", "anchors": ["Narsese/src/Compound.cpp: prepocess_terms lines 242-263"]}
{"id": "C78", "title": "Cloning preserves hash-ordered terms and isolates every term's variables", "statement": "clone(t) has the hash, complexity and flags of t and leaves t unchanged; it denotes the same term as t when the components of every set-like compound in t have different hashes in ascending order; without variables it is t itself; otherwise every variable-containing object of the clone is new, every variable-free one is shared with t, and changing an index through the clone changes no term held before, nor conversely.", "quantifier": "all terms made by any run of constructions and clones, with any sharing between them", "why_tests_cant": "Aliasing claims over all object graphs and all histories.", "anchors": ["Narsese/include/Term.inl: Term::clone", "Narsese/include/Statement.inl: Statement(const Statement&,bool)", "Narsese/include/Compound.inl", "Narsese/include/Variable.inl: Variable(const Variable&)", "utils/IndexVar.h: IndexVar::clone"]}
{"id": "C79", "title": "Constructing and cloning always succeeds", "statement": "Making an atom, interval, variable, statement or (already preprocessed) compound from terms held, and cloning a term held, always terminates without undefined behaviour; in particular the recursive build of the index lists is never deeper than the number of existing index nodes.", "quantifier": "all runs of constructions and clones", "why_tests_cant": "Termination and memory safety over all object graphs.", "anchors": ["utils/IndexVar.cpp: build", "Narsese/include/Term.h: _build_indexvars", "Narsese/include/Term.inl: _init_indexvars"]}
{"id": "C80", "title": "Stored fields describe the term", "statement": "The hash, complexity, has_var, has_ivar, has_dvar, has_qvar, is_operation and is_higher_order stored in an object are those computed from the term it denotes.", "quantifier": "all terms made by any run of constructions and clones in which the components of set-like compounds are in ascending order of hash", "why_tests_cant": "Fields are copied by some constructors and recomputed by others; ranges over all histories.", "anchors": ["Narsese/include/Statement.inl", "Narsese/include/Compound.inl", "Narsese/src/Compound.cpp lines 292-319", "Narsese/include/Term.inl: Term(const Term&)"]}
{"id": "C81", "title": "Constructors build what they are given", "statement": "The statement constructor yields the statement with the given copula, subject and predicate (also when it clones its arguments, if these are hash-ordered), and the compound constructor the given connector and components.", "quantifier": "all runs of constructions and clones, all arguments held", "why_tests_cant": "Ranges over all histories and all sharing.", "anchors": ["Narsese/include/Statement.inl", "Narsese/src/Compound.cpp lines 292-319"]}
{"id": "C82", "title": "Terms are immutable", "statement": "No construction or clone changes the term denoted by any object the program already holds.", "quantifier": "all runs of constructions and clones", "why_tests_cant": "The index lists of existing objects are linked and rebuilt by later constructions; a test sees finitely many histories.", "anchors": ["utils/IndexVar.cpp: build, connect", "Narsese/include/Term.inl: _init_indexvars"]}
{"id": "C83", "title": "Resetting the symbol table is always defined", "statement": "reset() has no undefined behaviour after any sequence of calls on the table that registers only non-null objects.", "quantifier": "all sequences of put, get, get_object, get_by_name, check*, remove*, erase and reset", "why_tests_cant": "Needs a lookup of an unknown key before the reset; ranges over all call sequences.", "anchors": ["Interpreter/include/Interpreter.hpp: get_object line 50, reset lines 150-165"]}
{"id": "C84", "title": "Overwriting the last handle releases the name", "statement": "After any history of creating, copying, destroying and overwriting (assigning to) handles, a name is registered exactly when a handle made for it is alive.", "quantifier": "all histories, live atoms at addresses differing modulo 2^32", "why_tests_cant": "Needs an assignment to the last handle; ranges over all histories.", "anchors": ["Narsese/include/Term.h: pTerm lines 51-69 (implicit copy assignment)", "Narsese/include/Term.inl: ~pTerm lines 44-52"]}
{"id": "C85", "title": "A name stays known while its atom or operation is in use", "statement": "In every history that includes operations met by the parser, the name of every handle alive is registered.", "quantifier": "all histories of creating and parsing, live atoms at addresses differing modulo 2^32", "why_tests_cant": "Ranges over all histories; fails after two parses of the same operation, when one of them is destroyed.", "anchors": ["Narsese/Parser/NarseseParser.cpp: operation lines 455-475", "Interpreter/include/Interpreter.hpp: remove lines 71-94"]}
{"id": "C86", "title": "Giving evidence to a stamp without evidence", "statement": "extend_evidenital_base on a stamp whose evidential base is null gives it a base of its own holding exactly the other base's evidence (its oldest ids, up to the configured maximum), and changes neither the other base nor the stamp's times.", "quantifier": "all reachable states, stamps without base and other bases", "why_tests_cant": "Ranges over all states; the fresh id of the new base must disappear again.", "anchors": ["Narsese/include/Sentence.h: Stamp::extend_evidenital_base lines 101-106", "Narsese/include/Evidence.h: extend lines 33-39"]}
{"id": "C87", "title": "Comparison is symmetric", "statement": "truth_comparison gives the same truth value for its arguments in either order.", "quantifier": "all pairs of single-precision truth values in range", "why_tests_cant": "Asymmetry shows only for particular pairs out of 2^100 through rounding.", "anchors": ["NAL/Functions/include/TruthFunctions.h:58-65", "NAL/Functions/include/ExtendedBooleanFunction.h:10-26"]}
{"id": "C88", "title": "The n-ary disjunction agrees with the fixed-arity ones", "statement": "Or on a list of two, three or four numbers returns bit for bit what the two-, three- and four-argument versions return, for all doubles including infinities and NaN; on numbers in [0,1] a list of any length gives a number in [0,1].", "quantifier": "all doubles and all lists", "why_tests_cant": "The claim is about all bit patterns and list lengths.", "anchors": ["NAL/Functions/include/ExtendedBooleanFunction.h:10-26"]}
{"id": "C89", "title": "A truth value survives the conversion to evidence and back", "statement": "In exact arithmetic truth_from_w applied to the positive and total evidence that w_from_truth gives returns the truth value.", "quantifier": "all f in [0,1], c in [0,1), k > 0 with weight above 1e-8", "why_tests_cant": "Real-valued identity over a continuum.", "anchors": ["NAL/Functions/include/UncertaintyMappingFunctions.h:9-40", "NAL/Functions/src/UncertaintyMappingFunctions.cpp"]}
{"id": "C90", "title": "Revision never lowers confidence", "statement": "In IEEE arithmetic the confidence after truth_revision is at least the confidence of the revised judgement before.", "quantifier": "all pairs of single-precision truth values with c < 1 and k = 1", "why_tests_cant": "Rounding effects show only for particular pairs.", "anchors": ["NAL/Functions/include/TruthFunctions.h:19-30"]}
{"id": "C91", "title": "A rejected input has no effect", "statement": "Whatever inputs were read before, a rejected input yields no task and throws no exception.", "quantifier": "all histories of inputs and all rejected inputs", "why_tests_cant": "Needs a history that ends in an exception; tests start from a fresh parser.", "anchors": ["Narsese/Parser/Parser.cpp lines 37-46", "Narsese/Parser/NarseseParser.h lines 16-23", "Narsese/Parser/narsese.cpp line 757"]}
{"id": "C92", "title": "Parsed truth values are in range", "statement": "The truth value of every parsed judgement or goal has a frequency in [0,1], a confidence strictly between 0 and 1 and a finite k of at least 1.", "quantifier": "all accepted inputs", "why_tests_cant": "Ranges over all decimal numerals; only long ones round to the ends of the range.", "anchors": ["Narsese/Parser/NarseseParser.cpp: truth", "Narsese/Parser/narsese.par: frequency, confidence, k_evidence"]}
{"id": "C93", "title": "Intervals and time tenses are read exactly", "statement": "A whole number written in an interval or a tense is read as exactly that number whenever it fits an int; and if it does not, reading it is undefined behaviour or throws, never an ordinary value.", "quantifier": "all numerals of any length, with and without minus sign", "why_tests_cant": "Ranges over all numerals.", "anchors": ["Narsese/Parser/NarseseParser.cpp: interval, tense_time, integer"]}
{"id": "C94", "title": "Colours change nothing but colours", "statement": "The coloured text of a term is the plain text once the escape sequences are removed, and the one is printed exactly when the other is.", "quantifier": "all terms and symbol tables", "why_tests_cant": "Names and copulas are used as format strings, so which of them break this depends on their characters; tests use tame names.", "anchors": ["Interpreter/src/Interpreter.cpp: interpret(Term) lines 45-215"]}
{"id": "C95", "title": "Printed tasks are accepted by the parser", "statement": "The text printed for a task that came from the parser is accepted by the parser again.", "quantifier": "all accepted inputs", "why_tests_cant": "Depends on how the three places printed round the stored float; only confidences near the ends of the interval fail.", "anchors": ["Interpreter/src/Interpreter.cpp: interpret(Task), interpret(Sentence)", "Narsese/Parser/narsese.par: confidence"]}
{"id": "C96", "title": "The parser accepts exactly the texts of the grammar", "statement": "The generated parser accepts an input exactly when its first line has a derivation in the grammar (the grammar of narsese.par, with the lexemes of its terminals), given enough stack.", "quantifier": "all inputs", "why_tests_cant": "Both inclusions are about infinitely many texts: that the LALR tables with their per-state scanners lose no derivable text cannot be sampled.", "anchors": ["Narsese/Parser/narsese.h: tables and productions lines 300-1305, parse, get_sym, get_act", "Narsese/Parser/narsese.par"]}
{"id": "C97", "title": "Ambiguous texts are read one way", "statement": "The grammar is ambiguous in exactly two places (a sentence's statement taken directly or as a term; a parenthesised list starting with an operator taken as an operation or as a product). Every accepted text has a derivation that takes the first way everywhere, all such derivations have the same syntax tree, and that tree is what the parser returns.", "quantifier": "all inputs without tabs and all derivations", "why_tests_cant": "Uniqueness of derivations of all texts of an infinite language.", "anchors": ["Narsese/Parser/narsese.h: tables lines 300-796", "Narsese/Parser/narsese.par: sentence, statement, term_nonvar, multi"]}
{"id": "C98", "title": "A well-formed text is read as the task it says", "statement": "Every text of a well-formed task, with any spaces between its symbols, is read as the task it says: every copula, connector, bracket and mark by its usual meaning, in every way a term can be written (prefix, infix, sets, tuples, operations, differences of unparenthesised lists), components in their order, each word the atom of that name, each variable numbered by first occurrence, truth value, budget and stamp as written with the documented defaults. Otherwise building one of its compounds is undefined (C76). The text has to fit the parser's stack (C60) and its operators must not be known as atoms (C35). Without operators the reading is unique.", "quantifier": "all well-formed tasks, all spacings, all states of the symbol table, all allocators that keep living atoms apart", "why_tests_cant": "Unboundedly many forms, nestings, spacings and symbol tables.", "anchors": ["Narsese/Parser/narsese.par", "Narsese/Parser/NarseseParser.cpp: lines 59-910", "Narsese/Parser/Parser.cpp: lines 37-110", "Narsese/Parser/narsese.cpp: parse"]}
{"id": "C99", "title": "Tasks read one after another agree on their atoms", "statement": "A parser that reads any list of well-formed texts one after another returns for each the task it says, and all of them speak about the same atoms: the same word in any two tasks is the same atom, different words are different atoms, and no reading disturbs what was read before.", "quantifier": "all lists of well-formed tasks, all spacings, all careful allocators", "why_tests_cant": "Sessions of unbounded length over one mutable symbol table.", "anchors": ["Narsese/Parser/NarseseParser.cpp: lines 421-475", "Narsese/Parser/NarseseParser.h: lines 16-23", "Interpreter/include/Interpreter.hpp: lines 36-120"]}
{"id": "C100", "title": "Printing settles after one reading", "statement": "Let an eternal task have a content whose variables are numbered from left to right, whose atoms have plain names in the table and whose statements and compounds share no key with a name, and numbers that are shown as numerals of the grammar. The text printed for it is accepted, and the task read from it prints as the very same text; the symbol table is unchanged.", "quantifier": "all such tasks, all symbol tables in order, all allocators, texts that fit the parser's stack", "why_tests_cant": "Rounds three and two places of floats and doubles over the whole unit interval and runs the printed text through the parser.", "anchors": ["Interpreter/src/Interpreter.cpp: interpret(Task), interpret(Sentence), interpret(Term)", "Narsese/Parser/NarseseParser.cpp", "Narsese/Parser/narsese.h"]}
{"id": "C101", "title": "Truth values are printed as correctly rounded decimals", "statement": "The text of a judgement or goal ends with its truth value between percent signs: frequency and confidence each as the decimal with exactly three places nearest to the float, ties to the even last digit, a leading minus exactly for a negative sign, no superfluous leading zeros.", "quantifier": "all sentences with a truth value of two finite floats, all contents and stamps", "why_tests_cant": "All floats, in particular ties and large magnitudes, cannot be sampled.", "anchors": ["Interpreter/src/Interpreter.cpp: lines 245-318"]}
{"id": "C102", "title": "Deduction and induction compute their formulas up to rounding", "statement": "For all truth values with frequency and confidence in [0,1]: the frequency of a deduction is the float nearest to f1*f2 (correctly rounded), its confidence is f1*f2*c1*c2 within a relative error of 2^-23 (plus 2^-150). The frequency of an induction is exactly the first premise's frequency (1/2 when there is no evidence), its confidence is w/(w+1) with w = f2*c1*c2 within the same error; its horizon is 1.", "quantifier": "all pairs of proper truth values, i.e. about 2^120 pairs of floats", "why_tests_cant": "Float arithmetic over all inputs; double rounding and cancellation show only for rare inputs.", "anchors": ["NAL/Functions/include/TruthFunctions.h: lines 37-56", "NAL/Functions/include/ExtendedBooleanFunction.h", "Narsese/include/Truth.h: lines 46-50"]}
{"id": "C103", "title": "Comparison computes its formula up to rounding", "statement": "The frequency of a comparison is f1*f2/(f1+f2-f1*f2) and its confidence w/(w+1) with w = (f1+f2-f1*f2)*c1*c2, up to a small relative error, whenever both confidences and frequencies are positive.", "quantifier": "all pairs of proper truth values", "why_tests_cant": "The error appears only for tiny frequencies, where 1-(1-f1)*(1-f2) cancels to 0.", "anchors": ["NAL/Functions/include/TruthFunctions.h: lines 58-65", "NAL/Functions/include/ExtendedBooleanFunction.h: line 16", "Narsese/include/Truth.h: lines 46-50"]}
{"id": "C104", "title": "Revision in float arithmetic pools the evidence up to rounding", "statement": "Revising one truth value with another (horizon 1) gives the frequency and confidence of the pooled evidence w = c1/(1-c1)+c2/(1-c2), w+ = f1*c1/(1-c1)+f2*c2/(1-c2) up to a small error.", "quantifier": "all pairs of proper truth values with confidence below 1", "why_tests_cant": "Six float operations with cancellation near confidence 1; the threshold 1e-8 shows only for tiny confidences.", "anchors": ["NAL/Functions/include/TruthFunctions.h: lines 19-30", "NAL/Functions/include/UncertaintyMappingFunctions.h: lines 9-13", "Narsese/include/Truth.h: lines 31-44"]}
{"id": "C105", "title": "Expectation and quality are accurate", "statement": "For every truth value with frequency and confidence in [0,1] the expectation is c*(f-1/2)+1/2 within 2^-53 and the quality max(e, 3/4*(1-e)) within 2^-52.", "quantifier": "all proper truth values", "why_tests_cant": "All pairs of floats.", "anchors": ["Narsese/include/Truth.h: lines 26-29", "Narsese/include/Budget.h: lines 30-34"]}
{"id": "C106", "title": "The input buffer is only accessed within its allocation", "statement": "Reading characters into the parser's buffer, taking tokens from it and removing them never reads or writes outside of the allocated block nor reads a character that was not written; so for any sequence of inputs given to one parser object every outcome is the one of the parser on the plain text (C58-C65).", "quantifier": "all inputs and all sequences of inputs, all states of the buffer that earlier parses leave behind", "why_tests_cant": "An over-read by one character goes unnoticed without a sanitizer and happens only at multiples of 128 characters.", "anchors": ["Narsese/Parser/narsese.cpp: lines 18-47, 210-349, 352-526, 815-937", "Narsese/Parser/narsese.h: lines 81-83, 181-245"]}
{"id": "C107", "title": "Syntax errors are reported with place and text", "statement": "When an input is rejected, the report names line 1, the column of the first character that has not been shifted, and as token the characters from there on that have been looked at.", "quantifier": "all rejected inputs, all states of the buffer that earlier parses leave behind", "why_tests_cant": "What is printed depends on uninitialised memory, which is often zero in tests.", "anchors": ["Narsese/Parser/narsese.h: lines 62-68", "Narsese/Parser/narsese.cpp: lines 18-47, 259-269, 297-349, 545-592"]}
{"id": "C108", "title": "Semantic actions handle their memory safely", "statement": "While the tree of an accepted input is traversed, no action reads, writes or deletes memory that is not or no longer allocated, or of a type that was not put there (as compilers lay out the types); the task and the state that come out are the ones of the model without memory, the blocks left are exactly those of the task, and all other memory is untouched.", "quantifier": "all inputs, states, memories and environments", "why_tests_cant": "A use after free or double delete in one of 60 actions shows only under a sanitizer and for the right input.", "anchors": ["Narsese/Parser/NarseseParser.cpp: lines 68-1016", "Narsese/Parser/Parser.cpp: lines 28-108"]}
{"id": "C109", "title": "Reading inputs leaks no memory", "statement": "After any sequence of inputs has been read by one parser and every task that came out has been released, all memory used for the values of the semantic actions has been given back.", "quantifier": "all sequences of inputs, memories and environments", "why_tests_cant": "A leak has no visible effect in a test.", "anchors": ["Narsese/Parser/NarseseParser.cpp: lines 68-1016", "Narsese/Parser/Parser.cpp: lines 28-108", "Narsese/include/Task.h: lines 14-35"]}
{"id": "C110", "title": "Values between actions are used with the type they were made with", "statement": "By the letter of the C++ standard, no action reads or deletes an object through a type other than its own, so that reading an accepted input is defined behaviour.", "quantifier": "all inputs, states, memories and environments", "why_tests_cant": "Type-punned tuples work with the usual layout; only another compiler or optimisation shows it.", "anchors": ["Narsese/Parser/NarseseParser.cpp: lines 120-285, 762-822"]}
{"id": "C111", "title": "A task made by the parser can be released", "statement": "When the last reference to a task goes, its parts are given back, each through a pointer of its own type (or with a virtual destructor), and no other memory is touched.", "quantifier": "all tasks made by the parser, all memories", "why_tests_cant": "Deleting through a base class without virtual destructor mostly works in practice.", "anchors": ["Narsese/Parser/NarseseParser.cpp: line 115", "Narsese/include/Sentence.h: lines 112-182", "Narsese/include/Task.h: lines 14-35"]}
{"id": "C112", "title": "The syntax tree is built in memory as it should be", "statement": "For every input, the parser that links nodes by pointers ends as the parser on trees does: it never follows, writes or frees a pointer to memory that is not there, and for an accepted input ast points to a list of nodes, linked in both directions with children below, that is exactly the syntax tree, each node and each text of a token in a block of its own; nothing else stays allocated.", "quantifier": "all inputs, all initial memories, all stack sizes and buffer contents", "why_tests_cant": "Pointer mistakes in linking show up only for particular shapes of trees, or not at all.", "anchors": ["Narsese/Parser/narsese.cpp: lines 18-95", "Narsese/Parser/narsese.cpp: lines 721-768", "Narsese/Parser/narsese.cpp: lines 895-924"]}
{"id": "C113", "title": "The syntax tree of an accepted input is freed", "statement": "After accepted inputs have been read one after the other, with their trees gone through along child and next, each node and each text has been freed exactly once, and the memory is as before.", "quantifier": "all sequences of accepted inputs, all initial memories", "why_tests_cant": "A test does not see leaks, and double frees need not crash.", "anchors": ["Narsese/Parser/narsese.cpp: lines 46-59", "Narsese/Parser/narsese.cpp: lines 946-957", "Narsese/Parser/Parser.cpp: lines 28-48", "Narsese/Parser/Parser.cpp: lines 67-108"]}
{"id": "C114", "title": "A rejected input leaves no memory behind", "statement": "After an input that is rejected, all nodes made for the part read so far have been freed.", "quantifier": "all rejected inputs, all initial memories", "why_tests_cant": "A leak does not change any result; it only matters after many inputs.", "anchors": ["Narsese/Parser/narsese.cpp: lines 850-862", "Narsese/Parser/narsese.cpp: lines 945-957"]}
{"id": "C115", "title": "Iterators behave as positions", "statement": "A program that creates, copies, moves, compares, reads and drops iterators over components, without assigning them and without using the value of x++, sees exactly what it would with positions as numbers, is undefined exactly when a position would be out of range, foreign or of a container that is gone, and owns exactly one block of memory per variable.", "quantifier": "all programs of that kind, all containers, all memories", "why_tests_cant": "The iterators own memory; leaks and double deletes are not visible in results.", "anchors": ["Narsese/include/Term.h: lines 202-308", "Narsese/include/Term.h: lines 455-469"]}
{"id": "C116", "title": "Iterators can be assigned", "statement": "After x = y, x is at the position of y, and each of them can go out of scope.", "quantifier": "all programs with iterators, all containers, all memories", "why_tests_cant": "A double delete crashes only with some allocators; the code's own loops never assign.", "anchors": ["Narsese/include/Term.h: lines 202-308"]}
{"id": "C117", "title": "x++ has the value of x before it", "statement": "The value of x++ is the position of x before the step.", "quantifier": "all programs with iterators, all containers, all memories", "why_tests_cant": "The loops in the code and the tests discard the value.", "anchors": ["Narsese/include/Term.h: lines 253-256"]}
{"id": "C118", "title": "Iterators delete what they have made", "statement": "The standard iterator that an iterator owns is deleted as the type it was created with.", "quantifier": "all programs with iterators, all containers, all memories", "why_tests_cant": "Both types have the same size and trivial destructors in common libraries.", "anchors": ["Narsese/include/Term.h: lines 214-234"]}
{"id": "C119", "title": "Loops over components visit each once, in order", "statement": "A loop over a container (with begin() and end(), or for (auto &t : c)) does its body for each member once and in order, is never undefined by itself, and has given all its iterators back when it ends, also when the body throws.", "quantifier": "all containers, all bodies (which may throw), all memories", "why_tests_cant": "What is lost on exceptions is not visible.", "anchors": ["Narsese/include/Term.h: lines 455-497", "Narsese/src/Compound.cpp: lines 98, 308-314"]}
{"id": "C120", "title": "The printer's loop separates exactly", "statement": "The loop of the pretty-printer, which compares its iterator with end() - 1 at each component, yields the texts with separators exactly between them, never steps before the beginning, and gives all iterators back.", "quantifier": "all containers, all ways of printing the parts (which may throw), coloured and not, all memories", "why_tests_cant": "The comparison creates two temporary iterators in each round.", "anchors": ["Interpreter/src/Interpreter.cpp: lines 79-93", "Narsese/include/Term.h: lines 289-303"]}
{"id": "C121", "title": "Components can be iterated over in Python", "statement": "for t in x.terms yields the components of the compound in order, whatever happens to other references to x meanwhile, and gives the memory of the iterators back.", "quantifier": "all compounds, all rounds at which the last reference to the compound may go", "why_tests_cant": "Freed memory often still holds the old contents.", "anchors": ["Narsese/src/Term.cpp: lines 107-123"]}
{"id": "C122", "title": "Names are known as long as their atoms live", "statement": "A name is known to the symbol table exactly when there is a pTerm to an atom with that name.", "quantifier": "all histories of creating, looking up, parsing, copying and dropping pTerms, all placements of atoms apart from each other", "why_tests_cant": "Which atoms live depends on the whole history.", "anchors": ["Narsese/include/Term.inl: lines 44-52", "Interpreter/include/Interpreter.hpp: lines 30-165", "Narsese/Parser/NarseseParser.cpp: parse_op"]}
{"id": "C123", "title": "The symbol table holds exactly the living atoms", "statement": "After any history, every pTerm can be dropped, the keys in the dictionary are exactly those of atoms to which there is a pTerm, exactly these atoms are alive, and when there is no pTerm the symbol table is empty and all atoms have been freed.", "quantifier": "all histories of creating, looking up, parsing, copying and dropping pTerms, all placements of atoms apart from each other", "why_tests_cant": "A stale entry or a leak shows only after particular histories.", "anchors": ["Narsese/include/Term.inl: lines 20-52", "Interpreter/include/Interpreter.hpp: lines 30-165"]}
{"id": "C124", "title": "Letting go of all tasks leaves nothing behind", "statement": "In a session that reads any texts and keeps and releases what they give in any order, every kept result can be released, and when none is kept the symbol table is empty and no atom is allocated.", "quantifier": "all sessions without exception, all texts, all iteration orders, all placements of atoms apart from each other", "why_tests_cant": "Sessions are unbounded, and leaks are invisible in results.", "anchors": ["main.cpp: lines 23-38", "Narsese/include/Term.inl: lines 44-52", "Narsese/Parser/NarseseParser.h: lines 16-23"]}
{"id": "C125", "title": "The symbol table holds exactly the atoms of the kept tasks", "statement": "In such a session the keys in the dictionary and the living atoms are at any time exactly those of atoms in kept results, and every known name is that of such an atom.", "quantifier": "all sessions without exception, all texts, all iteration orders, all placements of atoms apart from each other", "why_tests_cant": "Sharing of atoms between tasks gives unboundedly many situations.", "anchors": ["main.cpp: lines 23-38", "Narsese/include/Term.inl: lines 44-52", "Interpreter/include/Interpreter.hpp: lines 30-165"]}
{"id": "C126", "title": "A kept task keeps its text", "statement": "The text that the pretty-printer gives for a task does not change while other texts are read and other tasks are released.", "quantifier": "all sessions without exception, all kept tasks, all iteration orders, all placements of atoms apart from each other", "why_tests_cant": "It depends on the addresses of atoms created later.", "anchors": ["Interpreter/src/Interpreter.cpp: lines 12-60", "Interpreter/src/Interpreter.cpp: lines 100-330", "main.cpp: lines 30-37"]}
{"id": "C127", "title": "Every proper text is understood in the middle of a session", "statement": "After any readings of proper texts and releases, a proper text for which there is room, and whose operators are not known as words, is read to a task that says what the text says, with the atoms already known reused; the only other outcome is the null pointer that a compound with no component gives.", "quantifier": "all such sessions, all proper task texts with any spacing, all iteration orders, all placements of atoms apart from each other", "why_tests_cant": "Both the text and the session are unbounded.", "anchors": ["main.cpp: lines 23-38", "Narsese/Parser/NarseseParser.cpp: parse", "Narsese/Parser/Parser.cpp: lines 28-48"]}
{"id": "C128", "title": "The loop of main prints what it has read", "statement": "Reading proper texts one after the other, printing each task and letting go of it gives, for each text, what the pretty-printer gives for a task that says what the text says, with exactly the names of the text known; at the end the symbol table is empty. The only other outcomes are undefined behaviour in reading or printing one of the texts by itself.", "quantifier": "all lists of proper task texts, all iteration orders, all placements of atoms apart from each other", "why_tests_cant": "Both the texts and their number are unbounded.", "anchors": ["main.cpp: lines 23-38", "Interpreter/src/Interpreter.cpp: lines 100-330"]}
{"id": "C129", "title": "main prints the same in every run", "statement": "The lines that main prints for its test cases are the same in every run.", "quantifier": "all placements of atoms apart from each other, all iteration orders", "why_tests_cant": "The placement of atoms is the allocator's choice.", "anchors": ["main.cpp: lines 23-38"]}
{"id": "C130", "title": "Terms made in Python are the terms of the parser", "statement": "An expression of nested calls of Term, Statement and Compound that says in Python what a Narsese text says makes the same term as parsing the text.", "quantifier": "all proper task texts with any spacing, all expressions that say the same, all states of the symbol table in order, all iteration orders, all placements of atoms apart from each other", "why_tests_cant": "Expressions and texts are unbounded, and the two paths share little code.", "anchors": ["Narsese/src/Statement.cpp: lines 18-22", "Narsese/src/Compound.cpp: lines 336-343", "Narsese/src/Connector.cpp: lines 10-25", "Narsese/src/Copula.cpp: lines 19-31", "Narsese/Parser/NarseseParser.cpp: parse"]}
{"id": "C131", "title": "The same expression makes the same term", "statement": "Evaluating an expression of nested calls of Term, Statement and Compound once more, with the results kept, makes the same term and leaves the symbol table as it is; the only other outcome is undefined behaviour at the first evaluation.", "quantifier": "all such expressions, all states of the symbol table in order, all iteration orders, all placements of atoms apart from each other", "why_tests_cant": "Expressions are unbounded.", "anchors": ["Narsese/src/Term.cpp: lines 18-40 and 86-90", "Narsese/src/Statement.cpp: lines 18-22", "Narsese/src/Compound.cpp: lines 336-343"]}
{"id": "C132", "title": "parse gives a Task or raises RuntimeError", "statement": "parse returns a Task for every sentence of the grammar and raises RuntimeError for every other line.", "quantifier": "all lines, all states", "why_tests_cant": "Lines are unbounded.", "anchors": ["Narsese/Parser/NarseseParser.cpp: lines 991-1017"]}
{"id": "C133", "title": "repr shows terms", "statement": "repr(x) of a term gives its kind and its text.", "quantifier": "all named terms, all states of the symbol table", "why_tests_cant": "Terms are unbounded.", "anchors": ["Narsese/src/Term.cpp: lines 49-64 and 131-135", "Narsese/src/Statement.cpp: lines 24-28", "Narsese/src/Compound.cpp: lines 345-349"]}
{"id": "C134", "title": "Sentences made in Python can be shown", "statement": "x.__repr__(None) of a Sentence made in Python gives the text of its term, its punctuation and, for judgements and goals, its truth value with three places.", "quantifier": "all named terms, all punctuations, all finite truth values or none", "why_tests_cant": "Terms and truth values are unbounded.", "anchors": ["Narsese/src/Sentence.cpp: lines 6-13 and 33-43", "Narsese/include/Sentence.h: lines 127-131 and 165-174", "Interpreter/src/Interpreter.cpp: lines 275-284"]}
{"id": "C135", "title": "Numbers are read back as written", "statement": "A number given to Truth or Budget in the constructor or by assignment is read back unchanged.", "quantifier": "all finite doubles that do not overflow as floats, all fields", "why_tests_cant": "There are 2^64 doubles.", "anchors": ["Narsese/src/Truth.cpp: lines 9-13", "Narsese/include/Truth.h: line 52", "Narsese/src/Budget.cpp: lines 5-15", "Narsese/include/Budget.h: lines 28 and 36"]}
{"id": "C136", "title": "Terms made in Python are the same exactly if their names are", "statement": "Term(s) and Term(t) made one after the other are the same term exactly if s = t.", "quantifier": "all pairs of names, all states of the symbol table in order, all placements of atoms apart from each other", "why_tests_cant": "Names are unbounded.", "anchors": ["Narsese/src/Term.cpp: lines 18-40 and 86-90"]}
{"id": "C137", "title": "Wrong arguments raise an exception and change nothing", "statement": "A call of a function of the module with arguments of the wrong number or types raises TypeError, or for Compound RuntimeError, and changes nothing.", "quantifier": "all functions of the module, all lists of arguments, all states", "why_tests_cant": "Lists of arguments are unbounded.", "anchors": ["Narsese.cpp: PYBIND11_MODULE", "Narsese/src/Budget.cpp: line 16", "Narsese/src/Term.cpp: lines 131-135", "Narsese/src/Compound.cpp: lines 336-343"]}
{"id": "C138", "title": "Attributes give back the arguments", "statement": "subject, copula, predicate and terms of Statement(s, c, p) are s, c, p and s, p; terms of Compound(c, ...) are the components given.", "quantifier": "all terms, copulas and connectors (ExtensionalDifference is covered by C130), all lists of components", "why_tests_cant": "Lists of components are unbounded.", "anchors": ["Narsese/src/Term.cpp: lines 91-130", "Narsese/src/Statement.cpp: lines 18-22", "Narsese/src/Compound.cpp: lines 336-343"]}
{"id": "C139", "title": "Sentences made in Python have evidence of their own", "statement": "Sentence(t, p, v, None) makes a sentence with that term, punctuation and truth value, eternal, with one new piece of evidence, and changes no other evidence and not the symbol table; two sentences made so never share evidence, whatever happens in between and afterwards without changing these two sets of evidence.", "quantifier": "all terms, punctuations, truth values and histories with fewer than 2^64 inputs", "why_tests_cant": "Histories are unbounded.", "anchors": ["Narsese/src/Sentence.cpp: lines 18-23 and 33-37", "Narsese/include/Sentence.h: lines 55-66 and 127-131", "Global.h: get_input_id"]}
{"id": "C140", "title": "rebuild() gives every object the indices below it, in order", "statement": "After rebuild() the lists of an object hold the indices found at the ends of its structure, in order, each with the position that leads to it; the same holds for every object below it, and all other objects and all ints are as before.", "quantifier": "all programs over index lists, all objects with finitely deep structure, with components shared between several objects", "why_tests_cant": "Structures and programs are unbounded; sharing makes building visit objects several times.", "anchors": ["utils/IndexVar.cpp: IndexVar::build", "utils/IndexVar.h: IndexVar::rebuild"]}
{"id": "C141", "title": "build() brings the lists up to date", "statement": "After build() the lists of an object hold the indices found at the ends of its structure, in order, with their positions, and its hash belongs to them.", "quantifier": "all programs over index lists, all objects", "why_tests_cant": "The state in which build() is called depends on the whole history of calls.", "anchors": ["utils/IndexVar.cpp: IndexVar::build, IndexVar::connect, IndexVar::add"]}
{"id": "C142", "title": "add puts an index at a position", "statement": "After add(idx, position) and rebuild() the object has idx at the position, and everything else is as before.", "quantifier": "all programs over index lists, all objects, positions and indices", "why_tests_cant": "Structures and positions are unbounded.", "anchors": ["utils/IndexVar.cpp: IndexVar::add"]}
{"id": "C143", "title": "remove takes away what is at a position", "statement": "After remove(position) and rebuild() the object has no index at the position or beyond it, and everything else is as before.", "quantifier": "all programs over index lists, all objects and positions", "why_tests_cant": "Structures and positions are unbounded.", "anchors": ["utils/IndexVar.cpp: IndexVar::remove"]}
{"id": "C144", "title": "The hash belongs to the lists", "statement": "After rebuild() the hash of an object is that of its normalised indices.", "quantifier": "all programs over index lists, all objects", "why_tests_cant": "Whether the kept hash is out of date depends on the whole history of calls.", "anchors": ["utils/IndexVar.h: IndexVar::__hash__, IndexVar::do_hashing, IndexVar::indices_normalized", "utils/IndexVar.cpp: IndexVar::build, IndexVar::connect, IndexVar::add, IndexVar::remove"]}
{"id": "C145", "title": "A copy can be used in place of the original", "statement": "A copy of an object stands for the same indices at the same positions, accepts the same calls, and has ints of its own.", "quantifier": "all programs over index lists, all objects", "why_tests_cant": "Structures and programs are unbounded.", "anchors": ["utils/IndexVar.h: IndexVar::clone"]}
{"id": "C146", "title": "== holds exactly for the same normalised indices", "statement": "Two built objects compare equal exactly if their normalised indices are the same.", "quantifier": "all programs over index lists that finish objects before they make them components, all pairs of built objects", "why_tests_cant": "Lists are unbounded and collisions of hashes are rare.", "anchors": ["utils/IndexVar.h: IndexVar::operator==, IndexVar::__hash__"]}
{"id": "C147", "title": "connect with positions can be used", "statement": "connect(father, son, true) joins son to father for all objects that do not lie below each other.", "quantifier": "all programs over index lists, all pairs of objects", "why_tests_cant": "Objects and programs are unbounded.", "anchors": ["utils/IndexVar.cpp: IndexVar::connect"]}
{"id": "C148", "title": "Building ends exactly if there is no cycle", "statement": "rebuild() of an object returns exactly if its structure is finite; it never returns if an object below is its own component at some depth; without such cycles build() and rebuild() return; and no call makes a cycle except connect of an object with one it lies below.", "quantifier": "all programs over index lists, all objects", "why_tests_cant": "Structures and programs are unbounded; not returning cannot be observed.", "anchors": ["utils/IndexVar.cpp: IndexVar::build, IndexVar::connect"]}
{"id": "C149", "title": "Exactly which calls are undefined", "statement": "On existing objects, add and remove are undefined exactly if nothing is at the position, connect exactly with generate_pos and a component that has entries, and no other call ever; all calls but build return; positions and indices always have the same length.", "quantifier": "all programs over index lists, all calls", "why_tests_cant": "Structures, positions and programs are unbounded.", "anchors": ["utils/IndexVar.h: class IndexVar", "utils/IndexVar.cpp"]}
{"id": "C150", "title": "Joining, creating, asking and writing do only what they say", "statement": "connect makes son the last component of father: its entries follow those of the earlier components, an entry that father held itself is lost, and all other objects are as before. create makes an empty object. Normalising, hashing and comparing change no list, no component and no flag of building. Writing to an int changes exactly the entries that share it.", "quantifier": "all programs over index lists, all objects", "why_tests_cant": "Structures and programs are unbounded.", "anchors": ["utils/IndexVar.h: IndexVar::create, IndexVar::do_hashing, IndexVar::__hash__, IndexVar::operator==", "utils/IndexVar.cpp: IndexVar::connect, IndexVar::normalize"]}
{"id": "C151", "title": "Making, cloning, sharing and releasing terms is always defined", "statement": "Making terms of all classes, filling Terms, cloning, copying, taking members and releasing pointers never uses a deleted object and always ends, and no such action changes an existing term or Terms.", "quantifier": "all programs of any length over these actions, any sharing, any choice of elements by the sets; objects deleted as compilers do it", "why_tests_cant": "Programs, terms and sharing are unbounded; use of deleted memory often goes unnoticed.", "anchors": ["Narsese/include/Term.h: class pTerm, class Terms", "Narsese/include/Term.inl: Term::clone", "Narsese/include/Statement.inl", "Narsese/include/Compound.inl", "Narsese/src/Compound.cpp: lines 292-319", "utils/IndexVar.cpp"]}
{"id": "C152", "title": "Exactly what can still be reached is alive", "statement": "At every point of a program, an object is alive exactly if the program can reach it from the pointers it holds; so releasing a pointer ends exactly what only that pointer kept.", "quantifier": "all programs of C151, all objects (terms, Terms, index lists, ints, vectors)", "why_tests_cant": "Programs and structures are unbounded.", "anchors": ["Narsese/include/Term.h: class pTerm", "utils/IndexVar.h: predecessor, successors"]}
{"id": "C153", "title": "Use counts are the numbers of pointers", "statement": "The use count of every living object is the number of shared pointers that lead to it, in living objects and in the program.", "quantifier": "all programs of C151, all living objects", "why_tests_cant": "Programs and structures are unbounded.", "anchors": ["Narsese/include/Term.h: class pTerm"]}
{"id": "C154", "title": "When everything is released no memory is in use", "statement": "A program that has released all its pointers has given back all memory.", "quantifier": "all programs of C151", "why_tests_cant": "Programs are unbounded; leaks are not visible in results.", "anchors": ["Narsese/include/Term.h: class Term, class pTerm", "Narsese/include/Variable.h: _name"]}
{"id": "C155", "title": "Objects are deleted as the standard demands", "statement": "No action has undefined behaviour by the C++ standard.", "quantifier": "all programs of C151", "why_tests_cant": "Compilers let it pass.", "anchors": ["Narsese/include/Term.h: line 56, class Term"]}
{"id": "C156", "title": "Index lists can be joined", "statement": "connect of any two lists that a program can reach loses no memory, and the result can be built.", "quantifier": "all programs of C151, all pairs of lists reached", "why_tests_cant": "Structures are unbounded; not returning cannot be observed.", "anchors": ["utils/IndexVar.cpp: IndexVar::connect, IndexVar::build"]}
{"id": "C157", "title": "Every action makes what it is to make", "statement": "Constructors give an object of the right class with the parts given, or with copies of them if is_input is false; its flags are those of the parts taken together, its lists are new, have the lists of the parts as components and are built from them. A copy shares exactly what has no variables. No action changes the components of an existing list, or the indices of one that is built or has no components.", "quantifier": "all programs of C151, all actions", "why_tests_cant": "Programs, terms and sharing are unbounded.", "anchors": ["Narsese/include/Term.inl: Term::clone, Term::_init_indexvars", "Narsese/include/Statement.inl", "Narsese/include/Compound.inl", "Narsese/src/Compound.cpp: lines 292-319", "Narsese/include/Variable.inl"]}
{"id": "C158", "title": "Every term fits its parts, always", "statement": "At every point of a program, every term object has the members of its class; simple terms have no flags and no indices; a variable has the flags of its kind and at most one index, in the list of its kind; the flags of a statement are exactly, and those of a compound at least, those of its parts taken together; the three lists of a statement or compound have the lists of the parts as components, and the list of every kind of variable that occurs is built and holds the indices of its components, in order. So a term says that it has variables, and of which kinds, whenever one is found inside of it at any depth.", "quantifier": "all programs of C151, all term objects, any depth", "why_tests_cant": "Programs, terms and sharing are unbounded.", "anchors": ["Narsese/include/Term.h: _refresh_var_status, _build_indexvars", "Narsese/include/Term.inl: Term::_init_indexvars", "Narsese/include/Statement.inl", "Narsese/include/Compound.inl", "Narsese/include/Variable.inl", "utils/IndexVar.cpp: IndexVar::build"]}
{"id": "C159", "title": "Copies have variables of their own", "statement": "Every variable found at any depth in what clone, a deep copy, or a constructor with is_input = false returns is a new object with new index lists and new indices, so that changing it cannot reach the original or anything else.", "quantifier": "all programs of C151, all copying actions, any depth", "why_tests_cant": "Programs, terms and sharing are unbounded; sharing shows only when an index is changed later.", "anchors": ["Narsese/include/Term.inl: Term::clone", "Narsese/include/Variable.inl: Variable(const Variable &)", "utils/IndexVar.h: IndexVar::clone", "Narsese/include/Statement.inl", "Narsese/include/Compound.inl"]}
{"id": "C160", "title": "A node calls its own action or none", "statement": "The table of actions is keyed by the address of a string literal. Wherever literals are placed, an action found for a node of the syntax tree is one registered under the name of the node, and one is found exactly if the literal of the registration lies at the address in the tables. The names in all trees of accepted inputs are such literals.", "quantifier": "all legal placements of literals, all names, all accepted inputs", "why_tests_cant": "A test runs with one placement.", "anchors": ["Narsese/Parser/Parser.h: emit_to_func", "Narsese/Parser/Parser.cpp: regist, get_function", "Narsese/Parser/narsese.h: productions, symbols"]}
{"id": "C161", "title": "Every node of the syntax tree finds its action", "statement": "For every accepted input the traversal by addresses gives what the traversal by names gives.", "quantifier": "all placements of literals that the standard allows, all accepted inputs", "why_tests_cant": "A test runs with one compiler and one placement.", "anchors": ["Narsese/Parser/Parser.cpp: regist, get_function", "Narsese/Parser/NarseseParser.cpp: NarseseParser()"]}
{"id": "C162", "title": "The generator writes one prototype, definition and registration for each name", "statement": "generate.cpp prints the sizes of the tables and, for each entry whose name is not at the address of the empty name, in order, one prototype, one definition and one registration, the latter aligned to the longest name.", "quantifier": "all tables of any size and any names", "why_tests_cant": "Tables and names are unbounded.", "anchors": ["Narsese/Parser/generate.cpp: GENERATE::generate"]}
{"id": "C163", "title": "The generator writes exactly the actions that are needed", "statement": "For the tables of Narsese, the names written are exactly those that NarseseParser registers, each once.", "quantifier": "all placements of literals that the standard allows", "why_tests_cant": "A test runs with one compiler and one placement.", "anchors": ["Narsese/Parser/generate.cpp: GENERATE::generate", "Narsese/Parser/NarseseParser.cpp: NarseseParser()"]}
{"id": "C164", "title": "Every line of a file can be examined", "statement": "The reader of example files can tell for every line whether it is blank, a number, a comment or a sentence.", "quantifier": "all lines", "why_tests_cant": "Lines are unbounded; undefined behaviour may go unnoticed.", "anchors": ["Tests/test_parser.cpp: isdigits, test_parse_nal"]}
{"id": "C165", "title": "Exactly the sentences are given to the parser, in order", "statement": "Reading a file does the same as parsing and printing, one after another and trimmed, the lines that are not blank, no number and no comment.", "quantifier": "all files of any length without lines as in C164", "why_tests_cant": "Files are unbounded.", "anchors": ["Tests/test_parser.cpp: test_parse_nal"]}
{"id": "C166", "title": "No sentence is skipped", "statement": "What the parser would accept is never taken for a number, a comment or a blank line.", "quantifier": "all lines, all accepted texts", "why_tests_cant": "Texts are unbounded.", "anchors": ["Tests/test_parser.cpp: lines 52-57", "Narsese/Parser/narsese.par"]}
{"id": "C167", "title": "A file of well-formed sentences is printed", "statement": "For a file whose sentences are well-formed Narsese (C128), one line is printed for each, the text of a task as written, with or without colours, and at the end no name is left; or the behaviour is undefined because of one of the forms named in C128.", "quantifier": "all files of any length with sentences of the forms of C128, any allocator as in C124", "why_tests_cant": "Files and sentences are unbounded.", "anchors": ["Tests/test_parser.cpp: test_parse_nal", "Interpreter/src/Interpreter.cpp: interpret(Task)"]}
{"id": "C168", "title": "A malformed sentence in a file does not crash the reader", "statement": "A file with a sentence that the parser rejects is read to its end or reported.", "quantifier": "all files, all rejected sentences, at any place in the file", "why_tests_cant": "Files are unbounded.", "anchors": ["Tests/test_parser.cpp: lines 63-64", "Narsese/Parser/Parser.cpp: parse_task"]}
{"id": "C169", "title": "The table of names may be edited at any time", "statement": "At any point of a program that creates and destroys atoms and calls remove, remove_by_name, erase and reset in any order, each of these is defined; the editing functions leave the handles alone and unregister exactly the atoms with the key or name given, reset empties the table and frees exactly the atoms not in hand, destroying a handle unregisters its atom exactly if it was the last.", "quantifier": "all programs of any length, all names, all placements of atoms apart modulo 2^32", "why_tests_cant": "Programs are unbounded.", "anchors": ["Interpreter/include/Interpreter.hpp: remove, remove_by_name, erase, reset, put", "Narsese/include/Term.inl: ~pTerm", "Narsese/src/Term.cpp: create, _free_from_interpreter"]}
{"id": "C170", "title": "One name, one atom, also when the table is edited", "statement": "At any point of such a program two handles have the same name exactly if they point to the same atom.", "quantifier": "all programs of any length", "why_tests_cant": "Programs are unbounded.", "anchors": ["Interpreter/include/Interpreter.hpp: remove, remove_by_name, erase, reset", "Narsese/src/Term.cpp: create"]}
{"id": "C171", "title": "Nothing is left at the end of the program", "statement": "When all handles were destroyed, the destructor of the table frees every atom that remains.", "quantifier": "all programs of any length that may edit the table", "why_tests_cant": "Leaks at the end of a program go unnoticed; programs are unbounded.", "anchors": ["Interpreter/include/Interpreter.hpp: ~Interpreter, reset", "Interpreter/src/Interpreter.cpp: line 9", "Narsese/include/Term.inl: ~pTerm"]}
{"id": "C172", "title": "Handles may outlive the table", "statement": "A handle with static storage duration may be destroyed after the table.", "quantifier": "all programs, all sets of handles that outlive the table", "why_tests_cant": "The order of static destruction depends on the linking of units; programs are unbounded.", "anchors": ["Interpreter/include/Interpreter.hpp: ~Interpreter, erase", "Interpreter/src/Interpreter.cpp: line 9", "Narsese/include/Term.inl: ~pTerm", "Narsese/src/Term.cpp: _free_from_interpreter"]}
{"id": "C173", "title": "Sentences read at different places of a program have different evidence", "statement": "Two sentences read by the parser anywhere in a program of several translation units, fewer than 2^64 apart, do not overlap.", "quantifier": "all programs of any number of units and steps, any choice of the copies that inline functions use", "why_tests_cant": "Programs, units and choices of the linker are unbounded.", "anchors": ["Global.h: lines 6-14", "Narsese/include/Evidence.h: lines 26-30", "Narsese/Parser/NarseseParser.cpp: lines 128-150"]}
{"id": "C174", "title": "Tenses follow the clock the program sets", "statement": "After GLOBAL::time was set to t, a sentence is shown as past, present or future according to its time of occurrence and t.", "quantifier": "all programs of any number of units and steps, any choice of the copies that inline functions use, all times", "why_tests_cant": "Programs, units and choices of the linker are unbounded.", "anchors": ["Global.h: line 6", "Narsese/include/Sentence.h: lines 58-60, 83-95", "Interpreter/src/Interpreter.cpp: lines 269, 286"]}
{"id": "C175", "title": "The traversal of the syntax tree is nested only so deep", "statement": "For every input that is accepted without overflow of a parser stack of n cells, at most 3 n - 13 calls of transform are active at once; with the 128 cells that the program allocates this bound, 371, is attained.", "quantifier": "all inputs of any length, all buffer contents, all stack sizes of at least 7", "why_tests_cant": "Inputs are unbounded; a deeper recursion would need an input no test has.", "anchors": ["Narsese/Parser/Parser.cpp: transform", "Narsese/Parser/narsese.cpp: parse"]}
{"id": "C176", "title": "Freeing the syntax tree is nested only so deep", "statement": "There is a bound on the calls of ast_free active at once that holds for all accepted inputs.", "quantifier": "all inputs of any length", "why_tests_cant": "Inputs are unbounded; the stack of the process is exceeded only by inputs longer than those of tests.", "anchors": ["Narsese/Parser/narsese.cpp: ast_free", "Narsese/Parser/Parser.cpp: parse_string"]}
{"id": "C177", "title": "Terms that are read are nested only so deep", "statement": "With a parser stack of n cells no input, also after others were read, gives a task whose term has more than 2 n - 13 levels of components (243 for the 128 cells of the program, which is attained), so that hashing, printing, copying and freeing it, which recurse over its levels, are nested only so deep.", "quantifier": "all sequences of inputs of any length, all states of the symbol table and buffer, all stack sizes of at least 9", "why_tests_cant": "Inputs and sequences of them are unbounded.", "anchors": ["Narsese/Parser/NarseseParser.cpp: all actions", "Narsese/src/Compound.cpp: prepocess_terms", "Narsese/Parser/narsese.cpp: parse"]}
{"id": "C178", "title": "A line typed is read as the same line given as a string", "statement": "parse_input on a stream that begins with a line of ASCII characters (without NUL) and a newline ends as parse_string does on that line, with the same buffer, and fetches nothing that comes behind the newline.", "quantifier": "all lines of any length, all that may come behind them, all buffers earlier parses leave, all stack sizes", "why_tests_cant": "Lines and what follows are unbounded; tests would have to feed the standard input.", "anchors": ["Narsese/Parser/Parser.cpp: parse_input, parse_string", "Narsese/Parser/narsese.h: fetch_stdin, fill, fetch", "Narsese/Parser/narsese.cpp: get_input, lex, parse"]}
{"id": "C179", "title": "Every call of parse_input reads one line", "statement": "A call of parse_input reads the next line of the stream with its newline, whether or not it is accepted, so that k calls read k lines.", "quantifier": "all streams, all numbers of calls", "why_tests_cant": "Sessions are unbounded; what is left of a refused line depends on where the error is.", "anchors": ["Narsese/Parser/Parser.cpp: parse_input", "Narsese/Parser/narsese.cpp: parse, clear_input, get_input"]}
{"id": "C180", "title": "Nothing is accepted at the end of the stream without a newline", "statement": "When the stream holds no newline no call of parse_input builds a syntax tree, whatever bytes it holds.", "quantifier": "all streams of bytes of any length, all buffers earlier parses leave", "why_tests_cant": "Streams are unbounded and may hold any bytes.", "anchors": ["Narsese/Parser/Parser.cpp: parse_input", "Narsese/Parser/narsese.h: fetch_stdin", "Narsese/Parser/narsese.cpp: get_input, parse"]}
{"id": "C181", "title": "Bytes outside of printable ASCII do no harm at the console", "statement": "Whatever bytes a line holds, reading it is defined, and a word that is accepted is the word of the tree.", "quantifier": "all lines of bytes", "why_tests_cant": "Such bytes cannot be in the strings tests give to parse.", "anchors": ["Narsese/Parser/narsese.h: fetch_stdin", "Narsese/Parser/narsese.cpp: get_input, get_lexem, lex"]}
{"id": "C182", "title": "Variables of a line typed are numbered anew", "statement": "The indices of the variables in a line read by parse_input depend on this line only, as with parse_task.", "quantifier": "all states of the parser, all lines", "why_tests_cant": "Needs two lines read one after another by the same parser from the standard input.", "anchors": ["Narsese/Parser/Parser.cpp: parse_input", "Narsese/Parser/NarseseParser.h: parse_task", "Narsese/Parser/NarseseParser.cpp: independent_var"]}
{"id": "C183", "title": "Reading from the console always ends", "statement": "Any number of calls of parse_input on any stream of bytes, ended or not, comes to an end: none of them loops for ever, and none throws before the actions.", "quantifier": "all streams of bytes of any length, all numbers of calls, all buffers earlier parses leave, all stack sizes", "why_tests_cant": "Streams are unbounded and may hold any bytes; a loop without end cannot be told from a long one by running it.", "anchors": ["Narsese/Parser/Parser.cpp: parse_input", "Narsese/Parser/narsese.h: fetch_stdin", "Narsese/Parser/narsese.cpp: get_input, lex, get_sym, parse"]}
{"id": "C184", "title": "Every call at the console makes progress", "statement": "A call of parse_input on a stream that is not at its end reads at least one byte of it; at the end it fails and leaves the end. So calling it as often as there are bytes reads the whole stream, however the lines are refused.", "quantifier": "all streams of bytes, all outcomes, all numbers of calls", "why_tests_cant": "Streams and sessions are unbounded.", "anchors": ["Narsese/Parser/Parser.cpp: parse_input", "Narsese/Parser/narsese.cpp: get_input, clear_input, parse"]}
{"id": "C185", "title": "Copulas and connectors are classified as their signs say", "statement": "A copula is commutative exactly if its sign is its own mirror image, of higher order exactly if its shaft is not made of dashes, temporal exactly if its sign carries one of the time marks / | \\; a connector is temporal exactly if its sign is & followed by another character; different copulas, connectors and kinds of variables have different signs.", "quantifier": "all copulas, connectors and kinds of variables", "why_tests_cant": "Tests exercise single entries of tables indexed by enum values; the claim ties six parallel tables together.", "anchors": ["Narsese/include/Copula.h: Repr, _commutative, _higher_order, _temporal", "Narsese/include/Connector.h: Repr, _temporal", "Narsese/include/Variable.h"]}
{"id": "C186", "title": "The terms of a commutative copula may be exchanged", "statement": "For a commutative copula the statement of s and p equals the statement of p and s; sets and conjunctions keep only one of the two.", "quantifier": "all copulas marked commutative, all terms s and p, all set-like connectors, all iteration orders of the hash map", "why_tests_cant": "Terms are unbounded; equality rests on hashes of both parts.", "anchors": ["Narsese/include/Statement.inl: Statement", "Narsese/include/Term.inl: operator==", "Narsese/src/Compound.cpp: prepocess_terms"]}
{"id": "C187", "title": "Tasks without written values get the defaults of their kind", "statement": "A task that is entered without a budget has the priority and durability that the configuration holds for its kind of sentence (p_judgement, d_judgement, p_question, ...), and the quality that follows from its truth value, or 1 without one.", "quantifier": "all accepted inputs without a budget, all states of the parser; for the partial theorem on priorities, all accepted inputs and all four values the configuration might hold", "why_tests_cant": "Inputs are unbounded, and that a configuration value has no influence on any input cannot be shown by running some.", "anchors": ["Narsese/Parser/NarseseParser.cpp: NARSESEPARSER::task", "Config.cpp: p_judgement, d_judgement, p_question, d_question, p_quest, d_quest, p_goal, d_goal"]}
{"id": "C188", "title": "A new parser reads the same whatever its memory held before", "statement": "What a parser object made with new does with its inputs does not depend on what the storage of its members held: neither which inputs are accepted nor whether they are read without undefined behaviour.", "quantifier": "all values of error_delay, all places of bufend, all values of lexem and ast that point to nothing, all inputs, all sessions", "why_tests_cant": "What the storage of a new object holds depends on the allocator and on everything allocated before; tests mostly get zeroes.", "anchors": ["Narsese/Parser/Parser.cpp: Parser::Parser", "Narsese/Parser/narsese.h: _parser", "Narsese/Parser/narsese.cpp: _parser::parse, _parser::get_input, _parser::get_lexem", "Narsese/Parser/NarseseParser.h: parser"]}
{"id": "C189", "title": "A truth value made from a horizon alone has frequency 1 and confidence 0.9", "statement": "The truth value made without numbers has exactly the frequency 1, the confidence that is the float nearest to 0.9, and the horizon given.", "quantifier": "all horizons", "why_tests_cant": "The confidence is a double literal converted to float; that no float is nearer is a statement about all of them.", "anchors": ["Narsese/include/Truth.h: Truth(float k), create", "Config.cpp: f, c, k"]}
{"id": "C190", "title": "Every object handed to the symbol table is deleted once", "statement": "After any sequence of calls of the interpreter, every object that was handed to put is either still in the table or has been deleted exactly once; nothing else is deleted.", "quantifier": "all sequences of put, get, get_object, get_by_name, check, check_by_name, check_count, remove, remove_by_name, erase and reset, all keys, names and objects", "why_tests_cant": "Deleting twice or forgetting an object depends on the history of the four maps, which is unbounded.", "anchors": ["Interpreter/include/Interpreter.hpp: put, remove, remove_by_name, erase, reset"]}
{"id": "C191", "title": "remove, remove_by_name and erase say whether there was something to remove", "statement": "remove answers whether the key is known, remove_by_name whether the name is known, erase whether the count of the key is above zero; a name whose key is unknown is removed without deleting an object.", "quantifier": "all tables, all keys and names", "why_tests_cant": "The answer concerns every state of four maps that need not agree with each other.", "anchors": ["Interpreter/include/Interpreter.hpp: remove, remove_by_name, erase"]}
{"id": "C192", "title": "Coloured text is the text between the escape sequences of its colour", "statement": "Text without braces or escapes in a colour is the escape sequence that names the foreground and the components red, green and blue in this order with three digits each, then the text unchanged, then the sequence that ends the colour.", "quantifier": "all components from 0 to 255, all texts without braces and escapes", "why_tests_cant": "Texts are unbounded and there are 2^24 colours.", "anchors": ["Interpreter/Interpreter.cpp: color_term, color_angle, Interpreter::interpret"]}
{"id": "C193", "title": "Judgements and goals have a truth value, questions and quests none, and every sentence has a stamp", "statement": "In every state of a program every sentence that exists has a stamp, and a truth value exactly if it is a judgement or a goal; what is not given to the constructor is the default of the configuration at that time.", "quantifier": "all programs that make, copy, move, slice, assign, change and delete sentences of the five classes, all configurations", "why_tests_cant": "Programs are unbounded, and sentences refer to each other.", "anchors": ["Narsese/include/Sentence.h: Sentence, Judgement, Question, Goal, Quest"]}
{"id": "C194", "title": "The desire of a goal is its truth value", "statement": "In every state of a program the member desire of every existing goal is its own truth value.", "quantifier": "all programs that make, copy, move, slice, assign, change and delete sentences of the five classes", "why_tests_cant": "Copies of copies of any depth refer to a first original whose life may have ended at any time.", "anchors": ["Narsese/include/Sentence.h: Goal"]}
{"id": "C195", "title": "A stamp tells when it was made and keeps its times", "statement": "The time of creation of a stamp is the clock, the time of occurrence what is given (the clock without one), the put time -1; eternalize and extend_evidenital_base change no times.", "quantifier": "all clocks below 2^64, all times of occurrence, all constructors and tense markers with a number", "why_tests_cant": "There are 2^64 clocks and the conversion goes wrong only far out.", "anchors": ["Narsese/include/Sentence.h: Stamp, eternalize, extend_evidenital_base"]}
{"id": "C196", "title": "Python shows budgets and truth values correctly rounded", "statement": "repr of a Budget is <Budget: $p;d;q$> and of a Truth <Truth: %f, c% (k=...)>, where each of p, d, q, f, c is the number correctly rounded to two places (ties to even), or nan, inf, -inf.", "quantifier": "all budgets (two doubles and a float) and truth values (floats), in any state of the module", "why_tests_cant": "There are 2^160 budgets; rounding goes wrong only near ties.", "anchors": ["Narsese/src/Budget.cpp: pybind_budget", "Narsese/include/Truth.h: __repr__"]}
{"id": "C197", "title": "The budget shown in a task is what its Budget shows", "statement": "The numbers between the dollar signs in the text of a task are those in the text of its budget.", "quantifier": "all tasks whose sentence can be printed, in any state of the module", "why_tests_cant": "The two differ only near ties of the third place, and outside [0,1].", "anchors": ["Narsese/src/Budget.cpp: pybind_budget", "Interpreter/src/Interpreter.cpp: interpret(Task)"]}
