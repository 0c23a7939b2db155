# Verification design for cNARS

Target: the C++ sources of bowen-xu/cNARS in `/repo` (read as text, never built or run).
Prover: Coq 8.16.1, libraries: standard library, Flocq (for IEEE arithmetic).
Properties: `properties.jsonl`. Claims: `MANIFEST.json`. Mutations: `seeded/LOG.jsonl`.

## 1. Method

The code is modelled function by function as total, computable Gallina functions. Each
definition cites the file and the lines it mirrors and says what it leaves out.
Undefined behaviour, thrown exceptions and fuel exhaustion are distinct outcomes
(`UB`, `Throw`, `OutOfFuel`), never a default value. Machine integers wrap
explicitly (`mod 2^64`) wherever the value can wrap in practice; where the model
uses unbounded integers instead, the comment says so.

Property theorems are stated against small separate specifications (lists, sets,
real numbers, derivation trees; the `*Spec.v` files and `Grammar.v`), not against the
model's own helper functions. The files `Props_*.v` hold nothing but theorems, each
closed by one lemma, with `Print Assumptions` beneath and an `Example` beside it that
meets its hypotheses. A property whose full statement is false of the faithful model gets
a theorem `..._refuted` with a concrete witness, and where useful a theorem about the
largest true part, suffixed `_partial`.

In `MANIFEST.json`, `proved` means the listed theorems establish the statement in
`properties.jsonl`; `partial` means only a part is established, or that the
statement is refuted (the note then starts with REFUTED); `not_applicable` means
it is not expressed.

## 2. Trusted base

* Coq's kernel (including `vm_compute`), and the axioms `Print Assumptions` lists
  (section 5): for theorems that mention real numbers or IEEE arithmetic the standard
  library's `ClassicalDedekindReals.sig_forall_dec`, `ClassicalDedekindReals.sig_not_dec`,
  `FunctionalExtensionality.functional_extensionality_dep` and
  `Classical_Prop.classic`; none for the others. No other library contributes an axiom
  (Flocq rests on the same four).
* The reading of the C++ sources that the model embodies (section 3), since there
  is no mechanised link from C++ to Gallina.
* The translation of the tables in `narsese.h` into Coq lists (`Tables.v`, written by a
  script, committed as plain lists that can be compared with the C tables), and of
  `narsese.par` into `Grammar.v`.
* Library contracts: `std::set` with a strict weak order keeps a sorted sequence
  of representatives and `insert` keeps the old element when an equivalent one is
  there; `std::map`/`unordered_map` are finite maps, the latter iterated in an
  unspecified order; `std::shared_ptr` use counts; libstdc++'s `std::hash` is the
  identity on integers and pointers; size_t is 64 bits, int 32 bits, char signed;
  `std::stod` rounds correctly and throws on overflow and underflow; the formatting
  library's fixed formats round correctly, ties to even, and its terminal colours are
  written with three digits a component.
* Floating point: IEEE 754 single and double, round to nearest even, no contraction, no
  `-ffast-math` (`CMakeLists.txt` sets none).

Oracles, over which theorems quantify: the iteration order of the unordered map in
`prepocess_terms` (`ord`, any permutation), the addresses of new objects (`fresh`, the
address arguments of `Create`/`ParseOp`), the memory allocated for the parse stack
(`room`; `None` is unlimited, `Some 128` what the program allocates), the addresses of
string literals (`placement`, C160-C163), the translation unit whose globals an inline
function uses at each place (`copy`, C173-C174).

## 3. What is modelled

| Code | Model | Specification | Proofs | Theorems |
|---|---|---|---|---|
| `utils/hash.h` | `Hash.v`: `combine` with 64-bit wrap | | | |
| `Narsese/include/Connector.h`, `Copula.h`, `Tense.h`, `Variable.h` (enums), `Connector.cpp`, `Copula.cpp` (bindings) | `Enums.v` | `TermSpec.v`, `SignsSpec.v` | `TermFacts.v`, `SignsFacts.v` | `Props_Term.v`, `Props_Signs.v` |
| `Term.h`, `Term.inl` (`==`, `<`, flags), `Statement.*`, `Variable.*`, `Interval.h`, `Operation.h` as values | `Term.v` | `TermSpec.v` | `TermFacts.v`, `TermCases.v` | `Props_Term.v` |
| `Term.h`, class `Terms` (sets, union, intersection, difference) | `Terms.v` | `TermSpec.v` | `TermsFacts.v` | `Props_Term.v` |
| `Narsese/src/Compound.cpp` (normalisation, constructors) | `Compound.v` | `CompoundSpec*.v` | `CompoundFacts*.v`, `CompoundCases.v` | `Props_Compound.v` |
| `utils/IndexVar.*`, `_init_indexvars`, `_build_indexvars` | `IndexVar.v` | `ObjectSpec.v` | `IndexVarFacts.v` | `Props_Object.v` |
| `utils/IndexVar.*`, all public functions, called in any order | `Index.v` | `IndexSpec.v` | `IndexFacts*.v`, `IndexCases.v` | `Props_Index.v` |
| Term objects with identity and shared index cells: constructors, `clone` | `Object.v` | `ObjectSpec.v` | `ObjectFacts*.v`, `ObjectCases.v` | `Props_Object.v` |
| life of term objects: `shared_ptr` use counts of terms, `Terms`, index lists and ints under constructors, `clone`, copies and release | `Lifetimes.v` | `LifetimesSpec.v` | `LifetimesFacts*.v`, `LifetimesCases.v` | `Props_Lifetimes.v` |
| `Interpreter/include/Interpreter.hpp` (symbol table), `Term::create(word)`, `~pTerm`, operations met by the parser | `Interning.v`, `Maps.v` | `InterningSpec.v`, `TableSpec.v` | `InterningFacts*.v`, `InterningCases.v`, `TableFacts.v` | `Props_Interning.v`, `Props_Table.v` |
| `Evidence.h`, `Global.h`, `Sentence.h` (Stamp), `Tense.h` | `Evidence.v` | `EvidenceSpec.v` | `EvidenceFacts*.v`, `EvidenceCases.v` | `Props_Evidence.v` |
| `Truth.h`, `Budget.h`, `NAL/Functions/include/*` | `Float.v`, `Truth.v` (one text, run in IEEE or exact arithmetic) | `TruthSpec.v` | `FloatFacts.v`, `TruthFacts*.v`, `TruthCases.v` | `Props_Truth.v` |
| `narsese.h` tables | `Tables.v` | `Grammar.v` (from `narsese.par`) | | |
| `narsese.cpp` engine (scanner, shift, reduce, tree building, buffer, stack growth) | `Parser.v` | `ParserSpec.v`, `Grammar.v`, `GrammarSpec.v` | `LexFacts*.v`, `AstFacts.v`, `ParserCert.v`, `ParserAhead.v`, `ParserFacts*.v`, `ParserRuns.v`, `ParserCases*.v` | `Props_Parser.v` |
| `narsese.cpp` input buffer as memory (`get_input`, `clear_input`, `get_lexem`), `_CharFetcher`, error reports | `Buffer.v` | `BufferSpec.v`, `Parser.v` | `BufferFacts*.v`, `BufferCases.v` | `Props_Buffer.v` |
| `std::stod`, conversion to int | `Numeral.v` | `NumeralSpec.v` | `NumeralFacts.v` | `Props_Actions.v` |
| `Parser.cpp` (constructor), `narsese.h`/`narsese.cpp` (members not initialised, error recovery) | `Fresh.v` | `FreshSpec.v` | `FreshFacts*.v`, `FreshCases.v` | `Props_Fresh.v` |
| `Parser.cpp` (tree traversal), `NarseseParser.cpp` (all semantic actions), `Task.h`, `Config.cpp` defaults | `Actions.v` | `ActionsSpec.v`, `DefaultsSpec.v` | `ActionsFacts*.v`, `ActionsCases.v`, `DefaultsFacts.v` | `Props_Actions.v`, `Props_Defaults.v` |
| memory (new and delete) of the values that the actions exchange; end of a task | `Storage.v` | `StorageSpec.v`, `Actions.v` | `StorageFacts*.v`, `StorageCases.v` | `Props_Storage.v` |
| nodes of the syntax tree in memory (`ast_create`, linking in reductions, `ast_free`, traversal) | `Nodes.v` | `NodesSpec.v`, `Parser.v` | `NodesFacts*.v`, `NodesCases.v` | `Props_Nodes.v` |
| `Term.h`, class `Iterator` with its own new and delete; loops over components in C++ and Python | `Iterators.v` | `IteratorsSpec.v`, `Printer.v` | `IteratorsFacts*.v`, `IteratorsCases.v` | `Props_Iterators.v` |
| all of reading: text to task | (the models above) | `Forms.v` (forms of written Narsese, spelling, meaning) | `FormFacts*.v`, `FormCases.v` | `Props_Forms.v` |
| `main.cpp` (loop), end of the life of tasks and of their atoms: sessions of reading, keeping, printing and releasing | `Sessions.v` | `SessionsSpec.v`, `Forms.v` | `SessionsFacts*.v`, `InterningFacts3.v`, `SessionsCases.v` | `Props_Sessions.v` |
| `Narsese.cpp` and the `pybind_*` functions: constructors, attributes, `parse`, `__repr__` in Python | `Api.v` | `ApiSpec.v`, `Forms.v` | `ApiFacts*.v`, `ApiCases.v` | `Props_Api.v` |
| table of actions by address (`Parser.cpp` `regist`, `transform`; `Parser.h`), `generate.cpp` | `Dispatch.v`, `Generate.v` | `DispatchSpec.v`, `GenerateSpec.v` | `DispatchFacts.v`, `GenerateFacts.v` | `Props_Dispatch.v` |
| `Tests/test_parser.cpp`: reading of example files | `Reader.v` | `ReaderSpec.v`, `SessionsSpec.v` | `ReaderFacts*.v`, `ReaderCases.v` | `Props_Reader.v` |
| `Interpreter.hpp` editing of the table by the program, `~Interpreter`, static destruction | `Ending.v` | `EndingSpec.v` | `EndingFacts*.v`, `EndingCases.v` | `Props_Ending.v` |
| `Sentence.h`: the classes `Sentence`, `Judgement`, `Question`, `Goal`, `Quest` as objects, copies, moves and `desire` | `Kinds.v` | `KindsSpec.v` | `KindsFacts*.v`, `KindsCases.v` | `Props_Kinds.v` |
| `Budget.cpp`, `Truth.h`: `__repr__` of `Budget` and `Truth` | `Shown.v` | `ShownSpec.v` | `ShownFacts.v`, `ShownCases.v` | `Props_Shown.v` |
| `Global.h` as compiled in several translation units | `Units.v` | `UnitsSpec.v` | `UnitsFacts.v`, `UnitsCases.v` | `Props_Units.v` |
| `parse_input`, reading from the console | `Console.v` | `ConsoleSpec*.v` | `ConsoleFacts*.v`, `ConsoleCases.v` | `Props_Console.v` |
| recursion of `transform` and `ast_free`, nesting of terms read | `Depth.v` | `DepthSpec.v` | `DepthFacts*.v`, `DepthRuns.v`, `DepthCases.v` | `Props_Depth.v` |
| printing and reading again | (the models above) | `Roundtrip.v` | `RoundtripFacts*.v`, `RoundtripCases.v` | `Props_Roundtrip.v` |
| `Interpreter.cpp` (printing), the used part of the formatting library | `Printer.v` | `PrinterSpec.v`, `ColourSpec.v` | `PrinterFacts*.v`, `PrinterCases.v`, `ColourFacts.v` | `Props_Printer.v`, `Props_Colour.v` |

Not modelled: pybind11 glue beyond enums, constructors, attributes, `parse`, `__repr__` and the iteration over components, wide-character conversion (identity on ASCII, failing otherwise),
malloc failure, reuse of addresses (except of interned atoms), threads,
the other tests, which files `glob` finds, the first two lines that `main.cpp` prints; in `Budget.h` and `Task.h` everything but the fields and the
quality function; formatting features the format strings do not use.

### Deliberate simplifications

* A term is a tree value: `Atom op addr`, `Var kind index`, `Itv n`,
  `Stmt copula s p`, `Comp connector components`. Cached fields (hash, complexity,
  flags, index lists) are functions of the tree; where caching or aliasing is the
  point (`Object.v`, `Interning.v`, `Evidence.v`) a separate stateful model is used, and
  C80 proves that the stored fields are those of the tree.
* Addresses are integers supplied by the environment; theorems quantify over them.
  Objects of `Object.v` are never freed (their life is in `Lifetimes.v`).
* Variables made through the API with no index at all are not terms of the model.
* `std::set` is modelled as insertion into a sorted list. This is exact for
  comparators that are strict weak orders on the inserted elements, which C01
  proves for variable-free terms; for terms with variables C02 shows that it is
  not, and theorems about commutative compounds are restricted to variable-free
  components.
* The parser object's uninitialised members (`ast`, `error_delay`, `bufend`,
  `lexem`; `Parser.cpp` l.6-26) are taken as zero; reading them is formally undefined
  behaviour. `Fresh.v` starts the parser with other values, one member at a time (C188).
* Semantic actions: atoms read are kept until the end of the reading; state changes made
  before an exception are not represented except for the tree left behind (C91); the
  table of actions is keyed by addresses of string literals in the code, equal literals
  are taken to be merged (C160, C161 say what that assumption is worth); a reference made from a null pointer counts as undefined
  only when it is read.
* Memory of semantic actions: allocation never fails and addresses are not used twice
  (a stale pointer is thus always noticed); terms and stamps are values inside the blocks,
  their own shared pointers are not counted.
* Memory of the syntax tree: as above; the member `parent`, always null, is left out, as is the text of
  error reports (`Buffer.v` has it).
* Iterators: as above; iterators of `std::set<pTerm>` and `std::set<pTerm, compare>`, and const and other
  iterators of vectors, are one and the same; deleting through the wrong type is counted, not undefined.
  A container in a loop is not changed by the body. pybind11's `make_iterator` and the reference
  counting of Python are taken as documented.
* Sessions: an exception ends a session; of the atoms read for a text, those that are not in its result go
  when it has been read, in the order of creation; the unnamed atom that `main` holds all the time is left out.
  Allocators place atoms at addresses that differ in the low 32 bits from those of the living atoms, and
  whose key is not 0 (`thoughtful`); key 0 is what looking up an unknown name leaves in the table.
* Python: what pybind11 and CPython do with arguments (overloads, defaults, None for pointers and
  references, exceptions set while a value is returned) is taken as documented. Objects are kept
  until the end of an expression; `Term()` without name and Python integers as numbers are left out; the texts
  of Truth and Budget are an oracle.
* Index lists: objects and ints live as long as the program; null pointers are not handed in;
  inserting an empty range of a vector into the vector itself counts as harmless.
* Classes of sentences: pointers to truth values and stamps are numbers, their use counts are not kept; deletion through `Sentence` is
  taken to work (C111 says what the standard says).
* Texts of `Budget` and `Truth` (C196, C197): `{}` of a float is any text (parameter `short`); `{:.2f}` rounds exactly, to the nearest, ties to even.
* Life of terms: copies of shared pointers that come and go within one call are left out; which of
  several equal elements a set keeps, and in which order, is an arbitrary choice; `prepocess_terms` is the sequence of
  actions it performs; names of atoms live in the symbol table (`Interning.v`). Numbers of objects are not used twice.
* Addresses of literals: one number for each place in the code that has a literal (`spot`); `legal` is all the standard
  promises. `printf` formats are those that `generate.cpp` uses; lengths fit an int.
* Global.h: inline functions that name static variables break the one definition rule; the model takes
  the usual outcome, that each call uses the copies of some unit (`copy`), instead of undefined behaviour.
* Example files: `std::getline`, `boost::trim` in the classic locale, `isdigit` as documented.
* int overflow of complexity and of reference counts (more than 2^31 parts or
  registrations) is left out.

## 4. Per property: what is modelled, how it is proved

| Id | Status | How |
|---|---|---|
| C01 | proved | `tlt` on variable-free terms is `<` on hashes, hence a strict weak order. |
| C02 | refuted + partial | Witness `<$0-->$1>` / `<$1-->$0>`, each less than the other; partial: case analysis on hashes and flags (`tlt_split`) moves every failure into one class of equal hashes (`order_by_classes`); between renamings `<` is characterised by induction (`renaming_not_less`), which gives the exact condition (`order_iff_chain`). |
| C03 | proved | Structural induction on `teq`. |
| C04 | refuted + partial | `teq` returns `UB` when it reads the first element of an empty index vector (`#x == #x`); partial: no dependent/query variable => defined, by induction; between renamings equality is a walk over the leaves (`teq_scan`), whose first deciding place is found by induction (`scan_cases`). |
| C05 | proved | Injectivity of the leaf hash on separated addresses, then induction on both terms. |
| C06 | proved | Induction: the hash ignores indices. |
| C07 | refuted + partial | Four heap addresses found by search whose products collide; partial: merged only if the hashes are equal. |
| C08 | proved | Sorted duplicate-free lists with the same members are equal; then through every step of `compound`. |
| C09 | proved | As C08. |
| C10 | proved | Invariant `tidy` of the recursive normalisation; exact members by induction on fuel. |
| C11 | refuted + partial | Witness `(||, A, (&&, C, C))`; partial: tidy arguments and ordered connectors; without intersections, induction on depth with the leaves kept by every step. |
| C12 | proved | List induction. |
| C13 | proved | List induction. |
| C14 | proved | Members of the built set through `terms_union`. |
| C15 | refuted + partial | Witness; partial: members are the intersection, but under `&`/`|`. |
| C16 | refuted + partial | Witness; partial by unfolding the constructor for connectors that are not reducible. |
| C17 | refuted + partial | Witness; partial: invariant `tidy`. |
| C18 | refuted + partial | Witness; partial: tidy compounds. |
| C19 | proved | Structural induction. |
| C20 | proved | Structural induction. |
| C21 | proved | Heap of index nodes and cells; invariant over all runs (`made`). |
| C22 | refuted + partial | Witness runs; partial: what the lists hold instead, same invariant. |
| C23 | proved | Rank in the sorted list of distinct values. |
| C24 | refuted + partial | Witness run; partial from C78. |
| C25 | proved | Sorted-list set algebra, induction. |
| C26 | proved | Table computation, all n by arithmetic. |
| C27 | refuted + partial | Witness; partial: all other members. |
| C28 | refuted + partial | Witness; partial: the functions are constantly true; the tables by cases, against the signs. |
| C29 | proved | State machine of names, handles, use counts and re-entrant destructors; invariant by induction over histories. |
| C30 | refuted + partial | Witness histories with addresses 4 GiB apart; partial: nothing but placed atoms comes to life (`act_live`), so histories in a window are histories of C29. |
| C31 | proved | Same invariant as C29, exact contents of the four maps. |
| C32 | refuted + partial | Witness; partial: known entries. |
| C33 | proved | Induction over call lists. |
| C34 | refuted + partial | Witness; partial: invariant over one-to-one registrations. |
| C35 | refuted + partial | Witness histories (two operations; null pointer); partial: in matched states parsing is creating (`parse_op_create`), so these are histories of C31. |
| C36 | proved | Merge of sorted lists with fuel proved sufficient. |
| C37 | proved | Loop invariant of the interleaving, fuel proved sufficient, any aliasing. |
| C38 | refuted + partial | Witness; partial: exact result. |
| C39 | refuted + partial | Witness; partial: exactly one foreign id. |
| C40 | proved | Counter invariant over all histories. |
| C41 | refuted + partial | Witness; partial: untensed sentences. |
| C42 | refuted + partial | Witness; partial: histories without extend. |
| C43 | proved | Integer arithmetic with the wraps of the code. |
| C44 | refuted + partial | Witness; partial: exact conditions. |
| C45 | proved | Flocq: monotonicity of rounding. |
| C46 | proved | Flocq: monotonicity of rounding, underflow cases. |
| C47 | proved | Flocq: bounds on weights. |
| C48 | refuted + partial | Witness sequence ending in NaN; partial: invariant interval of confidences. |
| C49 | proved | Field arithmetic over R. |
| C50 | proved | Flocq: monotonicity of rounding. |
| C51 | refuted + partial | Witness; partial: exact description by integer arithmetic. |
| C52 | proved | Field arithmetic over R. |
| C53 | proved | Semantic actions over the shape of accepted trees (C61), numbers against an independent reading of decimals. |
| C54 | proved | As C53. |
| C55 | proved | Invariant of the name tables along the traversal of the tree. |
| C56 | proved | Induction over the compound constructor for single members. |
| C57 | refuted + partial | Witness input; partial by unfolding the constructor for one argument (`lone_dissolved`). |
| C58 | proved | Potential function: text left and weights of states, checked by computation on the tables, induction over steps. |
| C59 | proved | LR(0)-item certificate for every state, validated by computation; invariant over steps. |
| C60 | refuted + partial | Witness input of 124 characters; partial: depth bounded by length, induction over steps. |
| C61 | proved | Item certificate gives derivation trees for stack cells; invariant over steps; trees projected to the named productions. |
| C62 | proved | Kinds of values assigned to grammar symbols, checked on every production, lifted by induction on derivations. |
| C63 | proved | Definition of the buffer; bytes above 127 leave every automaton. |
| C64 | proved | Nothing is left in the buffer, invariant over steps. |
| C65 | refuted + partial | Witness with a tab; partial: scanner lemmas and simulation of runs. |
| C66 | refuted + partial | Witness; partial: the printed text is spelled from a form of the term (induction), which C98 reads, and a form has one meaning. |
| C67 | refuted + partial | Witnesses; partial: texts of calls determine operation and arguments. |
| C68 | refuted + partial | Witness; partial: instance of C66. |
| C69 | proved | Prefix-freeness of printed texts by induction on the term. |
| C70 | refuted + partial | Witness symbol table; partial: structure of the text by induction. |
| C71 | proved | Flocq: rounding of clamp, round and decimal formatting; finite table of thousandths. |
| C72 | refuted | Evaluation of the format string. |
| C73 | refuted + partial | Witness; partial: induction. |
| C74 | proved | Step 3 collects a set, so the order of the map does not matter. |
| C75 | proved | Induction on fuel. |
| C76 | refuted + partial | Witness; partial: by induction on the fuel, only the one merged entry of the map that is intersected can be empty, so something is left to take the first of. |
| C77 | refuted + partial | Witness; partial: the exact components of C10; for tidy set-like compounds, the map has one entry, by cases of the two connectors. |
| C78 | proved | Induction over the object with heap invariant. |
| C79 | proved | Acyclicity measure for the fuel of build. |
| C80 | proved | Invariant over all runs. |
| C81 | proved | Invariant over all runs. |
| C82 | proved | Frame property over all runs. |
| C83 | refuted + partial | Witness; partial: induction over calls. |
| C84 | refuted + partial | Witness history; partial: invariant `covered`/`known_lost` by induction over histories. |
| C85 | refuted + partial | Witness history; partial as in C35. |
| C86 | proved | Exact result of the loop. |
| C87 | refuted + partial | Witness floats; partial: exact arithmetic, and float arithmetic up to the errors of C103. |
| C88 | proved | Algebra of the IEEE operations (bit for bit), range by induction. |
| C89 | proved | Field arithmetic over R. |
| C90 | refuted + partial | Witness floats; partial from C104. |
| C91 | refuted + partial | Witness history; partial: induction over histories. |
| C92 | refuted + partial | Witness; partial: grammar of numbers and rounding. |
| C93 | proved | Decimals as integers, exact below 2^53. |
| C94 | refuted + partial | Witness; partial: induction on the term. |
| C95 | refuted + partial | Witness; partial: C66 for the content; the printed numbers are numerals near the values. |
| C96 | refuted + partial | Certificate of LALR(1) items with lookaheads checked by computation, completeness of the LR automaton by induction on derivations, scanners compared with the lexemes by Brzozowski derivatives; witness with a tab. |
| C97 | proved | As C96; derivations are turned into preferred ones by induction. |
| C98 | proved | Forms are given a spelling and a meaning in Forms.v, independently of tables and actions. Acceptance: derivations are built for every form by induction (FormFacts*.v) and C96 gives the parse. Evaluation: induction over forms with an invariant on the symbol table (`in_order`) and on the variable tables. |
| C99 | proved | Induction over the list of texts with C98; atoms already handed out stay handed out. |
| C100 | proved | As C95; a value read from three (two) places is so near to them that they are printed again. |
| C101 | proved | The integer division with ties to even of the model of fmt is Flocq's ZnearestE of the exact quotient; the digits before and after the point are read back as that quotient (`reads` of NumeralSpec.v). |
| C102 | proved | Relative errors are composed operation by operation (Flocq's relative error of one rounding); products of two floats are exact in double; a float is found again from a double within 2^-40 of it. |
| C103 | refuted + partial | As C102; the cancelling disjunction has an absolute error of 2^-52. Witness: frequencies 2^-60 give frequency 1/2. |
| C104 | refuted + partial | As C102, with an absolute rest for underflow. Witness: two judgements of frequency 1 and confidence 2^-30 are revised to frequency 0. |
| C105 | proved | Absolute error of each rounding in the unit interval. |
| C106 | refuted + partial | Buffer as a list of written and unwritten cells with its allocation; invariant `holds` linking it to the text of Parser.v; step-by-step simulation of Parser.v by the parser on the buffer. Witness: a word of 127 letters. |
| C107 | refuted + partial | The simulation of C106 carries line and column; the token is read from the cells. Witnesses by computation. |
| C108 | proved | Memory as a finite map of typed blocks; a small program logic with framing (`does`, StorageFacts.v), one lemma per action, induction over the trees that the parser builds (`good` of AstFacts.v). |
| C109 | refuted + partial | C108 and the release of the task, by induction over the inputs of the session. Witness: a number too small for a double throws and leaves five blocks. |
| C110 | refuted + partial | As C108 with the strict reading of the types; conversely the loop over tense and truth value reads a pair of another type, whatever the input. |
| C111 | refuted + partial | The parts of a task are taken from `stored` and deleted one by one; the sentence has another dynamic type than the pointer. |
| C112 | proved | Program logic with frames (`does`); step by step simulation of the parser on trees; that overwriting `next` in a reduction loses nothing comes from the LR invariant (`ready_keeps`). |
| C113 | proved | Induction on the representation of the tree in memory (`does_walk`, `does_ast_free`), then on the inputs. |
| C114 | refuted + partial | What is lost are the blocks of the trees on the stack of the last configuration, which is unique; the witness is any number of inputs `a b`. |
| C115 | proved | Simulation: an invariant relates variables, blocks and positions (`agree`), kept by every instruction; induction over the program. |
| C116 | refuted + partial | Witness program. Partial: a shared block stays shared or dangling (`shared`) until a variable that needs it is left over; induction over the program. |
| C117 | refuted + partial | Witness program. Partial: as C115, with x++ unfolded. |
| C118 | refuted + partial | Witness program. Partial: induction over the program, the type of a block being the flag of its iterator (`fine`). |
| C119 | proved | Induction over the members still to come, with the iterator at their head; temporaries are made and deleted in between. |
| C120 | proved | As C119; end() - 1 is reached exactly at the last member. |
| C121 | refuted + partial | Induction over the members still to come; a round after the container is gone reads it. Witness by computation. |
| C122 | refuted + partial | Witness history. Partial: invariant (`fit`) relating handles, reference counts and the three maps, kept by every operation; induction over the history. |
| C123 | proved | The invariant of C122; a key is in the dictionary exactly when a handle has it. |
| C124 | proved | Every reading only adds handles (`grows`, from the actions), the destructors take away those outside the result (`sift_spec`), and each kept result owns its handles (`owns`); induction over the session. |
| C125 | proved | The invariant of C124 (`tidy_desk`): the handles are exactly those of the atoms in the kept results. |
| C126 | refuted + partial | Witness session. Partial: the names of the atoms in the task do not change (`names_stay`), nor does the clock, and printing depends on nothing else (`interpret_alike`). |
| C127 | proved | The theorem on reading one task (C98) with the invariant that earlier readings and releases keep (`settled`). |
| C128 | proved | Induction over the texts, with C127, C124 and the printing of plain tasks. |
| C129 | refuted + partial | Instance of C128: the atoms of each text are computed from the meaning of the text, for any placement. Witness: two placements. |
| C130 | refuted + partial | Two witnesses, computed. Partial: the value of a constructor expression is described without reference to the state (`builds`), agrees with the meaning of the form (`builds_means`), and the theorem on reading (C98) gives the same; induction over the expression. |
| C131 | proved | Induction over the expression with the invariant that names lead to atoms and back (`constructs_good`), and uniqueness of what is built (`builds_unique`). |
| C132 | refuted + partial | Witness. Partial: case analysis; the parser rejects what the grammar does not derive (C96); C98 for proper texts. |
| C133 | refuted + partial | Every call fails by arity. Partial: the printing theorem (C70) for named terms. |
| C134 | refuted + partial | Witness. Partial: case analysis on the punctuation, with the printing of sentences (`format_sentence`, `fixed_decimal`). |
| C135 | refuted + partial | Witness 0.1. Partial: conversion to single is rounding to nearest (Flocq), conversion back is exact; a rounded number is the same exactly if it is in the format. |
| C136 | refuted + partial | Witness with a NUL. Partial: the invariant of the symbol table (`order_unique`, `order_distinct`). |
| C137 | refuted + partial | Witnesses. Partial: case analysis over functions and shapes of arguments. |
| C138 | refuted + partial | Witness. Partial: the theorems on rebuilding and on the order of arguments (C18, C08). |
| C139 | proved | The constructor runs Stamp(bool) (`sentence_made`); then the theorems on evidence (C40, C41). |
| C140 | proved | Well-founded induction over the structure with a frame condition for objects with several fathers (`build_ok`); what is read off a structure is unique (`content_fun`). |
| C141 | refuted + partial | Two witnesses, computed. Partial: invariant of programs that keep to the order (`ordered`: built objects hold the right lists, kept hashes belong to them), kept by every call (`ordered_step`); every call but connect keeps the mark of built objects (`ready_call`). |
| C142 | refuted + partial | Witness. Partial: C140 before and after, ends compared one by one (`content_at`, `content_part`). |
| C143 | refuted + partial | As C142. |
| C144 | refuted + partial | Four witnesses, computed. Partial: the kept hash is cleared on the object the call is made on, and building keeps right hashes right (`bb_kept`). |
| C145 | refuted + partial | Two witnesses. Partial: computation of the copy; new cells differ from all old ones. |
| C146 | refuted + partial | Two lists of nine indices with the same 32 bits of hash, found by search, computed. Partial: the invariant of C141. |
| C147 | refuted + partial | Witness. Partial: case analysis. |
| C148 | proved | A build that returns has visited everything below (`rebuild_acc`); without a cycle a descent visits no object twice (`no_cycle_acc`, counting); a way through a new joint is cut at its first and last use (`joined_first`, `joined_last`). |
| C149 | proved | Case analysis; invariant of well-formed memory (`wf`). |
| C150 | proved | Case analysis of the calls; contents of a structure with one more component (`contents_app`, `joined`). |
| C151 | proved | Invariant of memory (`good`: counts are the pointers there are, types are right, what is pointed at is of lower rank), kept by every operation (`act_ok`); the depth of release, build and clone is bounded by the rank. |
| C152 | proved | From the invariant: an object whose count is positive has a pointer from an object of higher rank or from the program (`alive_reachable`). |
| C153 | proved | From the invariant. |
| C154 | refuted + partial | Witness, computed. Partial: without pointers held, a living object of highest rank would have count 0 (`none_living`); buffers by induction over every operation. |
| C155 | refuted + partial | Witness. Partial: both ways of deleting agree step by step until the first object of a derived class ends (`agrees`, one lemma per function). |
| C156 | refuted + partial | A list joined to itself, computed; every further build is one level deeper. Partial: a rank for the enlarged graph (`new_rank`). |
| C157 | proved | Frame relation (`firm`) kept by every function; copies with a bound for what is new (`cop`), induction over the depth of cloning; what is built into a list is followed through build (`build_collects`). |
| C158 | proved | Invariant (`sound`) kept by every function: what is new is described when it is made (`finish_sound`), what is old is kept by the frame relation `firm`, in which lists under construction are those nothing points to (`unbuilt`). Flags by induction over `inside`. |
| C159 | proved | Induction over the description of copies (`copied_own`), with C158 for what is shared. |
| C160 | proved | Addresses with different texts differ (`legal`), so the map has an entry for an address only from a literal with the same text; the last entry of a name wins, names are distinct (computed over the list of registrations). |
| C161 | refuted + partial | Witness placement: every literal on its own (`apart`); nothing is found, so the root gives no value. Partial: induction over trees, lookups by address and by name agree. |
| C162 | proved | The formatting functions are run on variables for the texts (`snprintf` of the used formats), then induction over the entries. |
| C163 | refuted + partial | Witness placement `apart`; the tables are computed. Partial: with merged literals the entries are filtered by text; the names in the tables are compared with the registrations by computation. |
| C164 | refuted + partial | Witness. Partial: trimming is unique (`trimmed_one`), induction over the digits. |
| C165 | proved | Induction over the text of the file for lines (`get_lines_is`, `lines_exist`), over lines for sentences. |
| C166 | refuted + partial | Witness, computed. Partial: symbols whose derivations contain a mark, checked over all rules by computation; induction over derivations (C61). |
| C167 | proved | As C128, with the outcome of coloured printing reduced to that of plain printing (`task_coloured`). |
| C168 | refuted | Nothing is pending after sentences that were shown (`in_turn_pending`), so a rejected one leaves no task. |
| C169 | proved | Invariant `loose` (what table, heap and handles have to do with one another when the table may be edited), kept by every move (`loose_move`). |
| C170 | refuted + partial | Witness: create, remove, create, computed. Partial: from `loose`; addresses of living atoms are not given out again. |
| C171 | refuted + partial | Witness: create, reset, drop, computed. Partial: heap = registered or left, by induction over `course`; the sweep of the table by induction over its entries. |
| C172 | refuted + partial | Witness, computed. Partial: induction over the handles destroyed, counting the pTerms of each atom. |
| C173 | refuted + partial | Witness: two units, one sentence each. Partial: the invariant of C43 for each copy of the counter; ids are numbers of ids taken before, modulo 2^64. |
| C174 | refuted + partial | Witness: two units. Partial: a copy changes only by writing in its unit (induction over `goes`); ranges of tenses as in C48. |
| C175 | proved | Trees on the stack (as in C59) with the cells each of them needed; a table says how many levels a tree of each symbol can have that needs a given number of cells; that the table is kept is checked over all rules (`DepthCert.v`). An input with 371 calls, the maximum for 128 cells, is read. |
| C176 | refuted + partial | The family (*,a,a,...).: the loop of 15 steps that reads one more element, symbolically. Partial: every call but one is on a node of its own; the number of nodes as in C59. |
| C177 | proved | What each action adds to the depth of its arguments, over the table of actions; building a compound adds one level; the weight of a path of the tree by a table as in C175. An input with 243 levels, the maximum for 128 cells, is read. |
| C178 | proved | Every operation on the buffer commutes with appending to what is still to be fetched, as long as the newline is still to come or has been seen. |
| C179 | refuted + partial | Computed witness. Partial: an invariant of the parser on any bytes: the reductions 206 and 269 at the end of the input (checked over the tables) happen only once the newline has been fetched; sessions by induction from C178 and C106. |
| C180 | proved | The same invariant: without a newline the end of the input is never seen. |
| C181 | refuted + partial | Computed witnesses. Partial: the parser on any bytes either goes wrong or makes the steps of the parser on the text that stands for them; the tables do not tell apart the characters that stand for each other (checked over all ranges). |
| C182 | refuted + partial | Computed witness. Partial: C178, C106 and the definition of parse_task. |
| C183 | proved | The same steps as in C181, with the bound on the steps of C58; induction over the calls. |
| C184 | proved | The invariant of C179 with the length of what is left, after the first character has been fetched; induction over the calls. |
| C185 | proved | Cases over the enums, against a specification that only looks at the signs. |
| C186 | refuted + partial | Witness by computation; partial: symmetry of equality, and the exact components of C10. |
| C187 | refuted + partial | Witness by computation and C53; partial: the shape of accepted trees, written priorities are not negative, so the test for a missing one never holds; the action is compared with one that has four arbitrary priorities. |
| C188 | refuted + partial | Witness by computation; induction on the steps for error_delay; the run with a stale lexem follows the one without until lexem is first freed, and every operation keeps the address stale; ends of the run by C112; the characters dropped at the start by induction on their number; totality by the invariant of C58 on what is left of the input; for accepted inputs a certificate, checked by computation, that the scanner of every state finds a token in whatever may come next, along the derivation as in C96. |
| C189 | proved | Computation of the IEEE literal, and that no other multiple of 2^-24 is nearer to 9/10. |
| C190 | refuted + partial | Witness by computation; every call keeps the balance of objects given, held, deleted and forgotten, as multisets; induction on the run. |
| C191 | proved | Cases on the maps. |
| C192 | proved | Induction on the number of digits; format strings without braces are copied (C94). |
| C193 | refuted + partial | Invariants of every step of a program over sentences; a frame lemma for the steps that do not write to a sentence. |
| C194 | refuted + partial | Witnesses by computation; the sentence a reference is bound to is told by the history (`comes_from`), by induction on the program. |
| C195 | refuted + partial | Witness by computation; arithmetic modulo 2^32. |
| C196 | proved | Rounding of the scaled significand shown to be the nearest integer of the scaled real (Flocq), for floats and doubles alike; digits as for C101. |
| C197 | refuted + partial | Witnesses by computation; distance of both texts from the value in the reals (C71 and C196). |

## 5. Axioms per theorem

As printed by `Print Assumptions` below each theorem. (`sig_forall_dec` and `sig_not_dec`
are in `ClassicalDedekindReals`, `functional_extensionality_dep` in
`FunctionalExtensionality`, `classic` in `Classical_Prop`, all of the standard library.)

* `Props_Term.v`, closed under the global context: `C01_order_variable_free`, `C02_order_with_variables_refuted`, `C02_order_bare_variables_partial`, `C02_order_ties_partial`, `C02_order_exactly_partial`, `C02_order_one_index_partial`, `C02_order_renamed_partial`, `C03_equality_laws`, `C73_equality_transitive_refuted`, `C73_equality_transitive_partial`, `C04_equality_defined_refuted`, `C04_equality_defined_partial`, `C04_equality_renamed_partial`, `C04_equality_other_hash_partial`, `C05_equality_identity`, `C06_renaming_hash`, `C07_components_kept_refuted`, `C07_merged_only_on_collision_partial`, `C19_complexity`, `C20_flags`, `C25_union`, `C25_intersection`, `C25_difference`, `C25_errors`, `C26_arity`, `C27_python_connectors_refuted`, `C27_python_connectors_partial`, `C28_counterparts_refuted`, `C28_counterparts_partial`.
* `Props_Compound.v`, closed under the global context: `C08_argument_order`, `C09_repetition`, `C10_exact_components`, `C11_no_component_lost_refuted`, `C11_no_component_lost_partial`, `C11_untidy_partial`, `C12_sequence`, `C13_plain`, `C14_union_of_sets`, `C15_intersection_of_sets_refuted`, `C15_intersection_of_sets_partial`, `C16_difference_of_sets_refuted`, `C16_difference_kept_partial`, `C17_normal_form_refuted`, `C17_normal_form_partial`, `C18_rebuild_refuted`, `C18_rebuild_partial`, `C74_iteration_order`, `C75_nothing_invented`, `C76_build_defined_refuted`, `C76_build_defined_partial`, `C77_repeated_argument_refuted`, `C77_repeated_argument_partial`, `C77_set_compound_partial`.
* `Props_Object.v`, closed under the global context: `C21_independent_lists`, `C22_dependent_lists_refuted`, `C22_query_lists_refuted`, `C22_lists_partial`, `C23_order`, `C23_length`, `C23_dense`, `C23_renaming`, `C23_idempotent`, `C24_clone_refuted`, `C24_clone_unequal_refuted`, `C24_clone_partial`, `C78_clone`, `C79_total`, `C80_fields`, `C81_statement`, `C81_compound`, `C82_stable`.
* `Props_Index.v`, closed under the global context: `C140_rebuild`, `C140_positions`, `C141_build_refuted`, `C141_add_refuted`, `C141_build_partial`, `C141_again_partial`, `C142_add_refuted`, `C142_add_partial`, `C142_lost_partial`, `C143_remove_refuted`, `C143_remove_partial`, `C144_hash_refuted`, `C144_joined_refuted`, `C144_added_refuted`, `C144_early_refuted`, `C144_written_refuted`, `C144_hash_partial`, `C145_copy_refuted`, `C145_structure_refuted`, `C145_copy_partial`, `C146_equal_refuted`, `C146_equal_partial`, `C146_symmetric_partial`, `C147_positions_refuted`, `C147_positions_partial`, `C148_returns`, `C148_endless`, `C148_no_cycle`, `C148_acyclic`, `C149_undefined`, `C149_others`, `C149_lists`, `C150_connect`, `C150_asking`, `C150_create`, `C150_write`.
* `Props_Lifetimes.v`, closed under the global context: `C151_defined`, `C151_terms`, `C152_alive`, `C152_released`, `C153_counts`, `C154_memory_refuted`, `C154_memory_partial`, `C154_buffers_partial`, `C155_letter_refuted`, `C155_letter_partial`, `C156_leak_refuted`, `C156_build_refuted`, `C156_connect_partial`, `C157_makes`, `C157_components`, `C158_terms`, `C158_variables`, `C159_own_variables`.
* `Props_Interning.v`, closed under the global context: `C29_one_atom_per_name`, `C30_any_placement_refuted`, `C30_wrong_atom_refuted`, `C30_window_partial`, `C31_no_leak`, `C32_lookups_refuted`, `C32_lookups_partial`, `C33_registration_counted`, `C34_inverse_refuted`, `C34_inverse_partial`, `C35_same_operation_refuted`, `C35_defined_refuted`, `C35_matched_partial`, `C35_next_partial`, `C83_reset_refuted`, `C83_reset_partial`, `C84_overwriting_refuted`, `C84_overwriting_partial`, `C84_covered_partial`, `C85_operation_known_refuted`, `C85_matched_partial`.
* `Props_Evidence.v`, closed under the global context: `C36_overlap`, `C37_interleave_ends`, `C37_interleave_exact`, `C37_interleave_all`, `C38_extend_refuted`, `C38_extend_self_refuted`, `C38_extend_partial`, `C39_interleave2_refuted`, `C39_interleave2_partial`, `C40_nth_id`, `C40_fresh_evidence`, `C41_has_base_refuted`, `C41_has_base_partial`, `C42_hash_refuted`, `C42_hash_partial`, `C43_tense`, `C43_eternal`, `C44_markers_refuted`, `C44_markers_partial`, `C86_extend_stamp`, `C195_clock_refuted`, `C195_clock_partial`, `C195_stamps_partial`, `C195_eternalize_partial`, `C195_extending_partial`.
* `Props_Truth.v`, axioms `classic`, `functional_extensionality_dep`, `sig_forall_dec`, `sig_not_dec`: `C45_deduction`, `C46_induction`, `C46_comparison`, `C47_revision`, `C48_repeated_revision_refuted`, `C48_repeated_revision_partial`, `C50_expectation`, `C50_quality`, `C51_projection_refuted`, `C51_projection_partial`, `C51_overflow_partial`, `C87_comparison_symmetric_refuted`, `C87_nearly_symmetric_partial`, `C88_or_lists`, `C88_or_range`, `C89_nothing`, `C90_confidence_grows_refuted`, `C90_confidence_kept_partial`, `C102_deduction`, `C102_induction`, `C103_comparison_refuted`, `C103_comparison_partial`, `C104_revision_refuted`, `C104_revision_partial`, `C105_expectation_quality`, `C189_default`.
* `Props_Truth.v`, axioms `functional_extensionality_dep`, `sig_forall_dec`: `C49_revision_pools`, `C49_revision_associative`, `C52_weights_back`, `C52_weights_add`, `C52_total`, `C87_comparison_symmetric_partial`, `C89_truth_back`.
* `Props_Parser.v`, closed under the global context: `C58_terminates`, `C59_tables`, `C59_reductions`, `C60_stack_bounds_refuted`, `C60_short_inputs_partial`, `C60_overflow_partial`, `C61_grammar`, `C63_first_line`, `C63_ascii`, `C64_independent`, `C65_blanks_refuted`, `C65_spaces_partial`, `C96_accepts_refuted`, `C96_accepts_partial`, `C96_rejects_partial`, `C97_reading`, `C97_exists`, `C97_unique`.
* `Props_Buffer.v`, closed under the global context: `C106_bounds_refuted`, `C106_outcomes_partial`, `C106_session_partial`, `C107_report_refuted`, `C107_report_partial`.
* `Props_Actions.v`, axioms `classic`, `functional_extensionality_dep`, `sig_forall_dec`, `sig_not_dec`: `C53_budget`, `C54_truth`, `C55_numbering`, `C55_same_name`, `C55_afresh`, `C56_sugar`, `C57_dissolved_refuted`, `C57_wrapped_partial`, `C62_arguments`, `C91_rejected_refuted`, `C91_rejected_partial`, `C92_ranges_refuted`, `C92_ranges_partial`, `C93_interval`, `C93_tense`.
* `Props_Storage.v`, axioms `classic`, `functional_extensionality_dep`, `sig_forall_dec`, `sig_not_dec`: `C108_memory`, `C109_no_leak_refuted`, `C109_no_leak_partial`, `C110_types_refuted`, `C110_types_partial`, `C111_release_refuted`, `C111_release_partial`.
* `Props_Nodes.v`, closed under the global context: `C112_tree_in_memory`, `C113_tree_freed`, `C114_rejected_refuted`, `C114_rejected_partial`.
* `Props_Iterators.v`, closed under the global context: `C115_positions`, `C116_assignment_refuted`, `C116_assignment_partial`, `C117_post_increment_refuted`, `C117_post_increment_partial`, `C118_deleted_as_made_refuted`, `C118_deleted_as_made_partial`, `C119_loops`, `C120_separators`, `C121_python_refuted`, `C121_python_partial`.
* `Props_Sessions.v`, closed under the global context: `C122_names_refuted`, `C122_names_partial`, `C123_nothing_left`.
* `Props_Sessions.v`, axioms `classic`, `functional_extensionality_dep`, `sig_forall_dec`, `sig_not_dec`: `C124_clean`, `C125_exact`, `C126_text_refuted`, `C126_text_partial`, `C127_reading_on`, `C128_loop`, `C129_main_refuted`, `C129_main_partial`.
* `Props_Api.v`, axioms `classic`, `functional_extensionality_dep`, `sig_forall_dec`, `sig_not_dec`: `C130_difference_refuted`, `C130_copula_refuted`, `C130_same_partial`, `C131_again`, `C132_error_refuted`, `C132_results_partial`, `C132_refused_partial`, `C132_proper_partial`, `C133_repr_refuted`, `C133_shown_partial`, `C134_sentence_refuted`, `C134_sentence_partial`, `C135_kept_refuted`, `C135_doubles_partial`, `C135_exactly_partial`, `C135_truth_partial`, `C135_budget_partial`, `C135_others_partial`, `C136_names_refuted`, `C136_names_partial`, `C137_null_refuted`, `C137_object_refuted`, `C137_refused_partial`, `C138_terms_refuted`, `C138_statement_partial`, `C138_terms_partial`, `C139_own`, `C139_apart`.
* `Props_Forms.v`, axioms `classic`, `functional_extensionality_dep`, `sig_forall_dec`, `sig_not_dec`: `C98_reading`, `C99_session`.
* `Props_Forms.v`, closed under the global context: `C98_unique`, `C99_names`.
* `Props_Dispatch.v`, axioms `classic`, `functional_extensionality_dep`, `sig_forall_dec`, `sig_not_dec`: `C160_own_action`, `C160_found_exactly`, `C161_every_action_refuted`, `C161_merged_partial`, `C163_once_refuted`, `C163_once_partial`.
* `Props_Dispatch.v`, closed under the global context: `C160_names_from_tables`, `C162_generated`, `C162_aligned`.
* `Props_Reader.v`, closed under the global context: `C164_any_line_refuted`, `C164_any_line_partial`, `C165_every_file`, `C166_none_skipped_refuted`, `C166_none_skipped_partial`, `C166_marks`.
* `Props_Reader.v`, axioms `classic`, `functional_extensionality_dep`, `sig_forall_dec`, `sig_not_dec`: `C165_sentences_in_turn`, `C167_files_print`, `C168_malformed_refuted`.
* `Props_Ending.v`, closed under the global context: `C169_edits_defined`, `C170_one_atom_refuted`, `C170_registered_partial`, `C171_all_freed_refuted`, `C171_left_partial`, `C171_unedited_partial`, `C171_null_partial`, `C172_late_refuted`, `C172_late_partial`, `C172_unedited_partial`, `C172_names_partial`.
* `Props_Units.v`, closed under the global context: `C173_distinct_refuted`, `C173_exact_partial`, `C173_one_copy_partial`, `C174_clock_refuted`, `C174_own_partial`, `C174_unwritten_partial`.
* `Props_Depth.v`, closed under the global context: `C175_transform_depth`, `C175_attained`, `C176_free_depth_refuted`, `C176_free_linear_partial`.
* `Props_Depth.v`, axioms `classic`, `functional_extensionality_dep`, `sig_forall_dec`, `sig_not_dec`: `C177_term_depth`, `C177_attained`.
* `Props_Console.v`, closed under the global context: `C178_typed_line`, `C179_one_line_refuted`, `C179_left_partial`, `C179_session_partial`, `C179_answers_partial`, `C179_calls_partial`, `C180_unended`, `C181_bytes_refuted`, `C181_outline_partial`, `C183_ends`, `C184_call`, `C184_session`.
* `Props_Console.v`, axioms `classic`, `functional_extensionality_dep`, `sig_forall_dec`, `sig_not_dec`: `C182_numbering_refuted`, `C182_first_partial`, `C182_unnamed_partial`.
* `Props_Signs.v`, closed under the global context: `C28_tables_partial`, `C185_copulas`, `C185_connectors`, `C185_signs_differ`, `C186_turned_round_refuted`, `C186_turned_round_partial`, `C186_both_kept_partial`.
* `Props_Defaults.v`, axioms `classic`, `functional_extensionality_dep`, `sig_forall_dec`, `sig_not_dec`: `C187_defaults_refuted`, `C187_without_partial`, `C187_priorities_partial`, `C187_model_partial`.
* `Props_Fresh.v`, closed under the global context: `C188_delay_refuted`, `C188_delay_partial`, `C188_session_partial`, `C188_dropped_partial`, `C188_same_partial`, `C188_refused_partial`, `C188_sessions_partial`, `C188_short_partial`, `C188_accepted_partial`, `C188_first_partial`, `C188_accepted_session_partial`, `C188_bufend_partial`, `C188_pointers_partial`.
* `Props_Table.v`, closed under the global context: `C190_lost_refuted`, `C190_freed_partial`, `C190_once_partial`, `C190_reset_partial`, `C83_null_partial`, `C191_results`.
* `Props_Colour.v`, closed under the global context: `C192_colour`.
* `Props_Kinds.v`, axioms `classic`, `functional_extensionality_dep`, `sig_forall_dec`, `sig_not_dec`: `C193_kinds_refuted`, `C193_kinds_partial`, `C193_replaced_partial`, `C193_made_partial`, `C194_desire_refuted`, `C194_original_partial`, `C194_own_partial`.
* `Props_Shown.v`, axioms `classic`, `functional_extensionality_dep`, `sig_forall_dec`, `sig_not_dec`: `C196_budget`, `C196_truth`, `C197_rounding_refuted`, `C197_clamped_refuted`, `C197_agree_partial`.
* `Props_Roundtrip.v`, axioms `classic`, `functional_extensionality_dep`, `sig_forall_dec`, `sig_not_dec`: `C66_refuted`, `C66_partial`, `C68_partial`, `C95_partial`, `C100_settled`.
* `Props_Printer.v`, closed under the global context: `C67_undefined_refuted`, `C67_lost_refuted`, `C67_call_partial`, `C68_negative_refuted`, `C69_texts_differ`, `C69_text_exists`, `C70_other_name_refuted`, `C70_parts_partial`, `C94_colours_refuted`, `C94_colours_partial`.
* `Props_Printer.v`, axioms `classic`, `functional_extensionality_dep`, `sig_forall_dec`, `sig_not_dec`: `C71_budget`, `C72_coloured_refuted`, `C95_task_refuted`, `C101_truth`.

## 6. What the proofs brought to light

Behaviour of the pinned code that a user would not expect, each with a machine-checked
witness or found while modelling:

* Terms: `$x == +-127` is true, `#x == #x` reads an empty vector (C04, C73); `<` is no order once
  variables are nested (C02); two different products share a 64-bit hash and are merged
  in a set (C07); `<A <-> B>` and `<B <-> A>` are different terms, though the copula is marked as commutative (C186).
* Compounds: `(||, A, (&&, C, C))` loses C (C11); `(&&, (||,A,B), (||,A,B))` becomes
  `(&&,A,B)` (C77); `(&, {A}, {B}, (&&, C, C))` reads begin() of an empty vector (C76);
  `(&, {A,B}, {B,C})` becomes `(&, B)` (C15); the difference rules are never applied (C16);
  `{(&&, {A}, B)}` is flattened twice on rebuilding (C17, C18).
* Index lists: the iterator over the three lists is never advanced, so dependent and
  query lists hold the independent indices (C22); cloning can reorder a conjunction
  so that the clone is not equal to the original (C24).
* Interning: keys are cut to 32 bits, atoms 4 GiB apart are confused (C30); lookups of
  unknown names insert entries (C32) and lead reset() to a null pointer (C83); `^go`
  twice gives two operations, `^go` after `go` follows a null pointer (C35); assignment to
  a handle leaks its name (C84).
* Evidence: `extend` loses the base's own evidence (C38); interleaving adds a foreign
  id (C39); tensed sentences have no evidential base (C41); the cached hash goes stale
  (C42); tense markers are absolute times (C44).
* Truth: revision ends in NaN near confidence 1 (C48) and can lower the confidence by
  one unit in the last place (C90); projection never lowers confidence (C51);
  comparison is not symmetric bit for bit (C87) and gives frequency 1/2 for two tiny
  frequencies (C103); revising two faint judgements of frequency 1 gives frequency 0
  (C104).
* Parser: 124 characters of input write past the parse stack (C60); a tab after a word
  becomes part of the word (C65), so that a tab at the start makes a correct text
  rejected (C96); otherwise the parser accepts exactly the grammar (C96); clear_input reads past
  the buffer after a word of 127 letters (C106); the report of an error at the end of the
  input reads unwritten memory (C107); uninitialised members of a new parser decide what it does (C188); nodes of rejected inputs are leaked.
* Actions: a rejected input after an exception evaluates the stale tree (C91);
  `<(&&,a,b) {-- c>` dissolves the conjunction (C57); `0.99999999` is read as confidence 1
  (C92); numbers outside int are undefined behaviour (C93); `_map` is keyed by the
  addresses of string literals; actions without arguments get a null reference; without a
  written budget a task gets 0.8;0.8;0.5, and the default priorities by punctuation are never
  used (C187).
* Memory of actions: sound apart from exceptions, which leave everything made so far (C109);
  pairs are read and deleted with another type (C110), and sentences deleted through a
  base class without virtual destructor (C111).
* Memory of the syntax tree: right for accepted inputs (C112, C113), but a rejected input loses
  the nodes that lie on the parse stack, without end in a long session (C114).
* Sessions: of two operations `^go` the end of one makes the name unknown though the other lives (C122); the
  text of a kept task can change when an atom is created elsewhere (C126); what `main` prints depends on
  addresses (C129).
* Python: `Connector.ExtensionalDifference` makes parallel events, `Copula.Instance` is not the `{--` of the
  parser (C130); a line that is no sentence raises SystemError (C132); `repr(x)` and so `print(x)` never work
  (C133), and `__repr__(None)` reads outside the object for goals (C134); `__repr__(y)` and
  `quality_from_truth(None)` are undefined (C137).
* Index lists: `build()` misses changes below (C141); `add` and `remove` at an object with components are undone
  by the next rebuild (C142, C143); kept hashes are not computed again (C144); a copy has no components (C145);
  `==` compares 32 bits of hash (C146); `connect` with positions is undefined (C147). The library itself keeps to
  the order in which all of this works (C141; see C21 for the lists of terms).
* Life of terms: counting is right and nothing that can be reached is ever deleted (C151-C153), but `Term` has virtual
  functions and no virtual destructor: every other term is deleted through the wrong type, which is
  undefined by the standard (C155) and in practice loses the buffers of long variable names (C154); a list joined to itself is never deleted (C156).
* Iterators: `x = y` ends in a double delete (C116), `x++` has the value of `++x` (C117), every iterator is
  deleted as an iterator of the other container (C118); none of this hurts the loops in the code (C119,
  C120). In Python, `x.terms` does not keep x alive: `for t in f().terms` reads freed memory (C121).
* Printing: `<a --> ^go>` is undefined, copula and connector of operation statements are
  lost (C67); a negative interval is printed in a form the parser rejects (C68); a
  statement can be printed as an unrelated name (C70); coloured sentences always throw
  (C72); names with braces and the copulas `{--`, `{-]` throw in colour (C94); confidence
  of at least 0.9995 is printed as 1.000, which the parser rejects (C95); a term with two variables can be read back with their
  numbers exchanged, and is then not equal to the printed one (C66).
* Dispatch: the table of actions and the generator compare addresses of string literals; where equal literals lie
  apart no action is ever called (C161), and unnamed entries count as names (C163).
* Example files: a line that begins with a byte of 128 to 254 is undefined (C164), `'a.` is taken for a comment (C166), a
  malformed sentence follows a null pointer (C168).
* End of the program: `reset`, `remove` and `erase` let a name have two atoms (C170) and leave atoms in hand unfreed for ever (C171);
  a handle that outlives the table uses it after its end (C172).
* Sentences: a copied `Goal` refers to the truth value of its original, a moved one to null, and to freed memory when the original is gone (C194);
  times of stamps overflow when the clock reaches 2^31 (C195).
* Budgets in Python: the text of a `Budget` is not clamped and rounded once, that of a task clamped and rounded twice, so they may differ (C197).
* Globals: `static` in a header gives every translation unit a clock and a counter of evidence of its own (C173, C174).
* Recursion: `transform` and the nesting of terms are bounded by the parse stack, 371 calls and 243 levels for 128 cells (C175,
  C177); `ast_free` nests as many calls as a flat list has elements, so a long enough line exhausts the stack of the process (C176).
* Console: `parse_input` goes on in the middle of a line that was refused and takes its end for a sentence (C179); it never forgets
  names of variables (C182); NUL and bytes outside of ASCII are not kept out as in strings (C181).
