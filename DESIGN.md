# Design

A machine-checked model in Coq 8.16.1 of the C library IMProject/IMUtility (`/repo`), and
proofs about it of the properties in `properties.jsonl`.

## Shape

The C code is embedded shallowly. `theories/CSem.v` fixes the meaning of the C constructs
used: integers are `Z` with explicit wraps (`u8 u16 u32 u64`), signed overflow is checked
(`ck32`), objects are lists of bytes, pointers are offsets, and every function returns an
`outcome`: `Ok v`, `UB kind` (out of bounds, NULL dereference, signed overflow, bad shift,
overlapping `memcpy`, division by zero) or `Diverge` (loop fuel exhausted). A theorem
`f x = Ok y` therefore says: no undefined behaviour, terminates, result `y`.

| file | content |
|---|---|
| `CSem.v` | C semantics |
| `Model_*.v` | the code, function by function, each definition with file and lines |
| `Spec_*.v` | short independent specifications (RFC 4648 text, FIFO list, finite map, GF(2) remainder, RFC 8439 block, ...); they do not import the models |
| `CLang.v` | a second, deep embedding: the C fragment as a data type, and an interpreter for it |
| `C_*.v` | the functions of `/repo/Src` as terms of that data type, printed by `tools/c2coq.py` |
| `Text_*.v`, `CSystem.v` | the characters of the files of `/repo/Src` and `/repo/Inc`, copied by `tools/embed.py`; what they use of the system headers |
| `CSize32.v`, `C_Size32.v`, `Refine32_*.v`, `Props_Size32.v` | the same for a target with a 32-bit `size_t` |
| `CLeak.v`, `Proof_Leak*.v`, `Props_Leak.v` | what a run gives away besides its result (C115) |
| `CFront.v`, `Drive_Front.v`, `Props_Front.v` | a C front end inside Coq, and the theorem that it turns the texts into the terms of `C_*.v` |
| `Spec_Grammar.v`, `Spec_GrammarUnit.v`, `Props_Grammar.v` | the grammar of the C fragment by its productions, and the theorem that the parser in `CFront.v` is that grammar |
| `Refine.v`, `Refine_*.v`, `Props_Text_*.v` | the hand-written model computes what the interpreter computes on these terms |
| `Drive_*.v` | clients of the model used in the statements: sequences of operations, the list of the 45 CRC functions, senders and receivers |
| `Lib.v`, `Proof_*.v` | lemmas |
| `Props_*.v` | the property theorems, each `exact lemma`, followed by `Print Assumptions`, with `Example`s showing that the hypotheses are met |
| `Test_*.v` | the library's own unit tests (`Tests/*.c`) evaluated on the model; tests, not proofs |

`Model_CrcVariants.v` is transcribed from the C text by `tools/gen_crc.py`, which refuses any
file that does not match the expected text exactly.

`CFront.v` is a front end for the C fragment used in `/repo/Src`: line splices, tokens,
`#include`, `#define`, `#ifdef`, a recursive descent parser, and a pass that numbers local
variables and structure members. It returns nothing for a file with anything else in it.
Promotions, conversions, overflow, bounds and the order of evaluation are left to the
interpreter in `CLang.v` (from left to right; by C105 any other order gives the same). The terms in `C_*.v` were first printed by a script, `tools/c2coq.py`;
C104 proves that the front end computes the same terms from the text, so the script need not be
right. Where a `Props_Text_*` theorem exists, a slip of the hand-written transcription would
make it unprovable.

Theorem names start with the property id. A property that the code violates has a theorem
`..._refuted` giving a witness, beside the strongest true statement.

## Trusted base

- Coq's kernel (`coqc`/`coqchk` 8.16.1), including the `vm_compute` reduction machine.
- `Print Assumptions` reports `Closed under the global context` for every property theorem:
  no axioms, neither own ones nor the standard library's. std++ is used as a library of
  definitions and lemmas (lists); it adds no axiom. `vcheck` also lists seven
  `Coq.ssr.ssrunder.Under_rel.*` parameters. They belong to a module type inside Coq's own
  ssreflect files, which std++ loads; no theorem here depends on them.
- The meaning of the C code. Every function of /repo/Src has a `Props_Text_*` theorem that
  equates its hand-written model with its C text, and C94-C103 state the main results about the
  text directly. What is trusted is the copy of the characters in `Text_*.v` (`tools/embed.py
  --check` compares them with `/repo`), the front end `CFront.v` with the few lines of system
  headers in `CSystem.v`, and the interpreter in `CLang.v` as the meaning of C, under the
  platform assumptions below. Of the front end, the reading of tokens is proved to be that of
  `Spec_Lex.v` (C112), directives and macros those of `Spec_Prep.v` (C113) and the parser the
  grammar of `Spec_Grammar*.v` (C109, C110). The last pass, which resolves names and numbers the
  variables, is trusted as written; `tools/c2coq.py`, a separate program, gives the same terms.
  The C code was not executed. As evidence for the reading,
  every assertion of the library's own unit tests is evaluated on the model: `Test_Crc.v` and
  `Test_Chacha.v` (401 assertions transcribed by `tools/gen_tests.py`, which refuses any it
  does not recognise) and `Test_Repo.v` (the other test files, transcribed by hand). The
  model gives the expected value everywhere except where the test itself has undefined
  behaviour; there it gives `UB`. These are ten test cases:
  `BitManipulation_rotl32` (shift by 32), `Base64_encode` (writes one byte past
  `char base64[4]`), `Json_addData` (reads `buffer[-1]`), `Map_uint32_key_char_value` (copies
  50 bytes out of 7), the three `InsertionSort` tests (read before the array) and the three
  `HeapSort` tests (read after the array). With the missing memory supplied, the model gives
  the expected results for all but the first, too.
- The specifications in `Spec_*.v`, and the statements in `Props_*.v`.

### Platform assumptions

8-bit bytes, 32-bit `int`, 64-bit `size_t` (32-bit `size_t` in C114), two's complement conversions (gcc's definition of
out-of-range signed conversion). The signedness of plain `char` is a parameter where it
matters. Lists standing for objects may have any length, also beyond what an address space
could hold; theorems bound lengths where the code's arithmetic would wrap.

### What is modelled

All functions of `Src/utils.c`, `bit_manipulation.c`, `base64.c`, `queue.c`,
`priority_queue.c`, `map.c`, `scheduler.c`, `json.c`, `sort/*.c`, `crypto/*.c`,
`crc/crc{8,16,32}_base.c` and all 45 functions of `crc/*_variants/*.c`.

### What is not modelled

- Overlapping arguments where the interfaces take separate objects (for example an element
  that lies inside the buffer of the queue it is put in), except where the
  functions themselves use one object twice (`Utils_swapElements`, the sorts, in-place
  ChaCha20): there one flat memory is used. Objects that lie in one larger object without
  overlapping are covered by C111.
- Pointer provenance and alignment, strict aliasing, `const` violations.
- Concurrent use. The library has no synchronisation; the functions are modelled as run by
  one thread. (The static buffer of insertion sort is modelled as state kept between calls.)
- Comparators that change the elements or compare addresses.  (Comparators with a state of
  their own: `Model_SortState`.)
- Timing and side channels; the strength of the ciphers.
- `Tests/` as programs (their inputs and expected values are in `Test_*.v`), `Tools/`, the
  build system.

## Properties and plan

| id | modelled | how proved |
|---|---|---|
| C01 | `Model_Utils` parser | spec: decimal value of a digit list; loop invariant: partial sum times power |
| C02 | `Model_Utils` serializers | spec: little/big-endian value of a byte list; bit lemmas `lor` of disjoint = `+` |
| C03 | blob loops | loop invariant over `write`; reversed list; overflow cases by computation |
| C04 | swap loop | invariant on suffix already exchanged |
| C05 | table and range checks | finite sweep plus `lia` |
| C06-C08 | `Model_Utils` bit functions | `Z.testbit` characterisations, `Z.bits_inj` |
| C09-C14 | `Model_Base64` | spec works on bit strings; group-of-three induction; decoder inverse on the alphabet by sweep of 64 values; malformed input: safety invariant with arbitrary index values; witnesses by `vm_compute` |
| C15-C19 | `Model_Containers` queue | abstraction function to a list of byte strings; every operation commutes; lifted to operation sequences by induction; wrap witness by a symbolic argument |
| C20-C24 | priority queue | abstraction to a list of (priority, bytes); argmax/argmin loop invariants, shift loop invariant; drain by induction |
| C25-C28 | map | abstraction to an association list / finite map, induction over operations |
| C29-C31 | scheduler | loop unfolding to list filter; re-entrant case by invariant on the pass |
| C32-C37 | `Model_Sort` | each sort is shown to refine an algorithm on lists of elements stored between two untouched regions; the list algorithms are proved permuting, sorted, stable; termination comes with `Ok`; over-reads characterised exactly (heap sort: `Spec_HeapReads`, the extent of a run of the textbook algorithm), refutations by witness |
| C38-C42 | `Model_Crypto` ciphers | pointwise map over the string; modular arithmetic; witnesses |
| C43-C46 | ChaCha20 | spec written from RFC 8439 on word lists; block equals spec; xor invariant over memory |
| C47-C53 | `Model_Crc`, `Model_CrcVariants` | spec: remainder over GF(2) of the message polynomial, stated with carry-less multiplication on `Z`; tables by computation, calculator by invariant; linearity and burst detection from the remainder characterisation |
| C54-C60 | `Model_Json` | invariants of `strcpy` chains over byte lists; search loop invariants; witnesses |
| C61-C66 | the 45 CRC functions | difference polynomial divisible by the generator; divisibility by x+1 for odd errors; multiplicative order of x from its prime factors, checked inside Coq; forced suffix by invertibility of x |
| C67-C69 | serializers, parser | induction over the list of fields; decimal text by strong induction |
| C70 | Base64 | bit strings of both directions compared; witness for the ambiguous text |
| C71-C73 | clients of several modules (`Drive_Pipeline`) | composition of the theorems of the modules |
| C74-C75 | the sorts of `Model_Sort` | no adjacent swap is possible in an ordered list; two stable (or distinguished) ascending permutations are equal |
| C76-C77 | `Model_SortState`: the sorts with a comparator that has a state | one loop invariant per sort with the cost of each call as a parameter (0: safety, 1: counting); simulation relation between the two models |
| C78 | all modules | rules for the outcome `Diverge` (no loop runs out of fuel), applied syntactically; decreasing measures for the `while` loops; the JSON index going round by an invariant of its loop |
| C79-C83 | sizes beyond the limits (`Proof_Limits`, `Proof_Limits2`) | only-if directions: an operation sequence that fills the container up to the first wrapping slot, run symbolically; sorts and map: inversion of a supposed successful run |
| C84 | `C_Utils` run by `CLang` against `Model_Utils` | symbolic execution of the interpreter, one rewriting lemma per construct; one simulation lemma per loop form |
| C85 | `C_Crc`, `C_CrcVariants` run by `CLang` against `Model_Crc`, `Model_CrcVariants` | as C84; the 45 variants by one tactic on top of the theorem about the calculator they call |
| C86 | `C_Base64` run by `CLang` against `Model_Base64` | as C84; in place, the loop invariant is that the object still holds its input from the read position on |
| C87 | `C_Crypto` run by `CLang` against `Model_Crypto` | as C84; the sixteen local variables of `Block` are one-cell objects `cells xs` behind the caller's memory, and `QuarterRound` is proved on those |
| C88 | `C_Sort` run by `CLang` with comparators `byte_cmp` against `Model_SortState` | as C84 for `Refine_Sort`'s variants of the model in the order of evaluation of the text (exact equality), then those agree with the model (`Refine_SortAgree`); the state of the comparator is the world `W` of the interpreter |
| C89 | `C_Json` run by `CLang` against `Model_Json` | as C84; `strlen`, `strcpy`, `strcmp`, `strncmp` of `CLang` shown equal to those of `CSem` (`Refine_Json`) |
| C90 | `C_Containers` run by `CLang` against the queue of `Model_Containers`, a structure being an object of one cell per member (`Drive_ContText`) | as C84 (`Refine_Queue`) |
| C91 | same, priority queue | as C84 (`Refine_PQ`, `Refine_PQEnq`); the loop that closes the gap is proved once (`shift_loop`) |
| C92 | same, map; `int32_t` members are kept as 32-bit patterns | as C84 (`Refine_Map*`); `memcmp` of `CLang` shown equal to that of `CSem` |
| C93 | same, scheduler; the array of structures is one object of two cells per task, a function pointer is `VFun id` and a call of it is the parameter `ext` of the interpreter | as C84 (`Refine_Sched`) |
| C94-C103 | the C text itself: clients of `CLang` (`Drive_TextRun`, `Drive_CrcText`, `Drive_JsonText`, `Drive_UtilsText`), no hand-written model in the statements | the theorem about the model (C15, C20, C25, C30-C32, C76, C09-C13, C38-C49, C54-C60, C01-C08) and the one about the text (C84-C93) composed call by call (`Proof_Text*`) |
| C104 | the text of all 63 files of `Src` and their headers (`Text_*`), read by `CFront` | evaluation of the front end inside Coq (`Proof_Front`) |
| C105 | `CLangOrder`: the interpreter with the order of operands left to a parameter (whole operands; evaluations of two operands are not interleaved) | a syntactic check that operands do not interfere, proved sound by mutual induction over the syntax, and evaluated on every function of `Src` (`Proof_EvalOrder`) |
| C106-C108 | the interpreter `CLang` itself; reachability in `Spec_Reach` | mutual induction over the syntax: outcomes grow with the fuel (`Proof_Fuel`); a block cuts the memory back to its length, with a syntactic check evaluated on every function; two runs related object by object (`Proof_Reach`) |
| C109, C110 | the parser of `CFront` against an inductive relation with the productions of C99 6.5, 6.7, 6.8 and 6.9 (left-recursive where the standard is). Array parameters keep no size, the parameters of a pointer to a function are any tokens with matching parentheses, and prototypes are read and dropped | soundness by induction on the fuel (`Proof_Grammar`, `Proof_GrammarUnit`), completeness by induction on derivations, with left recursion turned round by a statement about every continuation (`Proof_GrammarAll`, `Proof_GrammarUnitAll`); uniqueness follows from the two |
| C111 | the interpreter `CLang` on two memories, one of which holds the objects of the other as parts (`Spec_Layout`). Comparing the addresses of two different objects is `UB` in `CLang` (6.5.9 leaves open whether one past the end of an object equals the start of the next); no function of `Src` does it | simulation by mutual induction over the syntax (`Proof_Layout`); one-directional: what is undefined for separate objects may be defined in a larger one |
| C112 | `tokens` of `CFront` against the lexical grammar of C99 5.1.1.2 and 6.4 (`Spec_Lex`): productions for preprocessing tokens, the rule of the longest token, the meaning of constants. No trigraphs, universal character names or header names; `<x.h>` is read as five tokens | soundness by induction on the fuel, completeness by induction on the derivation, with the longest token of each kind determined by its first characters (`Proof_Lex`) |
| C113 | `expand` and `preprocess` of `CFront` against the rules of C99 6.10 (`Spec_Prep`): groups of lines, conditionals, headers, object-like macros. A second definition of a macro replaces the first (6.10.3p2 wants the two to be the same) | soundness by induction on the lines with the open conditionals as a stack; a macro that is replaced at some depth does not contain itself; uniqueness by induction on the derivation, with the matching `#endif` computed (`Proof_Prep`) |
| C114 | the C text read by `CFront` with a `<string.h>` where `size_t` is `unsigned int` (`CSize32`): types of variables, parameters and operators follow from it; `strlen` returns, and `memcpy`, `memcmp` and `strncmp` take, a value converted to it. `ptrdiff_t` and the size of pointers do not occur in the text. `C_Size32.v` is generated by `tools/size32.py`, and `C114_program` checks it against the front end | the 14 functions that differ are simulated anew against the same models (`Refine32_*`), or, where the arithmetic differs, against a 32-bit version of the function that is shown equal within the bounds. Two functions are refuted outside them: `Json_addData`, and `Json_endString` at the first length its bound leaves out |
| C115 | what a run gives away: `CLeak.v`, the interpreter of `CLang` with a list of events (branches, addresses, operands of `*`, `/`, `%`, amounts of shifts; calls of library functions and of function pointers give away the whole memory). It is a model of the C text, not of machine code: a compiler may turn selections into branches and back, and the time of other operations is taken not to depend on their operands | `C115_same`: the events change no result. A check of terms (`ct_f` in `Proof_Leak`: no branch, address, divisor or shift amount depends on a number that is not public) is proved sound by one induction over all terms for pairs of runs (`run_rel`); ChaCha20 and 26 other functions pass it by computation, and the theorem for ChaCha20 is joined with C100 so that it has no assumption about the runs. The functions that give data away are refuted by pairs of runs |

Every property is expressible in the model. What a model like this cannot show is whether
an out-of-bounds read traps or returns stale data on a given machine: it is reported as `UB`.

## Seeded bugs

`seeded/mutants*.py` lists wrong programs: single edits of model definitions, each with the
claim it breaks. `tools/mutate.py` makes each edit in a scratch copy of the built theories,
compiles everything that depends on the edited file, replaces each proof that no longer goes
through by `Admitted` in the copy, and reads off `Print Assumptions` which property theorems
rest on such a proof. `tools/log.py` writes the outcome to `seeded/LOG.jsonl`: the definition,
the edit, the claim, the property theorems that failed, and the theorems tightened because
they should have failed and did not.

A failed proof does not show that the statement is false of the edited program. The examples
beside the theorems (`..._ex`) are evaluated on the edited program as well, and most edits
are also caught by one of them; the log lists these under `examples_failed`.

Five more lists are tried by tools of their own and are in the same log:
- `seeded/cmutants.py`: edits of the C text in a scratch copy of `/repo`, translated again and
  tried against the theorems about the text (`tools/cmutate.py`, names `k...`). A change of the
  text after which the theorems still hold computes the same as before, since the theorems say
  which function is computed.
- `seeded/fmutants.py`: edits of the front end `CFront` (`tools/fmutate.py`, names `f...`).
- every sixth operator, number and type of a new variable in the functions that differ with a
  32-bit `size_t` (`tools/smutate.py`, names `s_...`).
- `seeded/lmutants.py`: edits of what an observer sees, and edits of the C text that keep its
  results and give data away (`tools/lmutate.py`, names `l...`).
- every operator, number, boolean and conversion of a model (`tools/sweep.py`, names with the
  file, line and column).

For these the log gives the first lemma that fails and the property theorems that rest on it;
edits that failed a proof but no example led to new examples.
