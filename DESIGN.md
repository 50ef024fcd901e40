# Formal model of numba_pokemon_prngs

## What is modelled, and how

The package is Python that runs in one of two ways: plain Python over NumPy
scalars ("numba-less", mode `NumPy`), or compiled by numba (mode `Numba`).
The model is a set of small total Gallina functions that mirror the Python
functions branch by branch; each definition cites the lines it models.

* Unsigned machine words are `N` with an explicit `mod 2^w` at exactly the
  places where the code casts or stores (`Base/Word.v`). `Z` is used where
  negative Python integers matter.
* Arrays are lists. `aget`/`aset` are total; C18 proves that the indices used
  are in range.
* Exceptions are values (`res A := Ok a | Raise e`). A method that changes the
  object and may raise returns the new state together with a `res`.
* Unbounded Python `while` loops take fuel and return `Raise OutOfFuel` when it
  runs out. Termination theorems say that some fuel suffices, and
  non-termination is "no fuel suffices".
* Where the two runtimes differ the function takes `m : mode`.

### Versions and numeric rules assumed (trusted reading of the runtimes)

poetry.lock pins numpy 1.26.4 / 1.21.6, numba 0.59.1 / 0.56.4 and
flatbuffers 23.5.26. Hence:

* NumPy 1 promotion: scalar ops between two `uint32` wrap at 32 bits; an
  operation between a NumPy scalar and a Python int is done in at least 64 bits
  (`np.uint8(200)*2 == 400`). NumPy 2 (NEP 50) is modelled in `NumPy2.v` for the
  code where it changes results (C106: gen3/state.py, gen3/util.py, LCRNG jumps,
  `Xorshift128.next_float_randrange`);
  everything else reads NumPy 1. `Model/NumPy2Rest.v` adds the
  SFMT shuffle and the constructor of `WildGenerator3`. Not modelled: that NumPy 2
  refuses Python ints out of range in the other constructors, where NumPy 1
  reduces them.
* numba promotes integer operations to at least 64 bits (NBEP 1) and truncates
  at casts and at stores to typed fields or arrays.
* Integer division or modulo by zero gives 0 (with a warning) for NumPy scalars
  and raises ZeroDivisionError under numba.
* Out-of-range indexing raises IndexError for Python lists/tuples. numba's
  unchecked array indexing is not modelled: in-range theorems make it moot.

## Trusted base

* Coq 8.16.1's kernel (including its VM for `vm_compute`).
* `Print Assumptions` under every property theorem; see the table at the end.
* The reading of Python/NumPy/numba semantics above. The code is transcribed by
  hand (or by a small script for unrolled code); nothing is extracted.
* The specifications in `theories/Spec`.

## Layout

* `theories/Base`  words, bit-level lemmas, loops (library only)
* `theories/Model` the code, no proofs
* `theories/Spec`  small independent specifications
* `theories/Proofs` lemmas
* `theories/Properties` one theorem per claim, closed by `exact`, with `Print
  Assumptions` and a concrete case meeting the hypotheses
* `theories/Tests` vectors from /repo/tests replayed by `vm_compute`. These are
  tests of the transcription, not proofs.

A name ending in `_refuted` states that the property as a user would expect it
is false of the code, with a witness; `_partial` marks the strongest part
proved next to it.

## Plan per property

| id | model | proof |
|----|-------|-------|
| C01 | `Model/Lcrng32.v`, `Lcrng64.v`: table construction, bit loop | table entry i is the affine map of 2^i steps; induction on the bits of adv |
| C02 | same, `const_jump` composing (add, mult) | same table lemma; loop invariant on the composed affine map |
| C03 | same, reverse constants via `mod_inv` | mult * inv = 1 mod 2^w, hence one step inverse; n steps by induction |
| C04 | same, table lookup raising IndexError | a set bit at position >= 32 is reached by the loop |
| C05 | constants of `lcrng/__init__.py` | 2^k steps = x -> A x + C with A = 1 mod 2^(k+2), C = 2^k * odd; reachability by induction on the width |
| C06-C09 | `next_rand`, `const_rand` for all distributions and modes | arithmetic; surjectivity for maximum <= 256 by inequality, refutation beyond |
| C10 | `Model/Compat.v` recursion | strong induction on the Euclid recursion, Bezout invariant |
| C11-C13, C18 | `Model/MT.v` over lists | loop invariant "positions < i are new words, others old words" against a relational spec of the infinite sequence; induction on calls |
| C14-C18 | `Model/SFMT.v` (Python, and the LLVM IR on 128-bit vectors) | both refine the 128-bit recurrence; invariant as for MT |
| C19-C21 | `Model/TinyMT.v`, both modes | bit-level equality; explicit inverse of shuffle; witness for the numba carry |
| C22 | next_rand of each | arithmetic |
| C23, C26, C30 | `Model/Xorshift.v`, `Model/Xoroshiro.v` | (1+S^a) factorisation of shift-xors; rotations by bit lemmas |
| C24 | signed ranges in Z | arithmetic modulo 2^32 |
| C25 | binary32 and binary64 through stdlib `SpecFloat`, values in `Spec/FloatSpec.v` | witnesses at both ends (refuted); error bounds of each rounding (`Proofs/FloatProofs.v`) for all other bounds |
| C27 | bit_mask | bit smearing: testbit characterisation |
| C28 | rejection loop with fuel | induction on fuel; termination via the orbit of the linear engine (full statement needs the period of xoroshiro) |
| C29 | splitmix | each step (add, xorshift, odd multiply) is a bijection |
| C31, C32 | `Model/RNGList.v`, generic in the PRNG | refinement to (window start, cursor) by induction on operations; power of two via land |
| C33 | `Model/FNV.v` | fold_left; injectivity because the prime is odd |
| C34-C36 | `Model/SHA1.v` generated line by line from the unrolled code, buffer initially arbitrary | step lemma per round, schedule invariant on the buffer; expanded-index identity for calc_w_simd |
| C37-C39 | `Model/Util.v` | bit extensionality |
| C40 | binary32 via `SpecFloat` | the product is the nearest point of its grid (`Proofs/FloatProofs.v`), so its truncation is exact for every stat below 65536 (`Proofs/StatProofs.v`) |
| C41 | `Model/Gen3State.v` | table comparison: refuted, with the exact set of wrong natures |
| C42, C43 | `Model/Gen3State.v` | arithmetic, finite tables |
| C44-C48 | `Model/Gen3Area.v` | general theorem on what compute_table builds; arithmetic and list lemmas; C44, C48 refuted |
| C49-C52 | `Model/Gen3Wild.v` | induction over advances; rock smash refuted; termination from C05 and witnesses for each nature, parity, gender and form (`Proofs/Gen3Witness.v`, generated) |
| C53, C62 | `Model/Encounter3.v` | list lemmas, packing arithmetic |
| C54, C55 | `Model/Personal.v`, `PersonalLayouts.v` (generated) | layouts by computation, decode/encode by induction over fields |
| C56, C57 | `Model/Cache.v`: file system with partial writes, pickle as a parameter that loads what it dumped | invariant; crash point refutes C56 |
| C58 | `Model/Flatbuf.v` (reader over bytes), `FbsLA.v` (the classes of encounter_la.py) | relational specification of which bytes hold which table, for arbitrary layouts; `FbsCase.v` holds bytes of the bundled files that meet it |
| C59, C61 | `Model/EncounterLA.v`, binary64 through stdlib `SpecFloat` | each product, sum and difference within one rounding error, without overflow or underflow, for all finite weights; then a prefix-sum argument over rationals; rounding to nearest is monotone, so the choice is too |
| C60 | `Model/Compilation.v`, `Decorated.v` (generated list of uses) | decorator application forms as functions; bare `@optional_njit` refuted |
| C63-C65 | the xorshift, xoroshiro and TinyMT models | the step is a linear map over GF(2); order of its minimal polynomial, factorisation of 2^127-1 and 2^128-1 |
| C67 | `Model/Bundled3.v`: bundled Gen 3 files (`EncounterData3.v`, `PersonalData3.v`, generated) through the loaders | hypotheses of C51 checked by evaluation over the whole data, conclusion for all seeds |
| C68, C69 | the LCRNG and Gen 3 models | two runs with equal outputs differ by a short vector of the generator's lattice; three short integer relations with nonzero determinant force it to be zero |
| C70 | the MT, SFMT, Xorshift and Xoroshiro models | tempering, twist, recursion and Knuth's initialisation are inverted step by step from the sequence specifications of C11 and C14 |
| C71 | `Model/Gen3Csv.v`, `Names.v`, `TextData.v` (generated) | totality from C49; the line is that of `Spec/TextSpec.v`; every column lacks the separator and determines its fields |
| C72 | `Model/Names.v`, `TextData.v` | the constants are evaluated once and equal the table of C62; distinct by evaluation |
| C73 | `Model/BundledLA.v`, `Trie.v`, `LaBytes*.v` | the bytes are kept in tries; `Proofs/FbsFast.v` and `LoadFast.v` prove readers over tries equal to the model of the reader, and these are evaluated once per file |
| C74 | the MT and SFMT models, on any object (`Spec/ObjectSpec.v`) | any state starts a word sequence of the recurrence of C11 or C14; outputs are inverted to words, and 156 (624) words give the next |
| C75, C76 | the LCRNG, xorshift, xoroshiro and TinyMT models | counting (`Proofs/Count.v`): by C05 and C63-C65 a period visits every state once, and output plus the other state bits is a bijection |
| C77 | `Model/LcrngClasses.v`, against the constants in `Spec/ClassSpec.v` | constants by evaluation for both `mod_inv`; the rest from C03 and C06 |
| C78 | `clean_map_string` of `Model/Encounter3.v`, against the relation of `Spec/MapNameSpec.v` | each stage is the function of its relation; C62 uses the relation too |
| C79 | `UNOWN_ENCOUNTERS` of `Model/Encounter3.v`, against the letters in `Spec/Encounter3Spec.v` | evaluation on the bundled files |
| C80 | `Model/Enums.v` (generated), against the names in `Spec/EnumSpec.v` | each game is a bit of its own, so a union is told by its bits; the rest by evaluation |
| C81 | `Model/BundledSpawn.v`, `LaSpawn*.v`, `LaOutbreak*.v` | as C73, with the readers of `Proofs/SpawnFast.v`; references are checked against sets of ids |
| C82 | `Model/NameTrie.v`, `TableNames.v` (generated), `BundledNames.v`, `FNV.v` | one step of the hash per node of the trie of names; the rule is enumerated and looked up, and the counts agree |
| C83 | `Model/Pers*.v` (generated), `BundledPersonal.v`, `Personal.v`, `PersonalLayouts.v` | a field of a record is one or two bytes of the trie; every statement is then checked over all records |
| C84 | `Xorshift.v`, `Xoroshiro.v`, `MT.v`, `SFMT.v`, `RNGList.v`, `Lcrng32.v`, `Util.v` | histories of both modes against one abstract machine; step by step where there is none |
| C85 | `Gen3Area.v` | counting as in C75, through the permutation that one step of the LCRNG is |
| C86 | `MT.v`, `SFMT.v` | the recurrences can be run backwards; pigeonhole on windows of words, coded as numbers |
| C87 | `Model/JitSpec.v`, `JitClasses.v` (generated), against `Spec/FieldSpec.v` | dicts by lookup; the package's classes by evaluation |
| C88 | `Gen3Wild.v`, against `Spec/SpreadSpec.v` | short vectors of the lattice of state differences modulo 2^31; every window is hit because each position has a neighbour at most 50396 below |
| C89 | `Xorshift.v`, `Xoroshiro.v`, `TinyMT.v` | a bit that stays 0 as long as the state has bits stays 0 for ever by the annihilating polynomial, and the cycle of C63 to C65 passes a state where it is 1 |
| C90 | `SHA1.v`, `SHA1Class.v` | the invariant of C35 gives the 16 words; each word is injective in its parameters, the addresses are compared pair by pair |
| C91 | `Lcrng32.v`, `Lcrng64.v`, `LcrngClasses.v` | 2^k steps add 2^k modulo 2^(k+1), so bit k flips; a period with fewer factors 2 flips some visible bit |
| C92 | `LcrngObject.v`, `Xorshift.v`, `Xoroshiro.v` | simulation: the object is the window under a cursor, one lemma per call, then induction on the calls; the sequence of integers from next and previous being inverse |
| C93 | the generator models, `Util.v`, `FNV.v`, `SHA1Class.v` | one bound per call on top of the state invariants, then induction on the calls |
| C94 | `Flatbuf.v`, `FbsLA.v`, `EncounterLA.v` | a read that succeeds on a prefix succeeds with the same value on the whole, lifted through each constructor by one tactic |
| C95 | `Gen3Wild.v` | any one rand of a seed is uniform because stepping is injective; the rand that decides is at a place that does not depend on the seed |
| C96 | `Scalars.v` | the loops on arguments tagged with their NumPy type equal those on Python ints as long as no uint64 meets a Python literal |
| C97 | `Options.v` | case analysis on the variable |
| C98 | `Patch.v`: the constructors and what they call of numba | induction on the depth |
| C99 | the LCRNG and Gen 3 models | the full cycle is a bijection of advances and seeds, which keeps counts |
| C100 | `Dump.v` | the objects reachable from a file by reads all keep its bytes |
| C101 | `Gen3Wild.v` | two runs in lockstep: each step of `generate` with the two settings gives related states |
| C102 | `Gen3Wild.v`, `Lcrng32.v` | the number of an advance is only written to the state; induction on the loop |
| C103 | `Gen3Area.v`, `Gen3Wild.v` | the deciding rand is at a fixed place and uniform over the seeds |
| C104 | the constructors that use np.empty, `SHA1Class.v` | every entry is written before it is read |
| C105 | `Gen3State.v` | from the exact formula of C40 and C41: floor is monotone; 11/10 is injective, 9/10 is two to one at most |
| C106 | `NumPy2.v` | the code on scalars tagged with their NumPy types under both promotion rules; NumPy 1 is the model of all other properties, NumPy 2 cuts stats and hidden power to 8 bits |
| C107 | `SharedList.v` | one generator state behind several lists; every interleaving deals the outputs out one by one |
| C108 | `Gen3Update.v` | `update_stats` as a method on an existing state, related to the constructor |
| C109 | `Heap3.v` | states with references into a heap of arrays; `generate` and later changes behave as on values |
| C110 | `Gen3Wild.v`, `Enums.v` | refuted: other games act as LeafGreen, other encounters as grass, other methods as Method 1, exactly |
| C111 | `Gen3Wild.v`, `Lcrng32.v` | which PIDs the two rands can make, how many, and a family that never comes up |
| C112 | `Lcrng32.v`, `Lcrng64.v`, `Gen3State.v`, `Gen3Wild.v` | what two seeds that differ in their highest bit share, and what they never share |
| C113 | `Gen3Wild.v` | which PID and IVs can be met, the same at every place |
| C114 | `Gen3Wild.v` | the PIDs of wild Pokemon with six IVs of 31, by method and lead |
| C115 | `Gen3Wild.v`, `Gen3State.v` | a shiny Pokemon for every trainer at every place |
| C116 | `Gen3Wild.v` | every slot with every nature |
| C117 | `Gen3Wild.v`, `Gen3Area.v` | every slot at every level |
| C118 | `Gen3Wild.v`, `Gen3State.v`, `Bundled3.v` | every slot with every nature, gender and ability |

Generated modules, from the text of /repo: `tools/gen_sha1.py` (Sha1), `gen_pid_witnesses.py`
(Gen3Witness), `gen_personal.py` (PersonalLayouts), `gen_personal_files.py` (PersRS to PersLA), `gen_encounter.py`
(EncounterData3), `gen_text.py` (TextData), `gen_la.py` (LaBytes*: the five encounter files, poke_encount and poke_misc, byte for byte; LaSpawn* and LaOutbreak*: the five spawner files and the two outbreak files), `gen_fbs_case.py` (FbsCase), `gen_decorated.py` (Decorated), `gen_enums.py` (Enums), `gen_table_names.py` (TableNames), `gen_jitclasses.py` (JitClasses). `gen_shiny_seeds.py` (ShinySeeds), `gen_nature_seeds.py` (NatureSeeds), `gen_level_seeds.py` (LevelSeeds) and `gen_kind_seeds.py` (KindSeeds) search for witnesses and read nothing.
The modules `*Lit*.v` hold values that other modules compute from the generated ones; each is proved equal to that computation.

Trusted reading of libraries: numba.experimental.jitclass compiles a class with the spec it is given, and
an assignment to a field compiles if both types are numbers or are equal (C87). The flatbuffers runtime (`Table.Offset`, `Vector`, `Indirect`, `String`
and the scalar reads) is modelled from its published source as part of C58. Pickle is a pair of
functions with `loads (dumps x) = x`; that a proper prefix of a pickle does not load is used only by
C56_refuted.

Not modelled: file downloads, resource contents other than the personal tables, the Gen 3 files and the files of Legends Arceus, numba's compiler itself,
what numba does with the types that `patch.py` makes (`Model/Patch.v` models the
constructors and, on trust, the two refusals of numba's base class). The text of a float (`repr`) is a parameter of `Model/Gen3Csv.v`.
