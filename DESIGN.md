# Formal model of morton-rs: design

Source: `/repo` (Rust crate `morton-index`), read as text, never built.
Prover: Rocq/Coq 8.16.1, standard library only. Logical name `Verif`, files in `rocq/theories`.

## Modelling conventions

* **Machine integers** are `N`; every arithmetic operator of the source is modelled with its bit width and the
  build profile: `add c w a b`, `sub`, `mul`, `shl`, `shr` return `Panic` if the exact result does not fit and
  overflow checks are on, and wrap otherwise. `as` casts reduce modulo `2^w`.
* **Configuration** `cfg` = overflow checks on/off, pointer width 16/32/64, target endianness. All theorems are for
  all configurations unless a hypothesis restricts them; each such hypothesis is named.
* **Outcomes** `outcome A = Ret a | Panic | UB`. `UB` is an out-of-bounds read through a raw pointer.
* **Vec<u8>** is `list N`. Indexing out of bounds is `Panic`. Allocation failure is not modelled.
* **Loops** are structural recursion over the iterated range or list, in source order.
* **Generics**: functions whose 2D and 3D text is identical up to names are modelled once over a `Dimension` record,
  citing both files. Functions whose text differs are modelled twice.
* `&mut self` becomes state in / state out.

## Files

| file | content |
|---|---|
| Base.v | cfg, outcome monad, machine operators, loops |
| ModelNumber.v | `src/number.rs` |
| ModelAlign.v | `src/align.rs` |
| ModelDim.v | `src/dimensions/*.rs` |
| ModelStorage.v | `src/indices/storage.rs`, storage impls shared by 2D/3D, generic part of `src/morton.rs`, `src/indices/mod.rs` |
| Model2D.v, Model3D.v | `src/indices/morton_index_{2,3}d.rs` |
| ModelHelper.v | `src/helper.rs` |
| ModelTraits.v | `max_depth`, `MAX_LEVELS`, `PartialOrd`, and the methods that `core` derives from `partial_cmp` and `cmp` |
| ModelError.v | the texts of `src/error.rs` |
| ModelBits.v | the `StorageType` functions of `src/indices/storage.rs` generic in `T: Bits`, `bits_mut` (as its effect) |
| SpecText.v | what a decimal numeral is, independent of printing; TextProofs.v relates it to the printed numerals |
| ModelStd.v | what core derives or provides for the crate's types: derived `Debug`, displayable slices written to a writer that can fail, `nth`/`fold`/`count`/`last` of `CellIter` |
| ModelDebug.v | the alternate form `{:#?}` of the derived `Debug` implementations: core's `DebugStruct`, `DebugList` and `PadAdapter` |
| SpecStd.v | writers, buffers, Debug of any storage kind (C62, C63) |
| SpecSpace.v | Morton codes of grid coordinates and the grid cells covered by a node (C59, C60) |
| SpecBytes.v | comparison of byte strings from the left (C59); cells written at the top of a word (C77) |
| SpecNear.v | the next node along an axis, by paths (C78) |
| SpecCommon.v | the nearest common ancestor of two paths (C79) |
| SpecSplit.v | sorted nodes that do not overlap (C80) |
| SpecMono.v | slices that can be appended, replaced and reversed bits of a number (C71, C72) |
| ModelHash.v | the derived `Hash` implementations as calls on a `Hasher`, the default methods of `Hasher` |
| SpecMaps.v | any implementation of `Hasher`, hash maps and ordered maps of clients (C73, C74) |
| ModelFlags.v | the derived Debug implementations under all formatting flags (C75), with core's `pad_integral` |
| SpecUser.v | what an implementation of `Dimension`, `Storage` or `VariableDepthStorage` outside the crate must satisfy, and instances (C66, C67) |
| ModelUser.v | the storages over any type `B: FixedStorageType` (C68); FactsUserBits.v proves (`integers_*`) that for the integers these are the definitions of ModelStorage.v |
| ModelUserGrid.v | `from_grid_index` and the conversions from and to dynamic indices over any `B: FixedStorageType` (C69); FactsUserGrid.v proves `integers_*` for them |
| SpecDeep.v | which bits a write to a level clears when its position wraps around |
| SpecUserBits.v | what such a type must satisfy, and instances of every width |
| Spec.v | independent vocabulary: `shows`, `valid`, `stored`, lexicographic order, binary expansion, decimal numbers |
| SpecTraits.v | depth-first order as a relation, sorted lists, permutations of the axes |
| History.v | histories of API calls: `run_model` (model), `run_spec` (lists), `starts`, `made` |
| BitProofs, NumberProofs, VecProofs, VecGetProofs, VecSetProofs | numbers as bit strings; integer and byte-vector bit access |
| CellProofs, StorageProofs, OrderProofs, ConvProofs | storages as lists of cells; `raw`, `repr`, `canon` |
| GridProofs, Grid2DProofs, Grid3DProofs, NameProofs | grid indices and names |
| HistoryProofs, ProfileProofs, SafetyProofs | simulation by lists; build profiles; absence of `UB` |
| Facts*.v | the proofs of the theorems, as lemmas `cNN_..._lemma` |
| Prop*.v | the theorems `cNN_...`, each followed by `Print Assumptions` and an `Example` that meets its hypotheses |
| ExampleTools.v | targets and tactics of the examples |
| ModelSuite.v | the test modules of morton_index_2d.rs and morton_index_3d.rs and the benchmark benches/morton_index_3d_bench.rs as functions of the numbers drawn by the random generator (C76) |
| ModelTests.v | the repository's unit tests, example programs and README example replayed on the model with one generator (all pass) |

`tools/props.py` writes `properties.jsonl`, `tools/manifest.py` writes `MANIFEST.json`.

## Reading the theorems

* `shows ops s l`: the public observations of `s` (depth, checked accessor at every level) are those of the list `l`.
* `valid c D k s`: `s` is a value of the Rust type (bits within the integer, bytes within u8) whose depth fits its bits.
  It does not ask the unused bits to be zero.
* `made c D L k e s l`: some history of API calls produced `s`, and performing the same calls on lists gives `l`.
  `e = true`: the history contains no call that can leave a second representation of a path (`from_raw_index`, 2D dynamic
  `zeroed` with a depth divisible by 4, dynamic -> fixed of mismatching size).
* `is_dim D L`: `D`, `L` are the 2D or the 3D instance.
* `writable c k`: writes to storage `k` work on target `c`; false only for dynamic storage on big-endian targets with
  32-bit or 64-bit `usize`. `stored c D k x` is the cell that a write of `x` leaves.

## Not modelled

Memory allocation failure, lifetimes. `rand` is modelled in ModelSuite.v as an arbitrary sequence of numbers, of which
`gen_range` takes the remainder; how `thread_rng` makes them is not modelled, and `sort` of std is modelled as insertion sort (stable, by `cmp`). `core` functions used by the crate (`to_le_bytes`, slice comparison,
`write!` of integers) are modelled by their documented meaning.

## Per property plan

The specification side views an index as a list of cells. `shows ops s l` says: depth is `length l` and the checked
accessor `get_cell_at_level k` returns the k-th element for all k. Everything else is stated on lists.

| id | modelled | proof idea |
|---|---|---|
| C01 | set/get of the three storages, 2D/3D | bit-field get/put lemmas by `N.testbit`; byte vectors refine to one little-endian number |
| C02, C03 | three `try_from` | induction over the cell list with C01 as step |
| C04 | checked accessors | case split on the bound; no overflow of the address arithmetic inside |
| C05 | CellIter state machine | induction on number of `next` calls |
| C06, C07, C08, C10 | from_grid_index variants, to_grid_index | per-bit invariant of the chunk loops; spread functions bitwise |
| C09 | static 3D from_grid_index | refuted with witness; exact set of depths where it holds |
| C11, C42 | to_grid_index | loop invariant; refutation witness for depth 65 |
| C12 | composition | from C06–C11 plus canonical form |
| C13 | from_grid_index_fast | equality of bits |
| C14–C17 | ancestor, descendant, with_depth, parent, child | bit-field lemmas; canonical form preserved |
| C18–C20 | cmp of all storages | numeric order of the encoded prefix = lexicographic order |
| C21, C22, C44 | eq, hash | canonical representation is unique; refutation for 2D dynamic zeroed |
| C23, C24, C45 | conversions | layout lemmas; refutation for dynamic→fixed with exact characterisation |
| C25 | inverted | induction over cells |
| C26, C27 | to_string | strings built with stdlib decimal printing; injectivity by round trip |
| C28, C29 | cells, orderings | case analysis |
| C30–C33, C37 | number.rs | testbit lemmas; refutations with witnesses |
| C34 | align.rs | div/mod arithmetic; refutation with witness, exact domain |
| C35 | helper.rs | induction |
| C36 | big-endian cfg | refutation with witness and general statement |
| C38 | inductive reachability | simulation of list operations |
| C39 | all operations | corollary: results are `Ret` and cfg-independent |
| C40, C41 | grid + order | spec-level lexicographic lemma, composed with C06–C18 |
| C43 | from_raw_index | refutation with witness; condition for canonicity |
| C46 | dynamic accessor | refutation by general statement on over-long vectors |
| C47 | zeroed/default | special case of C01/C02 machinery |
| C48 | every function that can reach a raw pointer read | outcome is never `UB`, by composition |
| C49, C53 | max_depth, MAX_LEVELS | corollaries of C02, C03, C15; refutation for the constant of dynamic storage |
| C50, C52 | partial_cmp, operators, sorted lists | C18 plus list lemmas about the order |
| C51 | from_grid_index, to_grid_index | equality of programs, by commuting the reads of the coordinates |
| C54 | get_bits, set_bits on every range | bit-by-bit with the truncated start |
| C55 | compositions of conversions | uniqueness of canonical form; bytes reversed on big-endian |
| C56 | Display/Debug of Error | string cancellation, injectivity of decimal numerals |
| C57 | StorageType functions for every Bits type | positions are computed without overflow; C30-C32 for the accesses; exact result of the reads that go wrong |
| C58 | bits_mut, then eq, cmp, get | every in-range bit pattern is a valid storage; canonical form is unique |
| C59 | cmp, to_grid_index, 3D from_grid_index, from_grid_index_fast | cells encode to the interleaved coordinates (code2, code3); compare codes padded to a common depth; without a limit on the depth: compare the bits, or the bytes from the last one on, then the depths (the comparison proposed in TODO.md gives the same order) |
| C60 | to_grid_index, with_depth | coordinates of a prefix are the quotients of the coordinates; raw bits of a prefix are a quotient of the raw bits |
| C61 | cmp, descendant | the largest path of a subtree repeats the last cell |
| C62 | derived Debug | the numerals are delimited by characters that are no digits |
| C63 | Display of slices | induction over the names; the writer is a state machine |
| C64 | provided Iterator methods on CellIter | induction on the calls of `next` |
| C65 | from_raw_index with a depth above BITS/3 | panics of `sub` with checks; wrapped positions and C54 without |
| C66 | StorageType functions in a dimension given by its laws | the position arithmetic of C57 and C30-C32 for every dimensionality; the cast to u8 kept explicit |
| C67 | generic code of src/morton.rs, src/indices/mod.rs, names and grid indices over any storage | induction over the list a storage shows; `contract` makes a violated precondition of an unsafe accessor `UB` |
| C68 | FixedDepthStorage2D/3D, StaticStorage2D/3D over a type of bits given by its laws | `holds` of CellProofs.v does not depend on the width; the cast of the depth to u8 kept explicit |
| C69 | from_grid_index and dynamic conversions over a type of bits given by its laws | the proofs of Grid2DProofs.v/Grid3DProofs.v with the laws in place of num_set_bits; refuted for 2D types that are not whole bytes |
| C70 | `{:#?}` texts, given line by line | indentation acts on lines (FactsDebug.v `pad_block`); a text determines its lines, these the numerals |
| C71 | order before and after set_cell, with_depth, ancestor, descendant | `path_cmp` of updated, truncated and extended lists; equal cells give the same value (`raw_inj`) |
| C72 | coordinates after set_cell, descendant, inverted | bit i of a coordinate belongs to the cell i places before the end (`testbit_coord`) |
| C73 | calls on any Hasher; byte streams | calls are injective; native bytes have a fixed length, byte vectors a length prefix |
| C74 | maps with indices as keys (SpecMaps.v models std's maps: buckets with ==, sorted entries with cmp) | == is equality of values; invariant: sorted entries; last step for a key by induction from the end |
| C75 | Debug under any flags: `number_text` (SpecFlags.v) says what the text of a number is | numerals are unique (bounds by powers of the base); reading the digits of a padded number gives the number back (`skim_number`); texts are cut at commas and brackets resp. into lines |
| C76 | each test is a program over a random generator with arbitrary numbers; a test module passes when every test returns | indices drawn by the tests represent the drawn cells exactly (`index_canon`); the loops are folds over the representation lemmas; grid round trips are C12 |
| C77 | bits of any index made by API calls | the representation of HistoryProofs.v (`rep`): exact ones hold the cells and zeros, others at most one spare byte |
| C78 | paths of neighbours against coordinates | induction on the path from the leaf; from_grid_index by C06, C07, C08, C10 |
| C79 | nearest common ancestors | with_depth by C17, order by C18 and C20, coordinates by C11 |
| C80 | splitting and merging nodes | to the left of: first differing cells in order; order by C18, containment by C60 |

## Findings

What the proofs showed to be wrong in the code. Each has a `_refuted` theorem with a witness, or an exact statement.

1. C09: static 3D `from_grid_index` loses low coordinate bits unless d = 0 or 8*((M+7)/8-(d+7)/8) <= M-d
   (M = BITS/3; e.g. 64-bit index, (1,0,0), depth 6). On 32-bit targets the 128-bit index also loses high levels.
2. C08: static 2D `from_grid_index` panics with overflow checks for depth 0 when BITS/2 = usize bits, and for every depth
   when BITS/2 > usize bits; without overflow checks the latter returns wrong cells.
3. C24: dynamic -> fixed is wrong when the byte count differs from the size of the integer.
4. C22: `DynamicStorage2D::zeroed` allocates one byte too many when the depth is divisible by 4, so it is unequal to the
   same path built otherwise.
5. C32: `get_bits` on byte vectors leaks bits above the range (e.g. range 4..9).
6. C33: `add_zero_before_every_bit_u8/u16` do not ignore high bits.
7. C34: `align_to` overflows near the top of the type although the result is representable.
8. C36: on big-endian targets with 32-bit or 64-bit usize every write to dynamic storage stores Zero.
9. C42: `to_grid_index` of depth > usize bits panics with overflow checks, folds bits without.
10. C43: `from_raw_index` makes values that compare Equal but are unequal; too large a depth makes `cmp` panic.
11. C48: `set_bits` on a byte vector reads out of bounds when the new value is shorter than the range (exact condition:
    `c48_vec_set_bits_short_value`).
12. C46: dynamic storage is limited: `try_from` works exactly when DIM*len+8 <= 2^usize bits.
13. C07: on 16-bit targets fixed 3D `from_grid_index` panics or returns wrong cells.
14. C53: the constant `MAX_LEVELS` of dynamic storage is 0.
15. C54: `get_bits`/`set_bits` cut the start of the range to the integer type: `u8::get_bits(256..264)` returns the whole byte
    and `set_bits(256..264, x)` overwrites it.
16. C55: on big-endian targets fixed -> dynamic -> fixed reverses the bytes: the first conversion stores little-endian bytes,
    the second reads them as big-endian.
17. C46: without overflow checks `try_from` of 2^(W-1)-3 to 2^(W-1)-1 quadrants (W = usize bits, the last is the longest slice
    Rust allows) succeeds but the first four cells read as Zero; e.g. 32765 quadrants on a 16-bit target. Too many octants panic.
18. C57: `FixedDepthStorage::<Dim3D, _>::get_cell_at_level_unchecked` (and `StaticStorage`) on a `Vec<u8>` reads an octant that
    crosses a byte boundary together with up to five bits above it: it panics or depends on them (consequence of 5/C32).
19. C35/C63: the documentation of `DisplayableMortonIndexSlice` shows `['r1', 'r234', 'r4456']`; the code prints the names
    without quotes (`c35_display`). A wrong comment, not wrong code.
20. C65: `from_raw_index` of static 3D indices does not check the depth. A depth above BITS/3 gives an index on which most calls
    panic with overflow checks; without, `set_cell_at_level` on a level beyond the maximum silently changes cells of other
    levels while the written level still reads as cell 0 (`c65_set_cell_release`, `c65_cells_release`). Without
    overflow checks `parent` and `ancestor` of such an index clear cells that they should keep (`c65_tree_release`).
21. C66: `FixedDepthStorage` and `StaticStorage` keep only the low 8 bits of the index of a cell, so in a user-defined dimension
    of dimensionality above 8 a written cell reads back as a different one, without any error (the source says TODO).
    `DynamicStorage` works up to the bits of usize on little-endian targets. On big-endian targets its writes store cell 0
    whenever 2 DIM + 16 <= usize::BITS (`c66_dynamic_big_endian`). With DIM of at least usize::BITS + 8 its unchecked write reads
    outside of the index of the cell although the level is in range (`c66_dynamic_wide_dimension`), and reading panics with
    overflow checks (`c66_dynamic_wide_read`).
22. C68: static storages keep the depth in a u8. `FixedStorageType` is meant for types of any width, but over a type of 512 bits
    (2D; 768 bits in 3D) or more `try_from`, `descendant` and the conversion from a fixed-depth index reduce the depth modulo 256
    without any error (`c68_static_try_from`, `c68_depth_refuted`).
23. C69: `from_grid_index` in 2D ignores the bits left over at the end. It is right only for types of whole bytes: with 9 bits
    the cells are shifted by one bit, with 12 bits it calls `set_bits` on a range outside of the value
    (`c69_grid_2d_cells_refuted`, `c69_grid_2d_range_refuted`; for all types and inputs `c69_*_grid_2d_odd`, `c69_*_grid_2d_outside`). In 3D it handles every width, but a type with at least
    usize::BITS levels does not compile (MAX_LEVELS_BITMASK), and static indices over such wide types panic at small depths
    or lose the high bits of the coordinates, without overflow checks all of them (`c69_static_grid_2d`, `c69_static_grid_3d`).
24. C75: with padding by digits Debug texts are ambiguous, `{:0<5?}` prints the bits 5 and 50 alike (`c75_digit_padding`
    says for which flags). This is how core formats integers.
25. C76: the randomised tests cannot fail on 64-bit little-endian targets, whatever is drawn, although C09 and C24 are false:
    the 3D tests draw octants from 0..4 (`c76_drawn_cells`), static 3D round trips are tested only at depths where no coordinate bits
    are lost (`c76_static_3d_depths`), and dynamic -> fixed only at depths that need all bytes of the integer.
    On 32-bit and 16-bit targets some of the tests always fail, on big-endian ones some pass by luck (`c76_big_endian`).
    The tests of the ordering would accept a node after its descendants (`c76_order_assertion`); what the other assertions demand is exact (`c76_assertions`, `c76_some_assertion`, `c76_grid_assertion_2d`, ...).
26. C24, C77: DynamicMortonIndex2D::zeroed of a depth divisible by 4 has a spare byte (4 above), and every index derived from it keeps it.
    Converted to a fixed-depth index of the same depth it loses its first four cells (`c24_spare_byte_refuted`; exactly what is kept: `c24_dynamic_to_fixed_any_2d`).
    `ancestor` then clears bits of the spare byte instead of the byte that holds the dropped cell. No cell accessor shows this, but the
    conversion to a fixed-depth index does: zeroed(4), set level 3 to Q3, parent, converted to u16 gives the cells 0 0 0 3 0 0 0 0
    (`c24_stale_bits_refuted`). For the same reason two indices derived from zeroed(4) with the same cells may be unequal although cmp says
    Equal (`c22_derived_from_zeroed_refuted`).

## Trusted base

* The Coq 8.16.1 kernel, including its `vm_compute`.
* `Print Assumptions` of every theorem prints "Closed under the global context": no axioms are used. (The library files
  that `ssreflect`-free `lia`/`zify` load contain `Coq.ssr.ssrunder.Under_rel.*`; checkers that list the axioms of all loaded
  libraries report them. No theorem depends on them.)
* The correspondence of the Model files with the source. Each definition cites file and lines and states simplifications.
* The vocabulary of Spec.v and History.v in which the theorems are stated.
* Modelled code: all of `src/number.rs`, `src/align.rs`, `src/dimensions/`, `src/indices/storage.rs`, `src/indices/mod.rs`,
  `src/indices/morton_index_2d.rs`, `src/indices/morton_index_3d.rs`, `src/morton.rs`, `src/helper.rs`, `src/error.rs`
  except what is listed under "Not modelled".

## Mutation tests

`seeded/LOG.jsonl` records wrong variants of the model, the claim each breaks and the theorems that no longer prove.
Proofs are not repaired after an edit, so `theorems_failed` also contains the theorems that use a failed lemma.
Theorem names are those of the time of the run (`c12_static_3d_partial` has since become the stronger `c12_static_3d`).
