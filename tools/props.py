# Source of properties.jsonl (run: python3 tools/props.py > properties.jsonl)
import json
T="morton_index_2d.rs"; 
def p(id,title,statement,quantifier,why,anchors):
    print(json.dumps(dict(id=id,title=title,statement=statement,quantifier=quantifier,why_tests_cant=why,anchors=anchors)))
I2="src/indices/morton_index_2d.rs"; I3="src/indices/morton_index_3d.rs"; M="src/morton.rs"; S="src/indices/storage.rs"; NU="src/number.rs"
p("C01","set_cell_at_level writes exactly one cell",
 "For every valid index of any storage kind in 2D or 3D and every level < depth(), set_cell_at_level(level, c) does not panic, afterwards get_cell_at_level(level) returns c, every other level returns what it returned before and depth() is unchanged. (Dynamic storage: on little-endian and on 16-bit targets; C36 says what happens on the others.)",
 "all storage kinds, all integer widths, all bit patterns / byte vectors, all depths, levels and cells",
 "The state space is 2^128 bit patterns (unbounded for dynamic storage); bits of a cell may straddle byte boundaries, so a sampled level does not settle its neighbours.",
 [I2+"::MortonIndex2D::set_cell_at_level",I3+"::MortonIndex3D::set_cell_at_level",S+"::StorageType::set_cell_at_level_unchecked"])
p("C02","try_from(cells) stores the cells in order",
 "Whenever try_from(cells) succeeds, reading the index back level by level gives exactly the given cells in order; static and dynamic indices have depth() == cells.len(), fixed-depth indices have their maximum depth and are filled with cell Zero after the given cells. (Dynamic storage: on little-endian and on 16-bit targets; C36 says what happens on the others.)",
 "all cell sequences of every length, all storage kinds and widths, 2D and 3D",
 "Sequences are unbounded in length (dynamic) and there are 4^64 / 8^42 of them even for the bounded kinds.",
 [I2+"::TryFrom<&[Quadrant]>",I3+"::TryFrom<&[Octant]>"])
p("C03","try_from fails exactly when the cells do not fit",
 "try_from(cells) on a fixed-depth or static index returns DepthLimitedExceeded{max_depth: BITS/DIM} if and only if cells.len() > BITS/DIM; on a dynamic index it never fails while the bits are addressable with usize (C46).",
 "all cell sequences, all widths, 2D and 3D","The boundary has to be exact for all widths and every longer length.",
 [I2+"::FixedDepthStorage2D::try_from",I2+"::StaticStorage2D::try_from",I3+"::StaticStorage3D::try_from","src/error.rs::Error"])
p("C04","Checked accessors panic exactly out of bounds",
 "get_cell_at_level(level) and set_cell_at_level(level, _) panic if and only if level >= depth(), for every storage kind.",
 "all indices, all levels up to usize::MAX","Levels range over the whole of usize, including values for which the address arithmetic would overflow.",
 [M+"::MortonIndex::get_cell_at_level",M+"::MortonIndex::set_cell_at_level"])
p("C05","cells() enumerates the cells root to leaf",
 "The iterator returned by cells() yields exactly depth() cells, the i-th one being get_cell_at_level(i), and then returns None for ever.",
 "all indices of all storage kinds, all numbers of next() calls","Quantifies over every index and every number of next() calls.",
 ["src/indices/mod.rs::CellIter",I2+"::MortonIndex2D::cells",I3+"::MortonIndex3D::cells"])
p("C06","Fixed-depth 2D grid round trip",
 "For every grid index (x,y) and both quadrant orderings, FixedDepth 2D from_grid_index followed by to_grid_index with the same ordering returns (x mod 2^MAX, y mod 2^MAX); from_grid_index panics exactly when MAX exceeds the number of bits of usize.",
 "all usize pairs, both orderings, all widths, all pointer widths","2^128 grid indices; the code works in 4-bit chunks so errors can hide at any chunk boundary.",
 [I2+"::MortonIndex2D<FixedDepthStorage2D<B>>::from_grid_index",I2+"::MortonIndex2D::to_grid_index"])
p("C07","Fixed-depth 3D grid round trip",
 "For every grid index (x,y,z) and all six octant orderings, FixedDepth 3D from_grid_index followed by to_grid_index with the same ordering returns each coordinate mod 2^MAX.",
 "all usize triples, six orderings, all widths","2^192 grid indices, 21-bit chunks spread through five magic masks.",
 [I3+"::MortonIndex3D<FixedDepthStorage3D<B>>::from_grid_index",I3+"::MortonIndex3D::to_grid_index",NU+"::add_two_zeroes_before_every_bit_u32"])
p("C08","Static 2D grid round trip at every depth",
 "Static 2D from_grid_index(g, depth, ord) fails with DepthLimitedExceeded exactly when depth > BITS/2, otherwise yields an index of that depth whose to_grid_index(ord) is g mod 2^depth.",
 "all grid indices, all depths, both orderings, all widths","Depth interacts with the chunking; only three depths are tested. False for depth 0 on the 128 bit index in builds with overflow checks (shift overflow panic).",
 [I2+"::MortonIndex2D<StaticStorage2D<B>>::from_grid_index"])
p("C09","Static 3D grid round trip at every depth",
 "Static 3D from_grid_index(g, depth, ord) yields, for every depth <= MAX_LEVELS, an index of that depth whose to_grid_index(ord) is g mod 2^depth.",
 "all grid indices, all depths, all six orderings, all widths","The loss only occurs for depths at which the number of 8-bit chunks that is processed is too small; the unit tests use depths 1, MAX-1, MAX only. (The property is FALSE of the code for 32, 64 and 128 bit indices.)",
 [I3+"::MortonIndex3D<StaticStorage3D<B>>::from_grid_index"])
p("C10","Dynamic grid round trip",
 "Dynamic from_grid_index(g, depth, ord) in 2D and 3D panics exactly when depth > usize::BITS/2 and otherwise yields an index of that depth whose to_grid_index(ord) is g mod 2^depth. (3D: on little-endian and on 16-bit targets; C36 says what happens on the others.)",
 "all grid indices, all depths, all orderings","All depths times 2^64 coordinates, chunk boundaries at every multiple of 4.",
 [I2+"::MortonIndex2D<DynamicStorage2D>::from_grid_index",I3+"::MortonIndex3D<DynamicStorage3D>::from_grid_index"])
p("C11","to_grid_index is the binary expansion of the cell path",
 "For every index of depth <= usize::BITS, to_grid_index(ord) does not panic and each coordinate is the number whose binary digits, most significant first, are that coordinate of ord.to_index(cell) for the cells from root to leaf; in particular it is < 2^depth.",
 "all indices, all orderings","All cell paths of up to 64 levels.",
 [I2+"::MortonIndex2D::to_grid_index",I3+"::MortonIndex3D::to_grid_index"])
p("C12","from_grid_index inverts to_grid_index",
 "Converting an index to its grid index and back (with its own depth and the same ordering) yields an index that compares equal (==) to the original, for fixed-depth 2D/3D, static 2D and dynamic 2D/3D indices; a static 3D index compares equal exactly if the coordinate bits that from_grid_index loses (C09) are zero.",
 "all indices built through the API for which from_grid_index is defined: MAX levels fit usize (C06, C07, C08, C09 say what happens otherwise; fixed-depth 3D: usize of at least 32 bits; static 2D with MAX = usize::BITS: not the root with overflow checks), dynamic up to usize::BITS/2 levels and in 3D where C36 allows writes; all orderings","Equality is on the raw bits, so stray bits anywhere would break it.",
 [I2+"::from_grid_index",I3+"::from_grid_index",I2+"::StaticStorage2D::eq"])
p("C13","from_grid_index_fast equals from_grid_index",
 "FixedDepthMortonIndex3D64::from_grid_index_fast returns the same index as from_grid_index for every grid index and ordering.",
 "all usize triples, six orderings","There is no test of from_grid_index_fast at all; 2^192 inputs.",
 [I3+"::from_grid_index_fast"])
p("C14","ancestor(n) drops the last n cells",
 "ancestor(n) of a variable depth index is None exactly when n > depth(); otherwise it is an index of depth depth()-n holding the first depth()-n cells. parent() is ancestor(1), None exactly at the root.",
 "all static and dynamic indices, all n >= 1 in usize","All depths and all n, with masks that depend on depth modulo 4 or 8.",
 [I2+"::StaticStorage2D::ancestor",I2+"::DynamicStorage2D::ancestor",I3+"::DynamicStorage3D::ancestor",M+"::VariableDepthMortonIndex::parent"])
p("C15","descendant(cells) appends cells",
 "descendant(cells) of a static index is None exactly when depth()+cells.len() exceeds the capacity, a dynamic index never returns None and does not panic while the bits are addressable with usize (C46); otherwise the result holds the cells of the index followed by the given cells. child(c) is descendant(&[c]). (Dynamic storage: on little-endian and on 16-bit targets; C36 says what happens on the others.)",
 "all static and dynamic indices, all cell slices","Unbounded slices and every alignment of the old depth inside a byte.",
 [I2+"::StaticStorage2D::descendant",I2+"::DynamicStorage2D::descendant",I3+"::DynamicStorage3D::descendant",M+"::VariableDepthMortonIndex::child"])
p("C16","ancestor undoes descendant",
 "If descendant(cells) returns d and cells is not empty then d.ancestor(cells.len()) compares equal to the original index; in particular i.child(c).parent() == i.",
 "all API-built static and dynamic indices, all cell slices (dynamic: while the bits are addressable with usize, C46)","Equality is bit-exact, so all leftover bits must be cleared for all alignments.",
 [M+"::VariableDepthMortonIndex",I2+"::DynamicStorage2D::ancestor",I3+"::DynamicStorage3D::ancestor"])
p("C17","with_depth truncates",
 "with_depth(n) is None exactly when n > depth(), otherwise it holds exactly the first n cells (the index itself when n == depth()).",
 "all static and dynamic indices, all n","All depths and all n.",[M+"::VariableDepthMortonIndex::with_depth"])
p("C18","Ordering is the depth-first pre-order of the tree",
 "cmp of two indices of the same type compares their cell paths lexicographically, with a path smaller than all its proper extensions. (Fixed-depth 3D indices with the same cells are compared by the raw bits behind them, see C58.)",
 "all pairs of valid indices, all storage kinds","All pairs of indices with all depth combinations; static storage compares masked integers, dynamic storage cells.",
 [I2+"::StaticStorage2D::cmp",I3+"::StaticStorage3D::cmp",I2+"::DynamicStorage2D::cmp",I3+"::DynamicStorage3D::cmp",I2+"::FixedDepthStorage2D"])
p("C19","Ord is a total order consistent with Eq",
 "cmp is reflexive, antisymmetric (a.cmp(b) is the reverse of b.cmp(a)) and transitive, and a.cmp(b) == Equal if and only if a == b, for all indices built by API functions other than from_raw_index and DynamicMortonIndex2D::zeroed.",
 "all triples of API-built indices","Sorting and BTreeMap rely on it for all triples.",
 [I2+"::Ord for StaticStorage2D",I2+"::PartialEq for StaticStorage2D",I2+"::Ord for DynamicStorage2D"])
p("C20","A subtree is contiguous in sorted order",
 "If a <= x <= b and both a and b are descendants of (or equal to) a node p then x is p or a descendant of p.",
 "all quadruples of indices","Statement about all sorted sequences.",[I2+"::Ord for StaticStorage2D",I3+"::Ord for StaticStorage3D","README.md (sorting gives a quadtree/octree)"])
p("C21","Equality is equality of paths",
 "Two indices of one type that were built through the API (excluding from_raw_index, DynamicMortonIndex2D::zeroed and the dynamic to fixed conversion) satisfy a == b if and only if they have the same depth and the same cells.",
 "all API histories producing the two values","Two different histories (e.g. growing then shrinking) must leave identical bits.",
 [I2+"::PartialEq for StaticStorage2D",I3+"::PartialEq for StaticStorage3D",I2+"::DynamicStorage2D (derived PartialEq)"])
p("C22","DynamicMortonIndex2D::zeroed equals the all-zero path",
 "DynamicMortonIndex2D::zeroed(depth) compares equal to the index built from depth times Quadrant::Zero, and zeroed(0) equals default().",
 "all depths","False exactly when depth is a multiple of 4 (one byte too many is allocated), never tested.",
 [I2+"::DynamicStorage2D::zeroed"])
p("C23","Conversions preserve the path",
 "fixed->static, fixed->dynamic, static->dynamic and dynamic->static conversions preserve all cells (dynamic->static fails exactly when the depth exceeds the capacity); static->fixed preserves the cells and fills the rest with cell Zero. (static->dynamic: on little-endian and on 16-bit targets; C36 says what happens on the others.)",
 "all indices, all widths, 2D and 3D","Bit layouts differ between storages, for all depths and widths.",
 [I2+"::From/TryFrom conversions",I3+"::From/TryFrom conversions"])
p("C24","dynamic->fixed conversion preserves the path",
 "Converting a dynamic index of depth d <= MAX to a fixed-depth index succeeds and yields the cells of the dynamic index followed by Zero cells.",
 "all dynamic indices, all widths","False whenever the dynamic index occupies fewer bytes than the integer; tests only use depths for which the byte counts agree.",
 [I2+"::TryFrom<MortonIndex2D<DynamicStorage2D>> for MortonIndex2D<FixedDepthStorage2D<B>>",I3+" (same)"])
p("C25","inverted() reverses the path",
 "inverted() returns an index of the same depth whose cells are in reverse order, and i.inverted().inverted() == i. (Dynamic storage: on little-endian and on 16-bit targets; C36 says what happens on the others.)",
 "all indices of all kinds","All paths of all lengths.",[M+"::MortonIndex::inverted"])
p("C26","Cell concatenation names are faithful",
 "to_string(CellConcatenation) is the string with one digit per level equal to the cell's index; to_string(CellConcatenationWithRoot) is the same with prefix 'r'; two indices of one type have the same name iff they have the same cells.",
 "all indices","All paths.",[I2+"::MortonIndex2D::to_string",I3+"::MortonIndex3D::to_string"])
p("C27","Grid names are faithful",
 "For depth <= usize::BITS, to_string(GridIndex) is depth-x-y(-z) in decimal where (x,y,z) is the grid index in default ordering, and two indices with the same name have the same cells.",
 "all indices of depth <= usize::BITS","All paths; injectivity is a statement about all pairs.",[I2+"::MortonIndex2D::to_string",I3+"::MortonIndex3D::to_string"])
p("C28","Cell numbering is a bijection",
 "Quadrant/Octant::try_from(n) succeeds exactly for n < 4 / n < 8 (otherwise CellIndexOutOfRange), and index() and try_from are inverse to each other; the derived order of cells is the order of their indices.",
 "all usize values","All of usize.",["src/dimensions/dim_2d.rs","src/dimensions/dim_3d.rs"])
p("C29","Cell orderings are bijections agreeing with the documentation",
 "For every ordering, to_index maps the cells bijectively onto {0,1}^N, sends the power-of-two cells to the documented unit vectors, and (3D) agrees with get_bit_shifts_for_xyz.",
 "all orderings and cells","Finite; complements C06..C12 which rely on it for all inputs.",["src/dimensions/dim_2d.rs::QuadrantOrdering","src/dimensions/dim_3d.rs::OctantOrdering"])
p("C30","Bit range access on integers",
 "For every unsigned type and every range s..e inside it, get_bits returns the number formed by bits s..e; set_bits with a value that fits replaces exactly these bits (s < BITS) and changes no other bit; neither panics.",
 "all values, all ranges, all unsigned types","2^128 values times all ranges, with shift-by-word-size corner cases.",[NU+"::impl_bits!"])
p("C31","Bit range writes and usize reads on byte vectors",
 "On a little-endian target, set_bits / set_bits_from_usize on a Vec<u8> replace exactly the bits s..e of the little-endian bit string and nothing else, and get_bits_as_usize reads the bits s..e (ranges up to usize::BITS), without panic or out-of-bounds read, when the new value has at least as many bits as the range.",
 "all byte vectors, all ranges inside them, all values","Unbounded vectors and all alignments of source and destination.",[NU+"::set_vec_u8_bits",NU+"::Bits for Vec<u8>"])
p("C32","get_bits on byte vectors",
 "get_bits(s..e) on a Vec<u8> returns ceil((e-s)/8) bytes holding exactly the bits s..e with zero bits above.",
 "all byte vectors and ranges","False when the last byte contributes only bits that are carried into the previous byte (e.g. 4..9): bits above e leak. Tests only use ranges for which this does not happen.",[NU+"::Bits for Vec<u8>::get_bits"])
p("C33","Bit spreading helpers",
 "add_zero_before/behind_every_bit_u8 spread the lower 4 bits, add_zero_before_every_bit_u16 the lower 8 bits, add_two_zeroes_before_every_bit_u8 all 8 bits and add_two_zeroes_before_every_bit_u32 the lower 21 bits of the argument, ignoring higher bits.",
 "all argument values of the integer type","2^32 arguments; for the u8/u16 2D helpers the claim is false for arguments with higher bits set.",[NU+"::add_zero_before_every_bit_u8",NU+"::add_two_zeroes_before_every_bit_u32"])
p("C34","align_to rounds up to a multiple",
 "x.align_to(a) is x for a = 0 and otherwise the smallest multiple of a that is >= x, whenever that multiple is representable in the type.",
 "all values and alignments of all unsigned types","2^256 argument pairs; false near the top of the type (intermediate sum overflows).",["src/align.rs"])
p("C35","Displayable slices",
 "make_displayable(slice, naming) displays as '[' + the names joined by ', ' + ']', Debug equals Display, and == / cmp are those of the underlying slices.",
 "all slices of indices","Unbounded slices.",["src/helper.rs"])
p("C36","Dynamic indices work on big-endian targets",
 "On a big-endian target DynamicMortonIndex::try_from(cells) reads back the given cells.",
 "all cell sequences on big-endian targets","Tests run on little-endian hosts only; false: every written cell becomes Zero.",[NU+"::set_vec_u8_bits",NU+"::set_bits_from_usize"])
p("C37","Byte slice conversions",
 "from_u8_slice(bytes, e) of an integer type of n bytes equals the value of the first n bytes, right-padded with zero bytes, read in byte order e; and from_u8_slice(as_u8_slice(v), native order) = v. Writing one byte through as_u8_slice_mut replaces exactly the eight bits that byte stands for in the native byte order and panics outside the slice.",
 "all byte slices of all lengths, all values","Unbounded slices, 2^128 values.",[NU+"::from_u8_slice",NU+"::as_u8_slice"])
p("C38","Any history of API calls behaves like a list of cells",
 "Starting from default/zeroed/try_from/from_grid_index, after any sequence of successful set_cell_at_level, child, descendant, ancestor, parent, with_depth, inverted and conversions, every observation (depth, cells, cmp, to_grid_index, names) is that of the list of cells obtained by performing the same operations on plain lists. On big-endian targets with 32-bit or 64-bit usize the list operation for a write to a dynamic index puts Zero (C36).",
 "all finite histories of API calls","Histories are unbounded.",[M,I2,I3])
p("C39","Valid use never panics and does not depend on the build profile",
 "Within the documented preconditions no API function panics or performs an out-of-bounds read, and builds with and without overflow checks return the same results.",
 "all valid calls, both overflow-check settings, all pointer widths","Overflow checks change behaviour only on rare inputs (e.g. StaticMortonIndex2D128::from_grid_index with depth 0 panics only with overflow checks).",[I2,I3,NU])
p("C40","Z-order is monotone",
 "For two grid indices with x<=x', y<=y' (and z<=z') inside the grid, the Morton index of the first is <= the Morton index of the second, for every ordering, and the two are equal only if the grid indices are.",
 "all pairs of grid indices, for fixed-depth indices within the limits of C06 and C07","All pairs out of 2^64..2^192 grid indices.",[I2+"::from_grid_index",I3+"::from_grid_index"])
p("C41","Ancestors are coarser grid cells",
 "to_grid_index of ancestor(n) is to_grid_index of the index shifted right by n, and to_grid_index of child(c) is twice the grid index plus ord.to_index(c).",
 "all variable depth indices of depth <= usize::BITS, all n","All paths and all n.",[I2+"::to_grid_index",I3+"::to_grid_index",M+"::ancestor"])
p("C42","to_grid_index of deep indices",
 "to_grid_index of a dynamic index returns the binary expansion of its path for every depth.",
 "dynamic indices of every depth","False for depth > usize::BITS: panics with overflow checks, returns wrong coordinates without (TODO.md asks what happens).",[I2+"::to_grid_index","TODO.md"])
p("C43","Raw construction respects Eq/Ord consistency",
 "StaticMortonIndex3D::from_raw_index / FixedDepthMortonIndex3D::from_raw_index values with equal cells are equal, and cmp never panics.",
 "all raw bit patterns and depths","False for raw bits below the used levels and for depths above the capacity; never tested.",[I3+"::from_raw_index"])
p("C44","Hash is consistent with Eq",
 "a == b implies that a and b feed the same data to a Hasher; indices with the same path built through the API (as in C21) hash equally.",
 "all pairs of indices","All pairs and histories.",[I2+"::StaticStorage2D (derive Hash)",I3+"::StaticStorage3D (derive Hash)"])
p("C45","Conversions preserve the order",
 "static->dynamic, fixed->static and fixed->dynamic conversions preserve the result of cmp for all pairs. static->fixed, which forgets the depth, never reverses it: a smaller index becomes an equal one exactly if the other differs by Zero cells at its end only. (static->dynamic: on little-endian and on 16-bit targets.)",
 "all pairs of indices (from fixed-depth indices: without raw bits behind the cells, see C43)","All pairs; the storages implement cmp by different algorithms.",[I2+"::From",I3+"::From",I2+"::cmp"])
p("C46","Dynamic storage capacity",
 "A DynamicMortonIndex can represent an unlimited number of cells.",
 "all depths","False once the byte length times 8 exceeds usize (2^W/8 bytes): with overflow checks all accesses panic. Needs 512 MiB on 32-bit, so not tested.",[S+"::DynamicStorage::get_cell_at_level_unchecked"])
p("C47","default() and zeroed() denote zero paths",
 "default() is the root (depth 0) for static and dynamic indices and the all-Zero path for fixed indices; zeroed(d) has depth d and only Zero cells; static zeroed(d) is None exactly when d exceeds the capacity.",
 "all depths (dynamic: while the bits are addressable with usize, C46)","All depths (u8 / usize).",[I2+"::zeroed",I3+"::zeroed",I2+"::Default"])
p("C48","The safe API performs no out-of-bounds memory access",
 "No call of a function of MortonIndex, VariableDepthMortonIndex, the constructors, conversions, grid functions, names, and no set_bits call on a byte vector whose new value has enough bytes for the range, reads outside an allocation: every such call on any arguments either returns or panics.",
 "all indices (not only valid ones), all arguments, all targets and build profiles","number.rs reads through raw pointers cast to u16; an out-of-bounds read is not detectable by an assertion and depends on range alignment.",[NU+"::set_vec_u8_bits",M,I2,I3])
p("C49","max_depth() is the exact depth limit",
 "max_depth() of a fixed-depth or static storage is Some(m) such that try_from(cells) succeeds exactly when cells.len() <= m; every fixed index has depth m; every static index has depth at most m, every depth up to m occurs, and descendant(cells) is Some exactly when depth + cells.len() <= m. max_depth() of dynamic storage is None and try_from succeeds for every number of cells whose bits can be addressed with a usize.",
 "all storages, all cell sequences, all indices","All cell sequences and all indices.",[S+"::max_depth",I2+"::try_from",I3+"::try_from",I2+"::descendant"])
p("C50","Comparison operators follow the depth-first order of nodes",
 "partial_cmp is Some(cmp), and for indices built through the API <, <=, >, >= return and say whether the first node is visited before (or is equal to) the second in a depth-first traversal that visits children in the order of their cell index; max, min and clamp return the index that this order asks for, clamp panics exactly when its bounds are in the wrong order.",
 "all pairs (triples) of indices of the same type","All pairs; the storages implement cmp by different algorithms.",[I2+"::partial_cmp",I3+"::partial_cmp",I2+"::cmp",I3+"::cmp"])
p("C51","Orderings are permutations of the axes",
 "from_grid_index with any ordering equals from_grid_index with the default ordering applied to the coordinates permuted as documented for the ordering (same result, same error, same panics), and to_grid_index with any ordering is the same permutation of to_grid_index with the default ordering.",
 "all coordinates, depths, orderings, storages, targets and profiles","2^192 coordinates times 8 orderings; includes the calls that lose bits or panic.",[I2+"::from_grid_index",I3+"::from_grid_index",I2+"::to_grid_index",I3+"::to_grid_index","src/dimensions/dim_3d.rs::get_bit_shifts_for_xyz"])
p("C52","A sorted list of indices is a linear tree",
 "After sorting, any list of indices built through the API lists its nodes in depth-first order; the result does not depend on the sorting algorithm; every subtree is one contiguous block, which starts with the root of the subtree if that is in the list.",
 "all finite lists of indices","README: sort a bunch of 2D Morton indices and you have a quadtree. Lists are unbounded.",["README.md",I2+"::cmp",I3+"::cmp"])
p("C53","MAX_LEVELS bounds the depth",
 "The depth of every index is at most the associated constant MAX_LEVELS of its storage type.",
 "all indices of all storages","False for dynamic storage, whose MAX_LEVELS is 0 (marked TODO in the source).",[S+"::DynamicStorage::MAX_LEVELS"])
p("C54","Bit ranges outside the integer",
 "get_bits of an integer with a range that begins at or behind its last bit returns 0; a range longer than the integer panics with overflow checks; set_bits with a range that begins behind the last bit panics with overflow checks.",
 "all integer types, all values, all ranges whose ends are usize values","False: the start of the range is cut to the integer type and to 32 bits first, so u8 get_bits(256..264) returns the whole byte. Tests use ranges inside the integer.",[NU+"::get_bits",NU+"::set_bits"])
p("C55","Conversions there and back are the identity",
 "fixed->dynamic->fixed and dynamic->static->dynamic (when the depth fits) yield an index equal to the original; fixed->dynamic->static equals fixed->static; static->fixed->static yields the original cells filled with Zero cells up to the maximum depth, so it equals the original exactly when that has the maximum depth.",
 "all indices, all integer types, all targets","False on big-endian targets: fixed->dynamic->fixed reverses the bytes. Tests run on little-endian machines only.",[I2+"::From",I3+"::From",I2+"::TryFrom",I3+"::TryFrom",NU+"::from_u8_slice"])
p("C56","Error texts name the limit",
 "Displaying an Error gives 'Exceeded the depth limit of N levels for this Morton index type' with N the decimal limit, or 'Cell index is out of range'; Debug gives the variant with its field; different errors have different texts, and the N shown by a failed try_from is BITS/DIM of its type, exceeded by the number of cells.",
 "all errors, all integer types, all cell sequences","All limits and all failing calls.",["src/error.rs::Error",I2+"::try_from",I3+"::try_from"])
p("C57","Storage types address cells by level, whatever type holds the bits",
 "FixedDepthStorage, StaticStorage and DynamicStorage read and write the cell of a level at the DIM bits below bit BITS - DIM*level (BITS: the width of the storage type's integer, for DynamicStorage the width of the bits themselves) of any value that implements Bits, integers of any width and byte vectors alike; reads return these bits, writes replace exactly these bits.",
 "all levels inside the storage, all values of all Bits types of the crate, all targets","StorageType is a public trait with methods generic in T: Bits, but the crate only calls it with one T per storage type. False for FixedDepthStorage and StaticStorage in 3D on byte vectors: reading an octant that crosses a byte boundary panics or depends on the bits above it.",[S+"::StorageType",S+"::get_cell_at_level_unchecked",S+"::set_cell_at_level_unchecked",NU+"::Bits"])
p("C58","Editing the bits of a storage",
 "After replacing the bits of a storage through bits_mut() by any value, its depth is unchanged and its cells are the fields of the new bits, the root at the top; cmp of edited static and dynamic storages compares these cells, of fixed-depth storages also the bits behind them; an edited storage equals the one made from its cells exactly when the bits behind the cells are zero (and a byte vector has no more bytes than needed; dynamic storages: on little-endian and on 16-bit targets, see C36); with overflow checks, reading and writing a level for which a byte vector has no bits panics, and cmp panics exactly if no level before the first such one decides; without them bit positions wrap around, so that the first of these levels read as Zero and ignore writes and the others panic.",
 "all storages, all replacement bits","bits_mut is safe and public, so every bit pattern can occur.",[S+"::bits_mut",I2+"::bits_mut",I3+"::bits_mut",I2+"::cmp",I3+"::cmp"])
p("C59","Indices are ordered like Morton codes",
 "cmp of two indices is the comparison of the Morton codes of their grid coordinates (the bits of the coordinates interleaved in the order named by the ordering), each code padded with zero bits to the deeper one; equal padded codes are ordered by depth. For static indices cmp is the comparison of the bits as numbers, then of the depths; for dynamic indices it is the comparison of the bytes from the last one on (a beginning of a string comes before the string), then of the depths (not of the bytes in stored order, and not for DynamicMortonIndex2D::zeroed with its spare byte). The raw bits produced from 3D grid coordinates by fixed-depth, fast and static construction are the Morton code of the coordinates followed by the unused bits as zeros (for static indices: of the coordinates with the bits lost by C09 cleared).",
 "all indices obtainable by API calls whose depth fits usize (3D fixed-depth indices: without raw bits behind the cells, see C43; bits and bytes: no limit on the depth, but not from raw bits or zeroed), all orderings, all grid coordinates; raw bits: targets with usize of at least 32 bits for fixed-depth indices","The order must agree with the code for every pair of points; tests compare a few pairs.",[I2+"::cmp",I3+"::cmp",I2+"::to_grid_index",I3+"::to_grid_index",I3+"::from_grid_index",I3+"::from_grid_index_fast",I3+"::from_raw_index"])
p("C60","Nodes nest like the regions they cover",
 "For indices a and b, a is an ancestor of b or b itself exactly when a is not deeper and dropping the last depth(b)-depth(a) bits of every grid coordinate of b gives the grid coordinates of a; this is also exactly when b.with_depth(a.depth()) equals a. For static and dynamic indices it is exactly when a is not deeper and the raw bits of a and b agree in the bits that the cells of a occupy. Two nodes cover a common grid cell of some finer resolution exactly when one is an ancestor of the other or they are the same node.",
 "all indices obtainable by API calls whose depth fits usize (with_depth: not from raw bits; raw bits: no limit on the depth, not from raw bits or zeroed), all orderings, all resolutions","Disjointness of regions is a statement about all pairs of nodes.",[I2+"::to_grid_index",I3+"::to_grid_index",M+"::with_depth",I2+"::ancestor",I3+"::ancestor"])
p("C61","A subtree is a range of the order",
 "Let hi be the descendant of p reached by taking the last cell n times. An index x that is at most n levels deeper than p lies between p and hi (p <= x and x <= hi) exactly when it is p or a descendant of p. Deeper indices below hi come after hi, so the limit on the depth is needed.",
 "all indices obtainable by API calls (3D fixed-depth indices: without raw bits behind the cells, see C43), all n","Range scans over sorted indices rely on it for every node and every depth.",[I2+"::cmp",I3+"::cmp",I2+"::descendant",I3+"::descendant"])
p("C62","Debug texts identify values",
 "{:?} of an index prints MortonIndex2D or MortonIndex3D with its storage struct, the bits as a decimal number (dynamic: the bytes as a bracketed list) and the depth; two indices of one type have the same text exactly when they are equal (==), and the text tells the dimension and whether the depth is fixed, static or dynamic. Indices made by API calls other than from raw bits have the same text exactly when they have the same cells. Debug texts of quadrants, octants, orderings and namings are different for different values.",
 "all values of all storage types","All pairs of values; e.g. bytes [1, 23] and [12, 3] must not collide.",[I2+"::derive(Debug)",I3+"::derive(Debug)","src/dimensions/dim_2d.rs::derive(Debug)","src/dimensions/dim_3d.rs::derive(Debug)",M+"::derive(Debug)"])
p("C63","Displaying a slice respects the formatter",
 "Display and Debug of a displayable slice hand the writer an opening bracket, the names with a separator between any two, and a closing bracket, in this order; they stop at the first text the writer refuses and report the failure, and report success otherwise. So a buffer of limited capacity ends up with a beginning of the full text, and success is reported exactly if the full text fits.",
 "all slices whose names can be formed, all writers, all namings","core::fmt::Write implementations are arbitrary; tests format into a String, which never fails.",["src/helper.rs::fmt"])
p("C64","Standard iterator methods on cells()",
 "nth(n), count(), last() and fold() of the iterator over the cells, called after any number of next() or nth() calls, see exactly the remaining cells in order from the root down; nth moves past the returned cell, and past the end it returns None and stays at the end. last() of a fresh iterator is the cell of the deepest level.",
 "all indices, all iterator positions, all n, all closures","README uses cells().last(); positions and n are unbounded.",["src/indices/mod.rs::CellIter::next",I2+"::cells",I3+"::cells","README.md"])
p("C65","Static 3D indices from a raw value with too many levels",
 "StaticMortonIndex3D::from_raw_index takes any u8 as depth. If the depth exceeds BITS/3, depth() reports it, the levels that fit read and write as usual, and with overflow checks every access to a level beyond, and everything that visits all levels (cells, grid coordinates, names, inversion, conversion to dynamic, ancestors), panics; child and descendant return None. Without overflow checks nothing panics: cells beyond the maximum read as cell 0 (8-bit storage: as bits of the value taken from a wrapped position), and writing one of them changes the bits at the position that level would have modulo BITS, i.e. cells of other levels. So parent and ancestor clear bits of levels they should keep, inversion gives the inverted cells only on the levels that fit, and the other operations use the cells read.",
 "all integer types, all raw values, all depths above BITS/3, all levels","from_raw_index is public and does not check the depth; the tests pass depths that fit.",[I3+"::from_raw_index",S+"::get_cell_at_level_unchecked",S+"::set_cell_at_level_unchecked",I3+"::descendant",I3+"::ancestor"])
p("C66","Dimensions defined outside the crate",
 "In a user-defined dimension (cells numbered below 2^DIM, try_from of the number of a cell gives the cell), FixedDepthStorage, StaticStorage and DynamicStorage address DIM bits per level from the top down; reading a level just written gives the written cell and every other level is unchanged. So their values hold lists of cells and writes replace one element. DynamicStorage never changes bits outside of the level.",
 "all dimensions satisfying the laws, all integer types, all values, all levels inside the storage, all targets","Dimension is a public trait; the crate only has instances of dimensionality 2 and 3. False above dimensionality 8 for FixedDepthStorage and StaticStorage, which keep 8 bits of the index (TODO in the source); for DynamicStorage false on big-endian targets and for DIM beyond the bits of usize.",[S+"::StorageType",S+"::get_cell_at_level_unchecked",S+"::set_cell_at_level_unchecked","src/dimensions/mod.rs::Dimension"])
p("C67","Storages defined outside the crate",
 "For every implementation of Storage whose values behave like lists of cells (writing a level replaces one element), the methods the crate provides on top work: cells() lists the cells from the root down, names and grid coordinates are those of the cells, the checked accessors panic exactly outside the depth, inverted() reverses the cells. If its ancestor and descendant also behave like lists, with_depth, parent and child do. The unsafe accessors are only ever called with levels below the depth, whatever the storage does otherwise.",
 "all implementations of Storage and VariableDepthStorage, all values, all levels","Storage is a public trait; implementations outside the crate cannot be enumerated by tests. Calling an unsafe accessor outside its contract would be undefined behaviour in safe client code.",[M+"::MortonIndex",M+"::VariableDepthMortonIndex","src/indices/mod.rs::CellIter::next",S+"::Storage",I2+"::to_grid_index",I3+"::to_grid_index",I2+"::to_string",I3+"::to_string",M+"::inverted"])
p("C68","Bit types defined outside the crate",
 "For every type that behaves like an unsigned integer of BITS bits (any number of bits, e.g. 256), FixedDepthStorage and StaticStorage over it hold BITS/DIM cells resp. up to that many, from the top bits down: reads, writes, try_from (error beyond BITS/DIM), zeroed, ancestor, descendant, the conversions between the two, == and cmp have the results they have on lists of cells. Equal values hash equally if those of the type do.",
 "all types satisfying the laws, all values, 2D and 3D, all targets","FixedStorageType is meant for types of any width (doc comment of the trait); the crate only implements it for the native integers. False for static storages with 256 or more levels: the depth is kept in a u8.",["src/indices/mod.rs::FixedStorageType",S+"::FixedDepthStorage",S+"::StaticStorage",I2+"::FixedDepthStorage2D",I2+"::StaticStorage2D",I3+"::FixedDepthStorage3D",I3+"::StaticStorage3D"])
p("C69","Grid indices and dynamic indices over bit types defined outside the crate",
 "For every type that behaves like an unsigned integer of BITS bits, from_grid_index of fixed-depth and static indices yields the cells leading to the grid point under the given ordering (static 3D: after clearing the coordinate bits that C09 describes), with an error for depths beyond BITS/DIM; static indices over types with more than usize::BITS levels panic or lose the high coordinate bits; conversions from fixed-depth and static to dynamic indices keep the cells; dynamic to static keeps them up to 255 levels; dynamic to fixed takes the bytes over in native order, which keeps the cells on little-endian targets if there are BITS/8 bytes.",
 "all types satisfying the laws, all coordinates, depths, orderings and values, all targets","The crate tests only native integers. False in 2D when BITS is not a multiple of 8: with BITS mod 8 = 1 the cells are those of another point (the axes swap, one loses its lowest bit), otherwise set_bits is called outside of the value.",[I2+"::from_grid_index",I3+"::from_grid_index",I2+"::TryFrom",I3+"::TryFrom","src/number.rs::Bits","src/indices/mod.rs::FixedStorageType"])
p("C70","Alternate debug texts",
 "{:#?} of an index prints one field per line, indented by four spaces per level of nesting, each followed by a comma: the index struct, in it the storage struct, in it the bits as a decimal number (dynamic: one byte per line, [] if there are none) and the depth. Two indices of one type have the same text exactly when they are equal (==), and the text tells the dimension and whether the depth is fixed, static or dynamic. {:#?} of errors is different for different errors. {:#?} of a displayable slice is its {} text.",
 "all values of all storage types, all errors","Values and byte vectors are unbounded; the tests never look at Debug texts.",[I2+"::derive(Debug)",I3+"::derive(Debug)","src/error.rs::derive(Debug)"])
p("C71","Operations and the order",
 "After set_cell_at_level(i, x) an index compares to its old value like the cells x and the old cell i compare by their numbers. Truncating two indices to the same depth (with_depth; or ancestor with the same number of generations when both have the same depth) keeps their order or makes them equal; for indices of different depths the parents can be in the opposite order. Descendants of one node compare like the appended cells, read as paths in pre-order. Descendants of two different nodes of one level compare like the nodes.",
 "all indices (set: all storage types; otherwise static and dynamic), all levels, cells, depths and generations; dynamic writes: targets where writes work, see C36","Sorted containers of indices rely on it for every pair of indices.",[I2+"::cmp",I3+"::cmp",M+"::with_depth",S+"::set_cell_at_level_unchecked",I2+"::ancestor",I3+"::ancestor",I2+"::descendant",I3+"::descendant"])
p("C72","Operations and grid coordinates",
 "The cell at level i consists of bit depth()-1-i of every grid coordinate: reading it gives these bits as its offsets under the ordering, writing it replaces them and no other bit. Each appended cell (child, descendant) doubles the coordinates and adds its offsets. The grid coordinates of idx.inverted() are those of idx with their depth() bits read in the opposite direction, on every axis.",
 "all indices whose depth fits usize (after appending), all levels, cells and orderings; dynamic writes: targets where writes work, see C36","The relation holds for every depth and every coordinate; the tests compare a few indices with a few coordinates.",[M+"::inverted",M+"::set_cell_at_level",M+"::child",I2+"::descendant",I3+"::descendant",I2+"::to_grid_index",I3+"::to_grid_index"])
p("C73","Hashing with any Hasher",
 "Equal (==) indices make the same calls on a Hasher, so any implementation of Hasher computes the same hash for them, in particular for indices of the same path; different indices of one type make different calls. With the default methods of Hasher the bytes written for one index are never a prefix of those of another index of the type, so tuples, slices and vectors of indices that differ write different bytes. The same holds for cells.",
 "all indices, all storage types, all hashers, all targets","A hasher is client code; HashMap and HashSet rely on this for every pair of keys.",[I2+"::derive(Hash)",I3+"::derive(Hash)","src/dimensions/dim_2d.rs::Quadrant","src/dimensions/dim_3d.rs::Octant"])
p("C74","Indices as keys of maps",
 "Indices made by any history of API calls (that leaves one representation per path) work as keys of hash maps and ordered maps: after any sequence of insertions and removals, looking up an index gives what the last step for an index with the same path left there. An ordered map never panics in a comparison, and iterating over it visits the nodes in depth-first order.",
 "all sequences of insertions and removals, all indices, all hashers and bucket choices","Keys, hashers and sequences are unbounded. The maps are std's: modelled as buckets with == resp. sorted entries with cmp.",[I2+"::derive(Hash)",I3+"::derive(Hash)",I2+"::Ord",I3+"::Ord",I2+"::PartialEq",I3+"::PartialEq"])
p("C75","Debug texts with formatting flags",
 "Under any formatting flags (x?, X?, #, +, 0, width, fill, alignment) Debug of an index prints the struct and field names of C62/C70 and formats each of its numbers with these flags: sign, 0x if asked for, the numeral in base 10 or 16, filled up to the width in the documented way. Two indices of one type have the same text exactly when they are equal, unless numbers are padded with commas, closing brackets, line breaks or digits; digits are allowed on the left if they are zeros or in front of + or 0x, and every other padding with digits is ambiguous: with {:0<5?} the indices with bits 5 and 50 have the same text. The text always tells the type. The same holds for errors. Displayable slices ignore all flags.",
 "all flags, widths and fill characters, all values of all storage types, all errors","Flags, widths and values are unbounded; the tests never look at Debug texts.",[I2+"::derive(Debug)",I3+"::derive(Debug)","src/error.rs::derive(Debug)","src/helper.rs::fmt"])
p("C76","The randomised tests for every outcome of the generator",
 "On 64-bit little-endian targets every randomised test of the 2D and 3D index modules passes whatever numbers the random generator gives. The tests of fixed and static indices without grid indices pass on every target, those of dynamic indices wherever dynamic storages can be written (C36), the conversions on every little-endian target, and the grid tests of fixed and static indices whose levels are not more than the bits of usize (fixed 3D: usize of at least 32 bits). On narrower targets the grid tests of fixed indices with more levels than usize has bits, those of dynamic indices, and with overflow checks those of static indices with more levels than usize has bits and (16-bit) those of fixed 3D indices fail for every generator; without the checks the latter pass on 16-bit targets exactly when there are at most 16 levels and only the number 0 is drawn, and the former pass exactly when only the number 0 is drawn. On big-endian 32- and 64-bit targets the tests from_even/odd_number_of_quadrants (octants) pass exactly when only the number 0 is drawn. The 3D tests never draw octants 4 to 7, and the depths at which static 3D round trips are tested are among those at which no generator can expose the defect of C09. On 32- and 64-bit targets the benchmark converts each grid index it draws to the 3D index of that position, whatever is drawn. Each kind of assertion in the tests passes exactly for the depth, the cells, the missing levels, the root and the maximum number of levels of an index, a navigation result compared with an expected index passes only for the same node, and the grid round trip tests pass exactly if the constructor under test gives the index back for every ordering; the tests of the ordering accept a node after its descendants.",
 "all sequences of random numbers, all tested storage types, all targets","A test run sees one sequence of random numbers per run.",["src/indices/morton_index_2d.rs::tests","src/indices/morton_index_3d.rs::tests","benches/morton_index_3d_bench.rs::bench"])
p("C77","The layout of the bits",
 "The bits of an index (Storage::bits) are a function of its cells: the cell numbers, one after the other from the top of the integer, followed by zero bits. For dynamic indices they are written this way into as many bytes as they need, the last byte being the top. Indices that started from raw bits or from DynamicMortonIndex2D::zeroed of a depth divisible by 4 have their cells at the top as well, but other bits may follow, and such a dynamic index has at most one spare byte.",
 "all histories of API calls, all storage types, all targets","Serialised indices and code that reads the bits directly rely on it for every index, however it was made.",["src/storage.rs::bits",I2+"::try_from",I3+"::try_from",I2+"::descendant",I3+"::descendant",I2+"::ancestor",I3+"::ancestor",M+"::inverted"])
p("C78","Neighbours",
 "Two indices of the same depth are one apart along an axis in to_grid_index, and equal along the others, exactly if one path leads to the other by the rule for quadtrees and octrees: a node in the lower half of its parent is followed by its sibling in the upper half, any other node by the lower half of the node that follows its parent. A following node exists exactly if the coordinate plus one is below 2^depth. from_grid_index with the coordinate changed by one, at the depth of the index, returns the neighbour for fixed-depth and dynamic indices and for static 2D indices (for static 3D indices only where C09 holds). The following node along any axis is greater.",
 "all storage kinds, all indices up to the depth of the word size, all orderings, both dimensions, all axes","Neighbours across the boundary of a large ancestor differ in all cells from it down, so a few sampled nodes do not exercise the carry through every level.",[I2+"::to_grid_index",I3+"::to_grid_index",I2+"::from_grid_index",I3+"::from_grid_index"])
p("C79","Nearest common ancestor",
 "Any two indices have exactly one nearest common ancestor. with_depth(n) makes two static or dynamic indices equal exactly for n up to its depth, and at its depth gives it; every index between two others in the order has the same ancestor there; two indices of which neither contains the other are ordered as their first cells below it; and its depth is the number of leading bits in which the grid coordinates agree along all axes.",
 "all storage kinds, all histories, all pairs and triples of indices, all orderings, both dimensions","The nearest common ancestor can lie at any depth, so pairs of indices would have to be drawn for each.",[I2+"::with_depth",I3+"::with_depth",I2+"::cmp",I3+"::cmp",I2+"::to_grid_index",I3+"::to_grid_index"])
p("C80","Splitting and merging nodes",
 "For static and dynamic indices: a sorted list of indices none of which contains another stays one when an index is replaced by its children in the order of the cells, and when all children of a node are replaced by it. An index below a node lies below exactly one of its children, the one with_depth(depth + 1) returns. At most one element of such a list contains a given index, and every node of depth n (at least all depths in the list) lies below one exactly if the sum of 2^(DIM*(n - depth)) over the list is 2^(DIM*n).",
 "all lists of indices of any length, all nodes with children within the depth limit, both dimensions, all targets on which dynamic indices can be written (C36)","Adaptive quadtrees and octrees are refined and coarsened this way; lists, depths and positions are unbounded.",[I2+"::child",I3+"::child",I2+"::with_depth",I3+"::with_depth",I2+"::cmp",I3+"::cmp",I2+"::eq",I3+"::eq"])
