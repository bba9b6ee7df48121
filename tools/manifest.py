# Source of MANIFEST.json (run: python3 tools/manifest.py > MANIFEST.json)
# Collects the theorems cNN_* of rocq/theories/Prop*.v; the notes of properties that do not hold as stated are given here.
import glob, json, os, re
here = os.path.dirname(os.path.abspath(__file__))
theorems = {}
for f in sorted(glob.glob(os.path.join(here, '..', 'rocq', 'theories', 'Prop*.v'))):
    for m in re.finditer(r'^Theorem (c(\d\d)_\w+)', open(f).read(), re.M):
        theorems.setdefault('C' + m.group(2), []).append(m.group(1))
partial = {
 'C07': 'False as stated (refuted: 16-bit targets; panics when MAX > usize bits). Proved for usize >= 32 bits and MAX <= usize bits; the exact result of all other cases (panic, or the zero index on 16-bit targets without overflow checks) is proved too.',
 'C08': 'Error case exact. Round trip false for MAX = usize bits with depth 0, and for MAX > usize bits (refuted); proved in all other cases; the result of the remaining ones (panic, or the all-zero path without overflow checks) is proved too, so every input is covered.',
 'C09': 'False as stated (refuted: low bits are lost). Proved exactly for the depths at which enough chunks are processed; what is lost otherwise, for usize both wider and narrower than the coordinates, is proved exactly, so every input is covered.',
 'C22': 'False for 2D depths divisible by 4 (refuted); partial theorem is the exact iff. 3D holds for all depths. Indices derived from zeroed of such a depth may be unequal although their cells are equal (c22_derived_from_zeroed_refuted).',
 'C24': 'False when the dynamic index has fewer bytes than the integer (refuted); on little-endian targets the partial theorem says exactly when it holds; c24_dynamic_to_fixed_bytes gives the bytes of the result on every target; c24_dynamic_to_fixed_cells gives the cells on little-endian targets when the missing bytes are a whole number of cells. c24_dynamic_to_fixed_memory (any target), c24_dynamic_to_fixed_any and c24_dynamic_to_fixed_any_2d cover every history, stale bits and the spare byte of zeroed included (little-endian). Bits that ancestor leaves behind the path of an index with a spare byte come back as cells (c24_stale_bits_refuted).',
 'C32': 'False when the last byte only carries (refuted); the partial theorem gives the exact result condition.',
 'C33': 'u8/u16 helpers do not ignore high bits (refuted); proved for arguments without high bits, and the exact result for all arguments; the 3D helpers hold for all arguments.',
 'C34': 'False near the top of the type (refuted); proved when the intermediate sum fits; the result is characterised for all other alignments of the type.',
 'C36': 'False on 32-bit and 64-bit big-endian targets (refuted); the partial theorem is an exact iff and every writing operation is characterised on every big-endian target.',
 'C42': 'False for depth > usize bits (refuted); panic with overflow checks and the folded value without them are proved for all deep indices.',
 'C43': 'False for bits behind the path and for too large depths (refuted); the partial theorems are exact iffs, and the comparison of too deep static 3D indices is characterised with and without overflow checks.',
 'C53': 'False for dynamic storage, whose constant is 0 (refuted); the partial theorem is the exact iff.',
 'C54': 'False for starts that do not fit the integer type or 32 bits (refuted); the results of get_bits and set_bits are characterised for every range: with overflow checks a range longer than the integer panics, without them its length is reduced as in c54_lengths_release.',
 'C57': 'False for 3D reads of FixedDepthStorage and StaticStorage on byte vectors that cross a byte boundary (refuted; the exact result is proved); everything else is proved. DynamicStorage on byte vectors: c57_dynamic_vec.',
 'C55': 'fixed->dynamic->fixed is false on big-endian targets (refuted; the partial theorem gives the bytes on every target); the other round trips are proved.',
 'C46': 'False beyond usize bit positions (refuted); the partial theorem is the exact capacity with overflow checks. Without them the cells read and written are characterised, try_from of too many octants panics and try_from of too many quadrants loses the first four (on the targets of C01).',
 'C66': 'False above dimensionality 8 for FixedDepthStorage and StaticStorage (refuted; what is written and read is proved for every dimensionality). Proved up to 8, and for DynamicStorage up to the bits of usize on little-endian targets; on big-endian targets it is proved which bits are written (cell 0 for short indices), and for 8 or more bits beyond usize that writing is undefined behaviour and reading panics with overflow checks.',
 'C68': 'False for static storages over types with 256 or more levels (refuted): the depth is reduced modulo 256, exactly as stated by c68_static_try_from, c68_static_descendant and c68_conversions. Everything else is proved.',
 'C69': 'False in 2D for types whose number of bits is not a multiple of 8 (refuted), and for static indices of types with more levels than usize has bits. The theorems say what happens in all cases: where the cells lead for BITS mod 8 = 1 (_odd), that set_bits is called outside of the value for BITS mod 8 >= 2 (_outside), which coordinate bits remain for many levels; static indices for types of at most 2^32 bits (3D: at least 24 fewer than 2^32 and 2^usize::BITS).',
}
note = {
 'C01': 'Dynamic storage on little-endian or 16-bit targets; the other targets are covered by C36.',
 'C12': 'Static 3D: the exact condition for equality (C09).',
 'C19': 'For all histories of API calls (made), see C38.',
 'C38': 'run_spec answers NoClaim for ill-typed calls, for indices beyond usize bit positions and for dynamic->fixed conversions covered by C24.',
 'C39': 'Checked results equal unchecked results for every call that returns with overflow checks on.',
 'C78': 'c78_find_static_3d_refuted: the node found for a static 3D index may be the one started from (C09).',
 'C48': 'c48_vec_set_bits_short_value gives the exact condition under which set_bits with too short a value reads out of bounds or panics.',
}
ids = [json.loads(l)['id'] for l in open(os.path.join(here, '..', 'properties.jsonl'))]
claims = []
for i in ids:
    assert theorems.get(i), i
    claims.append(dict(property=i, status='partial' if i in partial else 'proved', theorems=theorems[i],
                       note=partial.get(i) or note.get(i, '')))
assert set(theorems) <= set(ids), set(theorems) - set(ids)
print(json.dumps({'claims': claims}, indent=1))
