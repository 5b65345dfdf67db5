{"id": "C01", "title": "Production instruction round-trip: decode after encode", "statement": "For every DecodedOpcode<8> whose variant is in OPCODES_TABLE, whose register indices are below 16 and whose immediates are u16, encode_as_integer succeeds, and parsing the resulting u64 gives back exactly the same variant, condition, four register indices and two immediates, with the variant's canonical table index as its monotonic number. Encoding is therefore injective on such instructions.", "quantifier": "all table variants x 8 conditions x 16^4 register choices x 2^32 immediate pairs (about 10^18 instructions), both build modes", "why_tests_cant": "the instruction space is about 2^60; a test samples a handful of words", "anchors": ["src/decoding/encoding_mode_production.rs:encode_as_integer", "src/decoding/encoding_mode_production.rs:parse_preliminary_variant_and_absolute_number"]}
{"id": "C02", "title": "Production instruction round-trip: encode after decode", "statement": "For every u64 word, re-encoding the decoded instruction gives back the word exactly when the two gap bits 11..12 are zero and the low 11 bits are zero or name an assigned (non-Invalid) table entry; otherwise re-encoding still succeeds and gives the word with the gap cleared and, for an unassigned low-11 pattern, with the opcode number replaced by 0. In particular is_canonical_encoding alone does not guarantee a word survives decode/encode.", "quantifier": "all 2^64 words, both build modes", "why_tests_cant": "2^64 words cannot be enumerated, and the exceptional set is only visible from the exact characterisation", "anchors": ["src/decoding/encoding_mode_production.rs:encode_as_integer", "src/decoding/encoding_mode_production.rs:parse_preliminary_variant_and_absolute_number", "src/decoding/encoding_mode_production.rs:is_canonical_encoding"]}
{"id": "C03", "title": "Production decoding is total and reads fixed bit fields", "statement": "Every u64 decodes without panic. The variant is the OPCODES_TABLE entry at bits 0..10, the condition is the one numbered by bits 13..15, src0/src1/dst0/dst1 are bits 16..19/20..23/24..27/28..31, imm_0 is bits 32..47, imm_1 is bits 48..63, the reported monotonic number is bits 0..10, and bits 11..12 do not influence the result. variant_and_condition_from_u64_word gives the same variant, condition and number.", "quantifier": "all 2^64 words", "why_tests_cant": "panic-freedom and field independence must hold for every word", "anchors": ["src/decoding/encoding_mode_production.rs:parse_preliminary_variant_and_absolute_number", "src/decoding/encoding_mode_production.rs:variant_and_condition_from_u64_word"]}
{"id": "C04", "title": "When encoding panics, and what an out-of-range register does", "statement": "In both modes, encode_as_integer panics in a release build exactly when the variant is not an OPCODES_TABLE entry; in a debug build exactly when it is not an entry or some register index is 16 or more. The width assertions on the opcode number and condition never fire. In a release build an out-of-range register index is never reported: the produced word decodes to registers different from the ones supplied, for every such instruction.", "quantifier": "all DecodedOpcode values (every u8 register index, every variant, every immediate), both modes, both build modes", "why_tests_cant": "the panic set is over an infinite-for-practice input space and depends on the build mode", "anchors": ["src/decoding/encoding_mode_production.rs:encode_as_integer", "src/decoding/encoding_mode_testing.rs:encode_as_integer", "src/utils.rs:merge_u4"]}
{"id": "C05", "title": "Production encoding layout", "statement": "Whenever encoding succeeds with in-range registers, the word equals opcode_number + 2^13*condition + 2^16*src0 + 2^20*src1 + 2^24*dst0 + 2^28*dst1 + 2^32*imm_0 + 2^48*imm_1, where opcode_number is the variant's canonical index; it is below 2^64, its gap bits are zero and is_canonical_encoding accepts it. Distinct instructions get distinct words.", "quantifier": "all encodable instructions", "why_tests_cant": "exact positional layout must hold for all field combinations at once", "anchors": ["src/decoding/encoding_mode_production.rs:encode_as_integer"]}
{"id": "C06", "title": "Testing-mode (u128) round-trip", "statement": "For every DecodedOpcode<16> with a table variant, registers below 16 and u32 immediates, encode_as_integer succeeds, the word equals the same layout with 32-bit immediates at bits 32 and 64, and parsing it gives back the same instruction; every u128 decodes without panic by reading those bit fields, and variant_and_condition_from_u128_word gives the same variant, condition and number.", "quantifier": "all testing-mode instructions and all 2^128 words", "why_tests_cant": "2^128 words", "anchors": ["src/decoding/encoding_mode_testing.rs:encode_as_integer", "src/decoding/encoding_mode_testing.rs:parse_preliminary_variant_and_absolute_number"]}
{"id": "C07", "title": "Testing-mode canonicality check and its hole", "statement": "A u128 word survives decode/encode exactly when gap bits 11..12 are zero, bits 96..127 are zero and the low 11 bits are zero or an assigned opcode. is_canonical_encoding ignores bits 96..127, so there are words it accepts that are changed by decode/encode even though their opcode is assigned.", "quantifier": "all 2^128 words", "why_tests_cant": "requires reasoning about all words; the hole is in bits no test sets", "anchors": ["src/decoding/encoding_mode_testing.rs:is_canonical_encoding"]}
{"id": "C08", "title": "Production and testing modes agree", "statement": "An instruction with u16 immediates encodes in one mode exactly when it encodes in the other, the two words agree on the low 48 bits, the testing word's bits 64..79 equal the production word's bits 48..63, and decoding either word gives the same variant, condition, registers, immediates and number.", "quantifier": "all instructions with u16 immediates, all word pairs", "why_tests_cant": "cross-implementation agreement over the full instruction space", "anchors": ["src/decoding/encoding_mode_production.rs", "src/decoding/encoding_mode_testing.rs"]}
{"id": "C09", "title": "Canonicality predicate", "statement": "is_canonical_encoding(w) is true exactly when bits 11 and 12 of w are both zero, in both modes; every word produced by encode_as_integer from in-range registers is accepted.", "quantifier": "all u64 / u128 words", "why_tests_cant": "universal over words", "anchors": ["src/decoding/encoding_mode_production.rs:is_canonical_encoding", "src/decoding/encoding_mode_testing.rs:is_canonical_encoding"]}
{"id": "C10", "title": "Byte serialization is big-endian and lossless", "statement": "serialize_as_bytes returns exactly 8 (16) bytes whose big-endian value is serialize_as_integer's word, panicking exactly when the latter does; two instructions with equal bytes have equal words.", "quantifier": "all instructions, both modes", "why_tests_cant": "universal over instructions", "anchors": ["src/decoding/mod.rs:encode_as_bytes", "src/opcode.rs:serialize_as_bytes"]}
{"id": "C11", "title": "Instruction fetch from 256-bit code words", "statement": "For every pc, split_pc yields (word index, sub-index) with pc = 4*word + sub and sub < 4 (2*word + sub, sub < 2 in testing mode), integer_representaiton_from_u256 never hits its unreachable arm on such a sub-index, and it returns the instruction stored at big-endian byte offset 8*sub (16*sub) of the 32-byte word. Hence for every program laid out as consecutive big-endian instructions, fetching at any pc below its length returns the pc-th instruction, of whatever length the program is.", "quantifier": "all pcs, all U256 words, all programs of any length", "why_tests_cant": "programs have unbounded length; endianness and index direction mistakes are input-dependent", "anchors": ["src/decoding/encoding_mode_production.rs:split_pc", "src/decoding/encoding_mode_production.rs:integer_representaiton_from_u256", "src/decoding/encoding_mode_testing.rs:split_pc", "src/decoding/encoding_mode_testing.rs:integer_representaiton_from_u256"]}
{"id": "C12", "title": "Opcode table contents", "statement": "OPCODES_TABLE initialises without panic, has 2048 entries, entry 0 is Invalid, entries 1..1092 are pairwise distinct assigned variants, all entries from 1093 on are Invalid, and a variant occurs in it if and only if it is well-formed in the ISA sense: its operand kinds are the ones its opcode allows (Full source 6 ways x Full destination 4 ways, Full source only, register-only, or register/imm for heap access) and it uses no more flag bits than its opcode has.", "quantifier": "all values of the OpcodeVariant type and all table indices", "why_tests_cant": "membership must be decided for every representable variant, not a sample", "anchors": ["src/lib.rs:OPCODES_TABLE", "src/definitions/mod.rs:synthesize_opcode_decoding_tables"]}
{"id": "C13", "title": "Opcode numbering (canonical index) is an exact bijection", "statement": "OPCODE_TO_CANONICAL_INDEX_LOOKUP_MAP initialises without panic, maps a variant to index i exactly when i is the first table position holding it, is undefined exactly on variants not in the table, and its value is the ISA's mixed-radix opcode number: family base + ((subvariant*24 + 4*src_mode + dst_mode) * 2^flags + flag bits) with the corresponding radices for the register-only families and the version-1 heap-immediate block appended at 1085.", "quantifier": "all values of the OpcodeVariant type", "why_tests_cant": "assemblers depend on every number; only an exhaustive exact formula fixes all of them", "anchors": ["src/lib.rs:OPCODE_TO_CANONICAL_INDEX_LOOKUP_MAP"]}
{"id": "C14", "title": "Monotonic-number map agrees with the canonical map", "statement": "OPCODE_TO_MONOTONIC_INDEX_NUMBER_MAP initialises without panic and gives, for every variant, the same number (or absence) as the canonical index map; for every table and both maps, initialisation panics exactly when some variant repeats whose first position does not hold the Invalid variant, and otherwise lookup is first-occurrence position.", "quantifier": "all variants; and all possible tables for the map-building loop", "why_tests_cant": "the map-building loop must be right for every table content", "anchors": ["src/lib.rs:OPCODE_TO_MONOTONIC_INDEX_NUMBER_MAP"]}
{"id": "C15", "title": "ISA version 1 is a compatible extension of version 0", "statement": "For every index assigned in the version-0 table, the version-1 table holds a variant equal up to the register-only / reg-or-imm-with-register distinction, with the same circuit bitmask, price, kernel and static attributes; indices 1085..1092 are assigned only in version 1 and were Invalid in version 0; indices above are Invalid in both.", "quantifier": "all 2048 indices, all table widths that fit", "why_tests_cant": "backward compatibility of every existing bytecode word", "anchors": ["src/definitions/mod.rs:synthesize_opcode_decoding_tables", "src/definitions/mod.rs:find_new_opcodes"]}
{"id": "C16", "title": "ISA extension procedure never renumbers", "statement": "For arbitrary lists of old and new variants: extending either panics, exactly when some old variant has no semantic equivalent among the new ones, or keeps the old list's length with every position replaced by a semantic equivalent of what was there; the added variants are, in order, exactly those new variants that had no semantic equivalent in the old list; and afterwards every new variant has a semantic equivalent in the extended list.", "quantifier": "all pairs of variant lists of any length", "why_tests_cant": "lists of unbounded length with in-place mutation during iteration", "anchors": ["src/definitions/mod.rs:find_new_opcodes"]}
{"id": "C17", "title": "Semantic equality of variants", "statement": "semantically_equal is reflexive, symmetric and transitive; it holds exactly when opcode, flags and destination kind coincide and the sources coincide after identifying RegOnly with RegOrImm(UseRegOnly); semantically equal variants have equal circuit bitmasks, prices and attributes.", "quantifier": "all triples of variants", "why_tests_cant": "equivalence laws over the whole type", "anchors": ["src/definitions/mod.rs:semantically_equal"]}
{"id": "C18", "title": "Table synthesis for every width and version", "statement": "For every table width b and version v: synthesis panics exactly when 2^b is smaller than the number of variants (1085 for v=0, 1093 for v>=1) - versions above 1 give the version-1 table - and otherwise the result is the version's variant list padded with Invalid to exactly 2^b entries; widening the table never changes existing entries. For b of 64 or more, where 1 << b overflows, a debug build always panics and a release build behaves as for b mod 64. Memory is taken to suffice; C81 says when the size of the table alone makes synthesis panic.", "quantifier": "all widths b (any size), all 256 version numbers", "why_tests_cant": "unbounded width", "anchors": ["src/definitions/mod.rs:synthesize_opcode_decoding_tables"]}
{"id": "C19", "title": "Legacy synthesis agrees on version 0", "statement": "For every width, synthesize_opcode_decoding_tables_legacy for version 0 equals the new synthesis (including panicking on the same widths); for any version of 1 or more the legacy function always panics.", "quantifier": "all widths, all version numbers", "why_tests_cant": "unbounded width; legacy failure must hold for all versions", "anchors": ["src/definitions/mod.rs:synthesize_opcode_decoding_tables_legacy"]}
{"id": "C20", "title": "Variant enumeration matches the density formula", "statement": "For versions 0 and 1 the enumeration of variants has no duplicates, its length equals compute_encoding_density, and both fail for every other version.", "quantifier": "all 256 version numbers", "why_tests_cant": "the assert inside table synthesis must be discharged for every version", "anchors": ["src/definitions/mod.rs:compute_encoding_density", "src/definitions/mod.rs:all_variants_in_version"]}
{"id": "C21", "title": "Circuit bitmask decomposes one-hot and determines the variant", "statement": "For every variant with a legal destination mode and supported version, the bitmask has exactly one bit in 0..15 (at the opcode family index), exactly one in 16..25 (at the subvariant index), bits 26/27 equal the two flags, exactly one bit in 28..33 (source mode) and exactly one in 34..37 (destination mode), bits 38..47 are zero, bits 48/49/50 are requires-kernel, allowed-in-static, explicit-panic, and no higher bit is set. Over the opcode table the bitmask is injective up to repeated Invalid padding.", "quantifier": "all variants, both versions, every bit position", "why_tests_cant": "circuits rely on every bit of every mask", "anchors": ["src/definitions/mod.rs:opcode_as_integer_bitmask", "src/lib.rs:OPCODES_PROPS_INTEGER_BITMASKS"]}
{"id": "C22", "title": "Bit decomposition of arbitrary opcode slices", "statement": "synthesize_bit_decomposition_table on any slice and supported version never panics and is the element-wise bitmask (same length, same order, independent of neighbours); for an unsupported version it panics on every non-empty slice and returns an empty table on the empty one.", "quantifier": "all slices of any length, all version numbers", "why_tests_cant": "unbounded slices", "anchors": ["src/definitions/mod.rs:synthesize_bit_decomposition_table"]}
{"id": "C23", "title": "Description width accounting", "statement": "For supported versions there are 10 variant bits and 2 flag bits, 38 description bits in total, 48 after rounding up to a multiple of 16 and 51 with aux bits, fitting a u64; rounding always yields the least multiple of 16 not below the total; unsupported versions panic; compute_decoding_format reports these numbers.", "quantifier": "all version numbers", "why_tests_cant": "must hold for every version value", "anchors": ["src/lib.rs:total_description_bits_rounded_for_version", "src/lib.rs:total_opcode_description_and_aux_bits_for_version", "src/definitions/mod.rs:max_num_variants_for_version", "src/definitions/mod.rs:max_num_flags_for_version"]}
{"id": "C24", "title": "Masking an instruction into panic or nop", "statement": "For every decoded instruction (valid or not, any registers, condition and immediates), mask_into_panic yields an unconditional ret.panic with no flags and zero registers whose serialized word is the exception-revert encoding plus the untouched immediates; mask_into_nop likewise with the nop encoding. Both always serialize, are idempotent, the last mask applied wins, and the masked opcode's properties bitmask is PANIC_BITSPREAD_U64 / NOP_BITSPREAD_U64.", "quantifier": "all decoded instructions, both modes, any sequence of masks", "why_tests_cant": "must hold from every prior instruction", "anchors": ["src/opcode.rs:mask_into_panic", "src/opcode.rs:mask_into_nop", "src/lib.rs:PANIC_BITSPREAD_U64", "src/lib.rs:NOP_BITSPREAD_U64"]}
{"id": "C25", "title": "Distinguished encodings", "statement": "nop_encoding and exception_revert_encoding succeed in both modes, decode to the unconditional nop / ret.panic with zero registers and immediates, are canonical and are never equal to the zero word; the all-zero word, and every word with zero or unassigned low 11 bits, decodes to an explicit-panic (Invalid) instruction, and no other word does.", "quantifier": "all words for the Invalid characterisation", "why_tests_cant": "must hold for every word", "anchors": ["src/decoding/encoding_mode_production.rs:nop_encoding", "src/decoding/encoding_mode_production.rs:exception_revert_encoding", "src/lib.rs:NOP_OPCODE_VARIANT"]}
{"id": "C26", "title": "Default instruction is not serializable", "statement": "Expected: the Default value of DecodedOpcode is a usable nop. Actual: its variant (Nop with register-only operands) is not in the opcode table, so serializing DecodedOpcode::default() panics in both modes and builds, although its condition is Always and its registers and immediates are zero; after mask_into_nop it serializes to nop_encoding.", "quantifier": "both modes and build modes", "why_tests_cant": "no test serializes the default value", "anchors": ["src/opcode.rs:Default", "src/definitions/mod.rs:Default for OpcodeVariant"]}
{"id": "C27", "title": "Opcode prices", "statement": "OPCODES_PRICES has, at every index, the price of the table's variant; prices depend only on the opcode and subvariant (not on addressing or flags); Invalid costs u32::MAX, every other price is between 5 and 156250 and none of the price sums overflows u32.", "quantifier": "all table indices and all variants", "why_tests_cant": "no-overflow and attribute-independence for all variants", "anchors": ["src/lib.rs:OPCODES_PRICES", "src/definitions/all.rs:ergs_price"]}
{"id": "C28", "title": "Kernel-mode and static-context attributes", "statement": "An opcode requires kernel mode exactly if it is mimic far call, set-context-u128, set-ergs-per-pubdata, increment-tx-number, event, L1 message or precompile call; it is forbidden in a static context exactly if it is one of the three context setters, storage write, event or L1 message. The attribute bits of the bitmask table report exactly this for every index.", "quantifier": "all opcodes, all table indices", "why_tests_cant": "security-relevant set must be exact over the whole type", "anchors": ["src/definitions/all.rs:requires_kernel_mode", "src/definitions/all.rs:can_be_used_in_static_context"]}
{"id": "C29", "title": "Subvariant numbering of every family", "statement": "For every opcode family, from_variant_index_for_version and variant_index are mutually inverse: every index below the number of subvariants yields the subvariant with that index and every larger index yields None, for every version; materialize_subvariant_from_prototype keeps the family, and panics exactly on too large indices; all_variants lists each subvariant once in index order.", "quantifier": "all usize indices, all versions, all 16 families", "why_tests_cant": "indices range over usize", "anchors": ["src/definitions/opcode_trait.rs:OpcodeVariantProps", "src/definitions/all.rs:materialize_subvariant_from_prototype"]}
{"id": "C30", "title": "Version availability is inverted", "statement": "Expected: a subvariant introduced in version m is available in every version v >= m. Actual: is_available_for_version(v) holds exactly when v <= m, so variants_for_version(1) is empty for every family although every family has variants in the version-1 table; variants_for_version(0) and variants_added_in_version(0) are everything and variants_added_in_version(v) is empty for v >= 1.", "quantifier": "all subvariants, all 256 versions", "why_tests_cant": "no test calls these trait methods", "anchors": ["src/definitions/opcode_trait.rs:is_available_for_version", "src/definitions/opcode_trait.rs:variants_for_version"]}
{"id": "C31", "title": "Maximum subvariant index", "statement": "Expected: max_variant_idx bounds (and attains) every subvariant index of its family. Actual: this holds for all families except Ptr, whose max_variant_idx reports Pack (2) though Shrink has index 3 and is in the table; max_variant_idx_for_version is right for all; max_num_variants_for_version is nevertheless a strict upper bound on every subvariant index.", "quantifier": "all subvariants of all families, both versions", "why_tests_cant": "universal over families; no test compares these", "anchors": ["src/definitions/ptr.rs:max_variant_idx", "src/definitions/mod.rs:max_num_variants_for_version"]}
{"id": "C32", "title": "Family index versus prototype position", "statement": "Expected: indexing OPCODE_PROTOTYPES (or all_opcode_prototypes()) by an opcode's variant_idx gives its family. Actual: it holds exactly for families other than Context, Binop, Ptr and NearCall; the two prototype lists agree with each other position by position (names, operands, attributes), every family occurs exactly once and variant_idx is a bijection onto 0..15.", "quantifier": "all opcodes and positions", "why_tests_cant": "ordering disagreement is invisible to the existing tests", "anchors": ["src/definitions/mod.rs:all_opcodes", "src/definitions/mod.rs:all_opcode_prototypes", "src/definitions/all.rs:variant_idx"]}
{"id": "C33", "title": "Operand capability queries", "statement": "For every opcode and supported version, can_have_src0_from_mem is true exactly when the version's table contains that opcode with a memory source, can_write_dst0_into_memory exactly when it contains it with a memory destination; neither query panics on supported versions; the number of table entries per opcode equals the product of its operand alternatives and flags. For any implementation of the descriptor trait, the first listed operand decides, and a destination listed as register-or-immediate panics.", "quantifier": "all opcodes, all versions, all descriptors", "why_tests_cant": "universal over opcodes", "anchors": ["src/definitions/opcode_trait.rs:can_have_src0_from_mem", "src/definitions/opcode_trait.rs:can_write_dst0_into_memory"]}
{"id": "C34", "title": "Operand swapping", "statement": "swap_operands is flag 1 for Sub/Div/Shift, flag 0 for Ptr, and false for everything else, for every variant; a table variant can never have an unused flag set.", "quantifier": "all variants", "why_tests_cant": "universal over variants", "anchors": ["src/definitions/mod.rs:swap_operands"]}
{"id": "C35", "title": "Condition numbering", "statement": "materialize_variant and variant_index are mutually inverse between the 8 conditions and 0..7, ALL_CONDITIONS[i] is the condition numbered i, and materialize_variant panics exactly on indices of 8 or more.", "quantifier": "all usize indices", "why_tests_cant": "index ranges over usize", "anchors": ["src/definitions/condition.rs"]}
{"id": "C36", "title": "Pc / immediate arithmetic", "statement": "For u16 and u32: from_u64_clipped is reduction modulo 2^16 (2^32) and as_u64 its exact section; wrapping_add and wrapping_sub are addition and subtraction modulo the width, mutually inverse; max() is the largest value; results stay in range.", "quantifier": "all u64 values and all pairs of immediates", "why_tests_cant": "wrap-around over the full range", "anchors": ["src/decoding/mod.rs:AllowedPcOrImm"]}
{"id": "C37", "title": "Nibble packing", "statement": "split_as_u4 and merge_u4 are mutually inverse between bytes and pairs of values below 16; merge_u4 panics in debug builds exactly when an argument is 16 or more, and in release builds then computes low | (16*high mod 256).", "quantifier": "all u8 pairs, both build modes", "why_tests_cant": "build-mode dependent behaviour outside the tested range", "anchors": ["src/utils.rs:split_as_u4", "src/utils.rs:merge_u4"]}
{"id": "C38", "title": "Fat pointer packing", "statement": "FatPointer::from_u256(p.to_u256()) = p for every pointer; to_u256(from_u256(v)) is v modulo 2^128; the packed value is offset + 2^32*page + 2^64*start + 2^96*length, below 2^128 (the declared packed width), so from_u256 ignores the upper half and packing is injective.", "quantifier": "all pointers (2^128) and all U256 values", "why_tests_cant": "2^256 inputs", "anchors": ["src/definitions/abi/fat_pointer.rs"]}
{"id": "C39", "title": "Fat pointer validation", "statement": "validate(is_fresh) reports offset-not-zero exactly when is_fresh and offset != 0, and beyond-heap exactly when start + length >= 2^32, and no other bits. If validation reports nothing and the offset is in bounds, start + offset is a valid u32 strictly below start + length. validate_in_bounds is offset < length, validate_as_slice offset <= length, is_trivial offset = length = 0; in-bounds implies slice, trivial implies slice but not in-bounds.", "quantifier": "all pointers, both freshness values", "why_tests_cant": "overflow boundary over 2^64 pairs", "anchors": ["src/definitions/abi/fat_pointer.rs:validate"]}
{"id": "C40", "title": "Far-call ABI layout", "statement": "FarCallABI::from_u256 reads the quasi fat pointer from bits 0..127, ergs from bits 192..223, and forwarding mode, shard id, constructor and system markers from the little-endian bytes with the exported indices 28, 29, 30, 31 (markers are true iff their byte is non-zero; mode bytes other than 1 and 2 mean heap); bits 128..191 are ignored.", "quantifier": "all U256 values", "why_tests_cant": "2^256 inputs", "anchors": ["src/definitions/abi/far_call.rs"]}
{"id": "C41", "title": "Ret ABI layout and agreement with far call", "statement": "RetABI::from_u256 reads the quasi fat pointer from bits 0..127 and the forwarding mode from byte 28 only; for every value it agrees with FarCallABI on the pointer and the mode; no other bit matters.", "quantifier": "all U256 values", "why_tests_cant": "2^256 inputs", "anchors": ["src/definitions/abi/ret.rs"]}
{"id": "C42", "title": "Near-call ABI", "statement": "NearCallABI::from_u256 returns the value modulo 2^32.", "quantifier": "all U256 values", "why_tests_cant": "2^256 inputs", "anchors": ["src/definitions/abi/near_call.rs"]}
{"id": "C43", "title": "Precompile ABI", "statement": "PrecompileCallInnerABI::from_u256 and to_u256 are mutually inverse bijections between U256 and the record; PrecompileCallABI reads the same offsets and lengths and the same interpreted word, and ignores bits 128..191, so replacing the page bits of a word never changes its outer reading.", "quantifier": "all U256 values and all records", "why_tests_cant": "2^256 inputs", "anchors": ["src/definitions/abi/precompile_call.rs"]}
{"id": "C44", "title": "VM meta parameters packing", "statement": "VmMetaParameters::to_u256 is ergs_per_pubdata + 2^64*heap_size + 2^96*aux_heap_size + 2^224*this_shard + 2^232*caller_shard + 2^240*code_shard: no field is truncated or overlaps another, so packing is injective; all other bits are zero.", "quantifier": "all parameter records", "why_tests_cant": "2^120 inputs", "anchors": ["src/definitions/abi/meta.rs"]}
{"id": "C45", "title": "Versioned hash serialization", "statement": "For contract-code hashes, serialize never fails, try_create_from_raw succeeds exactly on 32-byte inputs whose first byte is 1, and the two are mutually inverse: creating from serialized bytes gives the same layout and serializing a created value gives the same bytes.", "quantifier": "all 2^256 byte arrays, all layouts", "why_tests_cant": "2^256 inputs", "anchors": ["src/definitions/versioned_hash/mod.rs"]}
{"id": "C46", "title": "Stored form of a versioned hash", "statement": "serialize_to_stored never fails and differs from serialize only in that the marker byte is zero; parsing the stored form gives the same length and partial hash with the at-rest marker; it is idempotent; values differing only in the marker have the same stored form and no others do.", "quantifier": "all layouts", "why_tests_cant": "2^248 inputs", "anchors": ["src/definitions/versioned_hash/mod.rs:serialize_to_stored"]}
{"id": "C47", "title": "Bytecode hash (production)", "statement": "For any digest function producing 32 bytes: bytecode_to_code_hash returns an error exactly when the number of words is even or exceeds 65535, and otherwise returns version byte 1, marker 0, the big-endian word count and bytes 4..31 of the digest of the concatenated words; parsing the result recovers the exact word count. Two different bytecodes of 32-byte words share a hash only if two different messages of equal length share bytes 4..31 of their digests.", "quantifier": "all bytecodes of any length, all digest functions", "why_tests_cant": "unbounded input length", "anchors": ["src/utils.rs:bytecode_to_code_hash"]}
{"id": "C48", "title": "Bytecode hash length truncation in other modes", "statement": "Expected: the length in the versioned hash is the bytecode length. In testing mode lengths up to 2^32-1 are accepted but the stored length is the length modulo 65536, so it is wrong for every accepted bytecode longer than 65535 words, and right for all shorter ones. For any encoding mode, also a user's own, only its largest program counter matters: it bounds the accepted (odd) lengths, and all modes that accept a bytecode give it the same hash.", "quantifier": "all lengths, all encoding modes", "why_tests_cant": "unbounded input length; needs >2 MB inputs", "anchors": ["src/utils.rs:bytecode_to_code_hash_for_mode"]}
{"id": "C49", "title": "Committed circuit prices are what the generator produces", "statement": "The text the pricing generator writes is, character for character, the committed src/circuit_prices.rs, in both build profiles. Each constant is the least price that, times the circuit capacity stated in the generator, reaches ERGS_PER_CIRCUIT, and ceil_div computes it without overflow.", "quantifier": "the generator's entire output", "why_tests_cant": "the generator is never run in tests; equality is over the whole file", "anchors": ["src/circuit_pricing_generator/main.rs:main", "src/circuit_prices.rs"]}
{"id": "C50", "title": "Ceiling division", "statement": "For all u32 a and b: with b > 0 and a+b < 2^32, ceil_div(a,b) is the least q with q*b >= a; with b = 0 it always panics; with a+b >= 2^32 it panics in a debug build and in a release build returns the wrapped (a+b-1 mod 2^32)/b, which is smaller than the true ceiling whenever the true sum really wraps.", "quantifier": "all u32 pairs, both build modes", "why_tests_cant": "2^64 pairs", "anchors": ["src/circuit_pricing_generator/main.rs:ceil_div"]}
{"id": "C51", "title": "Circuit capacity is paid for", "statement": "For each metered circuit with capacity c and unit price q: for every number n of units, n*q is at least ERGS_PER_CIRCUIT times the number of circuits completely filled by n units, and with price q-1 this would fail; nobody can buy more than LIMIT_FOR_L1_MESSAGES_MERKLIZER L1 messages with MAX_TX_ERGS_LIMIT ergs; pubdata alone prevents exhausting the write hashers.", "quantifier": "all unit counts n, all write counts", "why_tests_cant": "universal over amounts", "anchors": ["src/circuit_prices.rs", "src/definitions/log.rs:ergs_price", "src/circuit_pricing_generator/main.rs"]}
{"id": "C52", "title": "Storage writes are unaffordable from stipends", "statement": "For every ergs amount not exceeding the 2300 transfer stipend or the MsgValueSimulator stipend (additive cost minus minimum used), no sequence of instructions paid from it contains a storage write; the price is exactly the least value with this property given the hasher minimum.", "quantifier": "all instruction sequences and ergs amounts within the stipend", "why_tests_cant": "universal over histories", "anchors": ["src/system_params.rs:MIN_STORAGE_WRITE_COST", "src/definitions/log.rs:ergs_price"]}
{"id": "C53", "title": "Callstack depth bound", "statement": "Starting from one frame with VM_INITIAL_FRAME_ERGS, in every history of instructions, near calls, far calls (each charging the table price of the instruction to the calling frame and passing on at most what remains), returns (giving back at most what remains), panics and at most 80 unpaid internal near calls, the number of frames never exceeds VM_MAX_STACK_DEPTH, and so never overflows u32. For any starting ergs e and number u of unpaid calls the deepest callstack is exactly 1 + e / (near call price) + u frames: no history exceeds it and some history reaches it, so the exported limit leaves room to spare.", "quantifier": "all histories of any length", "why_tests_cant": "unbounded histories", "anchors": ["src/system_params.rs:VM_MAX_STACK_DEPTH", "src/lib.rs:CALL_LIKE_ERGS_COST"]}
{"id": "C54", "title": "Memory pages and timestamps never collide or wrap", "statement": "Along every paid history as above, the base pages STARTING_BASE_PAGE + 8k handed to far calls give pairwise disjoint page groups of four that never meet the bootloader's pages or the unmapped page (the page of the empty pointer) and stay below 2^32; the groups are aligned, so that page mod 8 is the place in the group, for the bootloader as well; timestamps STARTING_TIMESTAMP + 4*cycle stay below 2^32. For any starting ergs e, a history makes at most e / (far call price) far calls, and with u unpaid calls takes at most e / (least instruction price) + 1 + 2u cycles; both are reached.", "quantifier": "all histories of any length", "why_tests_cant": "wrap-around after millions of calls", "anchors": ["src/lib.rs:STARTING_BASE_PAGE", "src/lib.rs:TIME_DELTA_PER_CYCLE", "src/lib.rs:NEW_MEMORY_PAGES_PER_FAR_CALL"]}
{"id": "C55", "title": "System addresses", "statement": "All ADDRESS_* system contract constants are pairwise distinct and below ADDRESS_UNRESTRICTED_SPACE, the precompiles having their Ethereum numbers 1 to 4 and the system contracts consecutive numbers from 2^15 + 1; Address::from_low_u64_be embeds any u64 injectively as 12 zero bytes and its big-endian bytes, so the formal addresses are the embeddings of the exported low words. Expected: DEPLOYER_SYSTEM_CONTRACT_ADDRESS is the embedding of ADDRESS_CONTRACT_DEPLOYER; actual: it is that of ADDRESS_ACCOUNT_CODE_STORAGE (0x8002 versus 0x8006).", "quantifier": "all u64 low words; all pairs of constants", "why_tests_cant": "the two constants are never compared", "anchors": ["src/system_params.rs"]}
{"id": "C56", "title": "Maximum dereferenceable offset", "statement": "MAX_OFFSET_TO_DEREF is the largest offset for which offset + 32 still fits a u32: for every u32 offset, offset <= MAX_OFFSET_TO_DEREF_LOW_U32 iff offset + 32 <= u32::MAX; the U256 constants MAX_OFFSET_TO_DEREF and MAX_OFFSET_FOR_ADD_SUB have the values 2^32-33 and 2^32, so an offset below the latter is exactly one that fits a u32.", "quantifier": "all u32 / U256 offsets", "why_tests_cant": "boundary over all offsets", "anchors": ["src/definitions/uma.rs", "src/definitions/ptr.rs"]}
{"id": "C57", "title": "Version ordering helper", "statement": "all_backward_compatible_versions(v) is, for every u8 v, exactly the known versions not above v in increasing order.", "quantifier": "all 256 versions", "why_tests_cant": "universal over versions", "anchors": ["src/definitions/opcode_trait.rs:all_backward_compatible_versions"]}
{"id": "C58", "title": "Printed form determines the instruction", "statement": "The Display text of an OpcodeVariant determines it, and the Display text of a DecodedOpcode determines variant, condition, registers and immediates, in either mode: no two different instructions print alike.", "quantifier": "all pairs of instructions", "why_tests_cant": "pairs of about 2^60 instructions", "anchors": ["src/opcode.rs:Display", "src/definitions/mod.rs:Display for OpcodeVariant"]}
{"id": "C59", "title": "Addressing-mode flags", "statement": "ImmMemHandlerFlags and RegOrImmFlags have distinct encoding bytes equal to their variant index, the two types agree where both name a mode, num_src_variants / num_dst_variants count exactly all modes / the modes allowed as destination, is_memory_used holds exactly for the stack and code-page modes, and Operand::variant_idx is always below 6, and below 4 for legal destinations.", "quantifier": "all modes and operands", "why_tests_cant": "universal over the operand type", "anchors": ["src/imm_mem_modifiers.rs", "src/definitions/opcode_trait.rs:Operand"]}
{"id": "C60", "title": "Family descriptors", "statement": "For every opcode and every version: the descriptor's name is the family's mnemonic (distinct families have distinct names), variants_data lists one entry per subvariant in index order with the family's flag and immediate counts for versions 0 and 1 and panics for every later version, the input and output operand lists are the ISA's (only heap access depends on the version, and only its input query panics, for versions above 1), and the kernel and static attributes are those of the opcode.", "quantifier": "all opcodes, all 256 versions", "why_tests_cant": "the descriptors are spread over sixteen implementations; unit tests touch none of them", "anchors": ["src/definitions/all.rs", "src/definitions/uma.rs", "src/definitions/opcode_trait.rs:OpcodeProps"]}
{"id": "C61", "title": "Register roles and query kinds", "statement": "At a far call every one of the 15 registers has exactly one role among: calldata pointer, constructor marker, system ABI range, reserved range, implicit parameter. The registers a return writes are distinct and exist, return data arrives in the same register as calldata, and the four log-queue kinds (storage, event, L1 message, precompile) are numbered 0 to 3 in this order.", "quantifier": "all registers", "why_tests_cant": "a gap or overlap of two ranges is invisible to any test that uses them one at a time", "anchors": ["src/definitions/far_call.rs", "src/definitions/ret.rs", "src/system_params.rs"]}
{"id": "C62", "title": "Prices cover the proving work up to the documented factor", "statement": "Count for each instruction the work the pricing comments describe (a cycle and a memory query for the fetch, one query per operand in memory, two words touched by heap access, a second cycle for heap writes). The price covers it for every instruction of the table unless both operands are in memory, when it is short by exactly one memory query; over every sequence of instructions the work is at most 1.2 times the price paid, the least factor being 7/6. No instruction takes more than 1 + MAX_PENDING_CYCLES cycles.", "quantifier": "all finite instruction sequences", "why_tests_cant": "unbounded sequences; the 1.2 figure is only in a comment", "anchors": ["src/lib.rs:RICH_ADDRESSING_OPCODE_ERGS", "src/definitions/uma.rs:ergs_price", "src/lib.rs:MAX_PENDING_CYCLES"]}
{"id": "C63", "title": "Decoded number indexes every opcode table", "statement": "In both modes and for every word, the number returned with a decoded instruction is the word modulo 2048; at that index OPCODES_TABLE holds the decoded variant, OPCODES_PRICES its price and OPCODES_PROPS_INTEGER_BITMASKS its bitmask, and looking the variant up in OPCODE_TO_MONOTONIC_INDEX_NUMBER_MAP gives the same number back, or 0 for the invalid opcode.", "quantifier": "all words of both encodings", "why_tests_cant": "2^64 / 2^128 words over four tables", "anchors": ["src/decoding/encoding_mode_production.rs", "src/decoding/encoding_mode_testing.rs", "src/lib.rs:OPCODES_PRICES"]}
{"id": "C64", "title": "Reachable code", "statement": "A program counter reaches exactly the first 2^14 code words in production (2^31 in testing), each instruction at exactly one value. Expected: every instruction of a bytecode accepted by bytecode_to_code_hash can be reached; actual: exactly the accepted bytecodes of at most 16384 words have this, while up to 65535 words are accepted. The exit address of the first frame lies in every accepted bytecode, its error handler (the last program counter) only in those of at least 16384 words.", "quantifier": "all program counters, all bytecodes and digest functions", "why_tests_cant": "needs bytecodes of more than half a megabyte", "anchors": ["src/decoding/encoding_mode_production.rs:split_pc", "src/utils.rs:bytecode_to_code_hash", "src/system_params.rs:INITIAL_FRAME_FORMAL_EH_LOCATION"]}
{"id": "C65", "title": "Size-proportional budgets", "statement": "Memory growth and decommitment charges never exceed u32 for any u32 size or any accepted bytecode, and decommitment is at most 262140 ergs. The decommitment overhead of value transfers covers exactly codes of at most 16000 words, so not every accepted bytecode. Every offset that may be dereferenced is within BOOTLOADER_MAX_MEMORY and conversely. Expected from its name: payable heap offsets stay below 2^LOG2_NUM_ADDRESSABLE_HEAP_BYTES; actual: larger offsets pass the dereference check and are payable. A block's pubdata holds up to 1250 L1 messages, and exactly that many fill it, up to 1718 writes of new storage slots or 2750 of existing ones, the latter filling it exactly, and the prepaid pubdata of a value transfer is the least covering two storage writes.", "quantifier": "all sizes, offsets, bytecodes and write counts", "why_tests_cant": "universal over sizes; boundary products are never computed in tests", "anchors": ["src/lib.rs:MEMORY_GROWTH_ERGS_PER_BYTE", "src/lib.rs:LOG2_NUM_ADDRESSABLE_HEAP_BYTES", "src/system_params.rs:DECOMMITMENT_MSG_VALUE_SIMULATOR_OVERHEAD"]}
{"id": "C66", "title": "Exported layout constants locate the fields", "statement": "In both modes, for every instruction that encodes, the exported widths and shifts (OPCODES_TABLE_WIDTH, CONDITIONAL_BITS_SHIFT and WIDTH, VARIANT_AND_CONDITION_ENCODING_BITS, SRC_REGS_SHIFT, DST_REGS_SHIFT, REGISTER_INDEX_ENCODING_BITS) read back its opcode number, condition, four registers and two immediates from the word, adjacent fields touch, and a register index names one of REGISTERS_COUNT registers or the constant zero.", "quantifier": "all encodable instructions, both modes, both builds", "why_tests_cant": "external readers use the constants, the encoder uses its own shifts; the agreement is over all words", "anchors": ["src/lib.rs:SRC_REGS_SHIFT", "src/definitions/condition.rs:CONDITIONAL_BITS_WIDTH", "src/decoding/encoding_mode_production.rs"]}
{"id": "C67", "title": "Flag indices and exception bits", "statement": "For every opcode the exported flag indices of its roles are distinct and below NUM_NON_EXCLUSIVE_FLAGS, and a flag occurs set in some table entry of the opcode exactly when it has a role. For every variant and supported version the circuit bitmask holds flag i at bit OPCODE_TYPE_BITS + max_num_variants + i and the kernel, static and panic bits at the exported indices after the rounded description width.", "quantifier": "all opcodes, all variants and flags, all versions", "why_tests_cant": "universal over the 1093 variants and the 51 bits", "anchors": ["src/definitions/mod.rs:SET_FLAGS_FLAG_IDX", "src/definitions/far_call.rs", "src/lib.rs:KERNER_MODE_FLAG_IDX"]}
{"id": "C68", "title": "Derived ordering of variants and pointers", "statement": "The orderings of OpcodeVariant, Opcode, Operand, Condition and the addressing modes are total orders consistent with equality. Opcodes are ordered by (variant_idx, subvariant index), conditions and modes by their encoding, variants by opcode, source, destination and flags. Expected: sorting table variants sorts their opcode numbers; actual: the order is reversed exactly for context opcodes against shift, binop, ptr and near call, for shift against binop, and for the version-1 immediate heap accesses against later register forms. FatPointer is ordered by offset first, which disagrees with the order of packed values.", "quantifier": "all pairs and triples of variants and pointers", "why_tests_cant": "over a million pairs of table variants, 2^256 pairs of pointers", "anchors": ["src/definitions/mod.rs:OpcodeVariant", "src/definitions/all.rs:Opcode", "src/definitions/abi/fat_pointer.rs:FatPointer"]}
{"id": "C69", "title": "Derived ordering of register ABIs", "statement": "The orderings of FatPointer, FarCallABI, RetABI, NearCallABI, PrecompileCallABI, PrecompileCallInnerABI, VmMetaParameters and OpcodeVariantData are total orders consistent with equality, lexicographic in the declared fields. Expected: packing with to_u256 preserves the order; actual: the packed words are ordered lexicographically by the fields in reverse order, so all three packable types disagree. Unpacked near-call parameters are ordered as the low 32 bits of the words; forwarding modes as their three defined bytes.", "quantifier": "all pairs and triples of values", "why_tests_cant": "the pairs range over up to 512 bits; sorting tests use a few values", "anchors": ["src/definitions/abi/meta.rs:VmMetaParameters", "src/definitions/abi/precompile_call.rs:PrecompileCallInnerABI", "src/definitions/abi/far_call.rs:FarCallABI"]}
{"id": "C70", "title": "Every register ABI value can be written, and which words read alike", "statement": "Every FarCallABI, RetABI, NearCallABI and PrecompileCallABI value whose fields are within their types is what from_u256 reads from an explicit 256-bit word (unused bits zero, flags 0 or 1, forwarding bytes 0 to 2), and from_u256 never yields any other value. Two words read as the same far call exactly when their lower 128 bits, bits 192 to 223 and byte 29 agree, their forwarding bytes are both 1, both 2 or both neither, and bytes 30 and 31 are zero together; for returns exactly when the lower half and the forwarding class agree; for near calls the low 32 bits; for precompile calls the lower half and the upper 64 bits.", "quantifier": "all values of the four types; all pairs of words", "why_tests_cant": "the types have no packing function to test a round trip with; pairs of 256-bit words", "anchors": ["src/definitions/abi/far_call.rs:FarCallABI", "src/definitions/abi/ret.rs:RetABI", "src/definitions/abi/near_call.rs:NearCallABI", "src/definitions/abi/precompile_call.rs:PrecompileCallABI"]}
{"id": "C71", "title": "Patching an encoded instruction", "statement": "In both modes, overwriting the bits of one field (opcode number, condition, one register, one immediate) in the word of an encoded instruction gives the word of the instruction with that field replaced, for any sequence of such edits; overwriting a field of an arbitrary word, canonical or not, changes that field of the decoded instruction and no other.", "quantifier": "all instructions, words, fields, new values and sequences of edits, both modes and builds", "why_tests_cant": "relocation touches words in place: 2^64 (2^128) words times all edits", "anchors": ["src/decoding/encoding_mode_production.rs", "src/decoding/encoding_mode_testing.rs", "src/decoding/mod.rs"]}
{"id": "C72", "title": "A deployed program runs as written", "statement": "For every list of encodable instructions that fits in 65535 words, serializing them, padding with at most 63 zero bytes and cutting into 32-byte words gives a bytecode accepted by bytecode_to_code_hash, whose hash records the number of words. From a code page holding these words followed by zero words, splitting any program counter, selecting the instruction word and decoding gives the instruction written there, and the invalid instruction for every counter past the end of the program.", "quantifier": "all programs of any length that fits, all program counters, both modes and builds, all digest functions", "why_tests_cant": "unbounded programs; the pieces live in different modules and are never run together", "anchors": ["src/decoding/mod.rs:serialize_as_bytes", "src/decoding/encoding_mode_production.rs:split_pc", "src/utils.rs:bytecode_to_code_hash"]}
{"id": "C73", "title": "The pointer width of the target does not matter", "statement": "For every pointer width of at least 16 bits, decoding and encoding in both modes give what they give on a 64-bit target, for every word and instruction and in both builds, so the casts to usize never lose anything; table synthesis (current and legacy) gives the same for every table width below the pointer width, and OPCODES_TABLE is the same table. Expected: all table widths below 64 behave alike; actual: a width of at least the pointer width panics with overflow checks and is taken modulo the pointer width without.", "quantifier": "all pointer widths, words, instructions, table widths, versions, builds", "why_tests_cant": "tests run on one target; words range over 2^64 and 2^128", "anchors": ["src/decoding/encoding_mode_production.rs", "src/decoding/encoding_mode_testing.rs", "src/definitions/mod.rs:synthesize_opcode_decoding_tables"]}
{"id": "C74", "title": "Regenerating the prices for other capacities", "statement": "For every choice of circuit capacities, pubdata sizes and limits of the generator's constant types: when no capacity is zero and no intermediate result exceeds u32, running the generator in either build writes src/circuit_prices.rs with the fixed text in which every constant is the decimal numeral of the price that follows from the capacities (least unit price paying for a circuit; floor of zero for a write hasher exactly when the pubdata limit already bounds its use; the write floor the larger of the two). Otherwise a checked build panics; an unchecked one panics exactly when a capacity is zero as a u32. If every circuit holds at least its stated capacity, a unit price pays for all completely filled circuits exactly when it is at least the written one, and no payable and publishable number of L1 messages or storage writes exceeds its single-instance circuit. The prices are determined by the capacities, and for the current capacities are the committed ones.", "quantifier": "all capacities, pubdata sizes and limits, both builds, all actual capacities, counts and prices", "why_tests_cant": "the generator reads constants, so a test sees one set of capacities, and only branches that are taken for it", "anchors": ["src/circuit_pricing_generator/main.rs:main", "src/circuit_pricing_generator/main.rs:ceil_div", "src/circuit_prices.rs"]}
{"id": "C75", "title": "Synthesis for other instruction sets", "statement": "For every instruction set given through the opcode traits (opcode objects, prototypes, operand queries, versions), not only the current one: enumerating a version lists the variants of each opcode in turn by sub-variant, source mode, destination mode and flags, and succeeds exactly if the names differ, the first is that of the invalid opcode, all queries succeed, every combination of operands is one of the thirteen supported ones, no opcode has more than two flags and the first variant is the invalid one. The density is then its length, so the internal comparison cannot fail. A number that means something in the table for one version means the same in the table for every later one. A synthesized table holds the meanings of exactly the variants of the last version used and then the invalid variant; if no two variants of that version mean the same, it is a reordering of them. Synthesis succeeds whenever the versions can be enumerated without repeated meanings, none drops a meaning, and the last fits the table. The legacy procedure agrees for a single version with uniform operands and panics at a register-or-immediate source.", "quantifier": "all instruction sets, versions, table widths, pointer widths, builds", "why_tests_cant": "the code has one instruction set compiled in, so a test sees only the operand combinations and version changes that this one has", "anchors": ["src/definitions/mod.rs:all_variants_in_version", "src/definitions/mod.rs:compute_encoding_density", "src/definitions/mod.rs:synthesize_opcode_decoding_tables", "src/definitions/mod.rs:synthesize_opcode_decoding_tables_legacy", "src/definitions/mod.rs:find_new_opcodes"]}
{"id": "C76", "title": "Bit descriptions for other instruction sets", "statement": "For every instruction set given through the opcode traits and every version: the variant width is one more than the greatest sub-variant index, the flag width the greatest number of flags over all versions up to the given one, the total width their sum with 16 opcode, 6 source and 4 destination bits, and the rounded width the least multiple of 16 that is not smaller; they are defined exactly if the queries succeed, there is an opcode and (for flags) a version. A circuit bitmask exists, in both builds, only if the fields fit the rounded width and 3 further bits fit 64; then, for a variant within these widths, it has one bit per field at the place of that field and no other bits, and equal bitmasks have the same opcode and sub-variant numbers, flags, modes, privilege, static and invalid attributes. The bitmask table asks in addition for exactly 16 opcodes. The text of compute_decoding_format states these widths in decimal.", "quantifier": "all instruction sets, versions, variants, builds", "why_tests_cant": "the code has one instruction set, whose widths happen to need rounding and to fit; tests see no other", "anchors": ["src/lib.rs:total_description_bits_rounded_for_version", "src/definitions/mod.rs:max_num_variants_for_version", "src/definitions/mod.rs:max_num_flags_for_version", "src/definitions/mod.rs:opcode_as_integer_bitmask", "src/definitions/mod.rs:synthesize_bit_decomposition_table", "src/definitions/mod.rs:compute_decoding_format"]}
{"id": "C77", "title": "The codec for other opcode tables", "statement": "For every opcode table of at most 2048 entries, not only the current one, in both modes and builds: a word decodes exactly if its low 11 bits are a position in the table, to the entry there and the fields at the fixed places. Encoding succeeds exactly if no variant other than the invalid one occurs twice, the variant occurs in the table and (in a debug build) the registers are below 16, and yields the word with the first position of the variant. Decoding an encoded instruction returns it with that position; re-encoding a decoded word clears the gap and the bits above the last immediate and keeps the number, except that a repeated invalid variant gets its first one; instructions never share a word. Hence for every instruction set whose table can be synthesised with 11 bits and whose last version has no two variants of the same meaning, every variant of it survives encoding and every word decodes. In longer tables numbers above 2048 are rejected. Expected: the width assertion of the encoder rejects every number that does not fit; actual: it lets the number 2048 pass, whose word decodes as number 0.", "quantifier": "all tables, instruction sets, instructions, words, modes, builds", "why_tests_cant": "the code has one table compiled in; a test cannot see whether the codec depends on its contents", "anchors": ["src/decoding/encoding_mode_production.rs", "src/decoding/encoding_mode_testing.rs", "src/lib.rs:OPCODE_TO_CANONICAL_INDEX_LOOKUP_MAP"]}
{"id": "C78", "title": "Code outlives the version it was written for", "statement": "For every instruction set and any two versions whose tables can be synthesised with 11 bits: a word encoded with the table of the older version decodes, with the table of every later one, to the same opcode number and the same instruction (equal up to the two spellings of a register source, all other fields equal), and if neither version has two variants of the same meaning, encoding that instruction for the later version gives the same word again; likewise for whole programs. Every word, however obtained, that the older table reads as something other than the invalid instruction is read alike by the later one, so an older machine misreads no newer program: it sees the same instruction or the invalid one. The two spellings have the same circuit bitmask. In the source this holds of the versions 0 and 1, in both modes.", "quantifier": "all instruction sets, versions, programs, words, modes, builds, pointer widths", "why_tests_cant": "two tables and all words; a test has the current versions only", "anchors": ["src/definitions/mod.rs:synthesize_opcode_decoding_tables", "src/definitions/mod.rs:find_new_opcodes", "src/decoding/encoding_mode_production.rs", "src/decoding/encoding_mode_testing.rs"]}
{"id": "C79", "title": "Debug texts tell values apart", "statement": "For every opcode, operand, variant, decoded instruction, table index, ISA version, ABI record (fat pointer, far call, return, near call, precompile call and its inner form, VM meta parameters) and versioned hash, formatting with {:?} and with {:#?} gives the name of the type or variant with its fields in declaration order, numbers in decimal: on one line without line breaks, or with one field per line, four spaces of indentation per level and a comma after each. Each of the two texts determines the value: two values of one type with the same text are the same. The opcode and operand texts inside a displayed instruction are the one-line forms.", "quantifier": "all values of these types, both forms", "why_tests_cant": "the values range over up to 2^256 states; a test compares single texts", "anchors": ["src/opcode.rs:DecodedOpcode", "src/definitions/mod.rs:OpcodeVariant", "src/definitions/abi/fat_pointer.rs:FatPointer", "src/definitions/abi/far_call.rs:FarCallABI", "src/definitions/abi/ret.rs:RetABI", "src/definitions/abi/precompile_call.rs", "src/definitions/abi/meta.rs:VmMetaParameters", "src/definitions/versioned_hash/mod.rs:ContractCodeSha256Storage"]}
{"id": "C80", "title": "Hashing tells values apart", "statement": "For every opcode, operand, variant, condition, table index, ISA version, ABI record and versioned hash, what its Hash implementation feeds to a hasher is the number of the variant (for enums with more than one) and then the fields in declaration order, each in the fixed number of bytes of its type and an array preceded by its length, on every target (bytes of usize, bytes of a discriminant, byte order). Two different values of a type never feed the same bytes, and the bytes of one never begin those of another, so a sequence of values hashed in a row is determined by its length and what was fed: a collision can only come from the hasher.", "quantifier": "all values of these types, all targets, all continuations", "why_tests_cant": "up to 2^256 values and pairs of them; a test compares single digests", "anchors": ["src/definitions/mod.rs:OpcodeVariant", "src/definitions/all.rs:Opcode", "src/definitions/opcode_trait.rs:Operand", "src/imm_mem_modifiers.rs", "src/definitions/condition.rs:Condition", "src/definitions/abi/fat_pointer.rs:FatPointer", "src/definitions/abi/far_call.rs:FarCallABI", "src/definitions/abi/ret.rs:RetABI", "src/definitions/versioned_hash/mod.rs:ContractCodeSha256Storage"]}
{"id": "C81", "title": "Tables too large to address", "statement": "Table synthesis asks for memory for the whole table before filling it. For every pointer width, size of an entry in bytes, table width, version and build: synthesis returns the padded list of variants exactly if the variants fit, the table is smaller than half the address space, and so is the working list of 2048 entries; otherwise it panics. The legacy procedure needs no working list. Expected: every width below the pointer width that holds the variants gives a table; actual: the last width always panics, whatever an entry takes. Describing a slice of opcodes needs eight bytes for each, which never fails if an entry takes at least eight; the static tables exist on all 32- and 64-bit targets.", "quantifier": "all pointer widths, entry sizes, table widths, versions, builds, slices", "why_tests_cant": "a test cannot allocate such tables, and runs on one target", "anchors": ["src/definitions/mod.rs:synthesize_opcode_decoding_tables", "src/definitions/mod.rs:synthesize_opcode_decoding_tables_legacy", "src/definitions/mod.rs:all_variants_in_version", "src/definitions/mod.rs:synthesize_bit_decomposition_table", "src/lib.rs:OPCODES_PRICES"]}
{"id": "C82", "title": "Counting does not overflow unnoticed", "statement": "For every instruction set given through the opcode traits, every pointer width and version: with overflow checks the density, the variant width, the total and rounded widths and the circuit bitmasks are what exact arithmetic gives, or a panic if a result does not fit; table synthesis gives a table exactly if exact arithmetic does. Without checks every result that fits is the same, and a density that does not fit is the sum taken modulo the machine integer, with shifts by the number of flags taken modulo its width; the widths are the wrapped sums, and a bitmask made from them has its bits at the wrapped places modulo 64 and exists exactly if the wrapped widths pass the two assertions; synthesis still gives the same as long as the enumerations have fewer entries than the integer has values. For the current instruction set nothing overflows on any target of at least 16 bits, in either build. Expected: a set whose widths do not fit is rejected by every build; actual: without overflow checks a sub-variant index of 2^64-1 wraps to a width of 1 and bitmasks are made with it, and 64 flags count as none.", "quantifier": "all instruction sets, pointer widths, versions, variants, table widths, builds", "why_tests_cant": "tests run one instruction set on one target in one build; overflow needs others", "anchors": ["src/definitions/mod.rs:compute_encoding_density", "src/definitions/mod.rs:max_num_variants_for_version", "src/definitions/mod.rs:opcode_as_integer_bitmask", "src/definitions/mod.rs:synthesize_opcode_decoding_tables", "src/lib.rs:total_description_bits_for_version", "src/lib.rs:total_description_bits_rounded_for_version"]}
{"id": "C83", "title": "Prices for other price constants", "statement": "For every choice of the u32 price constants (unit prices of the circuits, I/O prices, price of a callstack item, floors, simulator stipend): the derived constants compile exactly if they fit u32, the stipend is not negative and a callstack item is not free. Then the price of every instruction is the sum of its charges (cycles, memory queries, log, sorter and decommitment entries, I/O, callstack item), raised to the floor for a storage write and an L1 message, and u32::MAX for the invalid one, in both builds, if the sum fits u32; otherwise it panics with overflow checks and is the sum modulo 2^32 without. The price table exists with checks exactly if all sums fit. Raising unit prices never lowers a price as long as no sum overflows. Whatever the constants and the build, a storage write is dearer than both stipends, so no execution paid from one writes storage. The callstack reaches exactly one frame plus the ergs divided by the price of a near call plus the unpaid calls; the exported depth limit bounds it if a callstack item costs less than 2^16 and instructions are not free. With the unit prices the generator writes for any capacities, every execution pays for all circuits its charges fill. The worst-case work of a program exceeds its price by at most the factor (cycle + 3 memory queries)/(cycle + 2 memory queries), and no smaller factor will do. The shipped constants give the shipped prices, and the I/O prices of a storage write and an L1 message have no effect up to 3486 and 156237. Expected: raising a constant never makes an instruction cheaper, and the exported limit bounds the callstack for every choice; actual: without overflow checks a sum can wrap to 0, and at a callstack item price of 2^16 the stack outgrows the limit.", "quantifier": "all price constants, instructions, builds, capacities, executions", "why_tests_cant": "the constants are compiled in, so a test sees one choice of them; executions are unbounded", "anchors": ["src/circuit_prices.rs", "src/lib.rs:RICH_ADDRESSING_OPCODE_ERGS", "src/lib.rs:OPCODES_PRICES", "src/system_params.rs:VM_MAX_STACK_DEPTH", "src/system_params.rs:MIN_STORAGE_WRITE_COST", "src/definitions/log.rs:ergs_price", "src/definitions/far_call.rs:ergs_price", "src/definitions/near_call.rs:ergs_price", "src/definitions/uma.rs:ergs_price"]}
{"id": "C84", "title": "The codec for other places of the fields", "statement": "For every choice of the constants that place the fields in an instruction word (width of the opcode table, shifts of the condition, the register bytes and the two immediates, number of head bits), in both modes and for every opcode table: the decoder compiles exactly if every field starts inside the integer it is read from, and the canonicity check exactly if number, gap and condition fit the head. Encoding then yields the union of the bits of all fields at their places, cut off at the end of the word, and decoding reads the fields at their places. Every instruction survives encoding and decoding exactly if no two fields share a bit, none overlaps the number, and all lie inside the word (the condition inside its low 64 bits). In that case every encoded word passes the canonicity check exactly if no field has a bit in the gap, and every word that passes and names a first table position survives decoding and encoding exactly if each bit after the number belongs to a field or the gap. With the other constants as shipped the table can grow up to 13 bits, and no further without a compile error; words of the narrower table are read alike with the wider one, and a word of the wider one passes the check of the narrower one exactly if its number fits it. In the testing mode, but not in production, some bits belong neither to a field nor to the gap. Expected: whenever all instructions survive, their words pass the check; actual: with the condition moved into the gap they do not, because the check has its own constant.", "quantifier": "all layouts, tables, instructions, words, modes, builds", "why_tests_cant": "the places are compiled in, so a test sees one choice of them; the words range over 2^64 and 2^128 values", "anchors": ["src/decoding/encoding_mode_production.rs", "src/decoding/encoding_mode_testing.rs", "src/lib.rs:OPCODES_TABLE_WIDTH", "src/lib.rs:CONDITIONAL_BITS_SHIFT", "src/lib.rs:SRC_REGS_SHIFT", "src/lib.rs:DST_REGS_SHIFT"]}
{"id": "C85", "title": "Upgrading version and table width together", "statement": "For every instruction set given through the opcode traits, any two versions, any two table widths and any places of the fields with which both crates compile and no fields collide: a word encoded with the older table decodes, with the newer one, to the same opcode number and the same instruction (equal up to the two spellings of a register source), and encoding that gives the word again if neither version has two variants of one meaning; so whole programs carry over. Conversely, a machine with the older and not wider table that rejects words failing its canonicity check reads every word of the newer table as the same instruction or as the invalid one, and rejects exactly those whose number its table lacks. Widening the table of the crate itself to 12 or 13 bits changes no word of any instruction, and further numbers read as invalid. Expected: the older machine never executes another instruction; actual: it does if it skips the canonicity check.", "quantifier": "all instruction sets, pairs of versions, widths, layouts, instructions, words, programs of any length, both modes and builds", "why_tests_cant": "needs two releases of the crate at once, one of them in the future", "anchors": ["src/definitions/mod.rs:synthesize_opcode_decoding_tables", "src/decoding/encoding_mode_production.rs", "src/decoding/encoding_mode_testing.rs", "src/lib.rs:OPCODES_TABLE_WIDTH"]}
{"id": "C86", "title": "Reassembling a bytecode", "statement": "Take any bytecode (a list of 32-byte words, of any length, not necessarily produced by an assembler), decode each of its instructions, serialize each again and cut the bytes into words: this never fails, gives exactly one bytecode, of the same length, and the same one in both builds. At every position, also after the end, the new bytecode decodes to the same instruction as the old one; all its words pass the canonicity check. The bytecode is unchanged exactly if each of its instruction words has zero bits outside the fields and an assigned opcode number; doing it again changes nothing. Two bytecodes of one length become the same exactly if they decode to the same instruction everywhere. A code hash exists for both or for neither, and is the same for both only if nothing was changed or SHA-256 gives two different messages of one length the same last 28 bytes.", "quantifier": "all bytecodes of any length, positions, both modes and builds", "why_tests_cant": "bytecodes are unbounded, and each word ranges over 2^64 or 2^128 values", "anchors": ["src/decoding/encoding_mode_production.rs", "src/decoding/encoding_mode_testing.rs", "src/decoding/mod.rs", "src/opcode.rs:serialize_as_bytes", "src/utils.rs:bytecode_to_code_hash"]}
{"id": "C87", "title": "The digest in a code hash is SHA-256", "statement": "The hasher with which the code hash is computed absorbs the words of a bytecode one after the other. For every way of cutting a message into pieces it gives the SHA-256 of the whole message, as defined by the standard: the message, a one bit, fewer than 64 zero bytes and the length in bits, in blocks of 64 bytes; each compressed with a schedule of 64 words, the round constants being bits of the cube roots of the first 64 primes and the initial state bits of the square roots of the first eight. There is exactly one such digest, of 32 bytes. So the code hash of every accepted bytecode is the version byte, a zero, the number of words and the last 28 bytes of its SHA-256, and all properties stated for an arbitrary digest function hold for it.", "quantifier": "all messages of any length, all ways of cutting them, all modes and bytecodes", "why_tests_cant": "messages are unbounded; known answers check single ones", "anchors": ["src/utils.rs:bytecode_to_code_hash_for_mode", "src/utils.rs:bytecode_to_code_hash", "src/definitions/versioned_hash/mod.rs:from_digest_and_preimage_num_words"]}
{"id": "C88", "title": "Rounds of decommitment and what they cost", "statement": "For every bytecode with an odd number of words the number of SHA-256 rounds is half the number of words, rounded up: each round takes two words, and the last one the last word and all of the padding, so no round is without code; with an even number of words the last round would have none, hence the oddness check. With prices the generator derives from any capacities, what is charged per word pays for all rounds of all decommitted bytecodes except at most half a round of each. With the shipped constants it pays for all rounds exactly if a bytecode has at least five words. Expected: every execution pays for the decommitter circuits it fills; actual: 12100 different bytecodes of one word fill a circuit of 80000 ergs and are charged 48400, because the price assumes 64 bytes of code in every round.", "quantifier": "all bytecodes, all lists of decommitted bytecodes, all capacities", "why_tests_cant": "universal over bytecodes and executions; a test compares single prices", "anchors": ["src/utils.rs:bytecode_to_code_hash_for_mode", "src/circuit_pricing_generator/main.rs", "src/lib.rs:ERGS_PER_CODE_WORD_DECOMMITTMENT"]}
{"id": "C89", "title": "Collisions of code hashes", "statement": "If two accepted bytecodes have the same code hash, they have the same length, and are equal unless SHA-256 collides in one compression step: at some block, state or block differ, and yet the next states are the same, or, at the last block, agree in all words but the first, which the code hash does not contain. Conversely, two bytecodes of the same length with the same state after some block and the same blocks from there on have the same code hash.", "quantifier": "all pairs of bytecodes", "why_tests_cant": "the bytecodes are unbounded, and no collision is known to test with", "anchors": ["src/utils.rs:bytecode_to_code_hash", "src/definitions/versioned_hash/mod.rs:from_digest_and_preimage_num_words"]}
{"id": "C90", "title": "Results do not depend on the seed of the hash maps", "statement": "The lookup maps, the statics looked up in them, the check for duplicate names and both encoders give the same results in every process: for every hasher (even one that gives all keys the same hash), every group width and every target, building a map of any table panics exactly if a variant other than the invalid one occurs twice, and otherwise each variant of the table is found with its first position, every other variant is absent, every lookup ends, and iterating yields each entry once. This holds for every scheme of open addressing in which a slot stays empty, each slot is tried and growing makes room, and the scheme of the standard library is one: a slot in eight stays empty and its steps reach every group. Expected by some users: iterating a public map gives the same order everywhere; actual: the order depends on the hasher.", "quantifier": "all tables, all hashers, all sequences of insertions", "why_tests_cant": "the hasher is seeded at random in every process, so that a test sees one layout of the slots per run", "anchors": ["src/lib.rs:OPCODE_TO_CANONICAL_INDEX_LOOKUP_MAP", "src/lib.rs:OPCODE_TO_MONOTONIC_INDEX_NUMBER_MAP", "src/definitions/mod.rs:all_opcodes", "src/decoding/encoding_mode_production.rs:encode_as_integer", "src/decoding/encoding_mode_testing.rs:encode_as_integer"]}
{"id": "C91", "title": "First use of the statics from several threads", "statement": "Any number of threads may use the lazily computed tables, maps, constants and addresses, and the functions that read them (decoding, encoding, the NOP and panic encodings in both modes), for the first time in the same process, in any order of their steps. Every initializer is run at most once, no static is ever poisoned, a value once there never changes and is the one a single thread computes, and every call returns what it returns in a single thread. No thread waits for ever: there is no infinite order of steps, and when no thread can take a step all have returned. For any other set of statics the same holds if initializers do not need each other in a circle, with a panic reaching exactly the threads that would panic alone; with a circle threads can wait for ever.", "quantifier": "all numbers of threads, all requests, all interleavings", "why_tests_cant": "the scheduler picks one of unboundedly many interleavings, and a test process initializes each static once", "anchors": ["src/lib.rs:OPCODES_TABLE", "src/lib.rs:OPCODES_PROPS_INTEGER_BITMASKS", "src/lib.rs:OPCODE_TO_CANONICAL_INDEX_LOOKUP_MAP", "src/lib.rs:NUM_LOGICAL_OPCODES", "src/system_params.rs", "src/definitions/mod.rs:opcode_as_integer_bitmask", "src/decoding/encoding_mode_production.rs", "src/decoding/encoding_mode_testing.rs"]}
{"id": "C92", "title": "Interrupted runs of the price generator", "statement": "For all circuit parameters and every way in which the operating system answers (the file cannot be opened; a write is partial, interrupted, refused, or never answered): the generator touches no other file; if the prices cannot be computed, or the file cannot be opened, it panics and the disk is as before; otherwise it returns exactly if the writes take the whole text before any fails, and then the file holds exactly the text, and if it stops before, the file holds exactly the bytes taken so far. A file that holds only the beginning of the text declares no wrong price, declares the constants in their order without gaps, and declares all of them exactly if at most the last newline is missing; the next run that returns completes it. Expected: a failing run leaves the old file or the new one; actual: it can leave an empty or torn one. Expected: the crate does not compile with a torn file; actual: it does if the file ends after the constants the crate itself refers to, and users lack the others.", "quantifier": "all parameters, builds, previous contents of the disk, sequences of answers of the operating system, places of the cut", "why_tests_cant": "failures of the operating system are not under the control of a test, and there are unboundedly many sequences of them", "anchors": ["src/circuit_pricing_generator/main.rs:save_circiut_prices", "src/circuit_pricing_generator/main.rs:main", "src/circuit_prices.rs"]}
{"id": "C93", "title": "No panic for instructions a machine comes by", "statement": "Whatever the code memory holds, fetching and decoding return at every program counter, in both modes. Take the instructions a machine comes by: decoded from any place of any code page, masked into panic or nop, or patched with any condition, any of the sixteen registers and any immediates, in any order and any number of times. None of them makes a function of the crate panic, in any build: serializing to an integer or to bytes returns and gives a canonical word that decodes to the same instruction; both lookup maps have its variant, with the same number; the opcode, price and bitmask tables have an entry at that number; the bitmask and the operand queries return for both versions. They are exactly the instructions decoded from some word, and exactly those with a variant of the table, existing registers and immediates that fit. No larger class is safe: with overflow checks serializing any other value panics, the default instruction among them.", "quantifier": "all memories, program counters, sequences of masking and patching, modes, builds, versions", "why_tests_cant": "memory contents and sequences of operations are unbounded; a test runs some of them", "anchors": ["src/decoding/mod.rs", "src/decoding/encoding_mode_production.rs", "src/decoding/encoding_mode_testing.rs", "src/opcode.rs", "src/lib.rs:OPCODES_TABLE", "src/definitions/mod.rs:opcode_as_integer_bitmask", "src/definitions/opcode_trait.rs"]}
{"id": "C94", "title": "What an amount of ergs buys", "statement": "A sequence of cycles (instructions, calls, returns, panics, and at most u near calls on the system's account) can be executed with e ergs exactly if calls and returns are well nested and the sum of the table prices of its instructions is at most e plus the price of the near calls that need not be paid; passing ergs between frames neither adds to that nor takes away. The same holds for every other choice of prices. So for every instruction other than a return, e ergs buy it exactly e divided by its price times; returns, each but the last of which needs a call, they buy exactly (e + c)/(r + c) times, for the prices r of a return and c of a near call. With the ergs limit of a transaction that is exactly 512 L1 messages, which the single merklizer circuit and the pubdata of a block both hold. Expected: the same for storage writes; actual: the limit buys 22850 of them, whose pubdata exceeds that of a block.", "quantifier": "all amounts of ergs, all sequences of cycles of any length, all ways of passing ergs along", "why_tests_cant": "sequences and amounts are unbounded", "anchors": ["src/lib.rs:OPCODES_PRICES", "src/definitions/log.rs:ergs_price", "src/definitions/near_call.rs:ergs_price", "src/definitions/far_call.rs:ergs_price", "src/system_params.rs:MAX_TX_ERGS_LIMIT", "src/system_params.rs:MAX_PUBDATA_PER_BLOCK"]}
{"id": "C95", "title": "The circuits a run fills", "statement": "Count for each cycle what the pricing comments and formulas put into the six circuits that instruction prices pay for (machine cycles, memory queries, log demultiplexer, storage sorter, event sorter, decommitment sorter), a panic being a cycle nobody pays for. In every run the instances filled, of all circuits together, cost at least 104937 ergs each (up to 5 ergs for a last panic and the price of near calls on the system's account), more than ERGS_PER_CIRCUIT; 104938 would be false. A transaction with the ergs limit fills at most 762 instances and can fill 762. Together with units of any circuit bought in addition at its unit price (rounds of precompiles, words of code), an instance costs at least 80004 ergs, and 80005 would be false; the limit then fills at most 999 instances, and can fill 999. Expected: the storage application circuit is paid for as well; actual: a storage read costs less than a unit of it, and reads of different slots within the limit fill 4290 instances, worth more than four times the limit.", "quantifier": "all runs of any length, with any calls, returns, panics and operands", "why_tests_cant": "runs are unbounded, and the largest number depends on every variant of the table", "anchors": ["src/lib.rs:OPCODES_PRICES", "src/lib.rs:RICH_ADDRESSING_OPCODE_ERGS", "src/definitions/log.rs:ergs_price", "src/definitions/far_call.rs:ergs_price", "src/definitions/uma.rs:ergs_price", "src/circuit_prices.rs", "src/circuit_pricing_generator/main.rs", "src/system_params.rs:ERGS_PER_CIRCUIT"]}
{"id": "C96", "title": "What a machine executes", "statement": "Take a machine that asks each decoded instruction for its attributes and its price and masks it into a panic if it is invalid, needs the kernel mode outside of it, is forbidden in a static context inside of one, or costs more than the ergs left, and into a NOP if its condition is not met. For every instruction and every context it executes the instruction as it is exactly when none of these applies; it never executes an invalid opcode, never a kernel-only one in user mode, never a forbidden one in a static context, and nothing but a panic if the ergs do not cover the price. For every code word, in both modes, a circuit that makes the same checks on the price table entry and the attribute bits of the bitmask table at the decoded number, and selects between that entry and the exported bitmasks of panic and NOP, ends with exactly the bitmask of the instruction the machine executes.", "quantifier": "all code words, decoded instructions, contexts, amounts of ergs, modes, builds", "why_tests_cant": "2^64 words times all contexts and amounts of ergs; agreement of five exported artefacts", "anchors": ["src/opcode.rs:mask_into_panic", "src/opcode.rs:mask_into_nop", "src/lib.rs:OPCODES_PRICES", "src/lib.rs:OPCODES_PROPS_INTEGER_BITMASKS", "src/lib.rs:KERNER_MODE_FLAG_IDX", "src/lib.rs:PANIC_BITSPREAD_U64", "src/lib.rs:NOP_BITSPREAD_U64", "src/definitions/mod.rs:requires_kernel_mode", "src/definitions/mod.rs:can_be_used_in_static_context", "src/definitions/mod.rs:is_explicit_panic"]}
