# Formal model of era-zkevm_opcode_defs in Rocq (Coq 8.16.1)

## Approach

The crate is a pure library: enumerations, table synthesis, integer codecs, ABI packing,
constants and one text generator. Everything is modelled as total, computable Gallina
functions, function by function, each with a comment citing its lines in /repo.

* Rust integers (`u8..u128`, `usize` on a 64-bit target) are `N`; every truncating cast,
  shift and wrapping operation is written out (`mod 2^w`). Inputs of Rust integer type carry
  a range hypothesis (`x < 2^w`) in theorems where it matters.
* A panic (`assert!`, `unreachable!`, `unimplemented!`, `expect`, `unwrap`, array index,
  failed `try_into`) is the value `Panic` of the `res` type. `Option`/`Result` stay data.
* Where debug and release builds differ (`debug_assert!`, overflow checks) the function takes
  a `build` argument; theorems quantify over it or treat both.
* Traits are dictionaries (records of functions), one instance per `impl`; default methods
  are functions over the dictionary. `Box<dyn OpcodeProps>` is an element of a list of
  dictionaries.
* `lazy_static` items are `res` values (a deref panics iff the initialisation panics). `LazyStatics.v`
  has them again as cells of `std::sync::Once` that several threads use for the first time; the steps
  of the threads interleave in any order, with sequentially consistent memory.
* `HashMap`/`HashSet` are association lists / membership lists: only insert/get/contains are
  used, iteration order never matters. `HashTable.v` has the maps again with their slots, for any
  hasher, order of probing and rule of growth, and C90 shows that they answer alike.
* `U256` is a record of four `u64` limbs, as in `ethereum_types` 0.14.
* SHA-256 (external crate `sha2`) is an arbitrary function parameter of `VersionedHash.v`;
  theorems quantify over every function from byte strings to 32-byte strings. `Sha256.v` has
  the hasher itself, written after the standard (FIPS 180-4) because the crate is not part of
  the repository, and C87 shows it to be such a function.

## Files (rocq/theories)

| kind | files |
|---|---|
| model (definitions only) | `Machine` (panics, integers, bytes, arrays), `Constants` (circuit_prices.rs, system_params.rs, scalar constants of lib.rs and definitions), `Operands` (imm_mem_modifiers.rs, operands), `OpcodeTrait` (opcode_trait.rs), `Opcodes` (the sixteen families), `AllOpcodes` (all.rs), `Tables` (definitions/mod.rs, tables and statics of lib.rs), `Decoding` (condition.rs, opcode.rs, decoding/), `Abi` (definitions/abi/), `VersionedHash` (versioned_hash/, utils.rs), `PricingGen` (circuit_pricing_generator/), `Display` (Display text), `DebugText` (derived `Debug`, both forms), `HashFeed` (derived `Hash`), `Ordering` (derived `Ord`), `Target` (the functions computing with `usize`, for any pointer width), `Allocation` (the capacities asked for up front), `Overflow` (counts and widths computed on a machine integer), `Repricing` (opcode prices on a `u32` for any price constants), `Relayout` (both codecs for any places of the fields), `Sha256` (the hasher used by utils.rs), `HashTable` (the maps and sets of lib.rs and definitions/mod.rs with open addressing), `LazyStatics` (the `lazy_static` blocks of lib.rs and system_params.rs with threads), `GeneratorIO` (the file system calls of the generator) |
| specification (definitions only) | `SpecIsa`, `SpecFamilies`, `SpecCodec`, `SpecAbi`, `SpecPricing`, `SpecDisplay`, `SpecLayout`, `SpecOrdering`, `SpecCompose`, `SpecGenerator`, `SpecSets`, `SpecAnyTable`, `SpecDebug`, `SpecHash`, `SpecOverflow`, `SpecRepricing`, `SpecRelayout`, `SpecReassemble`, `SpecSha`, `SpecRounds`, `SpecHashTable`, `SpecLazy`, `SpecGeneratorIO`, `SpecNoPanic`, `SpecBudget`, `SpecCircuits`, `SpecGuard` |
| proofs | `BitLemmas`, `TableProofs`, `TableProofs2`, `TableProofs3`, `CodecProofs`, `CodecProofs2`, and one `ProofsX` per property file |
| property theorems | `PropsCodec`, `PropsTables`, `PropsFamilies`, `PropsAbi`, `PropsPricing`, `PropsDisplay`, `PropsLayout`, `PropsOrdering`, `PropsCompose`, `PropsTarget`, `PropsGenerator`, `PropsSets`, `PropsMasks`, `PropsAnyTable`, `PropsEvolve`, `PropsDebug`, `PropsHash`, `PropsAllocation`, `PropsOverflow`, `PropsRepricing`, `PropsRelayout`, `PropsUpgrade`, `PropsReassemble`, `PropsSha`, `PropsRounds`, `PropsHashTable`, `PropsLazy`, `PropsGeneratorIO`, `PropsNoPanic`, `PropsBudget`, `PropsCircuits`, `PropsGuard`: statements, `exact`, `Print Assumptions`, and `Example`s showing that the hypotheses are met by non-trivial cases |

The specifications use the public data types and the exported names that the statements are
about, not the model's helper functions. `SpecIsa` gives opcode numbers by a base per opcode
and mixed-radix arithmetic, where the code synthesizes tables with nested loops; `SpecCodec`
gives the word as a sum of fields, where the code ors shifted values; `SpecFamilies` gives
prices, permissions and bitmask bits by tables, where the code spreads them over sixteen
trait implementations; `SpecDisplay` writes the text from printed fields.

## Trusted base

* Coq 8.16.1's kernel, including `vm_compute` (used for finite sweeps), and `coqchk` as a
  second check.
* `Print Assumptions` for every property theorem prints `Closed under the global context`:
  no axiom is used by any of them, neither the library's nor ours. (`coqchk -o` lists the
  seven parameters of `Coq.ssr.ssrunder.Under_rel` because the standard library itself loads
  the module that declares them; no theorem depends on them.)
* That the model says what the Rust source says. Every model definition cites its source
  lines; the points where the model simplifies are listed next.
* For C52-C54, C62 and C83, that the small machine of `SpecPricing.v` and the work measure of
  `SpecLayout.v` describe the virtual machine and circuits these constants are for. Those are
  not in this repository.

### What is modelled

All functions, constants, statics and trait implementations of the crate outside
`#[cfg(test)]`, including `Display`, the derived `PartialEq`/`Hash`-keyed maps of
`OpcodeVariant`, the derived `Debug` texts (`{:?}` and `{:#?}`), `Default`
implementations, and the pricing generator with its output text.

### What is not modelled, or simplified

* Memory. In `Tables` `Vec::with_capacity` is the empty list; `Allocation` adds the panic for a
  capacity of more than `isize::MAX` bytes (C81), with the size of an entry as a parameter.
  Running out of memory below that, and the growth of a vector beyond its first capacity, are
  not modelled.
* I/O. `PricingGen` gives the path and the contents the generator writes; `GeneratorIO` adds
  failing `File::create`, partial, interrupted and failing writes (C92). `File::create` and
  `write_all` are external; they are modelled after their documentation. A crash of the machine
  that loses data already handed to the operating system is not modelled.
* Two constants are transcribed but no theorem depends on them, because nothing in the crate
  uses them or gives them a meaning: `NUM_SPONGES` and `INITIAL_SP_ON_FAR_CALL`. Two more,
  `STORAGE_WRITE_IO_PRICE` and `L1_MESSAGE_IO_PRICE`, only enter a maximum with a larger
  minimum price; C83 says up to which values they have no effect.
* Derived traits with no observable effect on the properties (`Clone`, `Copy`), and `Debug` and
  `Hash` of the unit structs `ContractCodeSha256`, `EncodingModeProduction` and
  `EncodingModeTesting`, which have one value each. (The flag set of pointer errors derives
  nothing, so `bitflags` 2 gives it neither.)
* `const` evaluation: a violated compile-time guard is a compile error, not a behaviour. The
  five guards hold of the modelled constants: lib.rs:47-49 and 255-257 (C65),
  definitions/abi/ret.rs:5-9 (C41, both ABIs read byte 28) and imm_mem_modifiers.rs:119-129
  (C59).
* External crates by their documentation: `ethereum_types` (`U256` limbs, zero, comparisons,
  shifts as used, `Address::from_low_u64_be`), `bitflags` (a flag set is the `or` of its
  bits), `sha2` (a function from the absorbed bytes to 32 bytes; C87-C89: FIPS 180-4), `lazy_static`,
  `std::fmt` for integers, unit variants, and the struct, tuple and list builders with their
  four-space padding; `std::hash` as the bytes that reach `Hasher::write`; `HashMap` (C90) as a
  table of slots without the vectorised search of a group, with as many groups tried as there are
  slots, and with a table too large to allocate left out. `RandomState` is any function of the
  bytes fed.
* `usize` is 64 bits wide. `Target.v` repeats the functions with casts to `usize`, shifts of it
  or `usize` methods for an arbitrary pointer width, and C73 proves them equal. `Overflow.v` has
  the sums and products of counts and widths on a `usize` of any width, which `Tables.v` computes
  on numbers; C82 relates the two.
* The instruction set is a record argument (`InstructionSet`) of enumeration, density,
  synthesis, widths and bitmasks, instantiated with the source's opcode lists, queries and versions by `current_set`;
  the source names these directly.
* The opcode table is an argument of both decoders and the lookup map one of both encoders (C77);
  the functions of the source are the instances at `OPCODES_TABLE` and
  `OPCODE_TO_CANONICAL_INDEX_LOOKUP_MAP`.
* The generator's constants are a record argument (`circuit_parameters`), instantiated with the
  source's constants by `current_parameters`. An edit of the source whose products overflow may
  already be rejected by the compiler; the model has the run-time panic or wrap-around.
* The price constants are numbers in `Opcodes.v`, whose sums are sums of numbers. `Repricing.v`
  has them as a record argument (`price_constants`), with the sums on a `u32`; C83 relates the
  two. Here too the compiler's lint on overflowing constants may reject an edit of the source
  before it can run.
* The shifts and widths of the fields are constants in `Decoding.v`. `Relayout.v` has them as a
  record argument (`layout`); a shift by the width of the integer or more is a panic there and a
  compile error in the source. C84 relates the two. The width of a condition stays 3, because
  definitions/condition.rs:49 does not compile otherwise.
* The generator's command-line environment, and the test module of definitions/mod.rs. What
  its tests look at on a few values is proved for all values by C12-C22.

## Properties

`sweep` is a check of every element of a finite type by `vm_compute`, lifted to a universal
statement with `forallb_forall`; it covers the whole domain.

| id | modelled code | proof |
|---|---|---|
| C01-C05 | production codec | field arithmetic (the `or` of disjoint fields is their sum), table facts from C12/C13 |
| C06, C07 | testing codec | same generic codec, immediate width 32 |
| C08 | both codecs | from the generic codec |
| C09 | `is_canonical_encoding` | bit arithmetic |
| C10 | `serialize_as_bytes` | induction on byte lists |
| C11 | `split_pc`, `integer_representaiton_from_u256` | arithmetic on limbs; induction over programs of any length |
| C12, C13 | table synthesis, canonical map | sweep over the variant type; padding by list lemmas |
| C14, C16 | map building, `find_new_opcodes` | induction over arbitrary tables |
| C15, C18-C20 | synthesis for every version and width | sweep for versions 0 and 1, induction for later versions and symbolic width |
| C17 | `semantically_equal` | case analysis |
| C21, C22 | bitmasks | bit arithmetic per field; induction over slices |
| C23 | description widths, format text | case analysis |
| C24-C26 | masking, distinguished encodings, `Default` | from the codec lemmas |
| C27, C28 | price table, attributes | from C12 and case analysis |
| C29-C35, C57, C59, C60 | the sixteen families, conditions, versions, operands | case analysis with symbolic indices, versions and build |
| C36, C37 | pc/immediate arithmetic, nibbles | arithmetic; sweep over bytes |
| C38-C44 | ABI packing | div/mod arithmetic over limbs |
| C45-C48 | versioned hash, bytecode hash | list reasoning, all digest functions |
| C49 | generator output | computed text equals the committed file's text |
| C50, C51, C56 | `ceil_div`, unit prices, offsets | arithmetic |
| C52-C54 | prices and limits along histories | invariants by induction over histories of the machine of `SpecPricing.v`; the bounds on depth, far calls and cycles are exact, reached by histories built by induction |
| C55, C61 | addresses, register roles | byte strings; arithmetic |
| C58 | `Display` text | the text is `SpecDisplay`'s; injectivity by string lemmas |
| C62 | prices against work | sweep per variant; induction over instruction sequences |
| C63 | codec and all tables together | from C03, C12, C13, C21, C27 |
| C64 | `split_pc` against `bytecode_to_code_hash` | arithmetic, C47 |
| C65 | size-proportional charges | arithmetic, C47 |
| C66 | exported shifts and widths against the encoder | from the codec lemmas |
| C67 | flag indices against table and bitmask | sweep over variants |
| C68 | derived `Ord` of variants and their parts, fat pointers; comparison with numbering and packing | sort key; sweep over all pairs of table variants |
| C69 | derived `Ord` of the ABI structures and variant data; comparison with the packed words | lexicographic comparison of field lists; packed value as digits |
| C70 | `from_u256` of the call, return and precompile ABIs: explicit words, exact kernel | arithmetic on limbs, C38-C43 |
| C71 | encoding and decoding after overwriting one field | arithmetic (encoding), bit extensionality (decoding), induction over edits |
| C72 | serialization, code hash, `split_pc`, word selection and decoding together | from C01, C11, C47; induction over words |
| C73 | codecs and table synthesis for any pointer width | bounds on the cast values; same table lemmas as C18 |
| C74 | the generator for arbitrary capacities | arithmetic, decimal numerals by induction, string lemmas |
| C75 | enumeration, density, current and legacy synthesis for an arbitrary instruction set | loops as `map`/`concat`; induction over opcodes, sub-variants and versions; permutations |
| C76 | widths, bit descriptions and their text for an arbitrary instruction set | greatest elements of lists; one bit per field, `N.testbit` case analysis; uniqueness of numerals |
| C77 | both codecs for an arbitrary opcode table and for tables synthesised from an arbitrary instruction set | the codec lemmas of C01-C10 with the table as a variable; C14, C75 |
| C78 | encoding with the table of one version and decoding with that of a later one, for an arbitrary instruction set | C75 (numbers keep their meaning) and C77; induction over programs |
| C79 | the derived `Debug` implementations over the builders of `core::fmt`, one-line and alternate form | the texts are the layouts of a tree per value (padding every line of a layout shifts it one level); a layout followed by anything that may follow an item can be read back, by induction on trees |
| C80 | the derived `Hash` implementations as the bytes fed to a hasher, for any pointer width, discriminant width and byte order | the feed is a list of fixed-width numbers, read back field by field |
| C81 | table synthesis with the capacities it asks for, any pointer width and entry size | equal to the functions of C18, C19, C22 where every capacity is granted |
| C82 | densities, widths, bitmasks and table synthesis with every sum, product and shift done on a `usize` of p bits, any instruction set, both builds | induction along the loops against the exact functions; wrap-around as the sum modulo 2^p; instance for the current set; `C82_refuted` has two sets whose overflow goes unnoticed without checks |
| C83 | all `ergs_price` methods, the constants derived from prices, the price table, for any price constants, sums on a `u32`, both builds | sums as a number computed on a `u32` (`on_u32`), equal to a table of charges times unit prices; induction over executions of the paying machine with arbitrary prices; sweep over the variants for the work; `C83_wrap_refuted` and `C83_depth_refuted` have constants whose sum wraps to 0 and whose stack outgrows the limit |
| C84 | both codecs and the canonicity check for any table width, shifts and number of head bits | words as sets of bits (`N.testbit`); necessity of the conditions by instructions with one bit set; instances for the constants of the source and for wider tables; `C84_check_refuted` has a layout whose words fail the check |
| C85 | table synthesis for any instruction set with both codecs for any places of the fields | from C75 (numbers are stable) and C84 (words as sets of bits); induction over programs; `C85_unchecked_refuted` has a newer word that an older machine without canonicity check reads as another instruction |
| C86 | word selection, both codecs, the code hash | a bytecode is the list of its instruction words (C65, C72); each is mapped to its normal form (C03), which decodes alike; uniqueness because bytes are determined by the words; the hash from C47 |
| C87 | the streaming hasher (`new`, `update`, `finalize`) and the code hash computed with it | specification by bits, roots of primes and the two sequences of words; the words of a state are terms of the sequences; absorbing pieces equals absorbing their concatenation; padding by arithmetic modulo 64 |
| C88 | the blocks SHA-256 compresses for a bytecode, against the decommitment charges of the generator | blocks as pairs of words, unique by their concatenation; sums over bytecodes |
| C89 | code hashes of two bytecodes | induction over the blocks from the end; blocks determine the bytecode (C88) |
| C90 | the hash maps and the name set with slots, tags, probing and growth, for any hasher; the lookup map, the statics and both encoders on top of them | invariant of a table: every entry is found before the first empty slot of its order; triangular probing covers a power of two |
| C91 | all statics as once-cells with waiting, nested initializers and poisoning; the codecs as programs that use them; any number of threads, any schedule | invariant: what is left of every thread leads to its sequential result, and the cells in initialization are those on the stacks of the threads; ranks for progress; accessibility for termination |
| C92 | a disk as a map from paths to contents, `File::create`, and `write_all` as a loop over the answers of the operating system; for all generator parameters | induction over the answers; the file as a list of lines, cut anywhere: a declaration found in the beginning lies in one line, and is that line's |
| C93 | fetching, decoding, masking and patching as the constructors of the set of instructions a machine comes by; every function of the crate that takes an instruction and can panic | induction over how an instruction was obtained; the set is that of the decoded words; the panics of C04, C21 and C33 are excluded on it |
| C94 | the prices of instructions, or any prices, in the runs of C53 and C83; well-nested sequences of cycles | soundness: ergs of all frames and prices paid never exceed the start; completeness: induction from the end computes what each frame needs |
| C95 | the runs of C53 with the operands of instructions; what a cycle puts into each circuit is read off the pricing comments and formulas (the circuits are not in the crate); units bought in addition at unit prices | shares of a circuit over a common multiple of the capacities; a sweep over all variants compares them with prices, induction over well-nested sequences pays panics from calls; the bound is reached by precompile calls |
| C96 | attributes, prices, masking, the tables and bitmask constants as modelled; the checks of a machine and of a circuit that works with the tables (neither is in the crate) are specification | both reduce to one condition on the opcode by C24, C27, C28 and C63; then case analysis |

All properties are proved in full; none is `_partial`.

## Findings

Where the natural statement is false of the code, it is refuted by a witness and the exact
behaviour is proved.

| theorem | finding |
|---|---|
| `C02_canonical_refuted` | production words that pass `is_canonical_encoding` can decode to Invalid and not re-encode to themselves (unassigned opcode numbers) |
| `C04_release_wrong_registers` | a release build silently encodes register indices above 15 into a different register |
| `C07_canonical_refuted` | the testing-mode canonicality check accepts words with bits above the last immediate set, which decoding drops |
| `C26_default_refuted` | the default instruction's variant is not in the table; serializing `DecodedOpcode::default()` panics |
| `C30_refuted` | `is_available_for_version(v)` holds for versions up to the one that introduced a subvariant instead of from it on, so `variants_for_version(1)` is empty for every family |
| `C31_refuted` | `max_variant_idx` of the Ptr family is 2, although Shrink has index 3 |
| `C32_refuted` | for four families the variant index is not the position in `all_opcodes` |
| `C48_refuted` | in testing mode the length stored in a code hash is truncated to 16 bits |
| `C55_refuted` | `DEPLOYER_SYSTEM_CONTRACT_ADDRESS` is 0x8002, while `ADDRESS_CONTRACT_DEPLOYER` is 0x8006 |
| `C64_refuted` | bytecodes of 16385 to 65535 words are hashed although no program counter reaches their tail |
| `C65_overhead` | `DECOMMITMENT_MSG_VALUE_SIMULATOR_OVERHEAD` does not cover codes of more than 16000 words |
| `C65_heap_refuted` | `2^LOG2_NUM_ADDRESSABLE_HEAP_BYTES` does not bound payable heap offsets |
| `C68_refuted`, `C68_pointers` | sorting variants does not sort their opcode numbers; sorting fat pointers does not sort their packed values |
| `C69_refuted` | packing does not preserve the derived order: packed words compare the fields in reverse order |
| `C73_refuted` | table widths of 32 to 63 behave differently on a 32-bit target |
| `C77_width_refuted` | the encoder's width assertion accepts the number 2048, which needs 12 bits (harmless for the present table of 2048 entries) |
| `C88_unpaid_refuted` | the comment in the generator counts 64 bytes of code per decommitter round, but the last round of a bytecode outputs 32: bytecodes of one or three words pay less than the rounds they take |
| `C90_order_refuted`, `C90_load_refuted` | two processes may iterate the public lookup maps in different orders (the entries are the same); a table without an empty slot would search for an absent key for ever (the rule of the standard library leaves one) |
| `C91_circle_refuted` | initializers that need each other would make threads wait for each other for ever (those of the source do not, `C91_source`) |
| `C92_atomic_refuted` | a generator run that fails leaves the old price file or the complete new one (`File::create` empties the file first) |
| `C92_silent_refuted` | the crate does not compile with a torn price file (cut after the constants it refers to, it does; the prices of the keccak256, sha256 and ecrecover circuits are then missing for users) |
| `C94_writes_refuted` | the storage writes that the ergs limit of a transaction buys fit the pubdata of a block (it buys 22850, of at least 40 bytes each) |
| `C95_storage_refuted` | the storage slots that the ergs limit of a transaction can read fill circuits worth at most that limit (a read costs 158 ergs, a slot of the storage application circuit 678: 4290 instances of 80000 ergs) |
| `C82_refuted`, `C83_wrap_refuted`, `C83_depth_refuted`, `C84_check_refuted`, `C85_unchecked_refuted` | other instruction sets, price constants or places of the fields that compile in a release build and misbehave: wrapped counts, an opcode price wrapped to 0, a call stack outgrowing its limit, encoded words failing the canonicity check, newer words misread without it (none of this with the constants of the source) |

## Testing the theorems

`seeded/LOG.jsonl` records wrong programs tried against the theorems: one definition of the
model is edited in a scratch copy (numerals off by one, flipped booleans, swapped
comparisons, operators, arguments, match arms and list elements, dropped updates, and
hand-written bugs), everything is rebuilt, and proofs that fail are replaced by `Admitted`
so that `Print Assumptions` names every property theorem that depends on a failed proof.
The `failed` lists therefore name the theorems whose proof no longer goes through; a theorem
in such a list need not itself have become false.
Edits that no theorem rejected are in the log too, with the theorem that was tightened or the
reason why the edit changes no behaviour.
