# Formal model of claucece/chalamet in Rocq (Coq 8.16.1)

## Approach

* Machine words are `Z` with explicit `mod 2^k`; lengths and indices are `nat`.
* Every fallible Rust function returns `res A` = `Ok a | Err e | Panic | Hang`.
  `Err` is Rust's `Err(..)`, `Panic` a panic (index out of bounds, unwrap, overflow check,
  division by zero, debug_assert), `Hang` a loop that never ends.
* The build profile is a parameter `dbg : bool` (debug assertions and overflow checks on/off).
* Randomness and external code are explicit arguments: the OsRng tape, the seeds, the StdRng
  stream, the thread_rng block, SHA-256, and the two floating-point estimates of the filter.
* Model files contain only definitions; proofs are in `*_facts.v`; the property theorems are in
  `Prop_*.v`, each closed by `exact` with `Print Assumptions` below.

## Layout

* model: `Base`, `Fmt`, `Base64`, `Bincode`, `Lwe`, `Mat`, `Db`, `Api`, `Json`, `Files`, `Serde` (the PIR
  library), `Hash`, `Fuse3`, `Bfusep`, `Xorf`, `Float64`, `Estimate`, `Bfuse`, `Xor`, `Fuse`, `HashProxy` (bff-modp),
  `Cli` (pi-rs-cli-utils), `Zeroes` and `Analysis` (bff-modp/analysis, bff-modp/benches), `Access` (read accessors), `GenDb`
  (data/generate_db.py, `make gen-db`), `Bench` (benches/bench.rs), `Client` (parameters, then a query), `Lookup` (from files to a looked-up text), `Service` (clients, servers and a network), `Refusal` (refused index queries), `Msg` and `B64Msg` (texts of errors), `Sha256`, `ChaCha`, `Tests` and `XorfTests` (the test functions of both crates);
* specification vocabulary, independent of the model's helpers: `Spec`, `SpecFilter`, `SpecXorf`,
  `SpecXor`, `SpecFiles`, `SpecCli`, `SpecEst`, `SpecJson`, `SpecSerde`, `SpecRate`, `SpecLwe`, `SpecHist`, `SpecWire`, `SpecRead`, `SpecMsg`, `SpecB64`, `History`;
* proofs: `*_facts.v`, `Claims_*.v`; property theorems: `Prop_*.v` (generated from the annotated
  lemmas of `Claims_*.v` by `tools/gen_props.py`; `exact` + `Print Assumptions`).

## Trusted base

* Coq 8.16.1's kernel (including `vm_compute`).
* `Print Assumptions` says "Closed under the global context" for every property theorem: no axiom
  is used, neither ours nor the standard library's. (`coqchk` also lists the abstract fields
  `Coq.ssr.ssrunder.Under_rel.*` of a standard-library module that `Lia` and others load; no theorem
  depends on them.)
* The model is a transcription of the Rust text by hand; every definition cites its lines. The
  Rust semantics assumed: overflow checks and `debug_assert!` on in debug and off in release, index
  out of bounds / `unwrap` on `Err` / division by zero panic in both, `usize` is 64 bits.
* External code enters as follows.
  - *Parameters* (theorems hold for every instance, or for every instance satisfying a hypothesis
    that is visible in the statement): SHA-256 and the `StdRng` stream of a seed (both also given
    concretely in `Sha256.v` and `ChaCha.v`, with which C84 instantiates the theorems), the `OsRng` tape, the
    `thread_rng` block filling empty slots, the `ln`-based estimates of the binary fuse
    filters (`fest`; hypothesis `sane_estimates`, which C64 proves of the code's own binary64
    estimates for any logarithm satisfying `reasonable_log`, i.e. right to four digits), the
    hasher of `HashProxy`.
  - *Modelled from documented behaviour*: base64 (standard alphabet, padding, canonical trailing
    bits), bincode (fixint, little endian, `u64` length), serde_json (writer and a reader for the
    full JSON grammar), `std::fs::write` (truncate, write, with a crash possible at any prefix),
    `u32::pow`, `str::parse`.
  - *Defined*: the binary64 arithmetic of the filter size computations (`Float64`, `Estimate`) through
    `Coq.Floats.SpecFloat` (a pure definition, no primitive floats, no axiom).

## Not modelled

* Text of the messages of panics and of errors made by std, serde and bincode. (The library's own error texts and
  those of base64 are modelled in `Msg.v` and `B64Msg.v`; elsewhere errors are distinguished by constructor.) The timing of criterion and the drawing of matplotlib. Of clap, only its documented
  behaviour on the flags that `pi-rs-cli-utils` declares (`parse_cli_flags`).
* `Some(EmptyAuxParams {})` in stored index query parameters (which no code path creates, and
  nothing reads) reads back as `None` in the model.
* Performance, memory exhaustion (allocation always succeeds), stack depth.
* The LWE assumption itself. Privacy claims are exact: information-theoretic (C20-C22: what the
  mask does and does not hide), or reductions that leave the advantage of an LWE test on the
  right-hand side (C71). No hardness assumption is made.

## Per property

`R` marks a property that is false of the code as a user would state it; the theorem suffixed
`_refuted` carries the witness, the other theorems of the claim say exactly what does hold.

| id | modelled | how proved |
|----|----------|------------|
| C01 C02 | `utils::format` bit functions | induction on the list, `Z.testbit` extensionality |
| C03 | `get_row_width` | div/mod arithmetic |
| C04 C05(R) C06 | `construct_row(s)`, `bytes_from_u32_slice`, base64 | chunking lemma by induction; C05 refuted by a witness: when plaintext_bits divides elem_size the last chunk is dropped |
| C07 | bincode fixint little-endian encoding of `Vec<u32>` | round trip by induction |
| C08 C09 | `utils::matrices` | induction; transposition by `nth` extensionality |
| C10 | `parse_resp_as_row` arithmetic | div/mod reasoning in Z |
| C11 C12(R) | `random_ternary` on a tape | case analysis; interval counting; the accepted range has 3k+1 words, so 0 is favoured by one word |
| C13 | `generate_params_rhs`, `mult_left/right` | bilinearity of the product |
| C14-C16(R) | whole index protocol | composition of the above; C16 refuted by a witness |
| C17 C18(R) C19 C20(R) C21 C22 | `QueryParams` as state machine with clone/reset; `generate_query` both variants | induction over histories (C17: also every outcome determined by the `single_use` reading of `SpecHist`); C20: the overflow check of the index query leaks; C21 bijection |
| C23 C24 | `respond`, `parse_resp_as_row` | case analysis, both protocols |
| C25 C26 | geometry and `hash_of_hash` | bit/segment arithmetic |
| C27 C28(R) C29(R) C30-C33(R: 32, 33) | `bfusep_from_impl` statement by statement | invariants over insertion, counting, peeling, assignment; existence of a complete peeling order characterises success |
| C34-C37(R: 36, 37) | `KVDatabase`, `KVShard` | composition of C27 and the LWE lemmas |
| C38 C39 | constructors | case analysis on inputs |
| C40(R) C41(R) C42(R) C52 C53(R) C54(R) | JSON text level model of files, crash points | parser/printer inversion, missing-field / type mismatch argument; step semantics |
| C43 C50 | murmur3, splitmix64 | explicit inverses mod 2^64 |
| C44 C55(R) | `BinaryFuse8/16/32` | same peeling theory as C27; u8 counter overflow witnesses by GF(2) elimination |
| C45 C46 C47 C48(R) C56(R) | `Xor8/16/32`, `Fuse8/16/32` | HSet invariant (count, xor mask), peeling theory; retry loop as unbounded iteration; sizes through binary64 error bounds |
| C49 | `HashProxy` | reduction to the inner filter |
| C51(R) | `parse_exp_to_usize` | arithmetic |
| C57 C58 | key derivation, public matrix | induction on the digest / on the rows |
| C59(R) | `analysis/zeroes.rs` | loop invariant |
| C60 | plaintext range | case analysis |
| C61 C62 | complete runs over all tapes of accepted words (`Experiment.v`) | moment bound in integer arithmetic: the weight ((n+1)/n)^<e,d> summed over all tapes is a product over the entries, each factor bounded by induction on the entry (`Tail_facts.v`); union bound over columns; repeated squaring certificates for the Makefile's configurations |
| C63 | `KVDatabase::new`, `kv_shard_of_db` | C30 for every column, shapes |
| C64 | `segment_length`, `size_factor`, capacity in binary64, `ln` a parameter | error bounds of each rounded operation (`Estimate_facts.v`), then the geometry shape of C25 |
| C65 | every `derive(Serialize, Deserialize)` of the crate and of bff-modp, as codecs from fields (`Serde.v`); bincode and serde_json | codec laws (round trip, unique reading, no proper prefix) closed under the field combinators (`Serde_facts.v`); typing of every value of a session, so that each survives |
| C66 R | `get_row`, `get_db_entry`, `switch_fmt`, `into_row_iter`, getters (`Access.v`) | closed forms of the stored entries from C04/C34; witnesses for the refuted readings |
| C67 R | `data/generate_db.py` and the `gen-db` target (`GenDb.v`), the JSON reader | composition with C52 (file text = strings) and C04/C06 (shard rows = inputs) |
| C68 R | `benches/bench.rs` (`Bench.v`), iteration counts as arguments | composition of C19, C23, C24, C34 closed forms; induction on the iteration counts |
| C69 R | membership filters of `Bfuse.v`, `Xor.v`, `Fuse.v` as they are; `SpecRate` counts keys | hashes: fix the low half, the slot is monotone in the high half and the fingerprint a bijection on blocks of 2^w, so each block boundary costs at most one block (for Xor two slots move, both monotone); keys: the mixer is a bijection (C43); fill: each fold step is constant, copies or xor-shifts a random word. Refutations: key sets whose equations have full rank (chains and stars through every slot of a block or segment triple) force a table that splits into one function per slot, so that every hash of those slots is accepted; for Fuse the third slot is hit by a walk through multiples of its multiplier (`FuseStar_facts`) |
| C70 R | serialised sizes through `Serde.v`, slots through `Estimate.v` | closed forms of shards, parameters and queries; interval arithmetic on the float estimates (C64) |
| C71 R | `Client.v` (generate parameters, then a query), `SpecLwe.v` (LWE advantage by counting) | a query is the LWE vector plus delta at the slots; planting permutes the uniform vectors; hybrid over the n queries for the refusals of index mode; a second hybrid, by counting and averaging, brings n samples down to one |
| C72 | `Service.v` (places, clients, network, events; both modes) | invariant on the provenance of parameters, queries, answers and reads, by induction on the history; C14/C34 for one round trip; index answers depend on the database only |
| C73 R | `Service.v` | computed counterexample histories; universal non-detection from C23 and C24 |
| C74 | `Refusal.v` (word stream as generator, refusal predicate over shard + client) | closed form of the query entry; counting: multiplication by a unit plus a constant permutes residues; independence of rows by blocks of the stream |
| C75 R | `Tests.v` (the seven test functions as programs; sizes are arguments) | C14/C34/C27 for the passing direction, C74 for the rates, C61's tail bound at the test's sizes, a constructed tape for the refutation |
| C76 R | `XorfTests.v` (the test functions of the filter crate as programs; draws are arguments) | C44/C45/C47/C27 for the passing direction, exact binary64 evaluation of the bounds at a million keys, interval bounds for the logarithm; a thousand constructed keys (inverse of the mixer) for the refutation |
| C77 R | `Xor.v`, `Fuse.v`, `Bfuse.v`, `Estimate.v` | size of every returned filter from the model (C56, C64), then interval bounds on the BinaryFuse capacity and segment length by powers of two; existence of the filters compared from C78 |
| C78 R | `Xor.v`, `Fuse.v`, `Bfuse.v` | impossibility: n peelable keys use n + 2 different slots; possibility: hashes with prescribed slots (inverse of the mixer, arithmetic of the rotated windows), a chain through the last three segments, private slots for Xor; 91 literal hashes for Fuse segments of length 2 to 8 |
| C79 R | `Lookup.v` (the calls in order), `Files.v`, `Json.v`, `Api.v` | every tape on which the text is wrong is a tape on which the row is wrong, counted in C61/C62; for the dividing case, the length of the re-assembled bytes |
| C80 R | `Analysis.v` (zeroes.rs `main`, the plot_zeroes script, the four filter benchmarks) | outcome of `main` by cases on the last word; number of lines = multiples of 333 above 2000 below the table length (C56, C76); printing never fails (C59), so the outcome is that of the construction (C45, C47, C44) |
| C81 | `Serde.v` (every derive, bincode and JSON), `Files.v` (`write_to_file`); layout specified in `SpecWire.v` without the codecs | per type, from the byte layout of integers and sequences; decimal digits by induction; file contents through C42's end state |
| C82 | `Serde.v` (JSON codecs), `Json.v` | every text and type: accepted iff a document denoting a value (`SpecRead.v`, relations per struct over `SpecJson`), else an error; order of members, unknown members and formatting irrelevant; parser soundness and completeness, then one lemma per codec combinator |
| C83 R | `Msg.v` (texts of errors next to their kinds), `SpecMsg.v` (the texts) | the calls with texts, forgetting them, are the model's; first failing element by induction over the loops; decimal notation is injective |
| C84 | `Sha256.v` (FIPS 180-4), `ChaCha.v` (ChaCha12 as `StdRng`) | lengths by induction over blocks; padding by lengths; constants and vectors by computation against their definition through roots of primes; C57, C58 and C79 instantiated |
| C85 | `B64Msg.v` (errors of `base64::decode` and their texts), `SpecB64.v` (what they should say) | position of the first byte that is no symbol by induction; decoding succeeds iff no error is found; the repaired string decodes by the same characterisation; C83 instantiated with these texts |
| C86 | the same functions with both values of the profile, `SpecProfile.v` (agreement wherever debug does not panic) | relation "debug panics or both are equal" preserved by bind, map, fold, unwrap; one lemma per function, loops by induction on their counters; converse refuted by computed witnesses |

## Seeded bugs

`seeded/LOG.jsonl` records experiments run with `tools/mutate.py` on scratch copies of the model.
