{"id": "C01", "title": "Byte/bit conversion is lossless", "statement": "bits_to_bytes_le(bytes_to_bits_le(b)) returns b; bytes_to_bits_le(bits_to_bytes_le(v)) returns v padded with false to a multiple of 8; bit i of the byte string is bit i%8 of byte i/8.", "quantifier": "every byte string and every bit string, of any length", "why_tests_cant": "The input space is unbounded; tests sample a few lengths.", "anchors": ["src/utils.rs: bits_to_bytes_le, bytes_to_bits_le, u8_to_bits_le"]}
{"id": "C02", "title": "u32/bit conversion is lossless and rejects only oversize input", "statement": "bits_to_u32_le succeeds exactly when at most 32 bits are given and then returns sum of 2^i over set bits; u32_to_bits_le(x, n) returns the n low bits for n <= 32 and panics for n > 32; the two are mutually inverse on n-bit values.", "quantifier": "every bit string, every u32, every requested length", "why_tests_cant": "2^32 values times all lengths, plus the error/panic boundary.", "anchors": ["src/utils.rs: u32_to_bits_le, bits_to_u32_le, u32_sized_bytes_from_vec"]}
{"id": "C03", "title": "Row width is the ceiling of elem_size/plaintext_bits", "statement": "get_row_width(elem_size, plaintext_bits) is the least w with w*plaintext_bits >= elem_size; plaintext_bits = 0 panics; index and kv databases agree.", "quantifier": "every elem_size and plaintext_bits", "why_tests_cant": "Unbounded arithmetic statement.", "anchors": ["src/db/index.rs: get_row_width", "src/db/kv.rs: get_row_width"]}
{"id": "C04", "title": "Splitting an element into plaintext chunks and re-assembling it", "statement": "Storing an element as plaintext_bits-wide chunks and reading the row back yields the element's bits, zero-extended or cut to exactly elem_size bits, whenever plaintext_bits does not divide elem_size. Elements that end before the last chunk starts make construction panic; undecodable base64 is an error.", "quantifier": "every element byte string, every elem_size, every plaintext_bits in 1..=32", "why_tests_cant": "Relation between three unbounded sizes and arbitrary data; boundary cases are exactly where tests are thin.", "anchors": ["src/db/index.rs: construct_row", "src/db/kv.rs: construct_row", "src/utils.rs: bytes_from_u32_slice"]}
{"id": "C05", "title": "No data is lost when plaintext_bits divides elem_size", "statement": "For every elem_size that is a multiple of plaintext_bits the decoded element equals the stored one. (Expected by users and exercised by the repository's own benchmark configurations 819200/10 and 245760/10; the code drops the last chunk.)", "quantifier": "every elem_size divisible by plaintext_bits, every element", "why_tests_cant": "Only parameter pairs with zero remainder exhibit it; the repo tests use 256/11 and 256/10.", "anchors": ["src/utils.rs: bytes_from_u32_slice", "src/api.rs: parse_resp_as_bytes, parse_resp_as_base64", "Makefile: bench-keyword-all, bench-index-all"]}
{"id": "C06", "title": "Database rows enumerate the input elements", "statement": "Shard::into_row_iter returns the first m input strings in order, and get_db_entry(i) the i-th one, when the strings are canonical base64 of elem_size/8 bytes and plaintext_bits does not divide elem_size.", "quantifier": "every list of elements, every m <= number of elements, every i < m", "why_tests_cant": "Needs transposition, chunking and base64 to compose for all sizes.", "anchors": ["src/api.rs: Shard::into_row_iter", "src/db/index.rs: get_db_entry, IndexDatabase::new", "src/utils.rs: base64_from_u32_slice, get_matrix_second_at"]}
{"id": "C07", "title": "Response wire format round-trips", "statement": "Deserialising the bytes produced by respond gives back exactly the computed u32 vector; encoded size is 8 + 4*len; any byte string that decodes determines the vector uniquely.", "quantifier": "every response vector", "why_tests_cant": "Unbounded vectors.", "anchors": ["src/api.rs: Shard::respond, KVShard::respond, Response"]}
{"id": "C08", "title": "Vector product is the exact inner product mod 2^32", "statement": "vec_mult_u32_u32 returns the inner product reduced mod 2^32 for equal lengths and an error otherwise; never panics.", "quantifier": "all pairs of u32 vectors", "why_tests_cant": "All lengths and all wrap-around patterns.", "anchors": ["src/utils.rs: vec_mult_u32_u32"]}
{"id": "C09", "title": "Matrix format switch is transposition and an involution", "statement": "swap_matrix_fmt returns the transpose of every rectangular non-empty matrix; applying it twice (switch_fmt twice) restores the matrix when it has positive width; it panics exactly on an empty matrix or when some row is shorter than the first.", "quantifier": "every matrix", "why_tests_cant": "All shapes.", "anchors": ["src/utils.rs: swap_matrix_fmt, get_matrix_second_at", "src/db/index.rs: switch_fmt", "src/db/kv.rs: switch_fmt"]}
{"id": "C10", "title": "Rounding recovers the plaintext exactly when the noise is within half a step", "statement": "For response = right + delta*D + E (mod 2^32), the decoded value is (D + ceil((E - delta/2)/delta)) mod 2^plaintext_bits; hence it equals D if and only if E is congruent mod 2^32 to a value in (-delta/2, delta/2].", "quantifier": "every plaintext_bits in 1..=31, every D, every u32 right-hand side, every integer noise E", "why_tests_cant": "The iff over all 2^64 (D, right, E) combinations, including wrap-around at 0 and 2^32.", "anchors": ["src/api.rs: parse_resp_as_row", "src/utils.rs: get_rounding_factor, get_rounding_floor, get_plaintext_size"]}
{"id": "C11", "title": "Ternary sampler range and exact distribution", "statement": "random_ternary only returns 0, 1 or 2^32-1; it rejects exactly the three largest u32 words; among accepted words exactly 1431655765 map to 0 and 1431655764 each to 1 and -1.", "quantifier": "every sequence of OS random words", "why_tests_cant": "The distribution over 2^32 words and unbounded rejection sequences cannot be enumerated by tests.", "anchors": ["src/utils.rs: random_ternary, TERNARY_INTERVAL_SIZE, TERNARY_REJECTION_SAMPLING_MAX"]}
{"id": "C12", "title": "Ternary sampler is uniform", "statement": "The three ternary values are hit by equally many accepted random words (documented intent of the rejection sampling). The code accepts one word too many, so 0 is favoured.", "quantifier": "all u32 words", "why_tests_cant": "A bias of 2^-32 is invisible to statistical tests.", "anchors": ["src/utils.rs: random_ternary"]}
{"id": "C13", "title": "Client and server agree on the public matrix", "statement": "For every public seed, the server-side params right-hand side applied to a secret s equals the client's s*A applied to the database: mult_right(s)[i] = <s*A, column i> mod 2^32, with A the matrix CommonParams derives from the same params.", "quantifier": "every seed/PRG output, dim, database and secret vector", "why_tests_cant": "Equality of two independently generated matrix products, all sizes.", "anchors": ["src/db/mod.rs: generate_params_rhs, mult_right, CommonParams::from", "src/utils.rs: generate_lwe_matrix_from_seed"]}
{"id": "C14", "title": "Index retrieval is correct whenever the drawn noise is small", "statement": "With params, common params and query params from the same shard, a successful query for row r, answered by respond and parsed by the client, yields element r (elem_size bits of it) if for every column the drawn error's inner product with the column lies in (-delta/2, delta/2].", "quantifier": "every database, seed, dim, random tape, row index", "why_tests_cant": "Whole-protocol statement over all databases and all randomness.", "anchors": ["src/api.rs: Shard::from_base64_strings, generate_index_query_params, generate_query, respond, parse_resp_as_row"]}
{"id": "C15", "title": "Index retrieval is unconditionally correct below the worst-case noise bound", "statement": "If m*(2^plaintext_bits - 1) < 2^(31-plaintext_bits) then every successful index query decodes to the right element for every choice of randomness.", "quantifier": "every database and every randomness with parameters below the bound", "why_tests_cant": "Universal over randomness; tests sample it.", "anchors": ["src/api.rs: QueryParams<IndexDatabase,_>"]}
{"id": "C16", "title": "Index retrieval is correct for every accepted parameter set", "statement": "Any shard the constructor accepts answers every successful query correctly. (False: nothing checks m and plaintext_bits against the noise bound, so some randomness decodes to a wrong element silently.)", "quantifier": "every accepted parameter set and randomness", "why_tests_cant": "Wrong answers need rare randomness or unusual parameters.", "anchors": ["src/api.rs: Shard::from_base64_strings, parse_resp_as_row"]}
{"id": "C17", "title": "Query parameters are single-use", "statement": "Over any sequence of generate_query calls on one QueryParams (index or kv), at most the first returns a query; every later call returns ErrorQueryParamsReused and changes nothing, even if the first call failed or panicked. With clones and explicit resets of `used`, the number of queries is at most 1 + clones + resets. Every outcome of every history is moreover determined: a query on a spent object is refused with ErrorQueryParamsReused, a query on an unspent one returns exactly what the original returns when fresh, clones are as spent as their original, assignments to `used` take effect, and the mask never changes.", "quantifier": "every call history, with arbitrary arguments, clones and resets", "why_tests_cant": "Unbounded histories.", "anchors": ["src/api.rs: generate_query, QueryParams.used"]}
{"id": "C18", "title": "A fresh, in-range index query always succeeds", "statement": "generate_query(r) on fresh params with r below the number of rows returns a query. (False: the index variant reports ErrorOverflownAdd whenever lhs[r] >= 2^32 - delta, and the params are then burnt.)", "quantifier": "every fresh QueryParams and in-range r", "why_tests_cant": "Happens with probability 2^-plaintext_bits per query.", "anchors": ["src/api.rs: QueryParams<IndexDatabase>::generate_query"]}
{"id": "C19", "title": "Index query shape", "statement": "A successful index query equals the masked vector everywhere except at the queried row, where it is larger by exactly delta without wrap-around; it succeeds iff the row is in range and the addition does not overflow; out-of-range rows panic.", "quantifier": "every QueryParams and row", "why_tests_cant": "All vectors and rows.", "anchors": ["src/api.rs: QueryParams<IndexDatabase>::generate_query"]}
{"id": "C20", "title": "Index query hides the row under a uniform mask", "statement": "If the masking vector were uniform, the query would be independent of the row. (False: because overflowing sums are refused, entry r of any query for r is at least delta, so a server excludes every row whose entry is below delta.)", "quantifier": "every pair of rows and every query vector", "why_tests_cant": "A distributional claim about all masks.", "anchors": ["src/api.rs: QueryParams<IndexDatabase>::generate_query"]}
{"id": "C21", "title": "KV query hides the key under a uniform mask", "statement": "For each key the map from masking vector to query is a bijection on u32 vectors, so for every query vector and any two keys there is exactly one mask producing it for each: under a uniform mask the query carries no information on the key.", "quantifier": "every filter geometry, every two keys, every query vector", "why_tests_cant": "A distributional claim about all masks.", "anchors": ["src/api.rs: QueryParams<KVDatabase>::generate_query"]}
{"id": "C22", "title": "Reusing a mask reveals the queried rows", "statement": "Two queries produced from the same mask differ exactly by delta at the queried positions; from the difference the server recovers whether the rows are equal and, if not, both rows. This is why C17 matters.", "quantifier": "every mask and pair of rows", "why_tests_cant": "Universal over masks.", "anchors": ["src/api.rs: generate_query, QueryParams (Clone, pub used)"]}
{"id": "C23", "title": "Server response shape and totality", "statement": "respond on a query of the right length returns exactly row_width u32 words, each the inner product of the query with that column; it never returns an error. On any other length it panics rather than returning an error.", "quantifier": "every shard and every (possibly hostile) query", "why_tests_cant": "Hostile queries are arbitrary deserialised vectors.", "anchors": ["src/api.rs: Shard::respond, KVShard::respond", "src/db/index.rs: vec_mult", "src/db/kv.rs: vec_mult"]}
{"id": "C24", "title": "Client parsing is total on long enough responses and panics on short ones", "statement": "parse_resp_as_row depends only on the first row_width words of the response, returns row_width values all below 2^plaintext_bits, and panics exactly when the response is shorter than row_width.", "quantifier": "every response, every query params built by the library", "why_tests_cant": "Hostile responses.", "anchors": ["src/api.rs: parse_resp_as_row"]}
{"id": "C25", "title": "Filter geometry", "statement": "The constructed filter has power-of-two segment length L between 4 and 262144, mask L-1, count length a positive multiple of L, and exactly count_length + 2L slots.", "quantifier": "every key count and every value of the two floating point estimates", "why_tests_cant": "The floating-point estimates can take any value over the input range.", "anchors": ["bff-modp/src/prelude/bfusep.rs: bfusep_from_impl", "bff-modp/src/prelude/bfuse.rs: segment_length, size_factor"]}
{"id": "C26", "title": "Hash positions are three distinct valid slots", "statement": "hash_eval / get_hash_evals returns three indices, pairwise distinct, lying in three consecutive segments, all below the filter length, and equal to those the filter uses.", "quantifier": "every key, seed and geometry the constructor can produce", "why_tests_cant": "2^256 keys x 2^256 seeds.", "anchors": ["bff-modp/src/prelude/bfuse.rs: hash_of_hash", "bff-modp/src/bfusep32.rs: hash_eval", "src/db/kv.rs: FilterParams::get_hash_evals"]}
{"id": "C27", "title": "Every inserted key is retrievable from the modular filter", "statement": "If from_slice returns a filter, then for a power-of-two modulus retrieve(key_i, label) = data_i mod ptxt_mod for every i whose 64-bit key hash is not shared by a later key; the same holds on the reduced fingerprints the PIR database exposes.", "quantifier": "every key list, data, seed, label, power-of-two modulus, initial random fingerprint block", "why_tests_cant": "Peeling correctness depends on the whole hash graph; tests use one random key set.", "anchors": ["bff-modp/src/prelude/bfusep.rs: bfusep_from_impl, bfusep_retrieve_impl", "bff-modp/src/bfusep32.rs: from_slice, retrieve, get_fingerprints_mod"]}
{"id": "C28", "title": "Retrieval works for every plaintext modulus accepted", "statement": "retrieve returns data mod ptxt_mod for every ptxt_mod >= 256. (False for moduli that do not divide 2^32: 32-bit wrap-around is incompatible with them.)", "quantifier": "every ptxt_mod", "why_tests_cant": "The repo only tests 1024.", "anchors": ["bff-modp/src/bfusep32.rs: from_slice, retrieve", "bff-modp/src/prelude/bfusep.rs"]}
{"id": "C29", "title": "Distinct keys keep distinct values", "statement": "Two different 256-bit keys never silently overwrite each other. (False: mix256 is a sum over the key words, so permuting the words of a key gives the same hash under every seed; construction succeeds and the earlier key returns the later key's value.)", "quantifier": "every pair of distinct keys and every seed", "why_tests_cant": "Random keys never collide; structured keys always do.", "anchors": ["bff-modp/src/prelude/mod.rs: mix256", "bff-modp/src/prelude/bfusep.rs: hm_keys"]}
{"id": "C30", "title": "Filter construction is total and succeeds exactly on peelable key sets", "statement": "When no slot is shared by more than 63 keys and the key hashes are distinct, from_slice neither panics nor loops: it returns Ok iff the 3-uniform hash graph is peelable, and otherwise the construction error.", "quantifier": "every key list, seed, data", "why_tests_cant": "Completeness of the peeling over all graphs.", "anchors": ["bff-modp/src/prelude/bfusep.rs: bfusep_from_impl"]}
{"id": "C31", "title": "Bucket ordering is a permutation and terminates", "statement": "The radix-style insertion phase always terminates and leaves exactly the multiset of key hashes in the order array, even for colliding or zero hashes.", "quantifier": "every hash list", "why_tests_cant": "Termination of an open-ended probe loop for all inputs.", "anchors": ["bff-modp/src/prelude/bfusep.rs: lines 77-91", "bff-modp/src/prelude/bfuse.rs: lines 129-142"]}
{"id": "C32", "title": "Retrying construction can help", "statement": "A failed construction attempt may succeed on one of the 100000 retries. (False for the modular filter: the seed never changes, so all attempts are identical; a failing key set fails for every iteration count, e.g. some pairs of keys.)", "quantifier": "every key list, seed and iteration bound", "why_tests_cant": "Universal over key sets and iteration counts.", "anchors": ["bff-modp/src/prelude/bfusep.rs: bfusep_from_impl", "bff-modp/src/bfusep32.rs: from_slice"]}
{"id": "C33", "title": "Filter construction always terminates in release builds", "statement": "from_slice (BinaryFuseP32) and try_from (BinaryFuse8/16/32) return for every key list. (False for both: with 64 keys in one slot the u8 counter wraps, the attempt is abandoned without resetting its buffers and the next attempt spins forever.)", "quantifier": "every key list in release builds", "why_tests_cant": "Needs an adversarial key set.", "anchors": ["bff-modp/src/prelude/bfusep.rs: t2count, error, continue", "bff-modp/src/prelude/bfuse.rs: t2count, error, continue"]}
{"id": "C34", "title": "KV retrieval is correct whenever the drawn noise is small", "statement": "For a KV shard, querying key_i and parsing the response yields value_i mod 2^plaintext_bits in every column, if for every column the error's inner product lies in (-delta/2, delta/2] and no other key has the same 64-bit hash; with from_base64_strings the original value's bits come back.", "quantifier": "every key/value list, seeds, randomness", "why_tests_cant": "Composition of filter correctness, LWE correctness and chunking over all databases.", "anchors": ["src/api.rs: KVShard, QueryParams<KVDatabase>", "src/db/kv.rs"]}
{"id": "C35", "title": "KV columns share one geometry", "statement": "All column filters of a KV database have the same seed, geometry and length, which are those published to clients and used as matrix height; the number of columns is the value width.", "quantifier": "every key/value list and per-column randomness", "why_tests_cant": "Each column is built by an independent run.", "anchors": ["src/db/kv.rs: StorageFilters::from_kvs, KVDatabase::new, KVParams::new"]}
{"id": "C36", "title": "Querying an absent key is detected", "statement": "A key that was never inserted yields an error. (False: a well-formed but meaningless row is returned.)", "quantifier": "every database and absent key", "why_tests_cant": "Universal over absent keys.", "anchors": ["src/api.rs: QueryParams<KVDatabase>::parse_resp_as_row"]}
{"id": "C37", "title": "KV construction reports failure as an error", "statement": "KVShard::new / KVDatabase::new return Err when the filter cannot be built or the input is empty. (False: they panic.)", "quantifier": "every key/value list", "why_tests_cant": "Filter failure is rare for random keys.", "anchors": ["src/db/kv.rs: from_kvs .unwrap(), KVDatabase::new"]}
{"id": "C38", "title": "Construction input validation", "statement": "from_base64_strings: unequal numbers of keys and values, or any undecodable string among those used, give an error, with no shard; extra index elements beyond m are ignored; m larger than the number of elements panics; chunks wider than 32 bits are an error.", "quantifier": "every input list and parameters", "why_tests_cant": "All combinations of sizes and malformed inputs.", "anchors": ["src/api.rs: Shard::from_base64_strings, KVShard::from_base64_strings", "src/db/index.rs: construct_rows", "src/db/kv.rs: KVDatabase::from_base64_strings"]}
{"id": "C39", "title": "Mismatched common params are rejected", "statement": "Building query params from common params of another LWE dimension returns an error (never a panic and never a usable query object).", "quantifier": "every pair of params with different dim", "why_tests_cant": "All shapes.", "anchors": ["src/api.rs: generate_index_query_params, generate_kv_query_params", "src/db/mod.rs: mult_left"]}
{"id": "C40", "title": "Saved index params can be loaded", "statement": "IndexParams::load of a file written by write_to_file gives back the params. (False: the writer stores only lhs_seed and rhs; load needs dim, m, public_seed, elem_size, plaintext_bits and always fails.) load succeeds exactly on files that are a JSON record of the six fields, each in range, in any formatting, and returns an error on every other file.", "quantifier": "every params value; every file content", "why_tests_cant": "No test loads params.", "anchors": ["src/db/mod.rs: write_to_file", "src/db/index.rs: IndexParams::load"]}
{"id": "C41", "title": "A saved database can be reloaded", "statement": "IndexDatabase::from_file on the output of write_to_file gives back a database. (False: rows of numbers are written, a list of strings is expected.)", "quantifier": "every database with at least one column", "why_tests_cant": "No test reloads.", "anchors": ["src/db/index.rs: write_to_file, from_file", "src/api.rs: Shard::from_json_file"]}
{"id": "C42", "title": "write_to_file is all-or-nothing", "statement": "If Shard::write_to_file fails or the process stops midway, either both files are updated or neither. (False: the db file is replaced first, and each file is truncated before being rewritten.)", "quantifier": "every file-system state and every failure/crash point", "why_tests_cant": "Crash points cannot be enumerated by tests.", "anchors": ["src/api.rs: Shard::write_to_file", "src/db/index.rs: write_to_file", "src/db/mod.rs: write_to_file"]}
{"id": "C43", "title": "64-bit key mixing is injective", "statement": "For a fixed seed, mix maps distinct u64 keys to distinct u64 hashes (so u64-keyed filters never confuse keys at the hash level). For the 256-bit keys of the keyword filter, the hash of each key word depends on every byte of the 32-byte seed: seeds that differ within one 8-byte word hash every key word differently.", "quantifier": "all 2^64 keys and seeds", "why_tests_cant": "2^128 pairs.", "anchors": ["bff-modp/src/prelude/mod.rs: mix", "bff-modp/src/murmur3.rs: mix64", "bff-modp/src/prelude/mod.rs: mix256"]}
{"id": "C44", "title": "BinaryFuse8/16/32 have no false negatives", "statement": "Every key passed to a successful try_from is reported by contains.", "quantifier": "every key list (distinct keys), every initial fingerprint block, all three widths", "why_tests_cant": "Whole-graph property over all key sets and retry seeds.", "anchors": ["bff-modp/src/prelude/bfuse.rs: bfuse_from_impl, bfuse_contains_impl"]}
{"id": "C45", "title": "Xor8/16/32 have no false negatives", "statement": "If Xor::from returns, contains holds for every key it was built from. With distinct keys it returns exactly when some u64 seed makes the keys peelable, and it never panics or reports an error.", "quantifier": "every key list, all three widths", "why_tests_cant": "Whole-graph property.", "anchors": ["bff-modp/src/prelude/xor.rs"]}
{"id": "C46", "title": "Xor::from loops forever on duplicate keys in release", "statement": "A key list with a repeated key never yields a filter: for every number of attempts construction has not finished.", "quantifier": "every key list with a duplicate", "why_tests_cant": "Non-termination cannot be tested.", "anchors": ["bff-modp/src/prelude/xor.rs"]}
{"id": "C47", "title": "Fuse8/16/32 have no false negatives", "statement": "Every key passed to a successful Fuse try_from is reported by contains.", "quantifier": "every key list, all three widths", "why_tests_cant": "Whole-graph property.", "anchors": ["bff-modp/src/prelude/fuse.rs"]}
{"id": "C48", "title": "Fuse construction on small sets returns an error", "statement": "Fuse try_from returns a usable filter or its documented error for every set. (False: with 1..=89 keys it always panics, with 101..=179 keys it can never succeed, and the filter of the empty set panics on every lookup.)", "quantifier": "every key list of 1..=89 keys", "why_tests_cant": "Tests only try 1000 keys.", "anchors": ["bff-modp/src/prelude/fuse.rs: fuse_from_impl"]}
{"id": "C49", "title": "HashProxy has no false negatives", "statement": "If the underlying filter has no false negatives on u64 keys then contains holds for every item the proxy was built from.", "quantifier": "every hasher, item list, filter", "why_tests_cant": "Generic over hashers.", "anchors": ["bff-modp/src/hash_proxy.rs"]}
{"id": "C50", "title": "Retry seeds never repeat", "statement": "Successive splitmix64 outputs from the fixed start are pairwise distinct for 2^64 steps, so each retry of the u64 filters uses a new seed.", "quantifier": "all 2^64 steps", "why_tests_cant": "Period claims cannot be tested.", "anchors": ["bff-modp/src/splitmix64.rs"]}
{"id": "C51", "title": "Benchmark parameter parsing", "statement": "parse_exp_to_usize on the decimal text of e is 2^e for e <= 31; for larger e a debug build panics and a release build silently yields 0; any other text panics. parse_from_env yields flags exactly when all six variables hold valid texts. parse_cli_flags yields flags exactly when its four option texts are valid: rows 2^m, element bits 2^e, the other two taken as they are.", "quantifier": "every exponent", "why_tests_cant": "Boundary over both build profiles.", "anchors": ["pi-rs-cli-utils/src/lib.rs: parse_exp_to_usize, parse_from_env, parse_cli_flags"]}
{"id": "C52", "title": "A JSON file of strings builds the same shard as the strings", "statement": "Shard::from_json_file / IndexDatabase::from_file / KVShard::from_json_file on a file holding the JSON text of a list of strings (of {key, value} objects) have the same outcome as from_base64_strings on those strings: same shard, same error, same panic. This holds for every formatting of the document allowed by RFC 8259 (blanks, escapes, member order, unknown members), and a file has at most one reading.", "quantifier": "every list of UTF-8 strings, every JSON text denoting it, all parameters, both build profiles", "why_tests_cant": "ranges over all strings, including every control and multi-byte character", "anchors": ["src/api.rs Shard::from_json_file", "src/api.rs KVShard::from_json_file", "src/db/index.rs IndexDatabase::from_file"]}
{"id": "C53", "title": "A bad input file is reported as an error", "statement": "from_json_file returns Err when the file is missing, not UTF-8, not JSON or not a list of strings. (False: it panics; only IndexDatabase::from_file returns Err.)", "quantifier": "every file system state and path; every byte sequence that is not a JSON document of the expected form", "why_tests_cant": "ranges over all file contents", "anchors": ["src/api.rs Shard::from_json_file", "src/api.rs KVShard::from_json_file", "src/db/index.rs IndexDatabase::from_file"]}
{"id": "C54", "title": "The files written determine the shard", "statement": "The files of write_to_file contain what is needed to restore a shard or serve its clients. (False: KV filter parameters and the index dimension, record count, element size and plaintext bits are in neither file; distinct shards write identical files.)", "quantifier": "every pair of shards", "why_tests_cant": "a statement about all pairs of shards", "anchors": ["src/db/mod.rs BaseParams::write_to_file", "src/db/kv.rs KVDatabase::write_to_file", "src/api.rs KVShard::write_to_file"]}
{"id": "C55", "title": "A successful release build loses no key", "statement": "In a release build, whenever a binary fuse constructor (BinaryFuseP32 or BinaryFuse8/16/32) returns Ok for distinct keys, every key can be looked up. (False: 66 keys in one slot whose hashes XOR to zero wrap the u8 slot counter to the value that means 'duplicate', the last of them is dropped and the constructor still returns Ok.)", "quantifier": "every list of distinct keys, release profile", "why_tests_cant": "Random keys practically never hit it; an adversary finds such a list by linear algebra over GF(2).", "anchors": ["bff-modp/src/prelude/bfusep.rs: bfusep_from_impl", "bff-modp/src/prelude/bfuse.rs: bfuse_from_impl"]}
{"id": "C56", "title": "Xor and Fuse filters have the documented size", "statement": "An XorN filter of n keys holds between 1.23n+29 and 1.23n+32 fingerprints, i.e. less than 1.25N bits per key for n > 1600; a FuseN filter holds at most n/0.879 fingerprints. The documented '<10 bits per entry' (Xor8) and '<9.101 bits per entry' (Fuse8) are false in general: for up to 1000 keys, respectively for 3676 keys.", "quantifier": "every key count below 2^32, all widths, both profiles", "why_tests_cant": "The size comes from rounded binary64 arithmetic; tests sample one key count.", "anchors": ["bff-modp/src/prelude/xor.rs: xor_from_impl", "bff-modp/src/prelude/fuse.rs: fuse_from_impl", "bff-modp/src/xor8.rs", "bff-modp/src/fuse8.rs"]}
{"id": "C57", "title": "A key string becomes the four little-endian words of its digest", "statement": "Hashing a keyword string yields exactly four u64 words; byte i of the SHA-256 digest is byte i mod 8 (least significant first) of word i/8. Two strings therefore get the same filter key only when their digests are equal.", "quantifier": "every key string and every 32-byte digest function", "why_tests_cant": "client and server both use the same function, so a test that only round-trips cannot see dropped or repeated digest bytes; it is a statement about all digests", "anchors": ["src/utils.rs format::sha256_into_u64_sized", "src/db/kv.rs KVDatabase::from_base64_strings"]}
{"id": "C58", "title": "The public matrix uses every word of the seeded stream once", "statement": "The public matrix derived from a seed has m rows of dim words and, read row by row, is exactly the first m*dim words of the seeded generator, in order: no word is reused or skipped.", "quantifier": "every seed, generator, m and dim", "why_tests_cant": "both sides use the same derivation, so correctness tests pass even if rows overlap; security rests on the words being independent", "anchors": ["src/utils.rs matrices::generate_lwe_matrix_from_seed", "src/db/mod.rs CommonParams"]}
{"id": "C59", "title": "The zero-density tool counts a window of 2000 entries", "statement": "The analysis tool prints, for every position i > 2000 divisible by 333, the number of zero fingerprints among the last 2000, and never underflows its counter. (False in one respect: the first table entry is never removed from the count, so if it is zero every printed number is one too large, e.g. 2001 of 2000.)", "quantifier": "every fingerprint table, both profiles", "why_tests_cant": "statement about every table and position", "anchors": ["bff-modp/analysis/src/zeroes.rs print_zeroes"]}
{"id": "C60", "title": "Plaintext bits outside the supported range are not rejected", "statement": "With plaintext_bits >= 32 (as a u32) every query generation and every response parse panics in both build profiles; below 32 an in-range index query never panics. The shard constructor nevertheless accepts such values and hands out parameters.", "quantifier": "every parameter set, row, key and response, both profiles", "why_tests_cant": "ranges over all parameter values and over both overflow semantics", "anchors": ["src/utils.rs lwe::get_plaintext_size", "src/utils.rs lwe::get_rounding_factor", "src/api.rs QueryParams::generate_query", "src/api.rs QueryParams::parse_resp_as_row"]}
{"id": "C61", "title": "A generated index query decodes to the wrong row only with negligible probability", "statement": "Over uniformly random accepted sampler words, the fraction of runs in which an index query is generated but the decoded row differs from the stored one is at most 2w(n/(n+1))^(2^(31-pb)) (1+1/(3n(n+1)))^S for every n >= 1, S a bound on the columns' sums of squares; in each configuration the Makefile ships it is below a stated power of two (2^-58 for 2^16 rows and 10 plaintext bits, but only 2^-6 is guaranteed for 2^18 rows and 10 bits), whatever the database content.", "quantifier": "every database, row, dimension, public seed, build profile; counted over all tapes of accepted words", "why_tests_cant": "an event of probability 2^-58 over (2^32-3)^(dim+m) tapes cannot be sampled, and the bound holds for every database", "anchors": ["src/api.rs QueryParams::generate_query", "src/api.rs Response::parse_output_as_row", "src/utils.rs lwe::random_ternary", "Makefile bench-index targets"]}
{"id": "C62", "title": "A stored key's value fails to come back only with negligible probability", "statement": "Over uniformly random accepted sampler words, the fraction of keyword runs (parameters, query, answer, decoding) that do not end with the stored value is at most the same Chernoff bound over the filter matrix columns; for filters of the size the shipped keyword configurations use it is below a stated power of two (2^-47 for 77824 slots and 10 bits).", "quantifier": "every key set that builds, value, dimension, seeds, random filter blocks, build profile; counted over all tapes of accepted words", "why_tests_cant": "probability statement over an astronomically large sample space, for every database", "anchors": ["src/api.rs QueryParams<KVDatabase>::generate_query", "src/api.rs Response::parse_output_as_row (KV)", "src/db/kv.rs KVDatabase::new", "Makefile bench-kw targets"]}
{"id": "C63", "title": "Whether a keyword shard can be built depends only on the keys and the filter seed", "statement": "For keys with distinct hashes and at most 63 keys per slot, building a KV shard succeeds exactly when the key set is peelable for the drawn filter seed and panics otherwise; values, element size, plaintext bits, dimension, random blocks and public seed do not influence which. A built shard has exactly the geometry's number of slots.", "quantifier": "every list of pairs, seed, randomness, dimension, element size and plaintext size, both profiles", "why_tests_cant": "equivalence over all key sets and all other parameters", "anchors": ["src/db/kv.rs StorageFilters::from_kvs", "src/db/kv.rs KVDatabase::new", "src/api.rs KVShard::from_base64_strings", "bff-modp/src/prelude/bfusep.rs bfusep_from_impl"]}
{"id": "C64", "title": "Binary fuse filters have the documented size, and the size computation is safe for every key count up to 3.817e9", "statement": "With binary64 arithmetic and any logarithm correct to four digits, for every number of keys up to 3 817 000 000 the segment-length and capacity estimates are in range, so the constructor's size computation never panics or wraps in either build profile; the array holds at least 1.125 slots per key (up to rounding) and, from 2^20 keys on, at most 9.126/8 slots per key (the documented ~9/18/36 bits per entry). For the Makefile's key counts the slot count is known exactly. From 3 817 600 000 keys up to 2^32 a debug build panics and a release build wraps around to 786432 slots.", "quantifier": "every number of keys, both build profiles, every logarithm within the stated accuracy", "why_tests_cant": "ranges over all key counts (billions) and over every libm accurate to four digits; floating-point rounding at each one", "anchors": ["bff-modp/src/prelude/bfuse.rs segment_length, size_factor", "bff-modp/src/prelude/bfuse.rs bfuse_from_impl!", "bff-modp/src/prelude/bfusep.rs bfusep_from_impl!", "bff-modp/src/bfuse8.rs BinaryFuse8 (doc comment)", "Makefile bench-kw targets"]}
{"id": "C65", "title": "Saved or sent values come back as they were, and a cut file is an error", "statement": "Every serialisable value of the crate (shards, parameters, client states, queries, responses, key-value pairs, filters) written with bincode or JSON reads back as exactly the same value. A bincode buffer is accepted exactly when it begins with the encoding of a value that fits the type; everything else, and every proper prefix in both formats, is an error, never a panic and never another value. In particular every shard that construction returns, and every client state, query and response of a session with it, survives the trip, and a reloaded client state that was used stays used.", "quantifier": "every value that fits its Rust type, every byte string, every cut point, every session", "why_tests_cant": "ranges over all values, byte strings and cut points", "anchors": ["src/api.rs derive(Serialize, Deserialize) on Query, Response, CommonParams, QueryParams, Shard, KVShard", "src/db/index.rs IndexDatabase, IndexParams", "src/db/kv.rs FilterParams, KVDatabase, KVParams, KeyValue", "bff-modp/src/*.rs derive(Serialize, Deserialize)"]}
{"id": "C66", "title": "The read accessors of a database report what was stored", "statement": "get_row(i) of a database is the row of element i; the parameter getters (total records, dimension, element size, plaintext bits, public seed) report what construction was given; iterating over a shard's rows lists the stored values. What holds for every shard: for an index database get_row(j) is the j-th chunk of every element (a column; it panics from the row width on), switch_fmt turns it into the row of element i and switching twice restores the database; for a key-value shard the row iterator and get_total_records count filter slots, and the three slots of a stored key plus its fingerprint sum to the stored chunk modulo 2^plaintext_bits. The first and third sentences are false as written (refuted).", "quantifier": "every database, every index (in range or not), both build profiles", "why_tests_cant": "ranges over every database and every index; the repository's tests never call get_row", "anchors": ["src/db/mod.rs DatabaseMatrix", "src/db/index.rs get_row, get_db_entry, switch_fmt, get_*", "src/db/kv.rs get_row, get_db_entry, get_*", "src/api.rs into_row_iter"]}
{"id": "C67", "title": "The database generator writes what it is asked for", "statement": "data/generate_db.py writes a JSON array of exactly 2^DB_NUM_ENTRIES_EXP base64 strings of 2^DB_ELEMENT_SIZE_EXP bytes each, fresh random bytes when DB_ALL_ONES is 0 and all ones otherwise, and a shard loaded from that file lists exactly those strings. make gen-db writes elements of the configured size (refuted: the size is passed under a name the script does not read, so each element has 2^13 bytes; with the Makefile's defaults the shard silently keeps an eighth of each). Without settings the elements of rand_db.json are random (refuted: all ones).", "quantifier": "every environment, every output of os.urandom", "why_tests_cant": "ranges over all settings and random outputs; the script has no tests", "anchors": ["data/generate_db.py", "Makefile gen-db", "src/api.rs Shard::from_json_file"]}
{"id": "C68", "title": "The benchmark program completes", "statement": "The program behind make bench completes for every accepted configuration and every randomness (refuted). The exact outcome: in index mode it panics with at most ten rows, and otherwise panics exactly when the mask word of row 10 leaves no room for delta; in keyword mode it completes exactly when its shard, and with the offline part each rebuild of it, can be built.", "quantifier": "every environment, every randomness, every number of measured iterations of each step, both build profiles", "why_tests_cant": "ranges over all randomness and over iteration counts that criterion chooses by timing", "anchors": ["benches/bench.rs criterion_benchmark, _bench_client_query, _bench_client_kv_query, _bench_db_generation, _bench_kv_db_generation, bench_utils", "Makefile bench"]}
{"id": "C69", "title": "False-positive rates are as documented (refuted for large adversarial sets)", "statement": "The documentation states that a filter accepts fewer than 0.4% (8-bit: Xor8, Fuse8, BinaryFuse8) or 0.002% (16-bit) of the keys outside its set. Counted over all 2^64 keys: a built BinaryFuse filter accepts 2^(64-w) keys up to (segment_count_length-1)*2^32, for every key set and fill, which gives the documented rates for up to 330000 (8-bit) and 16000 (16-bit) keys; a built Xor filter accepts 2^(64-w) keys up to (block_length-1)*1025*2^32 (w <= 22), which gives the documented rates for up to 930 (Xor8) and 24 (Xor16) keys. As a statement about every key set it is false for each family (refuted: distinct keys, built at the first attempt in both profiles with every fill, for which Xor accepts over 43%, BinaryFuse over 3.7%, Fuse8 over 0.9% and Fuse16 over 0.0035% of the other keys). Counted over the random fill, key by key: the answer for a key is either independent of the fill or positive for exactly one of the 2^w values of some random word. The reading 'each key outside the set is rejected with that probability' is false (refuted: some keys are accepted with every fill).", "quantifier": "every key set, every one of the 2^64 query keys, every random fill, both build profiles", "why_tests_cant": "counts over 2^64 keys and all fills; the repository's tests sample 10^5 to 10^6 keys and one fill", "anchors": ["bff-modp/src/bfuse8.rs, bfuse16.rs documentation", "bff-modp/src/xor8.rs, xor16.rs documentation (lines 14, 62)", "bff-modp/src/fuse8.rs, fuse16.rs documentation (lines 14-16, 73)", "bff-modp/src/prelude/bfuse.rs bfuse_contains_impl!, bfuse_from_impl!", "bff-modp/src/prelude/xor.rs", "bff-modp/src/prelude/fuse.rs", "bff-modp/src/prelude/mod.rs fingerprint!, make_fp_block!"]}
{"id": "C70", "title": "Keyword queries cost at most 1.08 times index queries", "statement": "README: the keyword scheme has 'minimal efficiency blow-up compared with state-of-the-art index-based schemes (all costs bounded by a factor of at most 1.08)'. Exact serialised sizes of query, answer, common parameters and shard parameters, and the dimensions of the server's matrix, for both modes: with N filter slots for n pairs a keyword query has N words where an index query has n; answers are equally long; parameters differ by 44 bytes. The claimed factor is false for every shard (refuted: N > 1.08 n always); N <= 1.25 n from 2^16 pairs on and N <= 1.141 n from 2^20 on.", "quantifier": "every shard, key set, configuration, randomness and query, both build profiles, up to 3.817 thousand million pairs", "why_tests_cant": "ranges over all numbers of pairs and all runs; benchmarks measure a handful of configurations", "anchors": ["README.md", "bff-modp/src/prelude/bfuse.rs segment_length, size_factor", "bff-modp/src/prelude/bfusep.rs", "src/db/kv.rs KVDatabase::new, KVParams, get_matrix_height", "src/api.rs generate_query, respond"]}
{"id": "C71", "title": "A server that can tell queries apart can solve LWE", "statement": "Whatever test a server applies to n queries made with fresh parameters, its advantage in telling two lists of keys (or of rows) apart is bounded by the advantages of two explicit tests for learning with errors (ternary secret and noise, the public matrix of the shard), each of which only adds delta at fixed positions before applying the server's test. For keyword queries there is no further loss. For index queries, where sums over 2^32 are refused, there is a further term n (1/P)(1 - 1/P), P = 2^plaintext_bits, and an explicit test attains it under ideal masks: so an index query is not as private as LWE. The advantage against n samples is at most n times the advantage of an explicit test against a single sample, so n queries are as private as one LWE vector, up to the factor n.", "quantifier": "every public matrix, dimension, plaintext modulus, pair of key or row lists of equal length, and every test of all the queries together; keys stored or not, honest or malformed right-hand sides of the right shape", "why_tests_cant": "a statement about distributions over all random tapes and about every conceivable distinguisher", "anchors": ["src/api.rs CommonParams::mult_left, generate_index_query_params, generate_kv_query_params, QueryParams::generate_query", "src/utils.rs random_ternary, random_ternary_vector", "src/db/index.rs", "src/db/kv.rs"]}
{"id": "C72", "title": "Retrieval is right after every history of a service", "statement": "Servers hold shards in places and may rebuild them; clients join, clone or reset their parameters, ask, and read; the network keeps every message and delivers any of them, to anyone, any number of times, in any order, or never. After every such history, a client that reads an answer to its own query from the place it joined obtains the asked row (index mode) or the value of the asked key (keyword mode) exactly when the noise condition holds for its own randomness, and every such query is answered. In index mode this holds across any number of rebuilds of the same data with new public seeds; in keyword mode as long as a place is not rebuilt from a different request.", "quantifier": "every finite history of builds, joins, clones, resets, queries, deliveries and reads, any number of places and clients, both build profiles", "why_tests_cant": "ranges over all interleavings, duplications, losses and restarts", "anchors": ["src/api.rs Shard, KVShard, QueryParams, generate_index_query_params, generate_kv_query_params, respond, parse_resp_as_row", "src/db/index.rs", "src/db/kv.rs"]}
{"id": "C73", "title": "Parameters survive a server restart; stale parameters and foreign answers are noticed", "statement": "A client can keep using its parameters after the server was rebuilt from the same data, and otherwise gets an error. True in index mode for the same data (C72). False otherwise: a keyword server rebuilt from the same pairs with the same seeds (only the random fill differs) makes clients read other values, without an error (refuted); after a change of rows, or when two clients exchange answers, index clients read chunks of no row at all, without an error (refuted); for any two databases of the same shape no error is ever raised.", "quantifier": "every pair of databases of the same shape, every client, query and randomness; counterexample histories", "why_tests_cant": "absence of any check is a statement about all databases and runs", "anchors": ["src/api.rs parse_resp_as_row, respond", "src/db/kv.rs StorageFilters::from_kvs", "bff-modp/src/prelude/bfusep.rs (random fill)"]}
{"id": "C74", "title": "How often a fresh index query is refused", "statement": "Generating an index query on fresh parameters fails with the overflow error for exactly a fraction 2^-plaintext_bits of all public matrices, whatever the database, the row, the dimension and the client's randomness, provided its secret is not all zero; for clients asking for different rows these failures are independent, so that k queries all succeed for exactly (1 - 2^-plaintext_bits)^k of the public matrices. With an all-zero secret the query is refused exactly when the error drawn for the row is -1. Over all tapes and matrices together, the rate is 2^-plaintext_bits up to the fraction of all-zero secrets, (1431655765/4294967293)^dim.", "quantifier": "every database, shape, dimension, plaintext_bits 1..31, any number of clients and rows, all public matrices and random tapes (counted)", "why_tests_cant": "a rate over 2^(32*dim*m) matrices", "anchors": ["src/api.rs generate_query, CommonParams", "src/utils.rs generate_lwe_matrix_from_seed", "src/errors.rs ErrorOverflownAdd"]}
{"id": "C75", "title": "The crate's own tests pass on every run", "statement": "The tests in src/api.rs and src/db/kv.rs pass whatever is drawn. True of the four tests of the keyword database (any key, any non-empty value, any seed and random fill). False of the two index tests (refuted): for every public matrix and all elements there is randomness for which both fail, because a query may be refused; the ten-rounds test passes for at most (1-2^-plaintext_bits)^rounds of the public matrices, exactly that fraction when the errors are within bounds (at the repository's sizes 2047^10/2048^10; fewer than one tape in 2^62 fails for another reason), and the reuse test fails for exactly one matrix in 1024. The keyword end-to-end test passes whenever its shard is built, the key hashes differ and the errors are within bounds; its queries are never refused.", "quantifier": "every element, seed, matrix, tape, random fill; any sizes and number of rounds; both profiles", "why_tests_cant": "it is about the tests themselves: a green run says nothing about the failing runs", "anchors": ["src/api.rs tests client_query_to_server_10_times, client_kv_query_to_server_10_times, client_query_to_server_attempt_params_reuse", "src/db/kv.rs tests"]}
{"id": "C76", "title": "The filter crate's own tests pass on every run", "statement": "The tests of the filter crate pass whatever is drawn. True, once the filter is built: the initialization tests (no key is ever missing), the bits-per-entry tests of all ten filters at a million keys, the should_panic tests in debug builds, the single-key test (always built), and the modular filter's initialization and hash tests when keys with the same hash agree in their data. The false-positive tests pass exactly when fewer than 4060, 25 or 1 of the million probes are found. False (refuted): the Fuse test_fail_construction fails for some thousand distinct keys, the false-positive tests fail when the probes repeat the keys. The modular filter's tests draw keys that repeat one word four times, whose hash is always a multiple of four and whose third slot agrees with the first modulo four.", "quantifier": "every list of drawn keys and probes, seeds, random fills, fingerprint width; both profiles; every logarithm right to four digits", "why_tests_cant": "it is about the tests themselves: a green run says nothing about the runs that fail or the inputs the tests cannot draw", "anchors": ["bff-modp/src/xor8.rs tests", "bff-modp/src/fuse8.rs tests", "bff-modp/src/bfuse8.rs tests", "bff-modp/src/bfusep32.rs tests", "bff-modp/src/hash_proxy.rs tests"]}
{"id": "C77", "title": "The documented comparison of the filter families' sizes", "statement": "The filter crate documents that an XorN filter is larger than both BinaryFuseN and FuseN filters, and that BinaryFuseN and FuseN are roughly equivalent in size. True: for 2^17 keys and more an Xor filter has more fingerprints than a BinaryFuse filter of as many keys, for every size at which a Fuse filter can be built it has more than the Fuse filter, and from 2^20 keys on Fuse and BinaryFuse differ by less than two per cent. False (refuted): for 128 to 8191 keys every BinaryFuse filter is larger than every Xor filter of as many keys, and below 1024 keys it is more than a fifth larger than a Fuse filter.", "quantifier": "every two key lists of the same length, every fingerprint width, random fill, profile, number of attempts; every logarithm right to four digits", "why_tests_cant": "the size is a floating-point function of the number of keys; tests sample one or two sizes, and the order of the families changes with the size", "anchors": ["bff-modp/src/lib.rs (crate documentation)", "bff-modp/src/prelude/xor.rs: xor_from_impl", "bff-modp/src/prelude/fuse.rs: fuse_from_impl", "bff-modp/src/prelude/bfuse.rs: bfuse_from_impl, size_factor, segment_length"]}
{"id": "C78", "title": "Which numbers of keys a filter can be built for", "statement": "For every number of keys there are distinct keys from which the filter is built. True for Xor (below 2^32 keys) and BinaryFuse (up to 3817000000 keys), already at the first seed. False (refuted) for Fuse: no filter of 1 to 89, 101 to 179, 203 to 268, 305 to 358, 407 to 448, 509 to 537, 611 to 627 or 713 to 717 keys is ever returned, whatever the keys and however many attempts; for all other sizes there is one. The list is exact.", "quantifier": "every number of keys, every key list of that length, every fingerprint width, random fill, profile, number of attempts", "why_tests_cant": "impossibility for a size ranges over all key lists, and possibility for every size over all sizes; tests build a few sizes with random keys", "anchors": ["bff-modp/src/prelude/xor.rs: xor_from_impl", "bff-modp/src/prelude/fuse.rs: fuse_from_impl", "bff-modp/src/prelude/bfuse.rs: bfuse_from_impl"]}
{"id": "C79", "title": "From a file to the text a client obtains", "statement": "If a database file (a JSON array of base64 texts, or of key and base64 text pairs, in any formatting) holds blocks of elem_size bits, then a client that looks up row r or key k with the calls of the API in their documented order obtains exactly the text in the file, except for a fraction of at most 2^-bits of its randomness (bits per shipped configuration; an index query may also be refused). True for the shipped configurations in which plaintext_bits does not divide elem_size; false (refuted) when plaintext_bits (at least 8) divides elem_size, as in two shipped configurations of each mode: then the shard is built and no lookup ever returns the text in the file.", "quantifier": "every file of such texts in any formatting, every row or key, every LWE dimension, public seed and filter seed, every random tape, debug and release", "why_tests_cant": "the failure fraction ranges over all random tapes and all databases of the shipped sizes; a passing test run says nothing about the fraction, and no shipped test reads a file or uses the dividing configurations", "anchors": ["src/api.rs: Shard::from_json_file, KVShard::from_json_file, generate_query, respond, parse_resp_as_base64", "src/db.rs: IndexDatabase::new, KVDatabase::new", "src/utils.rs: base64_from_u32_slice, bytes_from_u32_slice", "Makefile: bench targets"]}
{"id": "C80", "title": "The filter crate's analysis program, plotting script and benchmarks", "statement": "The zero-density program accepts exactly the six filter names as its last command-line word and panics on everything else whatever it draws; when it prints, the number of lines depends on the filter family only and every line is between 0 and 2001; it prints exactly when the filter of the million drawn keys can be built (distinct keys, a seed under which they are peelable), so counting and printing never fail. The script checks its first argument and never passes an unknown name on; false (refuted): a plot shows that a filter was built (after a panic it draws an empty plot). The four benchmarks end exactly when the filter of their drawn keys can be built; measured lookups never panic.", "quantifier": "every command line, every sequence of drawn keys, every random fill, every reasonable logarithm, every looked-up key and number of iterations, debug and release", "why_tests_cant": "the programs draw a million random keys per run and have no tests; a run shows one draw, and failures of construction, duplicates and panics depend on the draw", "anchors": ["bff-modp/analysis/src/zeroes.rs: main, print_zeroes!", "bff-modp/analysis/plot_zeroes", "bff-modp/analysis/plot_zeroes.py", "bff-modp/benches/xor8.rs, xor16.rs, fuse8.rs, fuse16.rs: from, contains"]}
{"id": "C81", "title": "Layout of everything that is stored or sent", "statement": "The bytes (bincode) of every serialisable type of the crate are its fields in declaration order: integers little-endian in their own width, usize in 8 bytes, vectors with an 8-byte length in front, fixed arrays without, options and flags with one leading byte, nothing for markers. The JSON text of every such type is the compact object of its fields under their declared names and in that order, numbers in decimal. A successful write_to_file leaves in the database file exactly the matrix as an array of arrays and in the parameters file exactly the object with the members lhs_seed and rhs.", "quantifier": "every value of every serialisable type that fits its Rust types (JSON; bincode: every value), every path, every file system", "why_tests_cant": "A round trip through the same program passes for any self-consistent layout; only a statement about every value fixes what another program, or a later version, has to read.", "anchors": ["src/api.rs:21-25", "src/api.rs:59-67", "src/api.rs:102-116", "src/api.rs:206-214", "src/api.rs:249-258", "src/api.rs:452-470", "src/db/index.rs:13-19", "src/db/index.rs:67-70", "src/db/index.rs:121-129", "src/db/kv.rs:16-20", "src/db/kv.rs:84-90", "src/db/kv.rs:111-118", "src/db/kv.rs:196-199", "src/db/kv.rs:267-276", "src/db/mod.rs:51-57", "src/db/mod.rs:77-78", "bff-modp/src/bfusep32.rs:49-62", "bff-modp/src/bfuse8.rs:56-66", "bff-modp/src/xor8.rs:51-59", "bff-modp/src/fuse8.rs:61-70"]}
{"id": "C82", "title": "Which JSON texts are accepted, and as what", "statement": "Reading JSON into any serialisable type succeeds exactly when the text is a JSON document denoting a value of that type (fields by name, each once, in any order, unknown members ignored, or an array of all fields in declaration order; numbers in range; fixed arrays of the right length; the optional auxiliary parameters may be null or left out), and gives that value; every other text is an error, never a panic. Formatting, member order and members of other names never change the outcome.", "quantifier": "every text and every serialisable type of the library and, with feature serde, of the filter crate", "why_tests_cant": "the space of texts is infinite; a test reads back only what the program wrote", "anchors": ["src/api.rs:21-25,102-116,249-258,452-470", "src/db/index.rs:13-19,121-129", "src/db/kv.rs:16-20,84-90,111-118,267-276", "src/db/mod.rs:77-78", "bff-modp/src/bfusep32.rs:49-62", "bff-modp/src/bfuse8.rs:56-66", "bff-modp/src/xor8.rs:51-59", "bff-modp/src/fuse8.rs:61-70"]}
{"id": "C83", "title": "Error texts tell what is wrong", "statement": "Every error the library makes itself carries a text from which the user can tell the cause: the two lengths of a product that does not fit, the numbers of keys and values, the size of a chunk that is too wide, or one of three fixed reasons for a refused query; the text of a failed build is about the first element that fails and depends on that element only; the text of a refused query reveals neither row, key nor secret. False in two points (refuted): a failed build does not say which element is bad, so that two inputs with the bad element at different places give the same text; and a chunk of more than 32 bits is reported as too long for a u16 although everything up to 32 bits is accepted.", "quantifier": "all rows and columns, chunks, databases, keys, values, parameters and used or fresh query parameters; every base64 decoder text", "why_tests_cant": "which inputs share a text, and that the text is independent of secrets, are statements about all inputs", "anchors": ["src/errors.rs", "src/utils.rs vec_mult_u32_u32, bits_to_u32_le, u32_sized_bytes_from_vec", "src/db/kv.rs KVDatabase::from_base64_strings", "src/db/index.rs construct_row, construct_rows", "src/api.rs generate_query, parse_resp_as_row"]}
{"id": "C84", "title": "The digest and the generator the program runs with", "statement": "With SHA-256 and the ChaCha12 generator written out instead of left open, everything said about arbitrary digests and generators applies: every key string has a filter key holding its 32-byte SHA-256, two key strings share a filter key exactly if their SHA-256 are equal, the public matrix of a seed is its ChaCha12 stream row by row, and a keyword lookup from a file to the text succeeds up to the documented failure probability with no assumption about digest or generator. The constants are the ones the standard derives, padded messages are whole blocks and unambiguous, and published vectors come out.", "quantifier": "all key strings of any length, seeds, matrix sizes and positions, files, databases, documented parameters and tapes", "why_tests_cant": "a test fixes a few strings and seeds; that every string has a digest of the expected size, that padding is injective, and that no lookup depends on an assumption about the generator, range over all of them", "anchors": ["src/utils.rs sha256_into_u64_sized, get_seeded_rng, generate_lwe_matrix_from_seed", "src/api.rs KVShard::from_json_file"]}
{"id": "C85", "title": "A base64 error points at the offending byte", "statement": "A string that does not decode is reported with one of three texts, and a string is reported exactly if it does not decode. A foreign byte is named together with its offset: it is the first byte outside the alphabet that is not padding in its place (the last byte, if the length is impossible), and no string with that byte at that offset decodes. An impossible length is reported as such, and no string of such a length decodes. A last symbol with superfluous bits is named with its offset: replacing that symbol alone makes the string decode. Byte and offset can be read back from the text. A failed database build carries this text for the first element whose row fails; a failed key-value build carries it inside its own.", "quantifier": "all strings of bytes (of a length a Rust string can have), databases, keys, values and parameters", "why_tests_cant": "that the reported offset is always the right one, and that the repair it suggests always works, range over all strings", "anchors": ["src/db/index.rs construct_row", "src/db/kv.rs construct_row, KVDatabase::from_base64_strings", "src/api.rs Shard::from_base64_strings, KVShard::from_base64_strings"]}
{"id": "C86", "title": "Debug and release builds agree wherever debug does not panic", "statement": "Whenever a call does not panic in a debug build (overflow checks and debug assertions on), a release build gives exactly the same result, the same error, or the same non-termination: building shards from strings, files or key-value pairs, reading rows back, making queries, responding and decoding, whole lookups, building and querying every filter, and reading the benchmark settings. The state a query call leaves behind is the same in both builds even when it panics. The converse fails: some calls a release build answers make a debug build panic.", "quantifier": "all arguments, files, hash functions, random tapes and filter sizes, both build profiles", "why_tests_cant": "tests run in one profile on a few inputs; a wrapped addition or a skipped assertion that silently changes a result shows only when the two profiles are compared on every input", "anchors": ["Cargo.toml profiles", "src/api.rs", "src/db", "src/utils.rs", "bff-modp/src/bfusep32.rs", "bff-modp/src/prelude/bfusep.rs", "bff-modp/src/prelude/fuse.rs", "bff-modp/src/xor8.rs"]}
