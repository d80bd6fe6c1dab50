{
 "C05": {
  "note": "The property as first stated is false of the code; the _refuted theorem has the witness, the other theorems give the exact behaviour."
 },
 "C12": {
  "note": "False of the code as stated (non-uniform); refuted with the exact counts."
 },
 "C16": {
  "note": "False of the code as stated; refuted with a witness."
 },
 "C18": {
  "note": "False of the code as stated (Clone / pub field); refuted with histories."
 },
 "C20": {
  "note": "False of the code as stated; refuted with a witness."
 },
 "C28": {
  "note": "False of the code for moduli that do not divide 2^32; refuted with a witness."
 },
 "C29": {
  "note": "False of the code: keys with permuted words collide under every seed; proved for all such keys plus a concrete filter."
 },
 "C32": {
  "note": "False of the code: all attempts are identical; proved for every key list plus a concrete hopeless pair."
 },
 "C33": {
  "note": "False of the code: 64 concrete keys make the release build loop forever."
 },
 "C22": {
  "note": "Index protocol and KV protocol."
 },
 "C36": {
  "note": "False of the code: a concrete absent key gets a well-formed answer; and every key is answered (kv_every_key_answered)."
 },
 "C37": {
  "note": "False of the code: empty inputs, unpeelable keys and (debug) moduli below 256 panic; proved in general and for concrete pairs."
 },
 "C38": {
  "note": "index and key-value constructors; C38_index_build_total gives every outcome of the index constructor (shard, error or panic) for every value of every argument, C38_index_build_exact the same as equivalences for 1 to 32 plaintext bits."
 },
 "C23": {
  "note": "Index protocol (Claims_index) and KV protocol (Claims_kv)."
 },
 "C24": {
  "note": "Index protocol (Claims_index) and KV protocol (Claims_kv)."
 },
 "C40": {
  "note": "False of the code: load of the file just written always fails; the derived serde JSON does load."
 },
 "C41": {
  "note": "False of the code: proved for every shard with at least one column."
 },
 "C42": {
  "note": "False of the code: exact states after every operation proved, atomicity refuted for every shard; torn files are proved to be rejected on reading."
 },
 "C53": {
  "note": "False of the code: panics for every bad file."
 },
 "C54": {
  "note": "False of the code: concrete pair of KV shards, and general omission of the index fields."
 },
 "C55": {
  "note": "False of the code: concrete 95-key lists for BinaryFuseP32 and BinaryFuse8; the positive statement with the load bound is C27/C44."
 },
 "C44": {
  "note": "Debug builds unconditionally; release builds under the slot-load bound, which C55 shows necessary."
 },
 "C48": {
  "note": "refuted: 1..=89 keys always panic, 101..=179 always fail, empty-set filter panics on lookup; panics characterised exactly from 90 keys on"
 },
 "C46": {
  "note": "release: never returns for any number of attempts; debug: panics"
 },
 "C51": {
  "note": "u32::pow modelled as squaring loop; refuted for exponents >= 32 in release (silent 0)"
 },
 "C56": {
  "note": "size bounds proved for all n < 2^32 from the binary64 specification; the documented bits-per-entry bounds are refuted for small Xor sets and for Fuse with 3676 keys"
 },
 "C59": {
  "note": "exact output proved; 'window of 2000' refuted by the all-zero table (prints 2001)"
 },
 "C60": {
  "note": "exact panic condition for index queries in range; acceptance by the constructor shown with plaintext_bits = 32"
 },
 "C61": {
  "note": "integer Chernoff bound, no real analysis; numbers certified inside Coq"
 },
 "C62": {
  "note": "the general bound takes the slot count of the built shard; for the Makefile's configurations it is derived from the code's own float estimates (kv_failure_benchmarks), with the logarithm assumed right to four digits"
 },
 "C64": {
  "note": "libm's natural logarithm is an argument; reasonable_log (right to four digits) is the only assumption and documented_size_example shows one function that meets it"
 },
 "C65": {
  "note": "bincode 1.3.3 and serde_json are modelled from their documented behaviour; the JSON acceptance set is stated for parameter and input files in C40, C52 and C53"
 },
 "C66": {
  "note": "get_row = element row and KV iterator = stored values REFUTED; what they do return proved for every database"
 },
 "C67": {
  "note": "Python's int(), os.environ and json.dump modelled from their documentation; element size under make gen-db and randomness without settings REFUTED"
 },
 "C68": {
  "note": "exact outcome; completion REFUTED; criterion's iteration counts are arguments; timing and printing not modelled"
 },
 "C69": {
  "note": "documented rates REFUTED for every family: explicit distinct key sets for which Xor8/16/32 (10229984 keys) accepts >43%, BinaryFuse8/16/32 (119537056 keys) >3.7%, Fuse8 (11751654 keys) >0.9% and Fuse16 (1468957 keys) >0.0035% of all other keys, for every fill, profile and number of attempts; proved true for BinaryFuse8 up to 330000 and BinaryFuse16 up to 16000 keys, whatever the set; over the fill, key by key, the rate is 0, 1 or exactly 2^-w (BinaryFuse, Fuse); the per-key reading REFUTED. Not claimed: where exactly between the two the documented rates start to fail, nor the \"effectively zero\" of the 32-bit filters for every set. Xor: two-sided count (xor_accepted_keys), documented rates for up to 930 (Xor8) and 24 (Xor16) keys."
 },
 "C70": {
  "note": "exact sizes for both modes; the README's 1.08 REFUTED for every shard; upper bounds 1.25 / 1.141 proved. bincode sizes per its documented format; running times not modelled"
 },
 "C71": {
  "note": "reduction to LWE proved by counting over all tapes (exact, no asymptotics); the random words are taken uniform (rand's generator is not modelled), the public matrix is arbitrary. LWE itself is not assumed anywhere: its advantage appears on the right-hand side. Index mode REFUTED in the sense of the extra term, which is attained. The many-sample advantages are reduced to single-sample ones (C71_lwe_samples and its two corollaries: factor n, an averaging hybrid argument with explicit surrounding vectors)."
 },
 "C72": {
  "note": "one transition system for both modes; an adversarial network that does not forge; the client's randomness is recorded as a ghost so that the noise condition can be stated; a client reading with another object than the one that asked (a clone) is not covered"
 },
 "C73": {
  "note": "REFUTED: keyword restarts, stale index parameters and exchanged answers go unnoticed; universal non-detection proved for index mode"
 },
 "C74": {
  "note": "exact counts; the output of StdRng is taken as an arbitrary word stream and counted uniformly (the generator itself is not modelled)"
 },
 "C75": {
  "note": "REFUTED for the index tests (flaky at a proved rate). The keyword test's failure probability from the noise is C62's; its build probability is not estimated (C63 gives the exact condition). The filter crate's own tests are C76."
 },
 "C76": {
  "note": "REFUTED for test_fail_construction (Fuse) and the false-positive tests (constructed draws; the proportion of failing draws is not computed). The 16 and 32-bit variants differ from the 8-bit ones only in the width and the bounds, which are arguments. The 1000-attempt construction of the P32 filter is covered by C30/C32. Benches are not part of this claim."
 },
 "C77": {
  "note": "REFUTED below 8192 keys (BinaryFuse is larger than Xor). Between 8192 and 2^17 keys no order is claimed. Sizes are numbers of fingerprints of the same width; struct headers are not counted. The example shows filters of 2^20 and of a thousand keys in all three families."
 },
 "C78": {
  "note": "REFUTED for Fuse at the listed sizes; the list is exact (fuse_size_refuted and fuse_size_built). Existence only: how likely random keys are to succeed is not claimed. The modular filter BinaryFuseP32 is not covered here, because its 256-bit mixer is not shown to reach every hash."
 },
 "C79": {
  "note": "REFUTED when plaintext_bits divides elem_size (819200/10 and 245760/10). Composes C52, C61/C62, C04/C05 and C34; the keyword theorems take that the shard was built (C63 says when) and, in release, that no slot is used by more than 63 keys (C55). The size of the filter enters as kp_m at most the number of slots the f64 arithmetic gives (C64)."
 },
 "C80": {
  "note": "REFUTED for the plot (C80_plot_failure_refuted: after a panic the script draws a plot without points). For BinaryFuse the condition for printing is stated for distinct keys without an overloaded slot (C55 covers the rest). Shell, cargo and Python are modelled only as far as the outcome of the script (which words are passed on, no check of the exit status, one number per line); criterion only as a repetition of the measured call."
 },
 "C63": {
  "note": "C63_kv_build_exact gives every outcome (shard, error or panic) of building a key-value shard from strings."
 },
 "C81": {
  "note": "bincode and serde_json are external: their formats are modelled from their documentation (Serde, Json), the layout is specified separately (SpecWire). In JSON a string is claimed only without characters that need an escape; the others are covered by the round trips of C65 and the grammar of C52."
 },
 "C82": {
  "note": "serde_json is external and modelled from its documented behaviour. One known difference: a lone surrogate escape inside the value of an unknown member is refused by the model and skipped by the crate."
 },
 "C83": {
  "note": "texts of the library's own errors (Display, and Debug where one error wraps another), for every argument; base64's own texts are an arbitrary function of the string. REFUTED: the texts do not say which element is bad (C83_bad_element_refuted) and name a u16 where the limit is 32 bits (C83_wide_text_refuted). Panic messages are not modelled."
 },
 "C84": {
  "note": "SHA-256 from FIPS 180-4 and ChaCha12 as in rand 0.8's StdRng, transcribed and checked against published vectors; that the crates sha2 and rand_chacha compute these functions is trusted."
 },
 "C85": {
  "note": "the errors of the crate base64 0.13 are modelled from its documentation and source (decode.rs), which is not part of the repository; C83 holds for any such texts, C85 for these."
 },
 "C86": {
  "note": "random values (tape, fresh filter cells, seeds) are the same inputs to both builds; the converse is refuted with witnesses."
 }
}