{
 "b1_06": {
  "tightened": [
   "C57_key_words",
   "C57_key_words_injective"
  ],
  "comment": "survived: no theorem said which digest bytes the four key words hold. Added C57 (key words of the digest); see re-run b1_06b."
 },
 "b1_14": {
  "tightened": [
   "C58_public_matrix_stream",
   "C58_kv_public_matrix_stream"
  ],
  "comment": "survived: both sides shared the wrong stride. Added C58 (cell (i,j) is stream word i*n+j of the seed); see re-run b1_14b."
 },
 "b1_08": {
  "comment": "behaviourally equivalent edit; the proof scripts break but no claim becomes false."
 },
 "b1_12": {
  "comment": "behaviourally equivalent edit; the proof scripts break but no claim becomes false."
 },
 "b1_15": {
  "comment": "behaviourally equivalent edit (outer reduction); the proof scripts break but no claim becomes false."
 },
 "b1_32": {
  "comment": "this run was cut by memory; re-run as b1_32b."
 },
 "b1_48": {
  "comment": "the expected id was mis-stated: the cloning history theorems are C17, and they fail."
 },
 "b2_02": {
  "tightened": [
   "C52_any_formatting_*",
   "C52_one_reading",
   "C53_not_*",
   "C40_params_load_iff"
  ],
  "comment": "caught too weakly at first (an example or an internal lemma only); the listed theorems were added or strengthened afterwards"
 },
 "b2_06": {
  "tightened": [
   "C52_any_formatting_*",
   "C52_one_reading",
   "C53_not_*",
   "C40_params_load_iff"
  ],
  "comment": "caught too weakly at first (an example or an internal lemma only); the listed theorems were added or strengthened afterwards"
 },
 "b2_21": {
  "tightened": [
   "C69 (false-positive rate theorems)"
  ],
  "comment": "caught too weakly at first (an example or an internal lemma only); the listed theorems were added or strengthened afterwards"
 },
 "b2_44": {
  "tightened": [
   "C51_cli_flags_iff",
   "C51_cli_default_example"
  ],
  "comment": "caught too weakly at first (an example or an internal lemma only); the listed theorems were added or strengthened afterwards"
 },
 "b2_48": {
  "tightened": [
   "C33_bfuse_release_hang_refuted"
  ],
  "comment": "caught too weakly at first (an example or an internal lemma only); the listed theorems were added or strengthened afterwards"
 },
 "b2_53": {
  "tightened": [
   "C43_seed_word_matters",
   "C43_mix256_example"
  ],
  "comment": "caught too weakly at first (an example or an internal lemma only); the listed theorems were added or strengthened afterwards"
 },
 "b2_55": {
  "tightened": [
   "C17_index_history_exact",
   "C17_kv_history_exact"
  ],
  "comment": "caught too weakly at first (an example or an internal lemma only); the listed theorems were added or strengthened afterwards"
 },
 "b6_18": {
  "comment": "C61 was wrongly listed as a claim of this edit: its theorems count failures with their own test and do not mention wrong_text; only C79 does"
 },
 "b5_01": {
  "tightened": [
   "C80_analysis_output"
  ]
 },
 "b4_18": {
  "tightened": [
   "C44_bfuse_thousand_seeds",
   "C44_fourteenth_seed"
  ],
  "comment": "survived among the C44 theorems (they hold for any attempt limit); added C44 about the shipped constructor: exactly the first thousand seeds, and an example that needs the fourteenth."
 },
 "b4_17": {
  "tightened": [
   "C47_fuse_thousand_seeds"
  ],
  "comment": "only C48 proofs failed; added C47 about the shipped constructor."
 },
 "b4_22": {
  "comment": "equivalent for every size whose estimate is below 2^32 (all reachable ones); C86 still holds of the edited program."
 },
 "b4_35": {
  "comment": "equivalent: a string of such a length leaves a single symbol in the last group, which is rejected there too (C85 impossible length)."
 },
 "b4_51": {
  "comment": "rejected by the compiler: EFuseFail is the only error left, the edit is equivalent."
 },
 "b9_02": {
  "comment": "caught by the published test vectors (examples C84_vectors); no general theorem can pin a constant down otherwise."
 },
 "b9_04": {
  "comment": "caught by the published test vectors."
 },
 "b9_05": {
  "comment": "caught by the published test vectors."
 },
 "b9_06": {
  "comment": "caught by the published test vectors."
 },
 "b9_12": {
  "comment": "caught by the published test vectors."
 },
 "b9_14": {
  "comment": "caught by the published test vectors."
 },
 "b9_13": {
  "tightened": [
   "C84_more_vectors"
  ],
  "comment": "motivated the additional vectors of RFC 8439 and rand."
 },
 "b9_15": {
  "tightened": [
   "C84_more_vectors"
  ],
  "comment": "motivated the additional vectors of RFC 8439 and rand."
 },
 "b6_17": {
  "comment": "C61 counts wrong rows with its own definition, not this one; C79 fails as it should."
 },
 "p86_07": {
  "comment": "control: C86 stays true of this edit (it breaks C30 from_slice_length instead)."
 }
}