-Q theories Verif
theories/Base.v
theories/Fmt.v
theories/Base64.v
theories/Bincode.v
theories/Lwe.v
theories/Mat.v
theories/Hash.v
theories/Fuse3.v
theories/Bfusep.v
theories/Xorf.v
theories/Float64.v
theories/Bfuse.v
theories/Xor.v
theories/Fuse.v
theories/Db.v
theories/Api.v
theories/Spec.v
theories/Base_facts.v
theories/Fmt_facts.v
theories/Codec_facts.v
theories/Mat_facts.v
theories/Index_facts.v
theories/IndexProto_facts.v
theories/Claims_format.v
theories/Prop_format.v
theories/History.v
theories/SpecHist.v
theories/Claims_matrix.v
theories/Claims_index.v
theories/Prop_matrix.v
theories/Prop_index.v
theories/SpecFilter.v
theories/Geom_facts.v
theories/Peel_facts.v
theories/KeyPeel_facts.v
theories/SpecXorf.v
theories/Bfuse_facts.v
theories/HashInj_facts.v
theories/Place_facts.v
theories/Filter_facts.v
theories/FilterTop_facts.v
theories/Claims_filter.v
theories/Prop_filter.v
theories/KV_facts.v
theories/Claims_kv.v
theories/Prop_kv.v
theories/Json.v
theories/Files.v
theories/SpecFiles.v
theories/Json_facts.v
theories/Files_facts.v
theories/Claims_files.v
theories/Prop_files.v
theories/Claims_xorf.v
theories/Prop_xorf.v
theories/SpecXor.v
theories/HSet_facts.v
theories/Xor_facts.v
theories/Fuse_facts.v
theories/Float_facts.v
theories/Claims_xor.v
theories/Prop_xor.v
theories/HashProxy.v
theories/Claims_fuse.v
theories/Prop_fuse.v
theories/Claims_fusebig.v
theories/Prop_fusebig.v
theories/Cli.v
theories/SpecCli.v
theories/Claims_cli.v
theories/Prop_cli.v
theories/Claims_keys.v
theories/Prop_keys.v
theories/Zeroes.v
theories/Claims_zeroes.v
theories/Prop_zeroes.v
theories/Experiment.v
theories/Tail_facts.v
theories/Prob_facts.v
theories/Claims_kvbuild.v
theories/Claims_prob.v
theories/Prop_kvbuild.v
theories/Prop_prob.v
theories/Estimate.v
theories/SpecEst.v
theories/Estimate_facts.v
theories/Claims_estimate.v
theories/Prop_estimate.v
theories/SpecJson.v
theories/JsonSpec_facts.v
theories/Claims_json.v
theories/Prop_json.v
theories/Serde.v
theories/SpecSerde.v
theories/Serde_facts.v
theories/Claims_serde.v
theories/Prop_serde.v
theories/Access.v
theories/Claims_access.v
theories/Prop_access.v
theories/GenDb.v
theories/Claims_gendb.v
theories/Prop_gendb.v
theories/Bench.v
theories/Claims_bench.v
theories/Prop_bench.v
theories/SpecRate.v
theories/Rate_facts.v
theories/Fill_facts.v
theories/Claims_rate.v
theories/Prop_rate.v
theories/Claims_cost.v
theories/Prop_cost.v
theories/SpecLwe.v
theories/Client.v
theories/Seq_facts.v
theories/Claims_private.v
theories/Prop_private.v
theories/Service.v
theories/Service_facts.v
theories/Claims_service.v
theories/Prop_service.v
theories/Refusal.v
theories/Refusal_facts.v
theories/Claims_refusal.v
theories/Prop_refusal.v
theories/Tests.v
theories/Claims_tests.v
theories/Prop_tests.v
theories/XorfTests.v
theories/Claims_xorftests.v
theories/Prop_xorftests.v
theories/Window_facts.v
theories/Lookup.v
theories/Claims_lookup.v
theories/Prop_lookup.v
theories/Claims_sizes.v
theories/Prop_sizes.v
theories/Claims_anysize.v
theories/Prop_anysize.v
theories/Claims_xorrate.v
theories/Claims_xorsmall.v
theories/Claims_bfuserate.v
theories/Prop_xorrate.v
theories/Prop_xorsmall.v
theories/Prop_bfuserate.v
theories/FuseStar_facts.v
theories/Claims_fuserate.v
theories/Prop_fuserate.v
theories/Claims_examples.v
theories/Prop_examples.v
theories/Analysis.v
theories/Claims_analysis.v
theories/Prop_analysis.v
theories/Claims_build.v
theories/Prop_build.v
theories/SpecWire.v
theories/Claims_wire.v
theories/Prop_wire.v
theories/SpecRead.v
theories/Read_facts.v
theories/ReadFit_facts.v
theories/ReadUtf_facts.v
theories/Claims_read.v
theories/Prop_read.v
theories/Hybrid_facts.v
theories/Claims_many.v
theories/Prop_many.v
theories/Msg.v
theories/SpecMsg.v
theories/Msg_facts.v
theories/Claims_msg.v
theories/Prop_msg.v
theories/Sha256.v
theories/ChaCha.v
theories/Crypto_facts.v
theories/Claims_crypto.v
theories/Prop_crypto.v
theories/B64Msg.v
theories/B64Msg_facts.v
theories/SpecB64.v
theories/Claims_b64.v
theories/Prop_b64.v
theories/SpecProfile.v
theories/Profile_facts.v
theories/Claims_profile.v
theories/Prop_profile.v
theories/Claims_attempts.v
theories/Prop_attempts.v
