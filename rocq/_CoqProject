-Q theories Verif
theories/Py.v
theories/PyLemmas.v
theories/Digits.v
theories/B58Mnr_model.v
theories/B58Mnr_spec.v
theories/B58Mnr_proof.v
theories/Prop_B58Mnr.v
theories/Addr_model.v
theories/Addr_spec.v
theories/Addr_proof.v
theories/Prop_Addr.v
theories/B58Btc_model.v
theories/B58Btc_proof.v
theories/Prop_B58Btc.v
theories/Protobuf_model.v
theories/Protobuf_spec.v
theories/Protobuf_proof.v
theories/Prop_Protobuf.v
theories/Mnemonic_words.v
theories/Mnemonic_model.v
theories/Mnemonic_spec.v
theories/Mnemonic_proof.v
theories/Prop_Mnemonic.v
theories/Lists_model.v
theories/Lists_proof.v
theories/Lists_spec.v
theories/Prop_Lists.v
theories/Signer_base.v
theories/Signer_inv.v
theories/Signer_model.v
theories/Signer_spec.v
theories/Signer_step.v
theories/Signer_inv2.v
theories/Signer_inv3.v
theories/Agent_model.v
theories/Signer_toy.v
theories/Signer_props.v
theories/Signer_props2.v
theories/Prop_Signer.v
theories/Signer_props3.v
theories/Ints_model.v
theories/Ints_proof.v
theories/Ints_proof2.v
theories/Ints_proof3.v
theories/Ints_spec.v
theories/Prop_Ints.v
theories/Keccak_model.v
theories/Keccak_proof.v
theories/Keccak_proof2.v
theories/Keccak_proof3.v
theories/Keccak_spec.v
theories/Prop_Keccak.v
theories/MlsagHasher_model.v
theories/MlsagHasher_proof.v
theories/MlsagHasher_spec.v
theories/Prop_MlsagHasher.v
theories/KeySep_model.v
theories/KeySep_proof.v
theories/KeySep_spec.v
theories/Prop_KeySep.v
theories/Prop_StateSave.v
theories/StateSave_model.v
theories/StateSave_proof.v
theories/StateSave_spec.v
theories/KeyImageSync_model.v
theories/KeyImageSync_proof.v
theories/KeyImageSync_proof2.v
theories/KeyImageSync_spec.v
theories/Prop_KeyImageSync.v
theories/Clsag_proof.v
theories/Ec_model.v
theories/Ec_proof.v
theories/Ec_spec.v
theories/Ec_toy.v
theories/Mlsag_model.v
theories/Mlsag_proof.v
theories/Mlsag_proof2.v
theories/Mlsag_proof3.v
theories/Mlsag_spec.v
theories/Prop_Mlsag.v
theories/Prop_Sigs.v
theories/Sigs_model.v
theories/Sigs_proof.v
theories/Sigs_spec.v
theories/Borromean_model.v
theories/Borromean_proof.v
theories/Borromean_spec.v
theories/Prop_Borromean.v
theories/Prop_Rsig.v
theories/Rsig_model.v
theories/Rsig_proof.v
theories/Rsig_spec.v
theories/Prop_Wallet.v
theories/Wallet_model.v
theories/Wallet_proof.v
theories/Wallet_spec.v
theories/Container_model.v
theories/Container_proof.v
theories/Extra_model.v
theories/Extra_proof.v
theories/Extra_spec.v
theories/Prop_Container.v
theories/Prop_Extra.v
theories/Curve.v
theories/Curve0.v
theories/Ed25519_model.v
theories/Ed25519_proof.v
theories/Fq.v
theories/Primes.v
theories/Agroup.v
theories/Ed25519_bridge.v
theories/Ed25519_enc.v
theories/Ed25519_enc0.v
theories/Ed25519_fe.v
theories/Ed25519_group.v
theories/Ed25519_inst.v
theories/Ed25519_order.v
theories/Ed25519_spec.v
theories/Prop_Ed25519.v
theories/Prop_Real.v
theories/Bp_model.v
theories/Bp_proof1.v
theories/Bp_proof2.v
theories/Bp_proof3.v
theories/Bp_proof4.v
theories/Bp_proof5.v
theories/Bp_proof6.v
theories/Bp_spec.v
theories/Prop_Bp.v
theories/Lite_model.v
theories/Lite_proof.v
theories/Lite_spec.v
theories/Prop_Lite.v
theories/Complete_proof1.v
theories/Complete_proof2.v
theories/Complete_proof3.v
theories/Complete_proof4.v
theories/Complete_spec.v
theories/Agent_sound.v
theories/Agent_trace.v
theories/Complete_toy.v
theories/Prop_Complete.v
theories/Keys_device.v
theories/Keys_proof.v
theories/Keys_spec.v
theories/Prop_Keys.v
theories/Accept_proof.v
theories/Accept_proof2.v
theories/Accept_proof3.v
theories/Accept_proof4.v
theories/Accept_spec.v
theories/Prop_Accept.v
theories/Bip32_base.v
theories/Bip32_derive.v
theories/Bip32_model.v
theories/Bip32_more.v
theories/Bip32_path.v
theories/Bip32_proof.v
theories/Bip32_ser.v
theories/Bip32_spec.v
theories/Prop_Bip32.v
theories/Prop_Seed.v
theories/Seed_model.v
theories/Seed_proof.v
theories/Real_model.v
theories/Real_proof.v
theories/Node_proof.v
theories/Node_spec.v
theories/Node_complete.v
theories/Prop_Node.v
theories/Request_spec.v
theories/Keyv_model.v
theories/Keyv_proof.v
theories/Keyv_proof2.v
theories/Keyv_spec.v
theories/Prop_Keyv.v
theories/Prop_Masks.v
theories/Prop_Regs.v
theories/Regs_model.v
theories/Regs_proof.v
theories/Regs_proof2.v
theories/Builder_model.v
theories/Builder_proof.v
theories/Builder_proof2.v
theories/Builder_proof3.v
theories/Builder_spec.v
theories/Prop_Builder.v
theories/LiteKeys_model.v
theories/LiteKeys_proof.v
theories/LiteKeys_spec.v
theories/Prop_LiteKeys.v
theories/Bip39_model.v
theories/Bip39_proof.v
theories/Bip39_spec.v
theories/Bip39_words.v
theories/Prop_Bip39.v
theories/Files_model.v
theories/Files_proof.v
theories/Files_spec.v
theories/Prop_Files.v
theories/LiveRefresh_model.v
theories/LiveRefresh_proof.v
theories/LiveRefresh_spec.v
theories/Prop_LiveRefresh.v
theories/Crc_proof.v
theories/Crc_spec.v
theories/Prop_Crc.v
