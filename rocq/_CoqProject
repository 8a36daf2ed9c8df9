-Q theories Verif
theories/Base.v
theories/BaseLemmas.v
theories/Spec_Hex.v
theories/Model_Hex.v
theories/Proof_Hex.v
theories/Props_Hex.v
theories/Spec_Bech32.v
theories/Model_Bech32.v
theories/Proof_Convertbits.v
theories/Proof_Polymod.v
theories/Proof_Bech32Dist.v
theories/Proof_Bech32.v
theories/Props_Bech32.v
theories/Spec_Base58.v
theories/Model_Base58.v
theories/Proof_Base58.v
theories/Props_Base58.v
theories/Spec_Address.v
theories/Model_Address.v
theories/Proof_Address.v
theories/Props_Address.v
theories/Data_Bip39.v
theories/Spec_Mnemonic.v
theories/Model_Mnemonic.v
theories/Proof_Mnemonic.v
theories/Props_Mnemonic.v
theories/Model_Kes.v
theories/Spec_Kes.v
theories/Proof_Kes.v
theories/Proof_KesHist.v
theories/Proof_KesMore.v
theories/Props_Kes.v
theories/Spec_Ed25519.v
theories/Model_Bip32.v
theories/Spec_Bip32.v
theories/Proof_Bip32.v
theories/Proof_Bip32b.v
theories/Props_Bip32.v
theories/Prime.v
theories/Spec_Tss.v
theories/Model_Tss.v
theories/Proof_Poly.v
theories/Proof_Tss.v
theories/Proof_Tss2.v
theories/Props_Tss.v
theories/Spec_Cbor.v
theories/Model_Cbor.v
theories/Proof_Cbor.v
theories/Props_Cbor.v
theories/Model_Ledger.v
theories/Spec_Ledger.v
theories/Proof_Ledger.v
theories/Proof_Ledger2.v
theories/Props_Ledger.v
theories/Model_Tx.v
theories/Spec_Tx.v
theories/Proof_Tx.v
theories/Proof_Tx2.v
theories/Proof_Tx3.v
theories/Proof_Babbage.v
theories/Props_Tx.v
theories/Model_Util.v
theories/Spec_Util.v
theories/Proof_Util.v
theories/Props_Util.v
theories/Props_Exact2.v
theories/Model_Pool.v
theories/Props_Pool.v
theories/Spec_Byron.v
theories/Model_Byron.v
theories/Proof_Byron.v
theories/Proof_Crc.v
theories/Props_Byron.v
theories/Spec_Genesis.v
theories/Model_Genesis.v
theories/Data_Genesis.v
theories/Proof_Genesis.v
theories/Props_Genesis.v
theories/Spec_Files.v
theories/Model_Files.v
theories/Proof_Files.v
theories/Props_Files.v
theories/Props_Readers.v
theories/Props_Faithful.v
theories/Props_Wire.v
theories/Props_Exact.v
theories/Props_History.v
theories/Props_Books.v
theories/Model_Money.v
theories/Props_Money.v
theories/Model_Curve.v
theories/Props_Curve.v
theories/Model_Ed25519.v
theories/Props_Ed25519.v
theories/Model_Utxo.v
theories/Props_Utxo.v
theories/Model_Secmem.v
theories/Props_Secmem.v
theories/Spec_Node.v
theories/Props_Node.v
theories/Props_Exact3.v
theories/Props_Exact4.v
theories/Props_Exact5.v
theories/Props_Exact6.v
theories/Props_Exact7.v
theories/Props_Exact8.v
theories/Props_Wallet.v
theories/Spec_NodeB.v
theories/Props_NodeB.v
theories/Spec_Block.v
theories/Props_Block.v
theories/Props_Cosign.v
theories/Props_Fund.v
theories/Props_Fund2.v
theories/Props_Spend.v
theories/Props_Spend2.v
theories/Model_Keygen.v
theories/Proof_Keygen.v
theories/Props_Keygen.v
theories/Model_Reuse.v
theories/Props_Reuse.v
theories/Model_TssNet.v
theories/Props_TssNet.v
theories/Props_Treasury.v
theories/Spec_Stake.v
theories/Props_Stake.v
theories/Props_Stake2.v
theories/Spec_Purse.v
theories/Props_Purse.v
theories/Props_Purse2.v
theories/Props_Operator.v
theories/Spec_Delegator.v
theories/Props_Delegator.v
theories/Props_Delegator2.v
theories/Props_Late.v
theories/Spec_Leader.v
theories/Props_Leader.v
theories/Spec_Hashes.v
theories/Vectors.v
theories/Props_Hashes.v
theories/Props_Short.v
theories/Props_Short2.v
theories/Props_Again.v
