(** The model run on the test vectors of /repo/test: what the tests of the library require of the code, the model does, with BLAKE2b and SHA-2
    as in the standards (Spec_Hashes).  These are tests of the model, not proofs about it; the theorems are in the other files. *)
From Verif Require Import Base Model_Hex Spec_Hashes Model_Cbor Model_Ledger Model_Bech32 Model_Base58 Model_Address Model_Byron Model_Mnemonic Model_Util Model_Money
  Model_Bip32 Model_Pool Model_Files Model_Tx.
From Coq Require Import SpecFloat.

(** reading the literals *)
Definition hx (s : string) : list Z := match hex_decode (str s) with Ok b => b | _ => [] end.
Definition same (o : outcome (list Z)) (b : list Z) : bool := match o with Ok x => zlist_eqb x b | _ => false end.
Definition same_pair (o : outcome (list Z * list Z)) (a b : list Z) : bool := match o with Ok (x, y) => zlist_eqb x a && zlist_eqb y b | _ => false end.
Definition thrown {A} (o : outcome A) : bool := match o with Throw => true | _ => false end.
Definition payload (s : list Z) : list Z := match bech32_decode s with Ok (_, b) => b | _ => [] end.
Definition base (s : list Z) : list Z := match BaseAddress_fromBech32 s with Ok a => BaseAddress_toBytes a | _ => [] end.
Definition byron_cycle (s : list Z) : bool := match byron_fromBase58 s with Ok a => same (byron_toBase58 a) s | _ => false end.

(** test/test_cardano_encoding_apis.cpp:35-46 *)
Example V_bech32_addr : same_pair (bech32_decode_hex (str "addr1qyghraqad85ue38enxtdkmfsmxktds58msuxhqwyq87yjd2pefk9uwxnjt63hj85l8srdgfh50y7repx0ymaspz5s3msgdc7y8")) (str "addr") (str "011171f41d69e9ccc4f99996db6d30d9acb6c287dc386b81c401fc493541ca6c5e38d392f51bc8f4f9e036a137a3c9e1e4267937d804548477") && same (bech32_encode_hex (str "addr") (str "011171f41d69e9ccc4f99996db6d30d9acb6c287dc386b81c401fc493541ca6c5e38d392f51bc8f4f9e036a137a3c9e1e4267937d804548477")) (str "addr1qyghraqad85ue38enxtdkmfsmxktds58msuxhqwyq87yjd2pefk9uwxnjt63hj85l8srdgfh50y7repx0ymaspz5s3msgdc7y8") = true.
Proof. vm_compute. reflexivity. Qed.

(** test/test_cardano_encoding_apis.cpp:50-60 *)
Example V_bech32_pool : same_pair (bech32_decode_hex (str "pool166dkk9kx5y6ug9tnvh0dnvxhwt2yca3g5pd5jaqa8t39cgyqqlr")) (str "pool") (str "d69b6b16c6a135c4157365ded9b0d772d44c7628a05b49741d3ae25c") && same (bech32_encode_hex (str "pool") (str "d69b6b16c6a135c4157365ded9b0d772d44c7628a05b49741d3ae25c")) (str "pool166dkk9kx5y6ug9tnvh0dnvxhwt2yca3g5pd5jaqa8t39cgyqqlr") = true.
Proof. vm_compute. reflexivity. Qed.

(** test/test_cardano_encoding_apis.cpp:52-67 *)
Example V_bech32_stake : same_pair (bech32_decode_hex (str "stake1uycp3r6hg3vqwmm8gmzdpdusgfra63maklgtay0ujx0wmlstrah3d")) (str "stake") (str "e130188f574458076f6746c4d0b7904247dd477db7d0be91fc919eedfe") && same (bech32_encode_hex (str "stake") (str "e130188f574458076f6746c4d0b7904247dd477db7d0be91fc919eedfe")) (str "stake1uycp3r6hg3vqwmm8gmzdpdusgfra63maklgtay0ujx0wmlstrah3d") = true.
Proof. vm_compute. reflexivity. Qed.

(** test/test_cardano_encoding_apis.cpp:70-88 *)
Example V_base58 : same (base58_encode [0x00; 0x00; 0x28; 0x7f; 0xb4; 0xcd]) (str "11233QC4") && same (base58_decode (str "11233QC4")) [0x00; 0x00; 0x28; 0x7f; 0xb4; 0xcd] &&
  same (base58_encode_hex (str "82d818584283581c34c964f2ba4bc1ad09e131f110ff5bb835110069967ca0f62e0c39f1a101581e581ce07c1b3a70256505b286ba878318800b1b980a83fd5a1ec63f247b13001a6dfc0e16")) (str "DdzFFzCqrhskgmnxD51DjjQajd4Q7mhNaHjSXMi6Cg77VbwWgdCgT8X2zYtTfszqKB2XKR7dhgSBfsgJfzmmAYGtKcHKYqKhWy7o9fwb") && same (base58_decode_hex (str "DdzFFzCqrhskgmnxD51DjjQajd4Q7mhNaHjSXMi6Cg77VbwWgdCgT8X2zYtTfszqKB2XKR7dhgSBfsgJfzmmAYGtKcHKYqKhWy7o9fwb")) (str "82d818584283581c34c964f2ba4bc1ad09e131f110ff5bb835110069967ca0f62e0c39f1a101581e581ce07c1b3a70256505b286ba878318800b1b980a83fd5a1ec63f247b13001a6dfc0e16") = true.
Proof. vm_compute. reflexivity. Qed.

(** test/test_cardano_encoding_apis.cpp:90-113 *)
Example V_base58_invalid : thrown (base58_decode (str "123" ++ [0x80] ++ str "456")) && thrown (base58_decode (str "ABC" ++ [0xff] ++ str "XYZ")) &&
  thrown (base58_decode (str "Test" ++ [0xc2; 0xa9] ++ str "String")) && thrown (base58_decode (0x90 :: str "ValidBase58")) && is_ok (base58_decode (str "111")) = true.
Proof. vm_compute. reflexivity. Qed.

(** test/test_cardano_address_api.cpp:59-71 *)
Example V_addresses : (match BaseAddress_fromBech32 (str "addr_test1qp2fg770ddmqxxduasjsas39l5wwvwa04nj8ud95fde7f70k6tew7wrnx0s4465nx05ajz890g44z0kx6a3gsnms4c4qq8ve0n"), EnterpriseAddress_fromBech32 (str "addr_test1vp2fg770ddmqxxduasjsas39l5wwvwa04nj8ud95fde7f7guscp6v"), RewardsAddress_fromBech32 (str "stake_test1urmd9uh08pen8c26a2fn86weprjh52638mrdwc5gfac2u2s25zpat") with
   | Ok b, Ok p, Ok s =>
       same (BaseAddress_toBech32 b) (str "addr_test1qp2fg770ddmqxxduasjsas39l5wwvwa04nj8ud95fde7f70k6tew7wrnx0s4465nx05ajz890g44z0kx6a3gsnms4c4qq8ve0n") && same (EnterpriseAddress_toBech32 p) (str "addr_test1vp2fg770ddmqxxduasjsas39l5wwvwa04nj8ud95fde7f7guscp6v") && same (RewardsAddress_toBech32 s) (str "stake_test1urmd9uh08pen8c26a2fn86weprjh52638mrdwc5gfac2u2s25zpat") &&
       zlist_eqb (RewardsAddress_toBytesRaw s) (hx "f6d2f2ef387333e15aea9333e9d908e57a2b513ec6d762884f70ae2a") &&
       zlist_eqb (RewardsAddress_toBytes s) (hx "e0f6d2f2ef387333e15aea9333e9d908e57a2b513ec6d762884f70ae2a") &&
       zlist_eqb (EnterpriseAddress_toBytesRaw p) (hx "54947bcf6b760319bcec250ec225fd1ce63baface47e34b44b73e4f9") &&
       zlist_eqb (EnterpriseAddress_toBytes p) (hx "6054947bcf6b760319bcec250ec225fd1ce63baface47e34b44b73e4f9") &&
       zlist_eqb (BaseAddress_toBytesRaw b) (hx "54947bcf6b760319bcec250ec225fd1ce63baface47e34b44b73e4f9f6d2f2ef387333e15aea9333e9d908e57a2b513ec6d762884f70ae2a") &&
       zlist_eqb (BaseAddress_toBytes b) (hx "0054947bcf6b760319bcec250ec225fd1ce63baface47e34b44b73e4f9f6d2f2ef387333e15aea9333e9d908e57a2b513ec6d762884f70ae2a")
   | _, _, _ => false
   end) = true.
Proof. vm_compute. reflexivity. Qed.

(** test/test_cardano_address_api.cpp:74-80 *)
Example V_chain_pointer : same (cp_toBytes {| cp_slot := 1; cp_tx := 2; cp_cert := 3 |}) [1; 2; 3] && same (cp_toBytes {| cp_slot := 123456789; cp_tx := 2; cp_cert := 3 |}) [0xba; 0xef; 0x9a; 0x15; 2; 3] = true.
Proof. vm_compute. reflexivity. Qed.

(** test/test_cardano_address_api.cpp:87-96 *)
Example V_byron_yoroi : byron_cycle (str "Ae2tdPwUPEZFRbyhz3cpfC2CumGzNkFBN2L42rcUc2yjQpEkxDbkPodpMAi") && (match byron_fromCBOR (hx "82d818582183581cba970ad36654d8dd8f74274b733452ddeab9a62a397746be3c42ccdda0001a9026da5b") with Ok a => same (byron_toBase58 a) (str "Ae2tdPwUPEZFRbyhz3cpfC2CumGzNkFBN2L42rcUc2yjQpEkxDbkPodpMAi") | _ => false end) = true.
Proof. vm_compute. reflexivity. Qed.

(** test/test_cardano_address_api.cpp:98-110 *)
Example V_byron_testnet : byron_cycle (str "37btjrVyb4KEB2STADSsj3MYSAdj52X5FrFWpw2r7Wmj2GDzXjFRsHWuZqrw7zSkwopv8Ci3VWeg6bisU9dgJxW5hb2MZYeduNKbQJrqz3zVBsu9nT") && (match byron_fromCBOR (hx "82d818584983581c9c708538a763ff27169987a489e35057ef3cd3778c05e96f7ba9450ea201581e581c9c1722f7e446689256e1a30260f3510d558d99d0c391f2ba89cb697702451a4170cb17001a6979126c") with Ok a => same (byron_toBase58 a) (str "37btjrVyb4KEB2STADSsj3MYSAdj52X5FrFWpw2r7Wmj2GDzXjFRsHWuZqrw7zSkwopv8Ci3VWeg6bisU9dgJxW5hb2MZYeduNKbQJrqz3zVBsu9nT") | _ => false end) = true.
Proof. vm_compute. reflexivity. Qed.

(** test/test_cardano_address_api.cpp:117-138 *)
Example V_byron_daedalus : byron_cycle (str "DdzFFzCqrht4nJCMRgF8xpNMbHFj3xjZn6f4ngpnUujcNXpm5KQFYgU7jwj42ZyjNyjnUqq5ngfEH5YS6hpykqvE78BHTMvgauTBQdsb") &&
  byron_cycle (str "DdzFFzCqrht7XNfGYnNyan5fKfLQWs8KVUZ9Jab65r87cvs2vyJ4n9gaCPUGdHMzSA8qKo8x6E76Di4xQQukcVdtaSmwpVkv5ZiUmJa3") = true.
Proof. vm_compute. reflexivity. Qed.

(** test/test_cardano_mnemonic_api.cpp:51-104 *)
Example V_mnemonic : (match Mnemonic_of_text (str "write maid rib female drama awake release inhale weapon crush mule jump sound erupt stereo") English with
   | Ok m => zlist_eqb (m_idx m) [2036; 1072; 1479; 679; 529; 129; 1449; 925; 1986; 424; 1162; 967; 1662; 615; 1708] &&
             (match checksum m with Ok c => c =? 0x0c | _ => false end) && (match verify_checksum sha256 m with Ok b => b | _ => false end) &&
             same (toSeed m) (hx "fe90c2e3aa7422206d4b9df846a2453c7cfc99f5")
   | _ => false
   end) = true.
Proof. vm_compute. reflexivity. Qed.

(** test/test_cardano_stake_pool_api.cpp:101-102, 109-115: the keys of the tests *)
Definition v_vkey : list Z := payload (str "pool_vk1055etzd6e8e84hpc2vlwu907dqcrlg4mqvkjczs8e0usmptgm8tqw2g8ry").
(** test/test_cardano_stake_pool_api.cpp:102, 112 *)
Definition v_skey : list Z := payload (str "pool_sk14q89yhfgvgk7xyfcc4sacunfj2tt88a3q83wt73p0lmp2y3cnj6se3l07g").

(** test/test_cardano_stake_pool_api.cpp:109-121 *)
Example V_cold_bech32 : same (cold_vk_bech32 v_vkey) (str "pool_vk1055etzd6e8e84hpc2vlwu907dqcrlg4mqvkjczs8e0usmptgm8tqw2g8ry") && same (cold_sk_bech32 v_skey) (str "pool_sk14q89yhfgvgk7xyfcc4sacunfj2tt88a3q83wt73p0lmp2y3cnj6se3l07g") = true.
Proof. vm_compute. reflexivity. Qed.

(** test/test_cardano_stake_pool_api.cpp:146-152 *)
Example V_pool_id : same (bech32_encode (str "pool") (pool_id blake2b_224 v_vkey)) (str "pool16r8fhvl4y9y9n2qe9spq0hfyjv4th3crg2k072etym30y638el4") = true.
Proof. vm_compute. reflexivity. Qed.

(** test/test_cardano_stake_pool_api.cpp:123-133 *)
Example V_key_file : zlist_eqb (cold_sk_file v_skey) (str "{
    ""type"": ""StakePoolSigningKey_ed25519"",
    ""description"": ""Stake Pool Operator Signing Key"",
    ""cborHex"": ""5820a80e525d28622de31138c561dc72699296b39fb101e2e5fa217ff61512389cb5""
}") = true.
Proof. vm_compute. reflexivity. Qed.

(** test/test_cardano_stake_pool_api.cpp:135-144 *)
Example V_extended_key_file : zlist_eqb (cold_xsk_file (cold_extend sha512 sha256 v_skey)) (str "{
    ""type"": ""StakePoolExtendedSigningKey_ed25519_bip32"",
    ""description"": ""Stake Pool Operator Signing Key"",
    ""cborHex"": ""5840d8f4f198623d9617528d06999fdf3837cb965ad8ca3fe50424816e1a6add814f4183bbc9ab268a9026b2ee0db94cb0d8540ea19e0c6a85543d2b64d76dea1d68""
}") = true.
Proof. vm_compute. reflexivity. Qed.

(** test/test_cardano_stake_pool_api.cpp:154-172 *)
Example V_counter : zlist_eqb (map (fun l => fold_left counter_step l 0) [[]; [Increment]; [Increment; Decrement]; [SetCount 2]; [SetCount 2; SetCount 0]]) [0; 1; 0; 2; 0] &&
  zlist_eqb (counter_file 0 v_vkey) (str "{
    ""type"": ""NodeOperationalCertificateIssueCounter"",
    ""description"": ""Next certificate issue number: 0"",
    ""cborHex"": ""820058207d299589bac9f27adc38533eee15fe68303fa2bb032d2c0a07cbf90d8568d9d6""
}") = true.
Proof. vm_compute. reflexivity. Qed.

(** test/test_cardano_stake_pool_api.cpp:174-193 *)
Example V_opcert : zlist_eqb (opcert_serialize_with (opcert_generate unit (fun _ _ => hx "32bf071f313c14c8d5c0ef50e24078479d4805d98a1457e97ab9f31c57e9afac4404e6f4ab4f78a736e3c9eea428b473ab96b934107cd1437e22e55fa709dd0d")
    (hx "b4f7f2d8506deebd885e41e9d510a5eb7cd4101275d1860fc243c869470b26e5") (counter_step 0 Increment) 841 tt) v_vkey) (hx "82845820b4f7f2d8506deebd885e41e9d510a5eb7cd4101275d1860fc243c869470b26e501190349584032bf071f313c14c8d5c0ef50e24078479d4805d98a1457e97ab9f31c57e9afac4404e6f4ab4f78a736e3c9eea428b473ab96b934107cd1437e22e55fa709dd0d58207d299589bac9f27adc38533eee15fe68303fa2bb032d2c0a07cbf90d8568d9d6") = true.
Proof. vm_compute. reflexivity. Qed.

(** test/test_cardano_stake_pool_api.cpp:195-218 *)
Example V_registration : (match RewardsAddress_fromBech32 (str "stake1u9nk44a63wtg22c7jva5lfawmd27nemyparl859p2z4aylc9vsfqd"), RewardsAddress_fromBech32 (str "stake1u88wruysv4n6sw0mkaqf666rrzmk042yc903jsy85zr2k4glsguml") with
   | Ok o1, Ok o2 =>
       match registration_new blake2b_224 blake2b_256 100 v_vkey (hx "9f52b990a53f091cc43712728ebd9d69b277bf5bc673024736961376ce3f7053") 100000000000 170000000 (DFin 5764607523034235 (-58)) o1 with
       | Some (Ok p) =>
           match reg_run blake2b_224 blake2b_256 100 p [AddOwner o1; AddOwner o2; AddRelayName (str "relay.mytestpool.com") 3001;
                   SetMetadata (str "https://example.com/metadata.json") (hx "c74715ac7b726d24da9d2a847d3428638cd7b4ba3652e92128e5fe6c3e3b496c")] with
           | Some (Ok p) => same (registration_serialize p) (hx "8a03581cd0ce9bb3f5214859a8192c0207dd24932abbc70342acff2b2b26e2f258203cd279fd07554b84b1681abe29c180d8dc65849a6849c25389478d105c9e83b31b000000174876e8001a0a21fe80d81e82011832581de1676ad7ba8b96852b1e933b4fa7aedb55e9e7640f47f3d0a150abd27f82581c676ad7ba8b96852b1e933b4fa7aedb55e9e7640f47f3d0a150abd27f581ccee1f0906567a839fbb7409d6b4318b767d544c15f194087a086ab55818301190bb97472656c61792e6d7974657374706f6f6c2e636f6d82782168747470733a2f2f6578616d706c652e636f6d2f6d657461646174612e6a736f6e5820c74715ac7b726d24da9d2a847d3428638cd7b4ba3652e92128e5fe6c3e3b496c")
           | _ => false
           end
       | _ => false
       end
   | _, _ => false
   end) = true.
Proof. vm_compute. reflexivity. Qed.

(** test/test_cardano_stake_pool_api.cpp:220-231 *)
Example V_deregistration : same (deregistration_serialize (deregistration_setEpoch (deregistration_new (pool_id blake2b_224 v_vkey) 459) 460)) (hx "8304581cd0ce9bb3f5214859a8192c0207dd24932abbc70342acff2b2b26e2f21901cc") = true.
Proof. vm_compute. reflexivity. Qed.

(** test/test_cardano_util_api.cpp:27-31 *)
Example V_money : (match ada2love (of_int 1) with Ok n => n =? 1000000 | _ => false end) && (match love2ada 1000000, of_int 1 with S754_finite false m e, S754_finite false m2 e2 => (m =? m2)%positive && (e =? e2) | _, _ => false end) = true.
Proof. vm_compute. reflexivity. Qed.

(** test/test_cardano_transaction_api.cpp:47-58: the public key and the signature in the expected bytes; the signature is checked against the identifier outside Coq *)
Definition v_pub (_ : unit) : list Z := hx "40d883805bb6dca9bdbba85afbc6556b34447c9ddec81f463924b4a2b711128e".
(** test/test_cardano_transaction_api.cpp:55-58 *)
Definition v_sign (_ : unit) (_ : list Z) : list Z := hx "87e8b8157a3e2e1421566042d2974a91d1cb5aa4864439e0665b20af2af8d917afdab774a5e28223984a02e5105adfae97d6c2e2369862b12795b4e6de26d409".

(** a history of calls, then a question *)
Definition babbage (l : list bcall) (f : bbuilder -> bool) : bool := match do_bcalls blake2b_256 v_pub v_sign 100 new_bbuilder l with Some (Ok b) => f b | _ => false end.
Definition shelley (l : list call) (f : builder -> bool) : bool := match do_calls blake2b_256 v_pub v_sign 100 new_builder l with Some (Ok b) => f b | _ => false end.

(** test/test_cardano_transaction_api.cpp:60-91 *)
Example V_babbage_id : babbage [BAddInput (hx "b64deafa7f726818607a23b354f9d3acf945a94fe53d6c54b75715565d4dd626") 0; BAddOutput (base (str "addr_test1qzqcspr8cx0djx9ds9wtn9nan6k2mpw8dxc0jf4ds666urdyc9pn6xptv3c5tcx7rrzpgpzh9tyzw7ytch8709p2da6s7k8m55")) 89826139 false;
    BAddOutput (base (str "addr_test1qqvhpysx9zcmwf937dr4ka5j7qc8fmstu8qdf0s6j78rl54x0vy5dzuykz980fhmnrxjqe2ud8qqmnee8826wvzq4z7qp6ks64")) 10000000 false; BSetFee 173861; BSetTtl 7583054]
    (fun b => zlist_eqb (bb_get_id blake2b_256 b) (hx "768c6a03fb1cf2787efa0a7bf4f6b80165193996c280b0806f5f7d2ba9c681b5")) = true.
Proof. vm_compute. reflexivity. Qed.

(** test/test_cardano_transaction_api.cpp:93-122 *)
Example V_babbage_signed : babbage [BAddInput (hx "38dc919ea976ac6e834bcbd46b27aecf5da496c311a085776873a4b9c01f733f") 0; BAddOutput (base (str "addr_test1qp2fg770ddmqxxduasjsas39l5wwvwa04nj8ud95fde7f70k6tew7wrnx0s4465nx05ajz890g44z0kx6a3gsnms4c4qq8ve0n")) 9969478417 false;
    BAddOutput (base (str "addr_test1qz7aejw84hukpcuqeywa3mmdgt95vtzv5mqp278g4zeua6hg0h2the7qucaar36nrfntslk57xd7p4ulkgy52ds7ysqqjecqjf")) 10000000 false; BSetFee 173861; BSetTtl 13044029; BSign tt; BSign tt]
    (fun b => zlist_eqb (cbor_encode (btx_ser (bb_body b) (bb_vkeys b) (bb_flag b))) (hx "84a4008182582038dc919ea976ac6e834bcbd46b27aecf5da496c311a085776873a4b9c01f733f000182a20058390054947bcf6b760319bcec250ec225fd1ce63baface47e34b44b73e4f9f6d2f2ef387333e15aea9333e9d908e57a2b513ec6d762884f70ae2a011b00000002523a2b11a200583900bddcc9c7adf960e380c91dd8ef6d42cb462c4ca6c01578e8a8b3ceeae87dd4bbe7c0e63bd1c7531a66b87ed4f19be0d79fb20945361e2400011a00989680021a0002a725031a00c7093da1008182582040d883805bb6dca9bdbba85afbc6556b34447c9ddec81f463924b4a2b711128e584087e8b8157a3e2e1421566042d2974a91d1cb5aa4864439e0665b20af2af8d917afdab774a5e28223984a02e5105adfae97d6c2e2369862b12795b4e6de26d409f5f6")) = true.
Proof. vm_compute. reflexivity. Qed.

(** test/test_cardano_transaction_api.cpp:124-163 *)
Example V_babbage_withdrawal : (match RewardsAddress_fromBech32 (str "stake1u89tu9rsff62zu7jatjdy8pdaav83udvyc7fk89zhwkhzncapqzhe") with
   | Ok r => babbage [BSetFee 193749; BAddInput (hx "e30365e4300db8e8f9834403e4adb1c3aa5943bc03d99ff53204d763a6800952") 6;
       BAddInput (hx "e30365e4300db8e8f9834403e4adb1c3aa5943bc03d99ff53204d763a6800952") 7; BAddOutput (base (str "addr1qxkfg5kgh43t29l5ev6hvqdnfx3d4lf09qn298ua66nvdaxgj0v7sm7gyn0l3huhuwn6ktgvrny9wyqx4px3l3ldu4uq7czuxe")) 1000000 true;
       BAddOutput (base (str "addr1q90npzsed8jgy868pxk7l6j9yt586rt7967vtpynuemtgaw2hc28qjn559ea96hy6gwzmm6c0rc6cf3unvw29wadw98slryedc")) 10843722 true; BAddWithdrawal r 10000000]
       (fun b => zlist_eqb (cbor_encode (btx_ser (bb_body b) (bb_vkeys b) (bb_flag b))) (hx "84a40082825820e30365e4300db8e8f9834403e4adb1c3aa5943bc03d99ff53204d763a680095206825820e30365e4300db8e8f9834403e4adb1c3aa5943bc03d99ff53204d763a680095207018282583901ac9452c8bd62b517f4cb357601b349a2dafd2f2826a29f9dd6a6c6f4c893d9e86fc824dff8df97e3a7ab2d0c1cc8571006a84d1fc7ede5781a000f4240825839015f308a1969e4821f4709adefea4522e87d0d7e2ebcc58493e676b475cabe14704a74a173d2eae4d21c2def5878f1ac263c9b1ca2bbad714f1a00a5764a021a0002f4d505a1581de1cabe14704a74a173d2eae4d21c2def5878f1ac263c9b1ca2bbad714f1a00989680a0f5f6"))
   | _ => false
   end) = true.
Proof. vm_compute. reflexivity. Qed.

(** test/test_cardano_shelley_transaction_api.cpp:57-72 *)
Definition v_utxo : list Z := hx "e30365e4300db8e8f9834403e4adb1c3aa5943bc03d99ff53204d763a6800952".
(** test/test_cardano_shelley_transaction_api.cpp:65 *)
Definition v_change : list Z := base (str "addr1q90npzsed8jgy868pxk7l6j9yt586rt7967vtpynuemtgaw2hc28qjn559ea96hy6gwzmm6c0rc6cf3unvw29wadw98slryedc").
(** test/test_cardano_shelley_transaction_api.cpp:69 *)
Definition v_to : list Z := base (str "addr1qxkfg5kgh43t29l5ev6hvqdnfx3d4lf09qn298ua66nvdaxgj0v7sm7gyn0l3huhuwn6ktgvrny9wyqx4px3l3ldu4uq7czuxe").
(** test/test_cardano_shelley_transaction_api.cpp:73 *)
Definition v_rewards : rewards_address := match RewardsAddress_fromBech32 (str "stake1u89tu9rsff62zu7jatjdy8pdaav83udvyc7fk89zhwkhzncapqzhe") with Ok a => a | _ => RewardsAddress_mk NID_mainnet [] end.
(** shelley/transaction.cpp:216-230: two placeholders *)
Definition v_dummies : list (list Z * list Z) := [(repeat 0 32, repeat 0 64); (repeat 1 32, repeat 0 64)].

(** test/test_cardano_shelley_transaction_api.cpp:74-92 *)
Example V_shelley_simple : babbage [BAddInput v_utxo 0; BAddOutput v_change 9969478417 false; BAddOutput v_to 10000000 false; BSetFee 173861; BSetTtl 13044029; BSign tt; BSign tt]
    (fun b => zlist_eqb (bb_get_id blake2b_256 b) (hx "6d190456920e396c39583f1f668b53e551b19adc251144be9c810ca6368a59fb") && (length (bb_vkeys b) =? 1)%nat) = true.
Proof. vm_compute. reflexivity. Qed.

(** test/test_cardano_shelley_transaction_api.cpp:94-116 *)
Example V_shelley_withdrawal : shelley [SetTtl 13044029; AddInput {| u_id := v_utxo; u_index := 5; u_value := 165898624 |}; AddInput {| u_id := v_utxo; u_index := 4; u_value := 33586460 |};
    AddOutput v_to 100000000; SetChange v_change; AddWithdrawal v_rewards 10000000; Balance v_dummies false]
    (fun b => same (serialize (tx_ser (b_tx b))) (hx "83a50082825820e30365e4300db8e8f9834403e4adb1c3aa5943bc03d99ff53204d763a680095204825820e30365e4300db8e8f9834403e4adb1c3aa5943bc03d99ff53204d763a680095205018282583901ac9452c8bd62b517f4cb357601b349a2dafd2f2826a29f9dd6a6c6f4c893d9e86fc824dff8df97e3a7ab2d0c1cc8571006a84d1fc7ede5781a05f5e100825839015f308a1969e4821f4709adefea4522e87d0d7e2ebcc58493e676b475cabe14704a74a173d2eae4d21c2def5878f1ac263c9b1ca2bbad714f1a0683ed67021a0002aeb5031a00c7093d05a1581de1cabe14704a74a173d2eae4d21c2def5878f1ac263c9b1ca2bbad714f1a00989680a0f6")) = true.
Proof. vm_compute. reflexivity. Qed.

(** test/test_cardano_shelley_transaction_api.cpp:118-145 *)
Example V_shelley_balancing : shelley [SetTtl 13044029; AddInput {| u_id := v_utxo; u_index := 5; u_value := 165898624 |}; AddInput {| u_id := v_utxo; u_index := 4; u_value := 33586460 |};
    AddWithdrawal v_rewards 10000000; AddOutput v_to 100000000; SetChange v_change; Balance v_dummies false]
    (fun b1 => shelley [SetTtl 13044029; AddInput {| u_id := v_utxo; u_index := 5; u_value := 165898624 |}; AddInput {| u_id := v_utxo; u_index := 4; u_value := 33586460 |};
      AddWithdrawal v_rewards 10000000; AddOutput v_to 100000000; AddOutput v_change (165898624 + 33586460 + 10000000 - 100000000 - 175797); SetFee 175797]
      (fun b2 => match serialize (tx_ser (b_tx b1)), serialize (tx_ser (b_tx b2)) with Ok x, Ok y => zlist_eqb x y | _, _ => false end)) = true.
Proof. vm_compute. reflexivity. Qed.

(** test/test_cardano_shelley_transaction_api.cpp:147-181 *)
Example V_shelley_reread : shelley [SetTtl 13044029; AddInput {| u_id := v_utxo; u_index := 5; u_value := 165898624 |}; AddInput {| u_id := v_utxo; u_index := 4; u_value := 33586460 |};
    AddWithdrawal v_rewards 10000000; AddPoolRetire (pool_id blake2b_224 (hx "d75a980182b10ab7d54bfed3c964073a0ee172f3daa62325af021a68f707511a")) 459;
    AddOutput v_to 100000000; SetChange v_change; Balance v_dummies false; Sign tt]
    (fun b1 => match serialize (tx_ser (b_tx b1)) with
               | Ok s => match builder_fromCBOR s with
                         | Ok b2 => same (serialize (tx_ser (b_tx b2))) s &&
                             (match get_id blake2b_256 b1, get_id blake2b_256 b2 with Ok i, Ok j => zlist_eqb i j && (length i =? 32)%nat | _, _ => false end)
                         | _ => false end
               | _ => false end) = true.
Proof. vm_compute. reflexivity. Qed.
