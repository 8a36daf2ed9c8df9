(** Model of the genesis parameters' JSON (/repo/src/{byron,shelley,alonzo,conway}/genesis.cpp).  Written by tools/gen_genesis.py from the C++.
    nlohmann::json is modelled as a tree (Spec_Genesis.v); objects and std::map / std::unordered_map are association lists (their order is not observable).
    at(): throws when the value is not an object or the key is missing.  get_to for numbers converts with static_cast whatever the kind of number
    (out-of-range floating point is undefined); bool converts to the narrower integer types only. *)
From Coq Require Import String SpecFloat.
From Verif Require Import Base Spec_Genesis.
Local Open Scope list_scope.

(** byron/genesis.cpp:36-172 and the like, inside nlohmann::json: static_cast from double to an integer type: truncation towards zero; undefined (None) outside the target's range [lo, hi) *)
Definition trunc (f : F) (lo hi : Z) : option Z :=
  match f with
  | S754_zero _ => Some 0
  | S754_finite s m e =>
      let a := if e <? 0 then Z.pos m / 2 ^ (- e) else Z.pos m * 2 ^ e in
      let z := if s then - a else a in
      if (lo <=? z) && (z <? hi) then Some z else None
  | _ => None
  end.

(** byron/genesis.cpp:38 and the like: [j.at(k)] *)
Definition at_ (j : json) (k : string) : outcome json :=
  match j with JObj l => match lookup l (key k) with Some v => Ok v | None => Throw end | _ => Throw end.
(** byron/genesis.cpp:38 and the like: get_to a std::string *)
Definition get_str (j : json) : outcome (list Z) := match j with JStr s => Ok s | _ => Throw end.
(** shelley/genesis.cpp:73-89 and the like: a floating point number read as an integer *)
Definition from_float (f : F) (lo hi : Z) : outcome Z := match trunc f lo hi with Some z => Ok z | None => UB end.
(** shelley/genesis.cpp:74-86 and the like: get_to a uint64_t *)
Definition get_u64 (j : json) : outcome Z :=
  match j with JUint n => Ok n | JInt z => Ok (z mod 2 ^ 64) | JFloat f => from_float f 0 (2 ^ 64) | _ => Throw end.
(** byron/genesis.cpp:82, 104-107 and the like: get_to a narrower unsigned type *)
Definition get_uw (w : Z) (j : json) : outcome Z :=
  match j with
  | JUint n => Ok (n mod 2 ^ w) | JInt z => Ok (z mod 2 ^ w) | JFloat f => from_float f 0 (2 ^ w)
  | JBool b => Ok (Z.b2z b) | _ => Throw
  end.
(** byron/genesis.cpp:104-107 and the like *)
Definition get_u32 := get_uw 32.
(** byron/genesis.cpp:82 *)
Definition get_u16 := get_uw 16.
(** alonzo/genesis.cpp:34-35: two's complement *)
Definition to_i64 (z : Z) : Z := (z + 2 ^ 63) mod 2 ^ 64 - 2 ^ 63.
(** alonzo/genesis.cpp:34-35, 69: get_to an int64_t *)
Definition get_i64 (j : json) : outcome Z :=
  match j with JUint n => Ok (to_i64 n) | JInt z => Ok z | JFloat f => from_float f (- 2 ^ 63) (2 ^ 63) | _ => Throw end.
(** shelley/genesis.cpp:87-89, 125, conway/genesis.cpp:40-74: get_to a double *)
Definition get_dbl (j : json) : outcome F :=
  match j with JFloat f => Ok f | JUint n => Ok (of_int n) | JInt z => Ok (of_int z) | _ => Throw end.
(** byron/genesis.cpp:163-171, shelley/genesis.cpp:127, alonzo/genesis.cpp:69, conway/genesis.cpp:117: get_to a map from strings *)
Definition get_map {A} (get : json -> outcome A) (j : json) : outcome (list (list Z * A)) :=
  match j with JObj l => mapM (fun e => let* v := get (snd e) in Ok (fst e, v)) l | _ => Throw end.
(** conway/genesis.cpp:151: std::array: the elements 0..250 with at(); further elements are ignored *)
Definition get_arr251 (j : json) : outcome (list Z) :=
  match j with
  | JArr l => if (length l <? 251)%nat then Throw else mapM get_i64 (firstn 251 l)
  | _ => Throw
  end.
(** byron/genesis.cpp:148-158 and the like: a map from strings as JSON *)
Definition put_map {A} (put : A -> json) (m : list (list Z * A)) : json := JObj (map (fun e => (fst e, put (snd e))) m).
(** conway/genesis.cpp:133: a std::array as JSON *)
Definition put_arr (l : list Z) : json := JArr (map JInt l).

(** to_json of byron::SoftforkRule, src/byron/genesis.cpp:27-34 *)
Definition by_sr_to (p : by_sr) : json :=
  JObj [(key "initThd", JStr (by_sr_init_thd p));
        (key "minThd", JStr (by_sr_min_thd p));
        (key "thdDecrement", JStr (by_sr_thd_decrement p))].
(** from_json of byron::SoftforkRule, src/byron/genesis.cpp:36-41 *)
Definition by_sr_from (j : json) : outcome by_sr :=
  let* v := at_ j "initThd" in let* x_init_thd := get_str v in
  let* v := at_ j "minThd" in let* x_min_thd := get_str v in
  let* v := at_ j "thdDecrement" in let* x_thd_decrement := get_str v in
  Ok {| by_sr_init_thd := x_init_thd; by_sr_min_thd := x_min_thd; by_sr_thd_decrement := x_thd_decrement |}.

(** to_json of byron::TxFeePolicy, src/byron/genesis.cpp:43-46 *)
Definition by_fp_to (p : by_fp) : json :=
  JObj [(key "multiplier", JStr (by_fp_multiplier p));
        (key "summand", JStr (by_fp_summand p))].
(** from_json of byron::TxFeePolicy, src/byron/genesis.cpp:48-52 *)
Definition by_fp_from (j : json) : outcome by_fp :=
  let* v := at_ j "multiplier" in let* x_multiplier := get_str v in
  let* v := at_ j "summand" in let* x_summand := get_str v in
  Ok {| by_fp_multiplier := x_multiplier; by_fp_summand := x_summand |}.

(** to_json of byron::BlockVersionData, src/byron/genesis.cpp:54-72 *)
Definition by_bv_to (p : by_bv) : json :=
  JObj [(key "heavyDelThd", JStr (by_bv_heavy_del_thd p));
        (key "maxBlockSize", JStr (by_bv_max_block_size p));
        (key "maxHeaderSize", JStr (by_bv_max_header_size p));
        (key "maxProposalSize", JStr (by_bv_max_proposal_size p));
        (key "maxTxSize", JStr (by_bv_max_tx_size p));
        (key "mpcThd", JStr (by_bv_mpc_thd p));
        (key "scriptVersion", JUint (by_bv_script_version p));
        (key "slotDuration", JStr (by_bv_slot_duration p));
        (key "softforkRule", by_sr_to (by_bv_softfork_rule p));
        (key "txFeePolicy", by_fp_to (by_bv_tx_fee_policy p));
        (key "unlockStakeEpoch", JStr (by_bv_unlock_stake_epoch p));
        (key "updateImplicit", JStr (by_bv_update_implicit p));
        (key "updateProposalThd", JStr (by_bv_update_proposal_thd p));
        (key "updateVoteThd", JStr (by_bv_update_vote_thd p))].
(** from_json of byron::BlockVersionData, src/byron/genesis.cpp:74-90 *)
Definition by_bv_from (j : json) : outcome by_bv :=
  let* v := at_ j "heavyDelThd" in let* x_heavy_del_thd := get_str v in
  let* v := at_ j "maxBlockSize" in let* x_max_block_size := get_str v in
  let* v := at_ j "maxHeaderSize" in let* x_max_header_size := get_str v in
  let* v := at_ j "maxProposalSize" in let* x_max_proposal_size := get_str v in
  let* v := at_ j "maxTxSize" in let* x_max_tx_size := get_str v in
  let* v := at_ j "mpcThd" in let* x_mpc_thd := get_str v in
  let* v := at_ j "scriptVersion" in let* x_script_version := get_u16 v in
  let* v := at_ j "slotDuration" in let* x_slot_duration := get_str v in
  let* v := at_ j "softforkRule" in let* x_softfork_rule := by_sr_from v in
  let* v := at_ j "txFeePolicy" in let* x_tx_fee_policy := by_fp_from v in
  let* v := at_ j "unlockStakeEpoch" in let* x_unlock_stake_epoch := get_str v in
  let* v := at_ j "updateImplicit" in let* x_update_implicit := get_str v in
  let* v := at_ j "updateProposalThd" in let* x_update_proposal_thd := get_str v in
  let* v := at_ j "updateVoteThd" in let* x_update_vote_thd := get_str v in
  Ok {| by_bv_heavy_del_thd := x_heavy_del_thd; by_bv_max_block_size := x_max_block_size; by_bv_max_header_size := x_max_header_size; by_bv_max_proposal_size := x_max_proposal_size; by_bv_max_tx_size := x_max_tx_size; by_bv_mpc_thd := x_mpc_thd; by_bv_script_version := x_script_version; by_bv_slot_duration := x_slot_duration; by_bv_softfork_rule := x_softfork_rule; by_bv_tx_fee_policy := x_tx_fee_policy; by_bv_unlock_stake_epoch := x_unlock_stake_epoch; by_bv_update_implicit := x_update_implicit; by_bv_update_proposal_thd := x_update_proposal_thd; by_bv_update_vote_thd := x_update_vote_thd |}.

(** to_json of byron::ProtocolConsts, src/byron/genesis.cpp:92-100 *)
Definition by_pc_to (p : by_pc) : json :=
  JObj [(key "k", JUint (by_pc_k p));
        (key "protocolMagic", JUint (by_pc_protocol_magic p));
        (key "vssMaxTTL", JUint (by_pc_vss_max_ttl p));
        (key "vssMinTTL", JUint (by_pc_vss_min_ttl p))].
(** from_json of byron::ProtocolConsts, src/byron/genesis.cpp:102-108 *)
Definition by_pc_from (j : json) : outcome by_pc :=
  let* v := at_ j "k" in let* x_k := get_u32 v in
  let* v := at_ j "protocolMagic" in let* x_protocol_magic := get_u32 v in
  let* v := at_ j "vssMaxTTL" in let* x_vss_max_ttl := get_u32 v in
  let* v := at_ j "vssMinTTL" in let* x_vss_min_ttl := get_u32 v in
  Ok {| by_pc_k := x_k; by_pc_protocol_magic := x_protocol_magic; by_pc_vss_max_ttl := x_vss_max_ttl; by_pc_vss_min_ttl := x_vss_min_ttl |}.

(** to_json of byron::DelegationData, src/byron/genesis.cpp:110-118 *)
Definition by_dd_to (p : by_dd) : json :=
  JObj [(key "cert", JStr (by_dd_cert p));
        (key "delegatePk", JStr (by_dd_delegate_pk p));
        (key "issuerPk", JStr (by_dd_issuer_pk p));
        (key "omega", JUint (by_dd_omega p))].
(** from_json of byron::DelegationData, src/byron/genesis.cpp:120-126 *)
Definition by_dd_from (j : json) : outcome by_dd :=
  let* v := at_ j "cert" in let* x_cert := get_str v in
  let* v := at_ j "delegatePk" in let* x_delegate_pk := get_str v in
  let* v := at_ j "issuerPk" in let* x_issuer_pk := get_str v in
  let* v := at_ j "omega" in let* x_omega := get_u64 v in
  Ok {| by_dd_cert := x_cert; by_dd_delegate_pk := x_delegate_pk; by_dd_issuer_pk := x_issuer_pk; by_dd_omega := x_omega |}.

(** to_json of byron::VssCert, src/byron/genesis.cpp:128-136 *)
Definition by_vc_to (p : by_vc) : json :=
  JObj [(key "expiryEpoch", JUint (by_vc_expiry_epoch p));
        (key "signature", JStr (by_vc_signature p));
        (key "signingKey", JStr (by_vc_signing_key p));
        (key "vssKey", JStr (by_vc_vss_key p))].
(** from_json of byron::VssCert, src/byron/genesis.cpp:138-144 *)
Definition by_vc_from (j : json) : outcome by_vc :=
  let* v := at_ j "expiryEpoch" in let* x_expiry_epoch := get_u32 v in
  let* v := at_ j "signature" in let* x_signature := get_str v in
  let* v := at_ j "signingKey" in let* x_signing_key := get_str v in
  let* v := at_ j "vssKey" in let* x_vss_key := get_str v in
  Ok {| by_vc_expiry_epoch := x_expiry_epoch; by_vc_signature := x_signature; by_vc_signing_key := x_signing_key; by_vc_vss_key := x_vss_key |}.

(** to_json of byron::GenesisParameters, src/byron/genesis.cpp:146-159 *)
Definition by_gp_to (p : by_gp) : json :=
  JObj [(key "avvmDistr", put_map JStr (by_gp_avvm_distr p));
        (key "blockVersionData", by_bv_to (by_gp_block_version_data p));
        (key "ftsSeed", JStr (by_gp_fts_seed p));
        (key "protocolConsts", by_pc_to (by_gp_protocol_consts p));
        (key "startTime", JUint (by_gp_start_time p));
        (key "bootStakeholders", put_map JUint (by_gp_boot_stakeholders p));
        (key "heavyDelegation", put_map by_dd_to (by_gp_heavy_delegation p));
        (key "nonAvvmBalances", put_map JUint (by_gp_non_avvm_balances p));
        (key "vssCerts", put_map by_vc_to (by_gp_vss_certs p))].
(** from_json of byron::GenesisParameters, src/byron/genesis.cpp:161-172 *)
Definition by_gp_from (j : json) : outcome by_gp :=
  let* v := at_ j "avvmDistr" in let* x_avvm_distr := (get_map get_str) v in
  let* v := at_ j "blockVersionData" in let* x_block_version_data := by_bv_from v in
  let* v := at_ j "ftsSeed" in let* x_fts_seed := get_str v in
  let* v := at_ j "protocolConsts" in let* x_protocol_consts := by_pc_from v in
  let* v := at_ j "startTime" in let* x_start_time := get_u64 v in
  let* v := at_ j "bootStakeholders" in let* x_boot_stakeholders := (get_map get_u32) v in
  let* v := at_ j "heavyDelegation" in let* x_heavy_delegation := (get_map by_dd_from) v in
  let* v := at_ j "nonAvvmBalances" in let* x_non_avvm_balances := (get_map get_u64) v in
  let* v := at_ j "vssCerts" in let* x_vss_certs := (get_map by_vc_from) v in
  Ok {| by_gp_avvm_distr := x_avvm_distr; by_gp_block_version_data := x_block_version_data; by_gp_fts_seed := x_fts_seed; by_gp_protocol_consts := x_protocol_consts; by_gp_start_time := x_start_time; by_gp_boot_stakeholders := x_boot_stakeholders; by_gp_heavy_delegation := x_heavy_delegation; by_gp_non_avvm_balances := x_non_avvm_balances; by_gp_vss_certs := x_vss_certs |}.

(** to_json of shelley::GenesisProtocolVersion, src/shelley/genesis.cpp:27-30 *)
Definition sh_pv_to (p : sh_pv) : json :=
  JObj [(key "major", JUint (sh_pv_major p));
        (key "minor", JUint (sh_pv_minor p))].
(** from_json of shelley::GenesisProtocolVersion, src/shelley/genesis.cpp:32-36 *)
Definition sh_pv_from (j : json) : outcome sh_pv :=
  let* v := at_ j "major" in let* x_major := get_u32 v in
  let* v := at_ j "minor" in let* x_minor := get_u32 v in
  Ok {| sh_pv_major := x_major; sh_pv_minor := x_minor |}.

(** to_json of shelley::ExtraEntropy, src/shelley/genesis.cpp:38-41 *)
Definition sh_ee_to (p : sh_ee) : json :=
  JObj [(key "tag", JStr (sh_ee_tag p))].
(** from_json of shelley::ExtraEntropy, src/shelley/genesis.cpp:43-46 *)
Definition sh_ee_from (j : json) : outcome sh_ee :=
  let* v := at_ j "tag" in let* x_tag := get_str v in
  Ok {| sh_ee_tag := x_tag |}.

(** to_json of shelley::ProtocolParameters, src/shelley/genesis.cpp:48-69 *)
Definition sh_pp_to (p : sh_pp) : json :=
  JObj [(key "protocolVersion", sh_pv_to (sh_pp_protocol_version p));
        (key "decentralisationParam", JUint (sh_pp_decentralisation_param p));
        (key "eMax", JUint (sh_pp_e_max p));
        (key "extraEntropy", sh_ee_to (sh_pp_extra_entropy p));
        (key "maxTxSize", JUint (sh_pp_max_tx_size p));
        (key "maxBlockBodySize", JUint (sh_pp_max_block_body_size p));
        (key "maxBlockHeaderSize", JUint (sh_pp_max_block_header_size p));
        (key "minFeeA", JUint (sh_pp_min_fee_a p));
        (key "minFeeB", JUint (sh_pp_min_fee_b p));
        (key "minUTxOValue", JUint (sh_pp_min_utxo_value p));
        (key "poolDeposit", JUint (sh_pp_pool_deposit p));
        (key "minPoolCost", JUint (sh_pp_min_pool_cost p));
        (key "keyDeposit", JUint (sh_pp_key_deposit p));
        (key "nOpt", JUint (sh_pp_n_opt p));
        (key "rho", JFloat (sh_pp_rho p));
        (key "tau", JFloat (sh_pp_tau p));
        (key "a0", JFloat (sh_pp_a0 p))].
(** from_json of shelley::ProtocolParameters, src/shelley/genesis.cpp:71-90 *)
Definition sh_pp_from (j : json) : outcome sh_pp :=
  let* v := at_ j "protocolVersion" in let* x_protocol_version := sh_pv_from v in
  let* v := at_ j "decentralisationParam" in let* x_decentralisation_param := get_u64 v in
  let* v := at_ j "eMax" in let* x_e_max := get_u64 v in
  let* v := at_ j "extraEntropy" in let* x_extra_entropy := sh_ee_from v in
  let* v := at_ j "maxTxSize" in let* x_max_tx_size := get_u64 v in
  let* v := at_ j "maxBlockBodySize" in let* x_max_block_body_size := get_u64 v in
  let* v := at_ j "maxBlockHeaderSize" in let* x_max_block_header_size := get_u64 v in
  let* v := at_ j "minFeeA" in let* x_min_fee_a := get_u64 v in
  let* v := at_ j "minFeeB" in let* x_min_fee_b := get_u64 v in
  let* v := at_ j "minUTxOValue" in let* x_min_utxo_value := get_u64 v in
  let* v := at_ j "poolDeposit" in let* x_pool_deposit := get_u64 v in
  let* v := at_ j "minPoolCost" in let* x_min_pool_cost := get_u64 v in
  let* v := at_ j "keyDeposit" in let* x_key_deposit := get_u64 v in
  let* v := at_ j "nOpt" in let* x_n_opt := get_u64 v in
  let* v := at_ j "rho" in let* x_rho := get_dbl v in
  let* v := at_ j "tau" in let* x_tau := get_dbl v in
  let* v := at_ j "a0" in let* x_a0 := get_dbl v in
  Ok {| sh_pp_protocol_version := x_protocol_version; sh_pp_decentralisation_param := x_decentralisation_param; sh_pp_e_max := x_e_max; sh_pp_extra_entropy := x_extra_entropy; sh_pp_max_tx_size := x_max_tx_size; sh_pp_max_block_body_size := x_max_block_body_size; sh_pp_max_block_header_size := x_max_block_header_size; sh_pp_min_fee_a := x_min_fee_a; sh_pp_min_fee_b := x_min_fee_b; sh_pp_min_utxo_value := x_min_utxo_value; sh_pp_pool_deposit := x_pool_deposit; sh_pp_min_pool_cost := x_min_pool_cost; sh_pp_key_deposit := x_key_deposit; sh_pp_n_opt := x_n_opt; sh_pp_rho := x_rho; sh_pp_tau := x_tau; sh_pp_a0 := x_a0 |}.

(** to_json of shelley::GenDeleg, src/shelley/genesis.cpp:92-95 *)
Definition sh_gd_to (p : sh_gd) : json :=
  JObj [(key "delegate", JStr (sh_gd_delegate p));
        (key "vrf", JStr (sh_gd_vrf p))].
(** from_json of shelley::GenDeleg, src/shelley/genesis.cpp:97-101 *)
Definition sh_gd_from (j : json) : outcome sh_gd :=
  let* v := at_ j "delegate" in let* x_delegate := get_str v in
  let* v := at_ j "vrf" in let* x_vrf := get_str v in
  Ok {| sh_gd_delegate := x_delegate; sh_gd_vrf := x_vrf |}.

(** to_json of shelley::GenesisParameters, src/shelley/genesis.cpp:103-121 *)
Definition sh_gp_to (p : sh_gp) : json :=
  JObj [(key "activeSlotsCoeff", JFloat (sh_gp_active_slots_coeff p));
        (key "protocolParams", sh_pp_to (sh_gp_protocol_parameters p));
        (key "genDelegs", put_map sh_gd_to (sh_gp_gen_delegs p));
        (key "updateQuorum", JUint (sh_gp_update_quorum p));
        (key "networkId", JStr (sh_gp_network_id p));
        (key "initialFunds", JNull);
        (key "maxLovelaceSupply", JUint (sh_gp_max_lovelace_supply p));
        (key "networkMagic", JUint (sh_gp_network_magic p));
        (key "epochLength", JUint (sh_gp_epoch_length p));
        (key "systemStart", JStr (sh_gp_system_start p));
        (key "slotsPerKESPeriod", JUint (sh_gp_slots_per_kes_period p));
        (key "slotLength", JUint (sh_gp_slot_length p));
        (key "maxKESEvolutions", JUint (sh_gp_max_kes_evolutions p));
        (key "securityParam", JUint (sh_gp_security_param p))].
(** from_json of shelley::GenesisParameters, src/shelley/genesis.cpp:123-138 *)
Definition sh_gp_from (j : json) : outcome sh_gp :=
  let* v := at_ j "activeSlotsCoeff" in let* x_active_slots_coeff := get_dbl v in
  let* v := at_ j "protocolParams" in let* x_protocol_parameters := sh_pp_from v in
  let* v := at_ j "genDelegs" in let* x_gen_delegs := (get_map sh_gd_from) v in
  let* v := at_ j "updateQuorum" in let* x_update_quorum := get_u64 v in
  let* v := at_ j "networkId" in let* x_network_id := get_str v in
  let* v := at_ j "maxLovelaceSupply" in let* x_max_lovelace_supply := get_u64 v in
  let* v := at_ j "networkMagic" in let* x_network_magic := get_u64 v in
  let* v := at_ j "epochLength" in let* x_epoch_length := get_u64 v in
  let* v := at_ j "systemStart" in let* x_system_start := get_str v in
  let* v := at_ j "slotsPerKESPeriod" in let* x_slots_per_kes_period := get_u64 v in
  let* v := at_ j "securityParam" in let* x_slot_length := get_u64 v in
  let* v := at_ j "maxKESEvolutions" in let* x_max_kes_evolutions := get_u64 v in
  let* v := at_ j "securityParam" in let* x_security_param := get_u64 v in
  Ok {| sh_gp_active_slots_coeff := x_active_slots_coeff; sh_gp_protocol_parameters := x_protocol_parameters; sh_gp_gen_delegs := x_gen_delegs; sh_gp_update_quorum := x_update_quorum; sh_gp_network_id := x_network_id; sh_gp_max_lovelace_supply := x_max_lovelace_supply; sh_gp_network_magic := x_network_magic; sh_gp_epoch_length := x_epoch_length; sh_gp_system_start := x_system_start; sh_gp_slots_per_kes_period := x_slots_per_kes_period; sh_gp_slot_length := x_slot_length; sh_gp_max_kes_evolutions := x_max_kes_evolutions; sh_gp_security_param := x_security_param |}.

(** to_json of alonzo::PriceFraction, src/alonzo/genesis.cpp:27-30 *)
Definition al_pf_to (p : al_pf) : json :=
  JObj [(key "numerator", JInt (al_pf_numerator p));
        (key "denominator", JInt (al_pf_denominator p))].
(** from_json of alonzo::PriceFraction, src/alonzo/genesis.cpp:32-36 *)
Definition al_pf_from (j : json) : outcome al_pf :=
  let* v := at_ j "numerator" in let* x_numerator := get_i64 v in
  let* v := at_ j "denominator" in let* x_denominator := get_i64 v in
  Ok {| al_pf_numerator := x_numerator; al_pf_denominator := x_denominator |}.

(** to_json of alonzo::ExecutionPrices, src/alonzo/genesis.cpp:38-41 *)
Definition al_ep_to (p : al_ep) : json :=
  JObj [(key "prSteps", al_pf_to (al_ep_pr_steps p));
        (key "prMem", al_pf_to (al_ep_pr_mem p))].
(** from_json of alonzo::ExecutionPrices, src/alonzo/genesis.cpp:43-47 *)
Definition al_ep_from (j : json) : outcome al_ep :=
  let* v := at_ j "prSteps" in let* x_pr_steps := al_pf_from v in
  let* v := at_ j "prMem" in let* x_pr_mem := al_pf_from v in
  Ok {| al_ep_pr_steps := x_pr_steps; al_ep_pr_mem := x_pr_mem |}.

(** to_json of alonzo::ExecutionUnits, src/alonzo/genesis.cpp:49-54 *)
Definition al_eu_to (p : al_eu) : json :=
  JObj [(key "exUnitsMem", JUint (al_eu_ex_units_mem p));
        (key "exUnitsSteps", JUint (al_eu_ex_units_steps p))].
(** from_json of alonzo::ExecutionUnits, src/alonzo/genesis.cpp:56-60 *)
Definition al_eu_from (j : json) : outcome al_eu :=
  let* v := at_ j "exUnitsMem" in let* x_ex_units_mem := get_u64 v in
  let* v := at_ j "exUnitsSteps" in let* x_ex_units_steps := get_u64 v in
  Ok {| al_eu_ex_units_mem := x_ex_units_mem; al_eu_ex_units_steps := x_ex_units_steps |}.

(** to_json of alonzo::CostModels, src/alonzo/genesis.cpp:62-65 *)
Definition al_cm_to (p : al_cm) : json :=
  JObj [(key "PlutusV1", put_map JInt (al_cm_plutus_v1 p))].
(** from_json of alonzo::CostModels, src/alonzo/genesis.cpp:67-70 *)
Definition al_cm_from (j : json) : outcome al_cm :=
  let* v := at_ j "PlutusV1" in let* x_plutus_v1 := (get_map get_i64) v in
  Ok {| al_cm_plutus_v1 := x_plutus_v1 |}.

(** to_json of alonzo::GenesisParameters, src/alonzo/genesis.cpp:72-84 *)
Definition al_gp_to (p : al_gp) : json :=
  JObj [(key "lovelacePerUTxOWord", JUint (al_gp_lovelace_per_utxo_word p));
        (key "executionPrices", al_ep_to (al_gp_execution_prices p));
        (key "maxTxExUnits", al_eu_to (al_gp_max_tx_ex_units p));
        (key "maxBlockExUnits", al_eu_to (al_gp_max_block_ex_units p));
        (key "maxValueSize", JUint (al_gp_max_value_size p));
        (key "collateralPercentage", JUint (al_gp_collateral_percentage p));
        (key "maxCollateralInputs", JUint (al_gp_max_collateral_inputs p));
        (key "costModels", al_cm_to (al_gp_cost_models p))].
(** from_json of alonzo::GenesisParameters, src/alonzo/genesis.cpp:86-96 *)
Definition al_gp_from (j : json) : outcome al_gp :=
  let* v := at_ j "lovelacePerUTxOWord" in let* x_lovelace_per_utxo_word := get_u64 v in
  let* v := at_ j "executionPrices" in let* x_execution_prices := al_ep_from v in
  let* v := at_ j "maxTxExUnits" in let* x_max_tx_ex_units := al_eu_from v in
  let* v := at_ j "maxBlockExUnits" in let* x_max_block_ex_units := al_eu_from v in
  let* v := at_ j "maxValueSize" in let* x_max_value_size := get_u32 v in
  let* v := at_ j "collateralPercentage" in let* x_collateral_percentage := get_u32 v in
  let* v := at_ j "maxCollateralInputs" in let* x_max_collateral_inputs := get_u32 v in
  let* v := at_ j "costModels" in let* x_cost_models := al_cm_from v in
  Ok {| al_gp_lovelace_per_utxo_word := x_lovelace_per_utxo_word; al_gp_execution_prices := x_execution_prices; al_gp_max_tx_ex_units := x_max_tx_ex_units; al_gp_max_block_ex_units := x_max_block_ex_units; al_gp_max_value_size := x_max_value_size; al_gp_collateral_percentage := x_collateral_percentage; al_gp_max_collateral_inputs := x_max_collateral_inputs; al_gp_cost_models := x_cost_models |}.

(** to_json of conway::PoolVotingThresholds, src/conway/genesis.cpp:27-36 *)
Definition co_pt_to (p : co_pt) : json :=
  JObj [(key "committeeNormal", JFloat (co_pt_committee_normal p));
        (key "committeeNoConfidence", JFloat (co_pt_committee_no_confidence p));
        (key "hardForkInitiation", JFloat (co_pt_hard_fork_initiation p));
        (key "motionNoConfidence", JFloat (co_pt_motion_no_confidence p));
        (key "ppSecurityGroup", JFloat (co_pt_pp_security_group p))].
(** from_json of conway::PoolVotingThresholds, src/conway/genesis.cpp:38-45 *)
Definition co_pt_from (j : json) : outcome co_pt :=
  let* v := at_ j "committeeNormal" in let* x_committee_normal := get_dbl v in
  let* v := at_ j "committeeNoConfidence" in let* x_committee_no_confidence := get_dbl v in
  let* v := at_ j "hardForkInitiation" in let* x_hard_fork_initiation := get_dbl v in
  let* v := at_ j "motionNoConfidence" in let* x_motion_no_confidence := get_dbl v in
  let* v := at_ j "ppSecurityGroup" in let* x_pp_security_group := get_dbl v in
  Ok {| co_pt_committee_normal := x_committee_normal; co_pt_committee_no_confidence := x_committee_no_confidence; co_pt_hard_fork_initiation := x_hard_fork_initiation; co_pt_motion_no_confidence := x_motion_no_confidence; co_pt_pp_security_group := x_pp_security_group |}.

(** to_json of conway::DRepVotingThresholds, src/conway/genesis.cpp:47-61 *)
Definition co_dt_to (p : co_dt) : json :=
  JObj [(key "motionNoConfidence", JFloat (co_dt_motion_no_confidence p));
        (key "committeeNormal", JFloat (co_dt_committee_normal p));
        (key "committeeNoConfidence", JFloat (co_dt_committee_no_confidence p));
        (key "updateToConstitution", JFloat (co_dt_update_to_constitution p));
        (key "hardForkInitiation", JFloat (co_dt_hard_fork_initiation p));
        (key "ppNetworkGroup", JFloat (co_dt_pp_network_group p));
        (key "ppEconomicGroup", JFloat (co_dt_pp_economic_group p));
        (key "ppTechnicalGroup", JFloat (co_dt_pp_technical_group p));
        (key "ppGovGroup", JFloat (co_dt_pp_gov_group p));
        (key "treasuryWithdrawal", JFloat (co_dt_treasury_withdrawal p))].
(** from_json of conway::DRepVotingThresholds, src/conway/genesis.cpp:63-75 *)
Definition co_dt_from (j : json) : outcome co_dt :=
  let* v := at_ j "motionNoConfidence" in let* x_motion_no_confidence := get_dbl v in
  let* v := at_ j "committeeNormal" in let* x_committee_normal := get_dbl v in
  let* v := at_ j "committeeNoConfidence" in let* x_committee_no_confidence := get_dbl v in
  let* v := at_ j "updateToConstitution" in let* x_update_to_constitution := get_dbl v in
  let* v := at_ j "hardForkInitiation" in let* x_hard_fork_initiation := get_dbl v in
  let* v := at_ j "ppNetworkGroup" in let* x_pp_network_group := get_dbl v in
  let* v := at_ j "ppEconomicGroup" in let* x_pp_economic_group := get_dbl v in
  let* v := at_ j "ppTechnicalGroup" in let* x_pp_technical_group := get_dbl v in
  let* v := at_ j "ppGovGroup" in let* x_pp_gov_group := get_dbl v in
  let* v := at_ j "treasuryWithdrawal" in let* x_treasury_withdrawal := get_dbl v in
  Ok {| co_dt_motion_no_confidence := x_motion_no_confidence; co_dt_committee_normal := x_committee_normal; co_dt_committee_no_confidence := x_committee_no_confidence; co_dt_update_to_constitution := x_update_to_constitution; co_dt_hard_fork_initiation := x_hard_fork_initiation; co_dt_pp_network_group := x_pp_network_group; co_dt_pp_economic_group := x_pp_economic_group; co_dt_pp_technical_group := x_pp_technical_group; co_dt_pp_gov_group := x_pp_gov_group; co_dt_treasury_withdrawal := x_treasury_withdrawal |}.

(** to_json of conway::ConstitutionAnchor, src/conway/genesis.cpp:77-80 *)
Definition co_ca_to (p : co_ca) : json :=
  JObj [(key "dataHash", JStr (co_ca_data_hash p));
        (key "url", JStr (co_ca_url p))].
(** from_json of conway::ConstitutionAnchor, src/conway/genesis.cpp:82-86 *)
Definition co_ca_from (j : json) : outcome co_ca :=
  let* v := at_ j "dataHash" in let* x_data_hash := get_str v in
  let* v := at_ j "url" in let* x_url := get_str v in
  Ok {| co_ca_data_hash := x_data_hash; co_ca_url := x_url |}.

(** to_json of conway::Constitution, src/conway/genesis.cpp:88-91 *)
Definition co_cn_to (p : co_cn) : json :=
  JObj [(key "anchor", co_ca_to (co_cn_anchor p));
        (key "script", JStr (co_cn_script p))].
(** from_json of conway::Constitution, src/conway/genesis.cpp:93-97 *)
Definition co_cn_from (j : json) : outcome co_cn :=
  let* v := at_ j "anchor" in let* x_anchor := co_ca_from v in
  let* v := at_ j "script" in let* x_script := get_str v in
  Ok {| co_cn_anchor := x_anchor; co_cn_script := x_script |}.

(** to_json of conway::CommitteeThreshold, src/conway/genesis.cpp:99-102 *)
Definition co_ct_to (p : co_ct) : json :=
  JObj [(key "numerator", JUint (co_ct_numerator p));
        (key "denominator", JUint (co_ct_denominator p))].
(** from_json of conway::CommitteeThreshold, src/conway/genesis.cpp:104-108 *)
Definition co_ct_from (j : json) : outcome co_ct :=
  let* v := at_ j "numerator" in let* x_numerator := get_u64 v in
  let* v := at_ j "denominator" in let* x_denominator := get_u64 v in
  Ok {| co_ct_numerator := x_numerator; co_ct_denominator := x_denominator |}.

(** to_json of conway::Committee, src/conway/genesis.cpp:110-113 *)
Definition co_cm_to (p : co_cm) : json :=
  JObj [(key "members", put_map JUint (co_cm_members p));
        (key "threshold", co_ct_to (co_cm_threshold p))].
(** from_json of conway::Committee, src/conway/genesis.cpp:115-119 *)
Definition co_cm_from (j : json) : outcome co_cm :=
  let* v := at_ j "members" in let* x_members := (get_map get_u64) v in
  let* v := at_ j "threshold" in let* x_threshold := co_ct_from v in
  Ok {| co_cm_members := x_members; co_cm_threshold := x_threshold |}.

(** to_json of conway::GenesisParameters, src/conway/genesis.cpp:121-137 *)
Definition co_gp_to (p : co_gp) : json :=
  JObj [(key "poolVotingThresholds", co_pt_to (co_gp_pool_voting_thresholds p));
        (key "dRepVotingThresholds", co_dt_to (co_gp_drep_voting_thresholds p));
        (key "committeeMinSize", JUint (co_gp_committee_min_size p));
        (key "committeeMaxTermLength", JUint (co_gp_committee_max_term_length p));
        (key "govActionLifetime", JUint (co_gp_gov_action_lifetime p));
        (key "govActionDeposit", JUint (co_gp_gov_action_deposit p));
        (key "dRepDeposit", JUint (co_gp_drep_deposit p));
        (key "dRepActivity", JUint (co_gp_drep_activity p));
        (key "minFeeRefScriptCostPerByte", JUint (co_gp_min_fee_ref_script_cost_per_byte p));
        (key "plutusV3CostModel", put_arr (co_gp_plutus_v3_cost_model p));
        (key "constitution", co_cn_to (co_gp_constitution p));
        (key "committee", co_cm_to (co_gp_committee p))].
(** from_json of conway::GenesisParameters, src/conway/genesis.cpp:139-154 *)
Definition co_gp_from (j : json) : outcome co_gp :=
  let* v := at_ j "poolVotingThresholds" in let* x_pool_voting_thresholds := co_pt_from v in
  let* v := at_ j "dRepVotingThresholds" in let* x_drep_voting_thresholds := co_dt_from v in
  let* v := at_ j "committeeMinSize" in let* x_committee_min_size := get_u64 v in
  let* v := at_ j "committeeMaxTermLength" in let* x_committee_max_term_length := get_u64 v in
  let* v := at_ j "govActionLifetime" in let* x_gov_action_lifetime := get_u64 v in
  let* v := at_ j "govActionDeposit" in let* x_gov_action_deposit := get_u64 v in
  let* v := at_ j "dRepDeposit" in let* x_drep_deposit := get_u64 v in
  let* v := at_ j "dRepActivity" in let* x_drep_activity := get_u64 v in
  let* v := at_ j "minFeeRefScriptCostPerByte" in let* x_min_fee_ref_script_cost_per_byte := get_u64 v in
  let* v := at_ j "plutusV3CostModel" in let* x_plutus_v3_cost_model := get_arr251 v in
  let* v := at_ j "constitution" in let* x_constitution := co_cn_from v in
  let* v := at_ j "committee" in let* x_committee := co_cm_from v in
  Ok {| co_gp_pool_voting_thresholds := x_pool_voting_thresholds; co_gp_drep_voting_thresholds := x_drep_voting_thresholds; co_gp_committee_min_size := x_committee_min_size; co_gp_committee_max_term_length := x_committee_max_term_length; co_gp_gov_action_lifetime := x_gov_action_lifetime; co_gp_gov_action_deposit := x_gov_action_deposit; co_gp_drep_deposit := x_drep_deposit; co_gp_drep_activity := x_drep_activity; co_gp_min_fee_ref_script_cost_per_byte := x_min_fee_ref_script_cost_per_byte; co_gp_plutus_v3_cost_model := x_plutus_v3_cost_model; co_gp_constitution := x_constitution; co_gp_committee := x_committee |}.

