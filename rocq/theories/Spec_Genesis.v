(** Genesis files: JSON values, the parameters of each era, and which JSON value is a file holding which parameters.
    Written by tools/gen_genesis.py; the keys are those of the main network's genesis files. *)
From Coq Require Import String SpecFloat.
From Verif Require Import Base.
Local Open Scope list_scope.

(** IEEE binary64, and the number nearest to an integer (ties to even); Coq's own specification of floating point *)
Definition F : Type := spec_float.
Definition of_int (z : Z) : F := binary_normalize 53 1024 z 0 false.
Definition finite (f : F) : bool := match f with S754_zero _ | S754_finite _ _ _ => true | _ => false end.

(** A JSON value as the JSON library holds it: unsigned, signed and floating-point numbers are told apart. *)
Inductive json := JNull | JBool (b : bool) | JUint (n : Z) | JInt (z : Z) | JFloat (f : F) | JStr (s : list Z) | JArr (l : list json) | JObj (l : list (list Z * json)).
Definition key (s : string) : list Z := str s.
Fixpoint lookup {A} (l : list (list Z * A)) (k : list Z) : option A :=
  match l with [] => None | (k', v) :: l => if zlist_eqb k' k then Some v else lookup l k end.
(** The object [j] has [v] under the name [k]. *)
Definition field (j : json) (k : string) (v : json) : Prop := exists l, j = JObj l /\ lookup l (key k) = Some v.

Definition is_str (s : list Z) (v : json) : Prop := v = JStr s.
(** a number with an integer value, whichever way it is held *)
Definition is_int (z : Z) (v : json) : Prop := v = JInt z \/ (0 <= z /\ v = JUint z).
Definition is_dbl (f : F) (v : json) : Prop := v = JFloat f \/ exists z, f = of_int z /\ (v = JInt z \/ v = JUint z).
Definition is_ints (l : list Z) (v : json) : Prop := exists vs, v = JArr vs /\ Forall2 is_int l vs.
Definition is_map {A} (is : A -> json -> Prop) (m : list (list Z * A)) (v : json) : Prop :=
  exists l, v = JObj l /\ Forall2 (fun a b => fst a = fst b /\ is (snd a) (snd b)) m l.

(** byron::SoftforkRule, include/cardano/genesis.hpp:43 *)
Record by_sr := { by_sr_init_thd : list Z; by_sr_min_thd : list Z; by_sr_thd_decrement : list Z }.
Definition by_sr_file (p : by_sr) (j : json) : Prop :=
  (exists v, field j "initThd" v /\ is_str (by_sr_init_thd p) v) /\
  (exists v, field j "minThd" v /\ is_str (by_sr_min_thd p) v) /\
  (exists v, field j "thdDecrement" v /\ is_str (by_sr_thd_decrement p) v).
Definition by_sr_ok (p : by_sr) : Prop := True.
Definition by_sr_doubles (p : by_sr) : list F := [].

(** byron::TxFeePolicy, include/cardano/genesis.hpp:54 *)
Record by_fp := { by_fp_multiplier : list Z; by_fp_summand : list Z }.
Definition by_fp_file (p : by_fp) (j : json) : Prop :=
  (exists v, field j "multiplier" v /\ is_str (by_fp_multiplier p) v) /\
  (exists v, field j "summand" v /\ is_str (by_fp_summand p) v).
Definition by_fp_ok (p : by_fp) : Prop := True.
Definition by_fp_doubles (p : by_fp) : list F := [].

(** byron::BlockVersionData, include/cardano/genesis.hpp:64 *)
Record by_bv := { by_bv_heavy_del_thd : list Z; by_bv_max_block_size : list Z; by_bv_max_header_size : list Z; by_bv_max_proposal_size : list Z; by_bv_max_tx_size : list Z; by_bv_mpc_thd : list Z; by_bv_script_version : Z; by_bv_slot_duration : list Z; by_bv_softfork_rule : by_sr; by_bv_tx_fee_policy : by_fp; by_bv_unlock_stake_epoch : list Z; by_bv_update_implicit : list Z; by_bv_update_proposal_thd : list Z; by_bv_update_vote_thd : list Z }.
Definition by_bv_file (p : by_bv) (j : json) : Prop :=
  (exists v, field j "heavyDelThd" v /\ is_str (by_bv_heavy_del_thd p) v) /\
  (exists v, field j "maxBlockSize" v /\ is_str (by_bv_max_block_size p) v) /\
  (exists v, field j "maxHeaderSize" v /\ is_str (by_bv_max_header_size p) v) /\
  (exists v, field j "maxProposalSize" v /\ is_str (by_bv_max_proposal_size p) v) /\
  (exists v, field j "maxTxSize" v /\ is_str (by_bv_max_tx_size p) v) /\
  (exists v, field j "mpcThd" v /\ is_str (by_bv_mpc_thd p) v) /\
  (exists v, field j "scriptVersion" v /\ is_int (by_bv_script_version p) v) /\
  (exists v, field j "slotDuration" v /\ is_str (by_bv_slot_duration p) v) /\
  (exists v, field j "softforkRule" v /\ by_sr_file (by_bv_softfork_rule p) v) /\
  (exists v, field j "txFeePolicy" v /\ by_fp_file (by_bv_tx_fee_policy p) v) /\
  (exists v, field j "unlockStakeEpoch" v /\ is_str (by_bv_unlock_stake_epoch p) v) /\
  (exists v, field j "updateImplicit" v /\ is_str (by_bv_update_implicit p) v) /\
  (exists v, field j "updateProposalThd" v /\ is_str (by_bv_update_proposal_thd p) v) /\
  (exists v, field j "updateVoteThd" v /\ is_str (by_bv_update_vote_thd p) v).
Definition by_bv_ok (p : by_bv) : Prop := 0 <= by_bv_script_version p < 2 ^ 16 /\ by_sr_ok (by_bv_softfork_rule p) /\ by_fp_ok (by_bv_tx_fee_policy p).
Definition by_bv_doubles (p : by_bv) : list F := by_sr_doubles (by_bv_softfork_rule p) ++ by_fp_doubles (by_bv_tx_fee_policy p).

(** byron::ProtocolConsts, include/cardano/genesis.hpp:86 *)
Record by_pc := { by_pc_k : Z; by_pc_protocol_magic : Z; by_pc_vss_max_ttl : Z; by_pc_vss_min_ttl : Z }.
Definition by_pc_file (p : by_pc) (j : json) : Prop :=
  (exists v, field j "k" v /\ is_int (by_pc_k p) v) /\
  (exists v, field j "protocolMagic" v /\ is_int (by_pc_protocol_magic p) v) /\
  (exists v, field j "vssMaxTTL" v /\ is_int (by_pc_vss_max_ttl p) v) /\
  (exists v, field j "vssMinTTL" v /\ is_int (by_pc_vss_min_ttl p) v).
Definition by_pc_ok (p : by_pc) : Prop := 0 <= by_pc_k p < 2 ^ 32 /\ 0 <= by_pc_protocol_magic p < 2 ^ 32 /\ 0 <= by_pc_vss_max_ttl p < 2 ^ 32 /\ 0 <= by_pc_vss_min_ttl p < 2 ^ 32.
Definition by_pc_doubles (p : by_pc) : list F := [].

(** byron::DelegationData, include/cardano/genesis.hpp:98 *)
Record by_dd := { by_dd_cert : list Z; by_dd_delegate_pk : list Z; by_dd_issuer_pk : list Z; by_dd_omega : Z }.
Definition by_dd_file (p : by_dd) (j : json) : Prop :=
  (exists v, field j "cert" v /\ is_str (by_dd_cert p) v) /\
  (exists v, field j "delegatePk" v /\ is_str (by_dd_delegate_pk p) v) /\
  (exists v, field j "issuerPk" v /\ is_str (by_dd_issuer_pk p) v) /\
  (exists v, field j "omega" v /\ is_int (by_dd_omega p) v).
Definition by_dd_ok (p : by_dd) : Prop := 0 <= by_dd_omega p < 2 ^ 64.
Definition by_dd_doubles (p : by_dd) : list F := [].

(** byron::VssCert, include/cardano/genesis.hpp:110 *)
Record by_vc := { by_vc_expiry_epoch : Z; by_vc_signature : list Z; by_vc_signing_key : list Z; by_vc_vss_key : list Z }.
Definition by_vc_file (p : by_vc) (j : json) : Prop :=
  (exists v, field j "expiryEpoch" v /\ is_int (by_vc_expiry_epoch p) v) /\
  (exists v, field j "signature" v /\ is_str (by_vc_signature p) v) /\
  (exists v, field j "signingKey" v /\ is_str (by_vc_signing_key p) v) /\
  (exists v, field j "vssKey" v /\ is_str (by_vc_vss_key p) v).
Definition by_vc_ok (p : by_vc) : Prop := 0 <= by_vc_expiry_epoch p < 2 ^ 32.
Definition by_vc_doubles (p : by_vc) : list F := [].

(** byron::GenesisParameters, include/cardano/genesis.hpp:122 *)
Record by_gp := { by_gp_avvm_distr : list (list Z * (list Z)); by_gp_block_version_data : by_bv; by_gp_fts_seed : list Z; by_gp_protocol_consts : by_pc; by_gp_start_time : Z; by_gp_boot_stakeholders : list (list Z * Z); by_gp_heavy_delegation : list (list Z * by_dd); by_gp_non_avvm_balances : list (list Z * Z); by_gp_vss_certs : list (list Z * by_vc) }.
Definition by_gp_file (p : by_gp) (j : json) : Prop :=
  (exists v, field j "avvmDistr" v /\ (is_map is_str) (by_gp_avvm_distr p) v) /\
  (exists v, field j "blockVersionData" v /\ by_bv_file (by_gp_block_version_data p) v) /\
  (exists v, field j "ftsSeed" v /\ is_str (by_gp_fts_seed p) v) /\
  (exists v, field j "protocolConsts" v /\ by_pc_file (by_gp_protocol_consts p) v) /\
  (exists v, field j "startTime" v /\ is_int (by_gp_start_time p) v) /\
  (exists v, field j "bootStakeholders" v /\ (is_map is_int) (by_gp_boot_stakeholders p) v) /\
  (exists v, field j "heavyDelegation" v /\ (is_map by_dd_file) (by_gp_heavy_delegation p) v) /\
  (exists v, field j "nonAvvmBalances" v /\ (is_map is_int) (by_gp_non_avvm_balances p) v) /\
  (exists v, field j "vssCerts" v /\ (is_map by_vc_file) (by_gp_vss_certs p) v).
Definition by_gp_ok (p : by_gp) : Prop := by_bv_ok (by_gp_block_version_data p) /\ by_pc_ok (by_gp_protocol_consts p) /\ 0 <= by_gp_start_time p < 2 ^ 64 /\ Forall (fun e => 0 <= (snd e) < 2 ^ 32) (by_gp_boot_stakeholders p) /\ Forall (fun e => by_dd_ok ((snd e))) (by_gp_heavy_delegation p) /\ Forall (fun e => 0 <= (snd e) < 2 ^ 64) (by_gp_non_avvm_balances p) /\ Forall (fun e => by_vc_ok ((snd e))) (by_gp_vss_certs p).
Definition by_gp_doubles (p : by_gp) : list F := by_bv_doubles (by_gp_block_version_data p) ++ by_pc_doubles (by_gp_protocol_consts p).
Definition by_gp_keys : list string := ["avvmDistr"%string; "blockVersionData"%string; "ftsSeed"%string; "protocolConsts"%string; "startTime"%string; "bootStakeholders"%string; "heavyDelegation"%string; "nonAvvmBalances"%string; "vssCerts"%string].

(** shelley::GenesisProtocolVersion, include/cardano/genesis.hpp:152 *)
Record sh_pv := { sh_pv_major : Z; sh_pv_minor : Z }.
Definition sh_pv_file (p : sh_pv) (j : json) : Prop :=
  (exists v, field j "major" v /\ is_int (sh_pv_major p) v) /\
  (exists v, field j "minor" v /\ is_int (sh_pv_minor p) v).
Definition sh_pv_ok (p : sh_pv) : Prop := 0 <= sh_pv_major p < 2 ^ 32 /\ 0 <= sh_pv_minor p < 2 ^ 32.
Definition sh_pv_doubles (p : sh_pv) : list F := [].

(** shelley::ExtraEntropy, include/cardano/genesis.hpp:163 *)
Record sh_ee := { sh_ee_tag : list Z }.
Definition sh_ee_file (p : sh_ee) (j : json) : Prop :=
  (exists v, field j "tag" v /\ is_str (sh_ee_tag p) v).
Definition sh_ee_ok (p : sh_ee) : Prop := True.
Definition sh_ee_doubles (p : sh_ee) : list F := [].

(** shelley::ProtocolParameters, include/cardano/genesis.hpp:173 *)
Record sh_pp := { sh_pp_protocol_version : sh_pv; sh_pp_decentralisation_param : Z; sh_pp_e_max : Z; sh_pp_extra_entropy : sh_ee; sh_pp_max_tx_size : Z; sh_pp_max_block_body_size : Z; sh_pp_max_block_header_size : Z; sh_pp_min_fee_a : Z; sh_pp_min_fee_b : Z; sh_pp_min_utxo_value : Z; sh_pp_pool_deposit : Z; sh_pp_min_pool_cost : Z; sh_pp_key_deposit : Z; sh_pp_n_opt : Z; sh_pp_rho : F; sh_pp_tau : F; sh_pp_a0 : F }.
Definition sh_pp_file (p : sh_pp) (j : json) : Prop :=
  (exists v, field j "protocolVersion" v /\ sh_pv_file (sh_pp_protocol_version p) v) /\
  (exists v, field j "decentralisationParam" v /\ is_int (sh_pp_decentralisation_param p) v) /\
  (exists v, field j "eMax" v /\ is_int (sh_pp_e_max p) v) /\
  (exists v, field j "extraEntropy" v /\ sh_ee_file (sh_pp_extra_entropy p) v) /\
  (exists v, field j "maxTxSize" v /\ is_int (sh_pp_max_tx_size p) v) /\
  (exists v, field j "maxBlockBodySize" v /\ is_int (sh_pp_max_block_body_size p) v) /\
  (exists v, field j "maxBlockHeaderSize" v /\ is_int (sh_pp_max_block_header_size p) v) /\
  (exists v, field j "minFeeA" v /\ is_int (sh_pp_min_fee_a p) v) /\
  (exists v, field j "minFeeB" v /\ is_int (sh_pp_min_fee_b p) v) /\
  (exists v, field j "minUTxOValue" v /\ is_int (sh_pp_min_utxo_value p) v) /\
  (exists v, field j "poolDeposit" v /\ is_int (sh_pp_pool_deposit p) v) /\
  (exists v, field j "minPoolCost" v /\ is_int (sh_pp_min_pool_cost p) v) /\
  (exists v, field j "keyDeposit" v /\ is_int (sh_pp_key_deposit p) v) /\
  (exists v, field j "nOpt" v /\ is_int (sh_pp_n_opt p) v) /\
  (exists v, field j "rho" v /\ is_dbl (sh_pp_rho p) v) /\
  (exists v, field j "tau" v /\ is_dbl (sh_pp_tau p) v) /\
  (exists v, field j "a0" v /\ is_dbl (sh_pp_a0 p) v).
Definition sh_pp_ok (p : sh_pp) : Prop := sh_pv_ok (sh_pp_protocol_version p) /\ 0 <= sh_pp_decentralisation_param p < 2 ^ 64 /\ 0 <= sh_pp_e_max p < 2 ^ 64 /\ sh_ee_ok (sh_pp_extra_entropy p) /\ 0 <= sh_pp_max_tx_size p < 2 ^ 64 /\ 0 <= sh_pp_max_block_body_size p < 2 ^ 64 /\ 0 <= sh_pp_max_block_header_size p < 2 ^ 64 /\ 0 <= sh_pp_min_fee_a p < 2 ^ 64 /\ 0 <= sh_pp_min_fee_b p < 2 ^ 64 /\ 0 <= sh_pp_min_utxo_value p < 2 ^ 64 /\ 0 <= sh_pp_pool_deposit p < 2 ^ 64 /\ 0 <= sh_pp_min_pool_cost p < 2 ^ 64 /\ 0 <= sh_pp_key_deposit p < 2 ^ 64 /\ 0 <= sh_pp_n_opt p < 2 ^ 64.
Definition sh_pp_doubles (p : sh_pp) : list F := sh_pv_doubles (sh_pp_protocol_version p) ++ sh_ee_doubles (sh_pp_extra_entropy p) ++ [sh_pp_rho p] ++ [sh_pp_tau p] ++ [sh_pp_a0 p].

(** shelley::GenDeleg, include/cardano/genesis.hpp:198 *)
Record sh_gd := { sh_gd_delegate : list Z; sh_gd_vrf : list Z }.
Definition sh_gd_file (p : sh_gd) (j : json) : Prop :=
  (exists v, field j "delegate" v /\ is_str (sh_gd_delegate p) v) /\
  (exists v, field j "vrf" v /\ is_str (sh_gd_vrf p) v).
Definition sh_gd_ok (p : sh_gd) : Prop := True.
Definition sh_gd_doubles (p : sh_gd) : list F := [].

(** shelley::GenesisParameters, include/cardano/genesis.hpp:208 *)
Record sh_gp := { sh_gp_active_slots_coeff : F; sh_gp_protocol_parameters : sh_pp; sh_gp_gen_delegs : list (list Z * sh_gd); sh_gp_update_quorum : Z; sh_gp_network_id : list Z; sh_gp_max_lovelace_supply : Z; sh_gp_network_magic : Z; sh_gp_epoch_length : Z; sh_gp_system_start : list Z; sh_gp_slots_per_kes_period : Z; sh_gp_slot_length : Z; sh_gp_max_kes_evolutions : Z; sh_gp_security_param : Z }.
Definition sh_gp_file (p : sh_gp) (j : json) : Prop :=
  (exists v, field j "activeSlotsCoeff" v /\ is_dbl (sh_gp_active_slots_coeff p) v) /\
  (exists v, field j "protocolParams" v /\ sh_pp_file (sh_gp_protocol_parameters p) v) /\
  (exists v, field j "genDelegs" v /\ (is_map sh_gd_file) (sh_gp_gen_delegs p) v) /\
  (exists v, field j "updateQuorum" v /\ is_int (sh_gp_update_quorum p) v) /\
  (exists v, field j "networkId" v /\ is_str (sh_gp_network_id p) v) /\
  (exists v, field j "maxLovelaceSupply" v /\ is_int (sh_gp_max_lovelace_supply p) v) /\
  (exists v, field j "networkMagic" v /\ is_int (sh_gp_network_magic p) v) /\
  (exists v, field j "epochLength" v /\ is_int (sh_gp_epoch_length p) v) /\
  (exists v, field j "systemStart" v /\ is_str (sh_gp_system_start p) v) /\
  (exists v, field j "slotsPerKESPeriod" v /\ is_int (sh_gp_slots_per_kes_period p) v) /\
  (exists v, field j "slotLength" v /\ is_int (sh_gp_slot_length p) v) /\
  (exists v, field j "maxKESEvolutions" v /\ is_int (sh_gp_max_kes_evolutions p) v) /\
  (exists v, field j "securityParam" v /\ is_int (sh_gp_security_param p) v).
Definition sh_gp_ok (p : sh_gp) : Prop := sh_pp_ok (sh_gp_protocol_parameters p) /\ Forall (fun e => sh_gd_ok ((snd e))) (sh_gp_gen_delegs p) /\ 0 <= sh_gp_update_quorum p < 2 ^ 64 /\ 0 <= sh_gp_max_lovelace_supply p < 2 ^ 64 /\ 0 <= sh_gp_network_magic p < 2 ^ 64 /\ 0 <= sh_gp_epoch_length p < 2 ^ 64 /\ 0 <= sh_gp_slots_per_kes_period p < 2 ^ 64 /\ 0 <= sh_gp_slot_length p < 2 ^ 64 /\ 0 <= sh_gp_max_kes_evolutions p < 2 ^ 64 /\ 0 <= sh_gp_security_param p < 2 ^ 64.
Definition sh_gp_doubles (p : sh_gp) : list F := [sh_gp_active_slots_coeff p] ++ sh_pp_doubles (sh_gp_protocol_parameters p).
Definition sh_gp_keys : list string := ["activeSlotsCoeff"%string; "protocolParams"%string; "genDelegs"%string; "updateQuorum"%string; "networkId"%string; "maxLovelaceSupply"%string; "networkMagic"%string; "epochLength"%string; "systemStart"%string; "slotsPerKESPeriod"%string; "slotLength"%string; "maxKESEvolutions"%string; "securityParam"%string].

(** alonzo::PriceFraction, include/cardano/genesis.hpp:241 *)
Record al_pf := { al_pf_numerator : Z; al_pf_denominator : Z }.
Definition al_pf_file (p : al_pf) (j : json) : Prop :=
  (exists v, field j "numerator" v /\ is_int (al_pf_numerator p) v) /\
  (exists v, field j "denominator" v /\ is_int (al_pf_denominator p) v).
Definition al_pf_ok (p : al_pf) : Prop := - 2 ^ 63 <= al_pf_numerator p < 2 ^ 63 /\ - 2 ^ 63 <= al_pf_denominator p < 2 ^ 63.
Definition al_pf_doubles (p : al_pf) : list F := [].

(** alonzo::ExecutionPrices, include/cardano/genesis.hpp:251 *)
Record al_ep := { al_ep_pr_steps : al_pf; al_ep_pr_mem : al_pf }.
Definition al_ep_file (p : al_ep) (j : json) : Prop :=
  (exists v, field j "prSteps" v /\ al_pf_file (al_ep_pr_steps p) v) /\
  (exists v, field j "prMem" v /\ al_pf_file (al_ep_pr_mem p) v).
Definition al_ep_ok (p : al_ep) : Prop := al_pf_ok (al_ep_pr_steps p) /\ al_pf_ok (al_ep_pr_mem p).
Definition al_ep_doubles (p : al_ep) : list F := al_pf_doubles (al_ep_pr_steps p) ++ al_pf_doubles (al_ep_pr_mem p).

(** alonzo::ExecutionUnits, include/cardano/genesis.hpp:261 *)
Record al_eu := { al_eu_ex_units_mem : Z; al_eu_ex_units_steps : Z }.
Definition al_eu_file (p : al_eu) (j : json) : Prop :=
  (exists v, field j "exUnitsMem" v /\ is_int (al_eu_ex_units_mem p) v) /\
  (exists v, field j "exUnitsSteps" v /\ is_int (al_eu_ex_units_steps p) v).
Definition al_eu_ok (p : al_eu) : Prop := 0 <= al_eu_ex_units_mem p < 2 ^ 64 /\ 0 <= al_eu_ex_units_steps p < 2 ^ 64.
Definition al_eu_doubles (p : al_eu) : list F := [].

(** alonzo::CostModels, include/cardano/genesis.hpp:271 *)
Record al_cm := { al_cm_plutus_v1 : list (list Z * Z) }.
Definition al_cm_file (p : al_cm) (j : json) : Prop :=
  (exists v, field j "PlutusV1" v /\ (is_map is_int) (al_cm_plutus_v1 p) v).
Definition al_cm_ok (p : al_cm) : Prop := Forall (fun e => - 2 ^ 63 <= (snd e) < 2 ^ 63) (al_cm_plutus_v1 p).
Definition al_cm_doubles (p : al_cm) : list F := [].

(** alonzo::GenesisParameters, include/cardano/genesis.hpp:280 *)
Record al_gp := { al_gp_lovelace_per_utxo_word : Z; al_gp_execution_prices : al_ep; al_gp_max_tx_ex_units : al_eu; al_gp_max_block_ex_units : al_eu; al_gp_max_value_size : Z; al_gp_collateral_percentage : Z; al_gp_max_collateral_inputs : Z; al_gp_cost_models : al_cm }.
Definition al_gp_file (p : al_gp) (j : json) : Prop :=
  (exists v, field j "lovelacePerUTxOWord" v /\ is_int (al_gp_lovelace_per_utxo_word p) v) /\
  (exists v, field j "executionPrices" v /\ al_ep_file (al_gp_execution_prices p) v) /\
  (exists v, field j "maxTxExUnits" v /\ al_eu_file (al_gp_max_tx_ex_units p) v) /\
  (exists v, field j "maxBlockExUnits" v /\ al_eu_file (al_gp_max_block_ex_units p) v) /\
  (exists v, field j "maxValueSize" v /\ is_int (al_gp_max_value_size p) v) /\
  (exists v, field j "collateralPercentage" v /\ is_int (al_gp_collateral_percentage p) v) /\
  (exists v, field j "maxCollateralInputs" v /\ is_int (al_gp_max_collateral_inputs p) v) /\
  (exists v, field j "costModels" v /\ al_cm_file (al_gp_cost_models p) v).
Definition al_gp_ok (p : al_gp) : Prop := 0 <= al_gp_lovelace_per_utxo_word p < 2 ^ 64 /\ al_ep_ok (al_gp_execution_prices p) /\ al_eu_ok (al_gp_max_tx_ex_units p) /\ al_eu_ok (al_gp_max_block_ex_units p) /\ 0 <= al_gp_max_value_size p < 2 ^ 32 /\ 0 <= al_gp_collateral_percentage p < 2 ^ 32 /\ 0 <= al_gp_max_collateral_inputs p < 2 ^ 32 /\ al_cm_ok (al_gp_cost_models p).
Definition al_gp_doubles (p : al_gp) : list F := al_ep_doubles (al_gp_execution_prices p) ++ al_eu_doubles (al_gp_max_tx_ex_units p) ++ al_eu_doubles (al_gp_max_block_ex_units p) ++ al_cm_doubles (al_gp_cost_models p).
Definition al_gp_keys : list string := ["lovelacePerUTxOWord"%string; "executionPrices"%string; "maxTxExUnits"%string; "maxBlockExUnits"%string; "maxValueSize"%string; "collateralPercentage"%string; "maxCollateralInputs"%string; "costModels"%string].

(** conway::PoolVotingThresholds, include/cardano/genesis.hpp:308 *)
Record co_pt := { co_pt_committee_normal : F; co_pt_committee_no_confidence : F; co_pt_hard_fork_initiation : F; co_pt_motion_no_confidence : F; co_pt_pp_security_group : F }.
Definition co_pt_file (p : co_pt) (j : json) : Prop :=
  (exists v, field j "committeeNormal" v /\ is_dbl (co_pt_committee_normal p) v) /\
  (exists v, field j "committeeNoConfidence" v /\ is_dbl (co_pt_committee_no_confidence p) v) /\
  (exists v, field j "hardForkInitiation" v /\ is_dbl (co_pt_hard_fork_initiation p) v) /\
  (exists v, field j "motionNoConfidence" v /\ is_dbl (co_pt_motion_no_confidence p) v) /\
  (exists v, field j "ppSecurityGroup" v /\ is_dbl (co_pt_pp_security_group p) v).
Definition co_pt_ok (p : co_pt) : Prop := True.
Definition co_pt_doubles (p : co_pt) : list F := [co_pt_committee_normal p] ++ [co_pt_committee_no_confidence p] ++ [co_pt_hard_fork_initiation p] ++ [co_pt_motion_no_confidence p] ++ [co_pt_pp_security_group p].

(** conway::DRepVotingThresholds, include/cardano/genesis.hpp:322 *)
Record co_dt := { co_dt_motion_no_confidence : F; co_dt_committee_normal : F; co_dt_committee_no_confidence : F; co_dt_update_to_constitution : F; co_dt_hard_fork_initiation : F; co_dt_pp_network_group : F; co_dt_pp_economic_group : F; co_dt_pp_technical_group : F; co_dt_pp_gov_group : F; co_dt_treasury_withdrawal : F }.
Definition co_dt_file (p : co_dt) (j : json) : Prop :=
  (exists v, field j "motionNoConfidence" v /\ is_dbl (co_dt_motion_no_confidence p) v) /\
  (exists v, field j "committeeNormal" v /\ is_dbl (co_dt_committee_normal p) v) /\
  (exists v, field j "committeeNoConfidence" v /\ is_dbl (co_dt_committee_no_confidence p) v) /\
  (exists v, field j "updateToConstitution" v /\ is_dbl (co_dt_update_to_constitution p) v) /\
  (exists v, field j "hardForkInitiation" v /\ is_dbl (co_dt_hard_fork_initiation p) v) /\
  (exists v, field j "ppNetworkGroup" v /\ is_dbl (co_dt_pp_network_group p) v) /\
  (exists v, field j "ppEconomicGroup" v /\ is_dbl (co_dt_pp_economic_group p) v) /\
  (exists v, field j "ppTechnicalGroup" v /\ is_dbl (co_dt_pp_technical_group p) v) /\
  (exists v, field j "ppGovGroup" v /\ is_dbl (co_dt_pp_gov_group p) v) /\
  (exists v, field j "treasuryWithdrawal" v /\ is_dbl (co_dt_treasury_withdrawal p) v).
Definition co_dt_ok (p : co_dt) : Prop := True.
Definition co_dt_doubles (p : co_dt) : list F := [co_dt_motion_no_confidence p] ++ [co_dt_committee_normal p] ++ [co_dt_committee_no_confidence p] ++ [co_dt_update_to_constitution p] ++ [co_dt_hard_fork_initiation p] ++ [co_dt_pp_network_group p] ++ [co_dt_pp_economic_group p] ++ [co_dt_pp_technical_group p] ++ [co_dt_pp_gov_group p] ++ [co_dt_treasury_withdrawal p].

(** conway::ConstitutionAnchor, include/cardano/genesis.hpp:341 *)
Record co_ca := { co_ca_data_hash : list Z; co_ca_url : list Z }.
Definition co_ca_file (p : co_ca) (j : json) : Prop :=
  (exists v, field j "dataHash" v /\ is_str (co_ca_data_hash p) v) /\
  (exists v, field j "url" v /\ is_str (co_ca_url p) v).
Definition co_ca_ok (p : co_ca) : Prop := True.
Definition co_ca_doubles (p : co_ca) : list F := [].

(** conway::Constitution, include/cardano/genesis.hpp:352 *)
Record co_cn := { co_cn_anchor : co_ca; co_cn_script : list Z }.
Definition co_cn_file (p : co_cn) (j : json) : Prop :=
  (exists v, field j "anchor" v /\ co_ca_file (co_cn_anchor p) v) /\
  (exists v, field j "script" v /\ is_str (co_cn_script p) v).
Definition co_cn_ok (p : co_cn) : Prop := co_ca_ok (co_cn_anchor p).
Definition co_cn_doubles (p : co_cn) : list F := co_ca_doubles (co_cn_anchor p).

(** conway::CommitteeThreshold, include/cardano/genesis.hpp:363 *)
Record co_ct := { co_ct_numerator : Z; co_ct_denominator : Z }.
Definition co_ct_file (p : co_ct) (j : json) : Prop :=
  (exists v, field j "numerator" v /\ is_int (co_ct_numerator p) v) /\
  (exists v, field j "denominator" v /\ is_int (co_ct_denominator p) v).
Definition co_ct_ok (p : co_ct) : Prop := 0 <= co_ct_numerator p < 2 ^ 64 /\ 0 <= co_ct_denominator p < 2 ^ 64.
Definition co_ct_doubles (p : co_ct) : list F := [].

(** conway::Committee, include/cardano/genesis.hpp:374 *)
Record co_cm := { co_cm_members : list (list Z * Z); co_cm_threshold : co_ct }.
Definition co_cm_file (p : co_cm) (j : json) : Prop :=
  (exists v, field j "members" v /\ (is_map is_int) (co_cm_members p) v) /\
  (exists v, field j "threshold" v /\ co_ct_file (co_cm_threshold p) v).
Definition co_cm_ok (p : co_cm) : Prop := Forall (fun e => 0 <= (snd e) < 2 ^ 64) (co_cm_members p) /\ co_ct_ok (co_cm_threshold p).
Definition co_cm_doubles (p : co_cm) : list F := co_ct_doubles (co_cm_threshold p).

(** conway::GenesisParameters, include/cardano/genesis.hpp:384 *)
Record co_gp := { co_gp_pool_voting_thresholds : co_pt; co_gp_drep_voting_thresholds : co_dt; co_gp_committee_min_size : Z; co_gp_committee_max_term_length : Z; co_gp_gov_action_lifetime : Z; co_gp_gov_action_deposit : Z; co_gp_drep_deposit : Z; co_gp_drep_activity : Z; co_gp_min_fee_ref_script_cost_per_byte : Z; co_gp_plutus_v3_cost_model : list Z; co_gp_constitution : co_cn; co_gp_committee : co_cm }.
Definition co_gp_file (p : co_gp) (j : json) : Prop :=
  (exists v, field j "poolVotingThresholds" v /\ co_pt_file (co_gp_pool_voting_thresholds p) v) /\
  (exists v, field j "dRepVotingThresholds" v /\ co_dt_file (co_gp_drep_voting_thresholds p) v) /\
  (exists v, field j "committeeMinSize" v /\ is_int (co_gp_committee_min_size p) v) /\
  (exists v, field j "committeeMaxTermLength" v /\ is_int (co_gp_committee_max_term_length p) v) /\
  (exists v, field j "govActionLifetime" v /\ is_int (co_gp_gov_action_lifetime p) v) /\
  (exists v, field j "govActionDeposit" v /\ is_int (co_gp_gov_action_deposit p) v) /\
  (exists v, field j "dRepDeposit" v /\ is_int (co_gp_drep_deposit p) v) /\
  (exists v, field j "dRepActivity" v /\ is_int (co_gp_drep_activity p) v) /\
  (exists v, field j "minFeeRefScriptCostPerByte" v /\ is_int (co_gp_min_fee_ref_script_cost_per_byte p) v) /\
  (exists v, field j "plutusV3CostModel" v /\ is_ints (co_gp_plutus_v3_cost_model p) v) /\
  (exists v, field j "constitution" v /\ co_cn_file (co_gp_constitution p) v) /\
  (exists v, field j "committee" v /\ co_cm_file (co_gp_committee p) v).
Definition co_gp_ok (p : co_gp) : Prop := co_pt_ok (co_gp_pool_voting_thresholds p) /\ co_dt_ok (co_gp_drep_voting_thresholds p) /\ 0 <= co_gp_committee_min_size p < 2 ^ 64 /\ 0 <= co_gp_committee_max_term_length p < 2 ^ 64 /\ 0 <= co_gp_gov_action_lifetime p < 2 ^ 64 /\ 0 <= co_gp_gov_action_deposit p < 2 ^ 64 /\ 0 <= co_gp_drep_deposit p < 2 ^ 64 /\ 0 <= co_gp_drep_activity p < 2 ^ 64 /\ 0 <= co_gp_min_fee_ref_script_cost_per_byte p < 2 ^ 64 /\ length (co_gp_plutus_v3_cost_model p) = 251%nat /\ Forall (fun v => - 2 ^ 63 <= v < 2 ^ 63) (co_gp_plutus_v3_cost_model p) /\ co_cn_ok (co_gp_constitution p) /\ co_cm_ok (co_gp_committee p).
Definition co_gp_doubles (p : co_gp) : list F := co_pt_doubles (co_gp_pool_voting_thresholds p) ++ co_dt_doubles (co_gp_drep_voting_thresholds p) ++ co_cn_doubles (co_gp_constitution p) ++ co_cm_doubles (co_gp_committee p).
Definition co_gp_keys : list string := ["poolVotingThresholds"%string; "dRepVotingThresholds"%string; "committeeMinSize"%string; "committeeMaxTermLength"%string; "govActionLifetime"%string; "govActionDeposit"%string; "dRepDeposit"%string; "dRepActivity"%string; "minFeeRefScriptCostPerByte"%string; "plutusV3CostModel"%string; "constitution"%string; "committee"%string].

