(** Model of the transaction builders: /repo/src/shelley/transaction.cpp, /repo/include/cardano/transaction.hpp:115-380,
    /repo/src/babbage/transaction.cpp.
    Loops run on fuel: [None] means not finished within the fuel (a C++ loop that goes on).
    UTxO::fromJSON is in Model_Utxo.  Not modelled: emptyWithParams (declared, never defined), copies and moves. *)
From Verif Require Import Base Model_Hex Spec_Cbor Model_Cbor Model_Address Model_Ledger.

(** ** Loops that may not finish *)
(** Result of code with unbounded loops (shelley/transaction.cpp:200-204, 433-437 and babbage/transaction.cpp:159-163): [None] while the loop has not ended *)
Definition run (A : Type) : Type := option (outcome A).
(** Sequencing of such code, as of the statements of shelley/transaction.cpp:190-207 *)
Definition rbind {A B} (c : run A) (f : A -> run B) : run B :=
  match c with None => None | Some (Ok x) => f x | Some Throw => Some Throw | Some UB => Some UB end.
Notation "'let!' x := c1 'in' c2" := (rbind c1 (fun x => c2)) (at level 200, x pattern, c1 at level 100, c2 at level 200, right associativity).
(** Code without such a loop, e.g. shelley/transaction.cpp:183-188 *)
Definition lift {A} (o : outcome A) : run A := Some o.

(** ** Machine integers *)
(** uint64_t arithmetic and conversion, as in shelley/transaction.cpp:432: modulo 2^64 *)
Definition to_u64 (z : Z) : Z := z mod 2 ^ 64.
(** Conversion of a 64-bit value to int64_t (C++20: two's complement), as in shelley/transaction.cpp:67, 103, 113, 219, 222 *)
Definition to_i64 (z : Z) : Z := let m := z mod 2 ^ 64 in if m <? 2 ^ 63 then m else m - 2 ^ 64.
(** Range of int64_t, the type of the totals of include/cardano/transaction.hpp:130-140 *)
Definition in_i64 (z : Z) : bool := (- 2 ^ 63 <=? z) && (z <? 2 ^ 63).
(** int64_t addition, as in shelley/transaction.cpp:218-223, 263: overflow is undefined *)
Definition sadd (x y : Z) : outcome Z := if in_i64 (x + y) then Ok (x + y) else UB.
(** int64_t subtraction, as in shelley/transaction.cpp:238: overflow is undefined *)
Definition ssub (x y : Z) : outcome Z := if in_i64 (x - y) then Ok (x - y) else UB.

(** ** State: transaction.hpp:115-145 *)
(** include/cardano/transaction.hpp:115-140.  Members era_, pool_deposit_ and key_deposit_ are left out: no function reads the latter two, getEra returns the first *)
Record builder := {
  b_tx : tx; b_change : list Z; b_fee_a : Z; b_fee_b : Z; b_min_utxo : Z; b_input_total : Z; b_deposit_total : Z }.
(** include/cardano/transaction.hpp:126-147: a new builder and its default members *)
Definition new_builder : builder :=
  {| b_tx := {| tx_body := empty_body; tx_wits := empty_wits; tx_meta := false |}; b_change := []; b_fee_a := 44; b_fee_b := 155381;
     b_min_utxo := 1000000; b_input_total := 0; b_deposit_total := 0 |}.
(** include/cardano/transaction.hpp:152: the explicit constructor from a transaction; the totals start at zero *)
Definition builder_of (t : tx) : builder :=
  {| b_tx := t; b_change := []; b_fee_a := 44; b_fee_b := 155381; b_min_utxo := 1000000; b_input_total := 0; b_deposit_total := 0 |}.
(** shelley/transaction.cpp:48-54 *)
Definition builder_fromCBOR (s : list Z) : outcome builder := let* t := deserialize_array tx_des s in Ok (builder_of t).

(** include/cardano/transaction.hpp:122: assignment to tx_, all other members kept *)
Definition set_tx (b : builder) (t : tx) : builder :=
  {| b_tx := t; b_change := b_change b; b_fee_a := b_fee_a b; b_fee_b := b_fee_b b; b_min_utxo := b_min_utxo b; b_input_total := b_input_total b; b_deposit_total := b_deposit_total b |}.
(** include/cardano/ledger.hpp:1048-1052: assignment to transaction_body, all other members kept *)
Definition set_body (b : builder) (x : txbody) : builder := set_tx b {| tx_body := x; tx_wits := tx_wits (b_tx b); tx_meta := tx_meta (b_tx b) |}.
(** include/cardano/ledger.hpp:1023-1027: assignment to vkeywitnesses, all other members kept *)
Definition set_vkeys (t : tx) (v : list (list Z * list Z)) : tx :=
  {| tx_body := tx_body t; tx_wits := {| ws_vkeys := v; ws_scripts := ws_scripts (tx_wits t); ws_bootstrap := ws_bootstrap (tx_wits t) |}; tx_meta := tx_meta t |}.
(** include/cardano/ledger.hpp:993-1002: assignment to transaction_inputs, all other members kept *)
Definition with_inputs (x : txbody) (i : list txin) : txbody :=
  {| tb_inputs := i; tb_outputs := tb_outputs x; tb_fee := tb_fee x; tb_ttl := tb_ttl x; tb_certs := tb_certs x; tb_withdrawals := tb_withdrawals x; tb_metadata_hash := tb_metadata_hash x |}.
(** include/cardano/ledger.hpp:993-1002: assignment to transaction_outputs, all other members kept *)
Definition with_outputs (x : txbody) (o : list txout) : txbody :=
  {| tb_inputs := tb_inputs x; tb_outputs := o; tb_fee := tb_fee x; tb_ttl := tb_ttl x; tb_certs := tb_certs x; tb_withdrawals := tb_withdrawals x; tb_metadata_hash := tb_metadata_hash x |}.
(** include/cardano/ledger.hpp:993-1002: assignment to fee, all other members kept *)
Definition with_fee (x : txbody) (f : Z) : txbody :=
  {| tb_inputs := tb_inputs x; tb_outputs := tb_outputs x; tb_fee := f; tb_ttl := tb_ttl x; tb_certs := tb_certs x; tb_withdrawals := tb_withdrawals x; tb_metadata_hash := tb_metadata_hash x |}.
(** include/cardano/ledger.hpp:993-1002: assignment to ttl, all other members kept *)
Definition with_ttl (x : txbody) (t : Z) : txbody :=
  {| tb_inputs := tb_inputs x; tb_outputs := tb_outputs x; tb_fee := tb_fee x; tb_ttl := t; tb_certs := tb_certs x; tb_withdrawals := tb_withdrawals x; tb_metadata_hash := tb_metadata_hash x |}.
(** include/cardano/ledger.hpp:993-1002: assignment to certificates, all other members kept *)
Definition with_certs (x : txbody) (c : list cert) : txbody :=
  {| tb_inputs := tb_inputs x; tb_outputs := tb_outputs x; tb_fee := tb_fee x; tb_ttl := tb_ttl x; tb_certs := c; tb_withdrawals := tb_withdrawals x; tb_metadata_hash := tb_metadata_hash x |}.
(** include/cardano/ledger.hpp:993-1002: assignment to withdrawals, all other members kept *)
Definition with_withdrawals (x : txbody) (w : list (list Z * Z)) : txbody :=
  {| tb_inputs := tb_inputs x; tb_outputs := tb_outputs x; tb_fee := tb_fee x; tb_ttl := tb_ttl x; tb_certs := tb_certs x; tb_withdrawals := w; tb_metadata_hash := tb_metadata_hash x |}.
(** include/cardano/transaction.hpp:137-140: assignment to input_total_ and deposit_total_ *)
Definition set_totals (b : builder) (i d : Z) : builder :=
  {| b_tx := b_tx b; b_change := b_change b; b_fee_a := b_fee_a b; b_fee_b := b_fee_b b; b_min_utxo := b_min_utxo b; b_input_total := i; b_deposit_total := d |}.

(** ** Builder calls.  clearWitnessSet: 373-379 *)
(** shelley/transaction.cpp:375-381, clearWitnessSet: only vkeywitnesses is emptied *)
Definition clear_witness_set (b : builder) : builder := set_tx b (set_vkeys (b_tx b) []).
(** include/cardano/ledger.hpp:1048-1052: the member transaction_body of tx_ *)
Definition body_of (b : builder) : txbody := tx_body (b_tx b).
(** include/cardano/transaction.hpp:68-112, class UTxO; the id is an array of 32 bytes, so the size test of addInput never fires *)
Record utxo := { u_id : list Z; u_index : Z; u_value : Z }.
(** shelley/transaction.cpp:56-70 *)
Definition add_input (b : builder) (u : utxo) : builder :=
  let b := clear_witness_set b in
  let b := set_body b (with_inputs (body_of b) (set_insert txin_lt {| ti_id := u_id u; ti_index := u_index u |} (tb_inputs (body_of b)))) in
  set_totals b (to_i64 (b_input_total b + u_value u)) (b_deposit_total b).
(** shelley/transaction.cpp:72-94: [addr] is addr.toBytes() of a base or enterprise address *)
Definition add_output (b : builder) (addr : list Z) (amount : Z) : builder :=
  let b := clear_witness_set b in
  set_body b (with_outputs (body_of b) (tb_outputs (body_of b) ++ [{| to_addr := addr; to_amount := amount |}])).
(** shelley/transaction.cpp:96-105 *)
Definition add_withdrawal (b : builder) (addr : rewards_address) (amount : Z) : builder :=
  let b := clear_witness_set b in
  let b := set_body b (with_withdrawals (body_of b) (map_assign (RewardsAddress_toBytes addr) amount (tb_withdrawals (body_of b)))) in
  set_totals b (to_i64 (b_input_total b + amount)) (b_deposit_total b).
(** shelley/transaction.cpp:112-113 and the same lines of each overload up to 181: certificates.emplace_back, deposit_total_ += deposit; the witness set is left alone *)
Definition add_cert (b : builder) (c : cert) (deposit : Z) : builder :=
  let b := set_body b (with_certs (body_of b) (tb_certs (body_of b) ++ [c])) in
  set_totals b (b_input_total b) (to_i64 (b_deposit_total b + deposit)).
(** shelley/transaction.cpp:129-133, 147-151, 165-169: the credential made of a reward address *)
Definition reward_cred (a : rewards_address) : stake_cred := {| sc_type := AddrKeyhash; sc_hash := RewardsAddress_toBytesRaw a |}.
(** shelley/transaction.cpp:107-115 *)
Definition add_pool_registration (b : builder) (p : pool_params) (deposit : Z) : builder := add_cert b (PoolReg p) deposit.
(** shelley/transaction.cpp:117-122 *)
Definition add_pool_retirement (b : builder) (pool : list Z) (epoch : Z) : builder := add_cert b (PoolRetire pool epoch) 0.
(** shelley/transaction.cpp:124-141 *)
Definition add_stake_registration (b : builder) (a : rewards_address) (deposit : Z) : builder := add_cert b (StakeReg (reward_cred a)) deposit.
(** shelley/transaction.cpp:143-158 *)
Definition add_stake_deregistration (b : builder) (a : rewards_address) : builder := add_cert b (StakeDereg (reward_cred a)) 0.
(** shelley/transaction.cpp:160-181 *)
Definition add_stake_delegation (b : builder) (a : rewards_address) (pool : list Z) : builder := add_cert b (StakeDeleg (reward_cred a) pool) 0.
(** shelley/transaction.cpp:183-188 *)
Definition set_fee (b : builder) (fee : Z) : builder := let b := clear_witness_set b in set_body b (with_fee (body_of b) fee).
(** shelley/transaction.cpp:209-214 *)
Definition set_ttl (b : builder) (ttl : Z) : builder := let b := clear_witness_set b in set_body b (with_ttl (body_of b) ttl).
(** include/cardano/transaction.hpp:271-285 *)
Definition set_change_address (b : builder) (addr : list Z) : builder :=
  {| b_tx := b_tx b; b_change := addr; b_fee_a := b_fee_a b; b_fee_b := b_fee_b b; b_min_utxo := b_min_utxo b; b_input_total := b_input_total b; b_deposit_total := b_deposit_total b |}.
(** include/cardano/transaction.hpp:355-365.  Simplification: setMinFeeA and setMinFeeB in one call; one of them alone is a call that repeats the present value of the other *)
Definition set_min_fee (b : builder) (a c : Z) : builder :=
  {| b_tx := b_tx b; b_change := b_change b; b_fee_a := a; b_fee_b := c; b_min_utxo := b_min_utxo b; b_input_total := b_input_total b; b_deposit_total := b_deposit_total b |}.

(** ** Fees *)
(** include/cardano/ledger.hpp:997: the member fee of the body of a transaction *)
Definition tx_fee (t : tx) : Z := tb_fee (tx_body t).
(** shelley/transaction.cpp:435: temp_tx.transaction_body.fee = calculated_fee *)
Definition tx_set_fee (t : tx) (f : Z) : tx := {| tx_body := with_fee (tx_body t) f; tx_wits := tx_wits t; tx_meta := tx_meta t |}.
(** shelley/transaction.cpp:432, 436: temp_tx.serialize().size() *)
Definition tx_size (t : tx) : outcome Z := let* s := serialize (tx_ser t) in Ok (zlen s).
(** shelley/transaction.cpp:432, 436: a * temp_tx.serialize().size() + b in uint64_t *)
Definition fee_once (a b : Z) (t : tx) : outcome Z := let* n := tx_size t in Ok (to_u64 (a * n + b)).
(** shelley/transaction.cpp:433-437: the while loop; [calc] is calculated_fee *)
Fixpoint fee_loop (fuel : nat) (a b : Z) (t : tx) (calc : Z) : run Z :=
  if calc =? tx_fee t then lift (Ok calc)
  else match fuel with
       | O => None
       | S k => let t := tx_set_fee t calc in let! c := lift (fee_once a b t) in fee_loop k a b t c
       end.
(** shelley/transaction.cpp:410-440.  [dummies]: the random witnesses, one per expected signature *)
Definition calculate_fee (fuel : nat) (b : builder) (dummies : list (list Z * list Z)) : run Z :=
  let fa := to_u64 (b_fee_a b) in let fb := to_u64 (b_fee_b b) in
  let t := set_vkeys (b_tx b) dummies in
  let! c := lift (fee_once fa fb t) in fee_loop fuel fa fb t c.
(** shelley/transaction.cpp:200-204: the while loop.  Simplification: every call draws the same dummies (the value does not depend on them: C37_fee_witness_independent) *)
Fixpoint update_loop (fuel : nat) (b : builder) (dummies : list (list Z * list Z)) (calc : Z) : run builder :=
  if calc =? tx_fee (b_tx b) then lift (Ok b)
  else match fuel with
       | O => None
       | S k => let b := set_fee b calc in let! c := calculate_fee fuel b dummies in update_loop k b dummies c
       end.
(** shelley/transaction.cpp:190-207 *)
Definition update_fee (fuel : nat) (b : builder) (dummies : list (list Z * list Z)) : run builder :=
  let b := set_fee b (to_u64 (b_fee_b b)) in
  let! c := calculate_fee fuel b dummies in update_loop fuel b dummies c.

(** ** Balancing *)
(** shelley/transaction.cpp:216-225 *)
Definition total_outgoing (b : builder) : outcome Z :=
  let* t0 := sadd (b_deposit_total b) (to_i64 (tb_fee (body_of b))) in
  fold_left (fun acc o => let* acc := acc in sadd acc (to_i64 (to_amount o))) (tb_outputs (body_of b)) (Ok t0).
(** shelley/transaction.cpp:270, 274, 286: assignment to transaction_outputs *)
Definition set_outputs (b : builder) (o : list txout) : builder := set_body b (with_outputs (body_of b) o).
(** shelley/transaction.cpp:259-260: transaction_outputs.back(), with the outputs before it *)
Fixpoint split_last {A} (l : list A) : option (list A * A) :=
  match l with
  | [] => None
  | [x] => Some ([], x)
  | x :: r => match split_last r with Some (i, y) => Some (x :: i, y) | None => None end
  end.
(** shelley/transaction.cpp:230-311: iteration [i] of at most 100; [left] iterations remain *)
Fixpoint balance_loop (fuel left : nat) (i : Z) (b : builder) (dummies : list (list Z * list Z)) (force : bool) : run builder :=
  match left with
  | O => lift Throw
  | S left' =>
      let! b := update_fee fuel b dummies in
      let! out := lift (total_outgoing b) in
      let! change := lift (ssub (b_input_total b) out) in
      if change =? 0 then lift (Ok b)
      else if change <? 0 then
        match split_last (tb_outputs (body_of b)) with
        | None => lift Throw
        | Some (init, last) =>
            let! new_amt := lift (sadd (to_i64 (to_amount last)) change) in
            if new_amt <? b_min_utxo b then balance_loop fuel left' (i + 1) (set_outputs b init) dummies force
            else balance_loop fuel left' (i + 1) (set_outputs b (init ++ [{| to_addr := to_addr last; to_amount := to_u64 new_amt |}])) dummies force
        end
      else if (i =? 0) && (b_min_utxo b <? change) then
        balance_loop fuel left' (i + 1) (set_outputs b (tb_outputs (body_of b) ++ [{| to_addr := b_change b; to_amount := to_u64 change |}])) dummies force
      else if force then
        let b := set_body b (with_fee (body_of b) (to_u64 (tb_fee (body_of b) + to_u64 change))) in
        let! c := calculate_fee fuel b dummies in
        if tb_fee (body_of b) <? c then lift Throw else lift (Ok b)
      else balance_loop fuel left' (i + 1) b dummies force
  end.
(** shelley/transaction.cpp:227-313 *)
Definition balance (fuel : nat) (b : builder) (dummies : list (list Z * list Z)) (force : bool) : run builder := balance_loop fuel 100 0 b dummies force.
(** Conversion unfolds these last (a hint, without logical content: the hundred iterations are large). *)
Strategy 1000 [balance balance_loop].

(** ** Signing *)
Section Signing.
(** shelley/transaction.cpp:387-390: Botan's Blake2b-256, abstract *)
Variable blake2b_256 : list Z -> list Z.
Context {key : Type}.
(** shelley/transaction.cpp:322, 352: skey.publicKey().bytes(), abstract (ed25519.cpp, bip32_ed25519.cpp; one parameter for the keys of both kinds).  Simplification: a key whose public key cannot be computed throws in C++; here [pub] and [sgn] are total *)
Variable pub : key -> list Z.
(** shelley/transaction.cpp:396, 402: skey.sign, abstract *)
Variable sgn : key -> list Z -> list Z.
(** shelley/transaction.cpp:383-391: the hash of the serialised body *)
Definition body_id (x : txbody) : outcome (list Z) := let* s := serialize (txbody_ser x) in Ok (blake2b_256 s).
(** shelley/transaction.cpp:383-391 *)
Definition get_id (b : builder) : outcome (list Z) := body_id (body_of b).
(** shelley/transaction.cpp:393-403 (the two overloads are the same code) *)
Definition make_witness (b : builder) (k : key) : outcome (list Z) := let* id := get_id b in Ok (sgn k id).
(** shelley/transaction.cpp:315-343 and 345-373 (the two overloads are the same code) *)
Definition sign (b : builder) (k : key) : outcome builder :=
  let* w := make_witness b k in
  let kept := filter (fun e => negb (zlist_eqb (fst e) (pub k))) (ws_vkeys (tx_wits (b_tx b))) in
  Ok (set_tx b (set_vkeys (b_tx b) (kept ++ [(pub k, w)]))).

(** Histories of builder calls: the public members of include/cardano/transaction.hpp:175-365 *)
Inductive call :=
| AddInput (u : utxo) | AddOutput (addr : list Z) (amount : Z) | AddWithdrawal (a : rewards_address) (amount : Z)
| AddPoolReg (p : pool_params) (deposit : Z) | AddPoolRetire (pool : list Z) (epoch : Z)
| AddStakeReg (a : rewards_address) (deposit : Z) | AddStakeDereg (a : rewards_address) | AddStakeDeleg (a : rewards_address) (pool : list Z)
| SetFee (fee : Z) | SetTtl (ttl : Z) | SetChange (addr : list Z) | SetMinFee (a c : Z) | ClearWits
| UpdateFee (dummies : list (list Z * list Z)) | Balance (dummies : list (list Z * list Z)) (force : bool) | Sign (k : key).
(** Effect of one call of include/cardano/transaction.hpp:175-365 on the builder *)
Definition do_call (fuel : nat) (b : builder) (c : call) : run builder :=
  match c with
  | AddInput u => lift (Ok (add_input b u))
  | AddOutput a n => lift (Ok (add_output b a n))
  | AddWithdrawal a n => lift (Ok (add_withdrawal b a n))
  | AddPoolReg p d => lift (Ok (add_pool_registration b p d))
  | AddPoolRetire p e => lift (Ok (add_pool_retirement b p e))
  | AddStakeReg a d => lift (Ok (add_stake_registration b a d))
  | AddStakeDereg a => lift (Ok (add_stake_deregistration b a))
  | AddStakeDeleg a p => lift (Ok (add_stake_delegation b a p))
  | SetFee f => lift (Ok (set_fee b f))
  | SetTtl t => lift (Ok (set_ttl b t))
  | SetChange a => lift (Ok (set_change_address b a))
  | SetMinFee a c => lift (Ok (set_min_fee b a c))
  | ClearWits => lift (Ok (clear_witness_set b))
  | UpdateFee d => update_fee fuel b d
  | Balance d f => balance fuel b d f
  | Sign k => lift (sign b k)
  end.
(** Effect of a sequence of such calls (include/cardano/transaction.hpp:175-365): each member returns the builder, so that calls chain; the first that throws ends it *)
Fixpoint do_calls (fuel : nat) (b : builder) (l : list call) : run builder :=
  match l with [] => lift (Ok b) | c :: r => let! b := do_call fuel b c in do_calls fuel b r end.
End Signing.

(** ** Babbage builder: babbage/transaction.cpp.  [bb_flag] stands for the transaction's validity flag. *)
(** include/cardano/transaction.hpp:389-405, with include/cardano/ledger.hpp:1814-1912 for its transaction.  Simplification: change_addr_ and era_ are left out, no function reads the first *)
Record bbuilder := { bb_body : btxbody; bb_vkeys : list (list Z * list Z); bb_flag : bool; bb_a : Z; bb_b : Z }.
(** include/cardano/transaction.hpp:396-409: a new builder *)
Definition new_bbuilder : bbuilder :=
  {| bb_body := {| bb_inputs := []; bb_outputs := []; bb_fee := 0; bb_ttl := None; bb_certs := []; bb_withdrawals := [] |}; bb_vkeys := []; bb_flag := true; bb_a := 44; bb_b := 155381 |}.
(** babbage/transaction.cpp:138, 161: assignment to fee *)
Definition bb_set_fee_only (x : btxbody) (f : Z) : btxbody :=
  {| bb_inputs := bb_inputs x; bb_outputs := bb_outputs x; bb_fee := f; bb_ttl := bb_ttl x; bb_certs := bb_certs x; bb_withdrawals := bb_withdrawals x |}.
(** babbage/transaction.cpp:270-273 and the assignments to tx_: body and witnesses replaced, the rest kept *)
Definition bb_upd (b : bbuilder) (x : btxbody) (v : list (list Z * list Z)) : bbuilder :=
  {| bb_body := x; bb_vkeys := v; bb_flag := bb_flag b; bb_a := bb_a b; bb_b := bb_b b |}.
(** babbage/transaction.cpp:158, 162: this->serialize().size() *)
Definition bb_size (b : bbuilder) : Z := zlen (cbor_encode (btx_ser (bb_body b) (bb_vkeys b) (bb_flag b))).
(** babbage/transaction.cpp:52-66 *)
Definition bb_add_input (b : bbuilder) (id : list Z) (index : Z) : outcome bbuilder :=
  if zlen id <? 32 then Throw
  else let x := bb_body b in
  Ok (bb_upd b {| bb_inputs := set_insert txin_lt {| ti_id := firstn 32 id; ti_index := index |} (bb_inputs x); bb_outputs := bb_outputs x; bb_fee := bb_fee x; bb_ttl := bb_ttl x;
                  bb_certs := bb_certs x; bb_withdrawals := bb_withdrawals x |} []).
(** babbage/transaction.cpp:68-114 *)
Definition bb_add_output (b : bbuilder) (addr : list Z) (amount : Z) (prebabbage : bool) : bbuilder :=
  let x := bb_body b in
  let o := if prebabbage then BPre {| ao_addr := addr; ao_amount := amount; ao_datum := None |} else BPost {| po_addr := addr; po_amount := amount; po_script_ref := None |} in
  bb_upd b {| bb_inputs := bb_inputs x; bb_outputs := bb_outputs x ++ [o]; bb_fee := bb_fee x; bb_ttl := bb_ttl x; bb_certs := bb_certs x; bb_withdrawals := bb_withdrawals x |} [].
(** babbage/transaction.cpp:116-124 *)
Definition bb_add_withdrawal (b : bbuilder) (a : rewards_address) (amount : Z) : bbuilder :=
  let x := bb_body b in
  bb_upd b {| bb_inputs := bb_inputs x; bb_outputs := bb_outputs x; bb_fee := bb_fee x; bb_ttl := bb_ttl x; bb_certs := bb_certs x;
              bb_withdrawals := map_assign (RewardsAddress_toBytes a) amount (bb_withdrawals x) |} [].
(** babbage/transaction.cpp:126-132 *)
Definition bb_set_ttl (b : bbuilder) (ttl : Z) : bbuilder :=
  let x := bb_body b in
  bb_upd b {| bb_inputs := bb_inputs x; bb_outputs := bb_outputs x; bb_fee := bb_fee x; bb_ttl := Some ttl; bb_certs := bb_certs x; bb_withdrawals := bb_withdrawals x |} [].
(** babbage/transaction.cpp:134-140 *)
Definition bb_set_fee (b : bbuilder) (fee : Z) : bbuilder := bb_upd b (bb_set_fee_only (bb_body b) fee) [].
(** babbage/transaction.cpp:159-163: the while loop, on the builder itself *)
Fixpoint bb_fee_loop (fuel : nat) (b : bbuilder) (calc : Z) : run bbuilder :=
  if calc =? bb_fee (bb_body b) then lift (Ok b)
  else match fuel with
       | O => None
       | S k => let b := bb_upd b (bb_set_fee_only (bb_body b) calc) (bb_vkeys b) in bb_fee_loop k b (to_u64 (bb_a b * bb_size b + bb_b b))
       end.
(** babbage/transaction.cpp:142-167 *)
Definition bb_calculate_fee (fuel : nat) (b : bbuilder) (dummies : list (list Z * list Z)) : run (Z * bbuilder) :=
  let b := bb_upd b (bb_body b) dummies in
  let! b := bb_fee_loop fuel b (to_u64 (bb_a b * bb_size b + bb_b b)) in
  lift (Ok (bb_fee (bb_body b), bb_upd b (bb_body b) [])).
(** babbage/transaction.cpp:268-274, clearWitnessSet *)
Definition bb_clear (b : bbuilder) : bbuilder := bb_upd b (bb_body b) [].
(** include/cardano/transaction.hpp:563-566, setMinFeeA: the witnesses stay *)
Definition bb_set_min_a (b : bbuilder) (a : Z) : bbuilder := {| bb_body := bb_body b; bb_vkeys := bb_vkeys b; bb_flag := bb_flag b; bb_a := a; bb_b := bb_b b |}.
(** include/cardano/transaction.hpp:570-573, setMinFeeB: the witnesses stay *)
Definition bb_set_min_b (b : bbuilder) (c : Z) : bbuilder := {| bb_body := bb_body b; bb_vkeys := bb_vkeys b; bb_flag := bb_flag b; bb_a := bb_a b; bb_b := c |}.
(** babbage/transaction.cpp:169-183: not implemented, always throws *)
Definition bb_balance (b : bbuilder) (num_witnesses : Z) : outcome bbuilder := Throw.
Section BSigning.
(** babbage/transaction.cpp:189-192: Botan's Blake2b-256, abstract *)
Variable blake2b_256 : list Z -> list Z.
Context {key : Type}.
(** babbage/transaction.cpp:215, 245: skey.publicKey().bytes(), abstract and total as in [Signing] *)
Variable pub : key -> list Z.
(** babbage/transaction.cpp:198, 205: skey.sign, abstract *)
Variable sgn : key -> list Z -> list Z.
(** babbage/transaction.cpp:185-193 *)
Definition bb_get_id (b : bbuilder) : list Z := blake2b_256 (cbor_encode (btxbody_ser (bb_body b))).
(** babbage/transaction.cpp:195-206 *)
Definition bb_make_witness (b : bbuilder) (k : key) : list Z := sgn k (bb_get_id b).
(** babbage/transaction.cpp:208-266 (the two overloads are the same code) *)
Definition bb_sign (b : bbuilder) (k : key) : bbuilder :=
  bb_upd b (bb_body b) (filter (fun e => negb (zlist_eqb (fst e) (pub k))) (bb_vkeys b) ++ [(pub k, bb_make_witness b k)]).
(** Histories of calls on the Babbage builder: the public members of include/cardano/transaction.hpp:430-575 *)
Inductive bcall :=
| BAddInput (id : list Z) (index : Z) | BAddOutput (addr : list Z) (amount : Z) (prebabbage : bool) | BAddWithdrawal (a : rewards_address) (amount : Z)
| BSetTtl (ttl : Z) | BSetFee (fee : Z) | BCalculateFee (dummies : list (list Z * list Z)) | BSign (k : key)
| BMakeWitness (k : key) | BClearWitnessSet | BSetMinFeeA (a : Z) | BSetMinFeeB (c : Z) | BBalance (witnesses : Z).
(** Effect of one call of include/cardano/transaction.hpp:430-575 *)
Definition do_bcall (fuel : nat) (b : bbuilder) (c : bcall) : run bbuilder :=
  match c with
  | BAddInput id i => lift (bb_add_input b id i)
  | BAddOutput a n p => lift (Ok (bb_add_output b a n p))
  | BAddWithdrawal a n => lift (Ok (bb_add_withdrawal b a n))
  | BSetTtl t => lift (Ok (bb_set_ttl b t))
  | BSetFee f => lift (Ok (bb_set_fee b f))
  | BCalculateFee d => let! r := bb_calculate_fee fuel b d in lift (Ok (snd r))
  | BSign k => lift (Ok (bb_sign b k))
  | BMakeWitness k => lift (Ok b)
  | BClearWitnessSet => lift (Ok (bb_clear b))
  | BSetMinFeeA a => lift (Ok (bb_set_min_a b a))
  | BSetMinFeeB c => lift (Ok (bb_set_min_b b c))
  | BBalance w => lift (bb_balance b w)
  end.
(** Effect of a sequence of such calls (include/cardano/transaction.hpp:430-575) *)
Fixpoint do_bcalls (fuel : nat) (b : bbuilder) (l : list bcall) : run bbuilder :=
  match l with [] => lift (Ok b) | c :: r => let! b := do_bcall fuel b c in do_bcalls fuel b r end.
End BSigning.
