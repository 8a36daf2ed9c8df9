(** Vocabulary of the transaction properties. *)
From Verif Require Import Base Spec_Cbor Model_Address Model_Ledger Model_Tx Spec_Ledger.

(** The transaction serialises to [n] bytes. *)
Definition size_of (t : tx) (n : Z) : Prop := exists s, serialize (tx_ser t) = Ok s /\ zlen s = n.
(** The same transaction with fee [f], and with witnesses [w]. *)
Definition carrying (t : tx) (f : Z) (w : list (list Z * list Z)) : tx :=
  {| tx_body := {| tb_inputs := tb_inputs (tx_body t); tb_outputs := tb_outputs (tx_body t); tb_fee := f; tb_ttl := tb_ttl (tx_body t); tb_certs := tb_certs (tx_body t);
                   tb_withdrawals := tb_withdrawals (tx_body t); tb_metadata_hash := tb_metadata_hash (tx_body t) |};
     tx_wits := {| ws_vkeys := w; ws_scripts := ws_scripts (tx_wits t); ws_bootstrap := ws_bootstrap (tx_wits t) |}; tx_meta := tx_meta t |}.
Fixpoint total (l : list Z) : Z := match l with [] => 0 | x :: r => x + total r end.
Definition outputs (b : builder) : list txout := tb_outputs (tx_body (b_tx b)).
Definition fee_of (b : builder) : Z := tb_fee (tx_body (b_tx b)).
Definition witnesses (b : builder) : list (list Z * list Z) := ws_vkeys (tx_wits (b_tx b)).
(** Amounts a Cardano transaction can carry (the supply is below 2^56 lovelace). *)
Definition lovelace (n : Z) : Prop := 0 <= n < 2 ^ 63.

(** What a history of calls added to the transaction. *)
Section Histories.
Context {key : Type}.
Notation call := (@call key).
Definition inputs_in (l : list call) : list utxo := concat (map (fun c => match c with AddInput u => [u] | _ => [] end) l).
Definition withdrawals_in (l : list call) : list (rewards_address * Z) := concat (map (fun c => match c with AddWithdrawal a n => [(a, n)] | _ => [] end) l).
Definition deposits_in (l : list call) : list Z := concat (map (fun c => match c with AddPoolReg _ d => [d] | AddStakeReg _ d => [d] | _ => [] end) l).
Definition is_cert (c : call) : bool :=
  match c with AddPoolReg _ _ | AddPoolRetire _ _ | AddStakeReg _ _ | AddStakeDereg _ | AddStakeDeleg _ _ => true | _ => false end.
Definition is_sign (c : call) : bool := match c with Sign _ => true | _ => false end.
End Histories.
