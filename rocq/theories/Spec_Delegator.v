(** A purse with a reward account: what its holder may want done about staking besides paying, when a ledger can do it, and what the ledger holds then.
    Stated about a node and its staking state (Spec_Node, Spec_Stake), not about the library. *)
From Verif Require Import Base Spec_Ledger Spec_Node Spec_Stake.

(** Register the account; delegate it to a pool; collect its rewards. *)
Record plan := { pl_join : bool; pl_pool : option (list Z); pl_collect : bool }.
Definition nothing : plan := {| pl_join := false; pl_pool := None; pl_collect := false |}.
(** The rewards in the account with key hash [h]. *)
Definition pending (st : stake) (h : list Z) : Z := match st_balance st h with Some v => v | None => 0 end.
Definition collected (st : stake) (h : list Z) (p : plan) : Z := if pl_collect p then pending st h else 0.
Definition deposited (n : node) (p : plan) : Z := if pl_join p then n_key_deposit n else 0.
(** One registers what is not registered, collects from what is, and delegates what is or is being registered to a pool that is. *)
Definition sensible (st : stake) (h : list Z) (p : plan) : Prop :=
  (pl_join p = true -> st_balance st h = None) /\
  (pl_collect p = true -> st_balance st h <> None) /\
  (forall q, pl_pool p = Some q -> bytesN 28 q /\ st_pool st q <> None /\ (pl_join p = true \/ st_balance st h <> None)).
(** What becomes of the staking state: the account is empty if it was registered or collected from, and delegated as said; nothing else changes. *)
Definition done (st : stake) (h : list Z) (p : plan) (st' : stake) : Prop :=
  st_balance st' h = (if pl_join p || pl_collect p then Some 0 else st_balance st h) /\
  st_delegated st' h = match pl_pool p with Some q => Some q | None => st_delegated st h end /\
  (forall x, x <> h -> st_balance st' x = st_balance st x /\ st_delegated st' x = st_delegated st x) /\
  (forall x, st_pool st' x = st_pool st x /\ st_next st' x = st_next st x /\ st_retiring st' x = st_retiring st x).
(** Bytes that suffice for it. *)
Definition stake_room (p : plan) : Z := (if pl_join p then 36 else 0) + (match pl_pool p with Some _ => 66 | None => 0 end) + (if pl_collect p then 42 else 0).
