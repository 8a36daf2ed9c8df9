(** C84, continued: the life of a purse with a reward account; one that registers, delegates, earns, collects and pays. *)
From Verif Require Import Base BaseLemmas Model_Hex Proof_Hex Spec_Cbor Model_Address Spec_Ledger Model_Ledger Props_Ledger Model_Tx Spec_Tx Props_Tx Props_Bip32 Spec_Node Props_Node Props_Spend Spec_Purse Props_Purse Props_Purse2 Spec_Stake Spec_Delegator Props_Delegator.
From Coq Require Import Permutation.
Ltac Zify.zify_post_hook ::= idtac.

(** What the holder keeps books of: received, paid out, fees, deposits; rewards earned and collected; whether the account is registered, and the pool it was last delegated to. *)
Record books := { bk_got : Z; bk_paid : Z; bk_fees : Z; bk_deposits : Z; bk_earned : Z; bk_taken : Z; bk_joined : bool; bk_pool : option (list Z) }.
Definition open_books (joined : bool) (pool : option (list Z)) : books := {| bk_got := 0; bk_paid := 0; bk_fees := 0; bk_deposits := 0; bk_earned := 0; bk_taken := 0; bk_joined := joined; bk_pool := pool |}.
Definition note_receipt (bk : books) (v : Z) : books :=
  {| bk_got := bk_got bk + v; bk_paid := bk_paid bk; bk_fees := bk_fees bk; bk_deposits := bk_deposits bk; bk_earned := bk_earned bk; bk_taken := bk_taken bk; bk_joined := bk_joined bk; bk_pool := bk_pool bk |}.
Definition note_epoch (bk : books) (e : Z) (gone : bool) : books :=
  {| bk_got := bk_got bk; bk_paid := bk_paid bk; bk_fees := bk_fees bk; bk_deposits := bk_deposits bk; bk_earned := bk_earned bk + e; bk_taken := bk_taken bk; bk_joined := bk_joined bk; bk_pool := if gone then None else bk_pool bk |}.
Definition note_payment (bk : books) (paid fee deposit taken : Z) (p : plan) : books :=
  {| bk_got := bk_got bk; bk_paid := bk_paid bk + paid; bk_fees := bk_fees bk + fee; bk_deposits := bk_deposits bk + deposit; bk_earned := bk_earned bk; bk_taken := bk_taken bk + taken;
     bk_joined := bk_joined bk || pl_join p; bk_pool := match pl_pool p with Some q => Some q | None => bk_pool bk end |}.
Definition registered (st : stake) (h : list Z) : bool := match st_balance st h with Some _ => true | None => false end.

(** What may happen.  The world goes on: the node and its staking state change in any way that leaves the coins and the account, except that rewards [e] may come to a registered
    account and that its pool may be gone.  The purse receives a coin.  The purse pays, and does about its account what makes sense. *)
Inductive life {key} (H256 H224 : list Z -> list Z) (verifies : list Z -> list Z -> list Z -> bool) (pub : key -> list Z) (sgn : key -> list Z -> list Z) (fuel : nat) (a : rewards_address) (ka : key)
  (n0 : node) (st0 : stake) (cs0 : list (@coin key)) : node -> stake -> list (@coin key) -> books -> Prop :=
| born : life H256 H224 verifies pub sgn fuel a ka n0 st0 cs0 n0 st0 cs0 (open_books (registered st0 (ra_hash a)) (st_delegated st0 (ra_hash a)))
| world n st cs bk n' st' e gone : life H256 H224 verifies pub sgn fuel a ka n0 st0 cs0 n st cs bk ->
    (forall c, In c cs -> n_utxo n' (u_id (fst c)) (u_index (fst c)) = n_utxo n (u_id (fst c)) (u_index (fst c))) -> usual n' -> 0 <= n_key_deposit n' ->
    0 <= e -> (st_balance st (ra_hash a) = None -> e = 0) -> st_balance st' (ra_hash a) = option_map (fun v => v + e) (st_balance st (ra_hash a)) ->
    st_delegated st' (ra_hash a) = (if gone : bool then None else st_delegated st (ra_hash a)) -> n_rewards n' (RewardsAddress_toBytes a) = st_balance st' (ra_hash a) -> worth cs + pending st' (ra_hash a) < 2 ^ 62 ->
    life H256 H224 verifies pub sgn fuel a ka n0 st0 cs0 n' st' cs (note_epoch bk e gone)
| gets n st cs bk c : life H256 H224 verifies pub sgn fuel a ka n0 st0 cs0 n st cs bk -> real H224 pub n c -> ~ In (place c) (map place cs) -> worth (c :: cs) + pending st (ra_hash a) < 2 ^ 62 ->
    life H256 H224 verifies pub sgn fuel a ka n0 st0 cs0 n st (c :: cs) (note_receipt bk (u_value (fst c)))
| acts n st cs bk r chosen rest outs ttl ks dummies change kc p b s id o n' st' : life H256 H224 verifies pub sgn fuel a ka n0 st0 cs0 n st cs bk ->
    sensible st (ra_hash a) p -> (pl_pool p <> None \/ pl_collect p = true -> In ka ks) ->
    Permutation cs (chosen ++ rest) -> chosen <> [] -> (forall c, In c chosen -> In (snd c) ks) -> NoDup (map pub ks) -> length dummies = length ks -> Forall vkey_wf dummies ->
    Forall (payable n) outs -> n_slot n <= ttl -> u64 ttl -> text_ok change -> payment_part change = H224 (pub kc) ->
    room (zlen chosen) (zlen ks) outs change + stake_room p <= n_max_size n ->
    total (map snd outs) + deposited n p + (n_fee_a n * (room (zlen chosen) (zlen ks) outs change + stake_room p) + n_fee_b n) + 1000000 < worth chosen + collected st (ra_hash a) p ->
    do_calls H256 pub sgn fuel new_builder ((stake_calls n a (pending st (ra_hash a)) p ++ pay_calls n (map fst chosen) outs ttl change) ++ [Balance dummies true] ++ map Sign ks) = Some (Ok b) ->
    serialize (tx_ser (b_tx b)) = Ok s -> get_id H256 b = Ok id -> nth_error (outputs b) (length outs) = Some o ->
    admits H256 H224 verifies r n st s st' -> applied H256 n s n' -> usual n' -> 0 <= n_key_deposit n' -> n_rewards n' (RewardsAddress_toBytes a) = st_balance st' (ra_hash a) -> (forall c, In c cs -> u_id (fst c) <> id) ->
    life H256 H224 verifies pub sgn fuel a ka n0 st0 cs0 n' st' (({| u_id := id; u_index := zlen outs; u_value := to_amount o |}, kc) :: rest)
      (note_payment bk (total (map snd outs)) (fee_of b) (deposited n p) (collected st (ra_hash a) p) p).

(** C84: at every moment the purse is real and the node knows the account, so that whatever makes sense and is covered is taken ([C84_pays]); what the purse holds, and what the account
    holds, is right to the last lovelace; the account is registered and delegated as the books say. *)
Theorem C84_every_life : forall key H256 H224 verifies (pub : key -> list Z) sgn fuel a ka n0 st0 cs0 n st cs bk,
  (forall k m, verifies (pub k) m (sgn k m) = true) -> (forall k, bytesN 32 (pub k)) -> (forall k m, bytesN 64 (sgn k m)) -> (forall x, bytesN 32 (H256 x)) -> (7 <= fuel)%nat ->
  account_ok a -> ra_hash a = H224 (pub ka) ->
  usual n0 -> 0 <= n_key_deposit n0 -> holds H224 pub n0 cs0 -> n_rewards n0 (RewardsAddress_toBytes a) = st_balance st0 (ra_hash a) -> 0 <= pending st0 (ra_hash a) -> worth cs0 + pending st0 (ra_hash a) < 2 ^ 62 ->
  life H256 H224 verifies pub sgn fuel a ka n0 st0 cs0 n st cs bk ->
  (usual n /\ 0 <= n_key_deposit n /\ holds H224 pub n cs /\ n_rewards n (RewardsAddress_toBytes a) = st_balance st (ra_hash a) /\ 0 <= pending st (ra_hash a) /\ worth cs + pending st (ra_hash a) < 2 ^ 62) /\
  worth cs + bk_paid bk + bk_fees bk + bk_deposits bk = worth cs0 + bk_got bk + bk_taken bk /\
  pending st (ra_hash a) + bk_taken bk = pending st0 (ra_hash a) + bk_earned bk /\
  registered st (ra_hash a) = bk_joined bk /\ st_delegated st (ra_hash a) = bk_pool bk.
Proof.
  intros key H256 H224 verifies pub sgn fuel a ka n0 st0 cs0 n st cs bk VF PB SG HB FU AO AK U0 K0 H0 A0 P0 W0 L. set (h := ra_hash a) in *.
  induction L as [|n st cs bk n' st' e gone _ ((U & K & H & G & P & W) & E1 & E2 & E3 & E4) KE U' K' EP EN SB SD G' W'|n st cs bk c _ ((U & K & H & G & P & W) & E1 & E2 & E3 & E4) RE NI W'
    |n st cs bk r chosen rest outs ttl ks d change kc p b s id o n' st' _ ((U & K & H & G & P & W) & E1 & E2 & E3 & E4) SE AKS PE NE KS ND LD WD PY TS TT CT CK SM CV R ES ID NO AD AP U' K' G' FR].
  - split; [auto 7|]. cbn. split; [lia|]. split; [lia|]. split; reflexivity.
  - fold h in EN, SB, SD, G', W'. assert (PP : pending st' h = pending st h + e) by (unfold pending; rewrite SB; destruct (st_balance st h) as [x|]; cbn [option_map]; [reflexivity|rewrite (EN eq_refl); reflexivity]).
    split; [split; [exact U'|]; split; [exact K'|]; split; [|split; [exact G'|split; [lia|exact W']]]|].
    { destruct H as (X & Y). split; [|exact Y]. rewrite Forall_forall in X |- *. intros c I. destruct (X c I) as (X1 & X2). split; [rewrite (KE c I); exact X1|exact X2]. }
    cbn [note_epoch bk_got bk_paid bk_fees bk_deposits bk_earned bk_taken bk_joined bk_pool]. split; [exact E1|]. split; [lia|]. split; [rewrite <- E3; unfold registered; rewrite SB; destruct (st_balance st h); reflexivity|rewrite SD, E4; reflexivity].
  - destruct H as (X & Y & Z0). fold h in W'. assert (WE : worth (c :: cs) = u_value (fst c) + worth cs) by reflexivity. split; [split; [exact U|]; split; [exact K|]; split; [|auto]|].
    { split; [constructor; assumption|]. split; [cbn [map]; constructor; assumption|lia]. }
    cbn [note_receipt bk_got bk_paid bk_fees bk_deposits bk_earned bk_taken bk_joined bk_pool]. split; [lia|auto].
  - destruct (C84_pays key H256 H224 verifies pub sgn fuel n r st cs chosen rest outs ttl ks d change kc a ka p VF PB SG HB FU U K H AO AK G P W SE AKS PE NE KS ND LD WD PY TS TT CT CK SM CV)
      as (b' & s' & id' & v & fee & R' & ES' & ID' & _ & DO & OB & FE & EV & VP & FB & NX).
    assert (b' = b) by congruence. subst b'. assert (s' = s) by congruence. subst s'. assert (id' = id) by congruence. subst id'.
    rewrite OB, map_app, nth_error_app2 in NO by (rewrite map_length; lia). rewrite map_length, Nat.sub_diag in NO. cbn [map nth_error] in NO. assert (EO : to_amount o = v) by (assert (X : forall x y : txout, Some x = Some y -> x = y) by congruence; apply X in NO; subst o; reflexivity).
    rewrite EO. destruct (NX n' AP FR) as (HN & _). destruct (DO st' AD) as (D1 & D2 & _). fold h in D1, D2, G', SE, EV.
    assert (WN : worth (({| u_id := id; u_index := zlen outs; u_value := v |}, kc) :: rest) = v + worth rest) by reflexivity. pose proof (worth_perm _ _ PE) as WPE. rewrite worth_app in WPE.
    assert (PP : pending st' h = pending st h - collected st h p).
    { destruct SE as (S1 & S2 & _). unfold collected. unfold pending at 1. rewrite D1. destruct (pl_join p); cbn [orb]; [|destruct (pl_collect p); unfold pending; destruct (st_balance st h); lia].
      specialize (S1 eq_refl). destruct (pl_collect p); [destruct (S2 eq_refl S1)|]. unfold pending. rewrite S1. reflexivity. }
    assert (CO : 0 <= collected st h p <= pending st h) by (unfold collected; destruct (pl_collect p); lia).
    assert (PO : 0 <= total (map snd outs)) by (destruct U as (_ & _ & MU & _); clear -PY MU; induction PY as [|x q [_ X] _ IH]; cbn [map total]; lia).
    assert (DE : 0 <= deposited n p) by (unfold deposited; destruct (pl_join p); lia).
    assert (FP : 0 <= fee) by (destruct U as (UA & UB & _); assert (0 <= n_fee_a n * zlen s) by (apply Z.mul_nonneg_nonneg; [exact UA|apply zlen_nonneg]); lia).
    split; [split; [exact U'|]; split; [exact K'|]; split; [exact HN|]; split; [exact G'|]; split; [lia|rewrite WN; lia]|].
    cbn [note_payment bk_got bk_paid bk_fees bk_deposits bk_earned bk_taken bk_joined bk_pool]. fold h. rewrite WN, FE. split; [lia|]. split; [lia|]. split.
    + rewrite <- E3. unfold registered. rewrite D1. destruct SE as (_ & S2 & _). destruct (pl_join p); cbn [orb]; [rewrite orb_true_r; reflexivity|]. rewrite orb_false_r. destruct (pl_collect p); [|reflexivity]. destruct (st_balance st h); [reflexivity|destruct (S2 eq_refl eq_refl)].
    + rewrite D2, E4. destruct (pl_pool p); reflexivity.
Qed.
Print Assumptions C84_every_life.

(** What a node accepts it can apply, keeping its parameters, with any rewards. *)
Lemma applies_with H256 H224 verifies n s rew : accepts H256 H224 verifies n s -> exists n', applied H256 n s n' /\ n_rewards n' = rew /\ n_slot n' = n_slot n /\ n_min_utxo n' = n_min_utxo n /\ n_max_size n' = n_max_size n /\ n_fee_a n' = n_fee_a n /\ n_fee_b n' = n_fee_b n /\ n_key_deposit n' = n_key_deposit n.
Proof.
  intros A. destruct (applies H256 H224 verifies n s A) as (n1 & AP & _ & E1 & E2 & E3 & E4 & E5).
  exists {| n_slot := n_slot n; n_fee_a := n_fee_a n; n_fee_b := n_fee_b n; n_min_utxo := n_min_utxo n; n_max_size := n_max_size n; n_key_deposit := n_key_deposit n; n_pool_deposit := n_pool_deposit n; n_utxo := n_utxo n1; n_rewards := rew; n_pool := n_pool n |}.
  split; [exact AP|]. repeat split.
Qed.
Lemma usual_as n n' : n_min_utxo n' = n_min_utxo n -> n_max_size n' = n_max_size n -> n_fee_a n' = n_fee_a n -> n_fee_b n' = n_fee_b n -> usual n -> usual n'.
Proof. unfold usual. intros -> -> -> ->. auto. Qed.

(** *** A purse that registers its account and delegates it, earns 5 ada, and pays 3 ada while collecting them *)
Definition d_acct : rewards_address := {| ra_header := 225; ra_hash := repeat 8 28 |}.
Definition d_pool : list Z := repeat 4 28.
Definition d_known : Spec_Stake.pool := {| po_vrf := []; po_pledge := 0; po_cost := 0; po_margin := (0, 1); po_account := []; po_owners := []; po_relays := []; po_metadata := None |}.
Definition d_stake : stake := {| st_balance := fun _ => None; st_delegated := fun _ => None; st_pool := fun q => if zlist_eqb q d_pool then Some d_known else None; st_next := fun _ => None; st_retiring := fun _ => None |}.
Definition d_rules : rules := {| ru_epoch := 400; ru_max_ahead := 18; ru_min_cost := 0 |}.
Definition d_join : plan := {| pl_join := true; pl_pool := Some d_pool; pl_collect := false |}.
Definition d_collect : plan := {| pl_join := false; pl_pool := None; pl_collect := true |}.
Definition d_calls1 (n : node) : list (@call Z) := (stake_calls n d_acct 0 d_join ++ pay_calls n [ex_utxo 1 600000000] [] 1000000 p_change) ++ [Balance (ex_dummies 2) true] ++ map Sign [1; 8].
Definition d_id1 : list Z := Eval vm_compute in match do_calls p_H ex_pub1 ex_sgn1 10 new_builder (d_calls1 ex_node) with Some (Ok b) => match get_id p_H b with Ok i => i | _ => [] end | _ => [] end.
Definition d_fee1 : Z := Eval vm_compute in match do_calls p_H ex_pub1 ex_sgn1 10 new_builder (d_calls1 ex_node) with Some (Ok b) => fee_of b | _ => 0 end.
Definition d_coin : utxo := {| u_id := d_id1; u_index := 0; u_value := 598000000 - d_fee1 |}.
Definition d_calls2 (n : node) : list (@call Z) := (stake_calls n d_acct 5000000 d_collect ++ pay_calls n [d_coin] [(ex_addr, 3000000)] 2000000 p_change) ++ [Balance (ex_dummies 2) true] ++ map Sign [5; 8].
Definition d_id2 : list Z := Eval vm_compute in match do_calls p_H ex_pub1 ex_sgn1 10 new_builder (d_calls2 ex_node) with Some (Ok b) => match get_id p_H b with Ok i => i | _ => [] end | _ => [] end.
Definition d_fee2 : Z := Eval vm_compute in match do_calls p_H ex_pub1 ex_sgn1 10 new_builder (d_calls2 ex_node) with Some (Ok b) => fee_of b | _ => 0 end.
Lemma d_run1 : match do_calls p_H ex_pub1 ex_sgn1 10 new_builder (d_calls1 ex_node) with Some (Ok b) => match get_id p_H b, nth_error (outputs b) 0 with Ok i, Some o => zlist_eqb i d_id1 && (to_amount o =? 598000000 - d_fee1) && (fee_of b =? d_fee1) | _, _ => false end | _ => false end = true.
Proof. vm_compute. reflexivity. Qed.
Lemma d_run2 : match do_calls p_H ex_pub1 ex_sgn1 10 new_builder (d_calls2 ex_node) with Some (Ok b) => match get_id p_H b, nth_error (outputs b) 1 with Ok i, Some o => zlist_eqb i d_id2 && (to_amount o =? 598000000 - d_fee1 + 5000000 - 3000000 - d_fee2) && (fee_of b =? d_fee2) | _, _ => false end | _ => false end = true.
Proof. vm_compute. reflexivity. Qed.
Lemma d_new1 : forallb (fun c : @coin Z => negb (zlist_eqb (u_id (fst c)) d_id1)) p_coins = true.
Proof. vm_compute. reflexivity. Qed.
Lemma d_new2 : forallb (fun c : @coin Z => negb (zlist_eqb (u_id (fst c)) d_id2)) ((d_coin, 5) :: tl p_coins) = true.
Proof. vm_compute. reflexivity. Qed.
Lemma d_pubs : NoDup (map ex_pub1 [1; 8]) /\ NoDup (map ex_pub1 [5; 8]).
Proof. split; cbn [map]; (apply NoDup_cons; [intros [J|[]]; vm_compute in J; discriminate J|apply NoDup_cons; [intros []|apply NoDup_nil]]). Qed.
Lemma d_account : account_ok d_acct /\ ra_hash d_acct = ex_H224 (ex_pub1 8).
Proof. split; [split; [unfold byte_ok; cbn; lia|apply bytesN_b; vm_compute; reflexivity]|vm_compute; reflexivity]. Qed.

Example C84_ex : exists n st,
  life p_H ex_H224 ex_verifies ex_pub1 ex_sgn1 10 d_acct 8 ex_node d_stake p_coins n st
    [({| u_id := d_id2; u_index := 1; u_value := 598000000 - d_fee1 + 5000000 - 3000000 - d_fee2 |}, 5); (ex_utxo 2 7000000, 2)]
    {| bk_got := 0; bk_paid := 3000000; bk_fees := d_fee1 + d_fee2; bk_deposits := 2000000; bk_earned := 5000000; bk_taken := 5000000; bk_joined := true; bk_pool := Some d_pool |} /\
  st_balance st (ra_hash d_acct) = Some 0.
Proof.
  destruct C70_ex_keys as (K1 & K2 & K3). destruct p_texts as [TA TC]. destruct d_pubs as [P1 P2]. destruct d_account as [AO AK].
  pose proof p_usual as U0. assert (FU : (7 <= 10)%nat) by lia. assert (KD0 : 0 <= n_key_deposit ex_node) by (cbn; lia).
  assert (G0 : n_rewards ex_node (RewardsAddress_toBytes d_acct) = st_balance d_stake (ra_hash d_acct)) by (vm_compute; reflexivity).
  assert (PN0 : 0 <= pending d_stake (ra_hash d_acct)) by (vm_compute; discriminate).
  assert (W0 : worth p_coins + pending d_stake (ra_hash d_acct) < 2 ^ 62) by (vm_compute; reflexivity).
  assert (S1 : sensible d_stake (ra_hash d_acct) d_join).
  { split; [reflexivity|]. split; [discriminate|]. intros q E. assert (q = d_pool) by (cbn [pl_pool d_join] in E; congruence). subst q. split; [apply bytesN_b; vm_compute; reflexivity|]. split; [vm_compute; discriminate|left; reflexivity]. }
  assert (KS1 : forall c : @coin Z, In c [(ex_utxo 1 600000000, 1)] -> In (snd c) [1; 8]) by (intros c [<-|[]]; left; reflexivity).
  assert (AK1 : pl_pool d_join <> None \/ pl_collect d_join = true -> In 8 [1; 8]) by (intros _; right; left; reflexivity).
  assert (SM1 : room (zlen [(ex_utxo 1 600000000, 1)]) (zlen [1; 8]) [] p_change + stake_room d_join <= n_max_size ex_node) by (vm_compute; discriminate).
  assert (CV1 : total (map snd (@nil (list Z * Z))) + deposited ex_node d_join + (n_fee_a ex_node * (room (zlen [(ex_utxo 1 600000000, 1)]) (zlen [1; 8]) [] p_change + stake_room d_join) + n_fee_b ex_node) + 1000000 < worth [(ex_utxo 1 600000000, 1)] + collected d_stake (ra_hash d_acct) d_join) by (vm_compute; reflexivity).
  assert (TS1 : n_slot ex_node <= 1000000) by (cbn; lia). assert (TT1 : u64 1000000) by (unfold u64; lia).
  destruct (C84_pays Z p_H ex_H224 ex_verifies ex_pub1 ex_sgn1 10%nat ex_node d_rules d_stake p_coins [(ex_utxo 1 600000000, 1)] [(ex_utxo 2 7000000, 2)] [] 1000000 [1; 8] (ex_dummies 2) p_change 5 d_acct 8 d_join
    K1 K2 K3 p_hash FU U0 KD0 p_purse AO AK G0 PN0 W0 S1 AK1 (Permutation_refl _) ltac:(discriminate) KS1 P1 eq_refl (p_dummies 2) (Forall_nil _) TS1 TT1 TC eq_refl SM1 CV1)
    as (b & s & id & v & fee & R & S & ID & (st1 & AD) & DO & OB & FE & EV & _ & _ & _).
  assert (AC : accepts p_H ex_H224 ex_verifies ex_node s) by (destruct AD as (sb & t & X & Y & _); exists sb, t; auto).
  destruct (applies_with _ _ _ _ _ (fun x => if zlist_eqb x (RewardsAddress_toBytes d_acct) then st_balance st1 (ra_hash d_acct) else None) AC) as (n1 & AP & NR & E1 & E2 & E3 & E4 & E5 & E6).
  assert (G1 : n_rewards n1 (RewardsAddress_toBytes d_acct) = st_balance st1 (ra_hash d_acct)) by (rewrite NR, zlist_eqb_refl; reflexivity).
  pose proof (usual_as _ _ E2 E3 E4 E5 U0) as U1. assert (KD1 : 0 <= n_key_deposit n1) by (rewrite E6; exact KD0).
  destruct (DO st1 AD) as (D1 & D2 & _ & D3).
  pose proof d_run1 as Q. unfold d_calls1 in Q. change (map fst [(ex_utxo 1 600000000, 1)]) with [ex_utxo 1 600000000] in R. change (pending d_stake (ra_hash d_acct)) with 0 in R. rewrite R, ID in Q. destruct (nth_error (outputs b) 0) as [o|] eqn:NO; [|discriminate Q].
  apply andb_prop in Q as [Q Q3]. apply andb_prop in Q as [Q1 Q2]. apply zlist_eqb_spec in Q1. apply Z.eqb_eq in Q2, Q3. subst id.
  assert (L1 : life p_H ex_H224 ex_verifies ex_pub1 ex_sgn1 10 d_acct 8 ex_node d_stake p_coins n1 st1 [(d_coin, 5); (ex_utxo 2 7000000, 2)] (note_payment (open_books false None) 0 d_fee1 2000000 0 d_join)).
  { pose proof (acts p_H ex_H224 ex_verifies ex_pub1 ex_sgn1 10%nat d_acct 8 ex_node d_stake p_coins ex_node d_stake p_coins _ d_rules [(ex_utxo 1 600000000, 1)] [(ex_utxo 2 7000000, 2)] [] 1000000 [1; 8] (ex_dummies 2) p_change 5 d_join b s d_id1 o n1 st1
      (born _ _ _ _ _ _ _ _ _ _ _) S1 AK1 (Permutation_refl _) ltac:(discriminate) KS1 P1 eq_refl (p_dummies 2) (Forall_nil _) TS1 TT1 TC eq_refl SM1 CV1 R S ID NO AD AP U1 KD1 G1 (new_ids _ _ d_new1)) as X.
    rewrite Q2, Q3 in X. exact X. }
  clear R S ID AD DO OB FE EV NO Q2 Q3 AP AC b s v fee o.
  destruct (C84_every_life _ _ _ _ _ _ _ _ _ _ _ _ _ _ _ _ K1 K2 K3 p_hash FU AO AK U0 KD0 p_purse G0 PN0 W0 L1) as ((_ & _ & HO1 & _) & _).
  (* the epoch passes: 5 ada *)
  set (st2 := {| st_balance := fun x => if zlist_eqb x (ra_hash d_acct) then Some 5000000 else st_balance st1 x; st_delegated := st_delegated st1; st_pool := st_pool st1; st_next := st_next st1; st_retiring := st_retiring st1 |}).
  set (n2 := {| n_slot := n_slot n1; n_fee_a := n_fee_a n1; n_fee_b := n_fee_b n1; n_min_utxo := n_min_utxo n1; n_max_size := n_max_size n1; n_key_deposit := n_key_deposit n1; n_pool_deposit := n_pool_deposit n1; n_utxo := n_utxo n1; n_rewards := fun _ => Some 5000000; n_pool := n_pool n1 |}).
  assert (B2 : st_balance st2 (ra_hash d_acct) = Some 5000000) by (cbn [st2 st_balance]; rewrite zlist_eqb_refl; reflexivity).
  assert (PN2 : pending st2 (ra_hash d_acct) = 5000000) by (unfold pending; rewrite B2; reflexivity).
  assert (L2 : life p_H ex_H224 ex_verifies ex_pub1 ex_sgn1 10 d_acct 8 ex_node d_stake p_coins n2 st2 [(d_coin, 5); (ex_utxo 2 7000000, 2)] (note_epoch (note_payment (open_books false None) 0 d_fee1 2000000 0 d_join) 5000000 false)).
  { apply (world _ _ _ _ _ _ _ _ _ _ _ n1 st1).
    - exact L1.
    - reflexivity.
    - exact U1.
    - exact KD1.
    - lia.
    - rewrite D1. discriminate.
    - rewrite B2, D1. reflexivity.
    - reflexivity.
    - symmetry. exact B2.
    - rewrite PN2. vm_compute. reflexivity. }
  destruct (C84_every_life _ _ _ _ _ _ _ _ _ _ _ _ _ _ _ _ K1 K2 K3 p_hash FU AO AK U0 KD0 p_purse G0 PN0 W0 L2) as ((U2 & KD2 & HO2 & G2 & PN2' & W2) & _).
  assert (S2 : sensible st2 (ra_hash d_acct) d_collect) by (split; [discriminate|]; split; [rewrite B2; discriminate|discriminate]).
  assert (PY2 : Forall (payable n2) [(ex_addr, 3000000)]) by (apply Forall_cons; [|apply Forall_nil]; split; [exact TA|cbn [n2 n_min_utxo snd]; rewrite E2; cbn; lia]).
  assert (KS2 : forall c : @coin Z, In c [(d_coin, 5)] -> In (snd c) [5; 8]) by (intros c [<-|[]]; left; reflexivity).
  assert (AK2 : pl_pool d_collect <> None \/ pl_collect d_collect = true -> In 8 [5; 8]) by (intros _; right; left; reflexivity).
  assert (TS2 : n_slot n2 <= 2000000) by (cbn [n2 n_slot]; rewrite E1; cbn; lia). assert (TT2 : u64 2000000) by (unfold u64; lia).
  assert (SM2 : room (zlen [(d_coin, 5)]) (zlen [5; 8]) [(ex_addr, 3000000)] p_change + stake_room d_collect <= n_max_size n2) by (cbn [n2 n_max_size]; rewrite E3; vm_compute; discriminate).
  assert (CV2 : total (map snd [(ex_addr, 3000000)]) + deposited n2 d_collect + (n_fee_a n2 * (room (zlen [(d_coin, 5)]) (zlen [5; 8]) [(ex_addr, 3000000)] p_change + stake_room d_collect) + n_fee_b n2) + 1000000 < worth [(d_coin, 5)] + collected st2 (ra_hash d_acct) d_collect).
  { unfold collected. cbn [d_collect pl_collect]. rewrite PN2. cbn [n2 n_fee_a n_fee_b]. rewrite E4, E5. vm_compute. reflexivity. }
  destruct (C84_pays Z p_H ex_H224 ex_verifies ex_pub1 ex_sgn1 10%nat n2 d_rules st2 _ [(d_coin, 5)] [(ex_utxo 2 7000000, 2)] [(ex_addr, 3000000)] 2000000 [5; 8] (ex_dummies 2) p_change 5 d_acct 8 d_collect
    K1 K2 K3 p_hash FU U2 KD2 HO2 AO AK G2 PN2' W2 S2 AK2 (Permutation_refl _) ltac:(discriminate) KS2 P2 eq_refl (p_dummies 2) PY2 TS2 TT2 TC eq_refl SM2 CV2)
    as (b & s & id & v & fee & R & S & ID & (st3 & AD) & DO & _).
  assert (AC : accepts p_H ex_H224 ex_verifies n2 s) by (destruct AD as (sb & t & X & Y & _); exists sb, t; auto).
  destruct (applies_with _ _ _ _ _ (fun x => if zlist_eqb x (RewardsAddress_toBytes d_acct) then st_balance st3 (ra_hash d_acct) else None) AC) as (n3 & AP & NR3 & _ & F2 & F3 & F4 & F5 & F6).
  assert (G3 : n_rewards n3 (RewardsAddress_toBytes d_acct) = st_balance st3 (ra_hash d_acct)) by (rewrite NR3, zlist_eqb_refl; reflexivity).
  pose proof (usual_as _ _ F2 F3 F4 F5 U2) as U3. assert (KD3 : 0 <= n_key_deposit n3) by (rewrite F6; exact KD2).
  pose proof d_run2 as Q. assert (PC : d_calls2 ex_node = d_calls2 n2) by (unfold d_calls2, pay_calls, stake_calls; cbn [n2 n_fee_a n_fee_b n_key_deposit]; rewrite E4, E5, E6; reflexivity). rewrite PC in Q. unfold d_calls2 in Q. change (map fst [(d_coin, 5)]) with [d_coin] in R. pose proof R as RR. rewrite PN2 in RR. rewrite RR, ID in Q.
  destruct (nth_error (outputs b) 1) as [o|] eqn:NO; [|discriminate Q].
  apply andb_prop in Q as [Q Q3]. apply andb_prop in Q as [Q1 Q2]. apply zlist_eqb_spec in Q1. apply Z.eqb_eq in Q2, Q3. subst id.
  exists n3, st3. split; [|exact (proj1 (DO st3 AD))].
  pose proof (acts p_H ex_H224 ex_verifies ex_pub1 ex_sgn1 10%nat d_acct 8 ex_node d_stake p_coins n2 st2 _ _ d_rules [(d_coin, 5)] [(ex_utxo 2 7000000, 2)] [(ex_addr, 3000000)] 2000000 [5; 8] (ex_dummies 2) p_change 5 d_collect b s d_id2 o n3 st3
      L2 S2 AK2 (Permutation_refl _) ltac:(discriminate) KS2 P2 eq_refl (p_dummies 2) PY2 TS2 TT2 TC eq_refl SM2 CV2 R S ID NO AD AP U3 KD3 G3 (new_ids _ _ d_new2)) as X.
  rewrite Q2, Q3 in X. unfold collected in X. cbn [d_collect pl_collect] in X. rewrite PN2 in X. exact X.
Qed.
