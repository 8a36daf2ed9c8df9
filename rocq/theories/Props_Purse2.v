(** C82, continued: histories of payments, receipts and other people's transactions; a purse that pays twice. *)
From Verif Require Import Base BaseLemmas Model_Hex Proof_Hex Spec_Cbor Spec_Ledger Model_Ledger Props_Ledger Model_Tx Spec_Tx Props_Tx Props_Bip32 Spec_Node Props_Node Props_Spend Spec_Purse Props_Purse.
From Coq Require Import Permutation.
Ltac Zify.zify_post_hook ::= idtac.

(** What may happen to a purse.  Others transact: the node changes in any way that leaves the coins of the purse.  The purse receives a coin.  The purse pays, out of coins it
    chooses that cover outputs, fee and a change of 1 ada, and the node applies what the library produced (whose id is new); the purse then has the coins not chosen, and the
    output after those it asked for.  [got], [paid] and [fees] are the sums so far. *)
Inductive history {key} (H256 H224 : list Z -> list Z) (pub : key -> list Z) (sgn : key -> list Z -> list Z) (fuel : nat) (n0 : node) (cs0 : list (@coin key)) : node -> list (@coin key) -> Z -> Z -> Z -> Prop :=
| begins : history H256 H224 pub sgn fuel n0 cs0 n0 cs0 0 0 0
| others n cs got paid fees n' : history H256 H224 pub sgn fuel n0 cs0 n cs got paid fees ->
    (forall c, In c cs -> n_utxo n' (u_id (fst c)) (u_index (fst c)) = n_utxo n (u_id (fst c)) (u_index (fst c))) -> usual n' -> history H256 H224 pub sgn fuel n0 cs0 n' cs got paid fees
| receives n cs got paid fees c : history H256 H224 pub sgn fuel n0 cs0 n cs got paid fees -> real H224 pub n c -> ~ In (place c) (map place cs) -> worth (c :: cs) < 2 ^ 62 ->
    history H256 H224 pub sgn fuel n0 cs0 n (c :: cs) (got + u_value (fst c)) paid fees
| pays n cs got paid fees chosen rest outs ttl ks dummies change kc b s id o n' : history H256 H224 pub sgn fuel n0 cs0 n cs got paid fees ->
    Permutation cs (chosen ++ rest) -> chosen <> [] -> (forall c, In c chosen -> In (snd c) ks) -> NoDup (map pub ks) -> length dummies = length ks -> Forall vkey_wf dummies ->
    Forall (payable n) outs -> n_slot n <= ttl -> u64 ttl -> text_ok change -> payment_part change = H224 (pub kc) ->
    room (zlen chosen) (zlen ks) outs change <= n_max_size n -> total (map snd outs) + (n_fee_a n * room (zlen chosen) (zlen ks) outs change + n_fee_b n) + 1000000 < worth chosen ->
    do_calls H256 pub sgn fuel new_builder (pay_calls n (map fst chosen) outs ttl change ++ [Balance dummies true] ++ map Sign ks) = Some (Ok b) -> serialize (tx_ser (b_tx b)) = Ok s -> get_id H256 b = Ok id ->
    nth_error (outputs b) (length outs) = Some o -> applied H256 n s n' -> usual n' -> (forall c, In c cs -> u_id (fst c) <> id) ->
    history H256 H224 pub sgn fuel n0 cs0 n' (({| u_id := id; u_index := zlen outs; u_value := to_amount o |}, kc) :: rest) got (paid + total (map snd outs)) (fees + fee_of b).

(** C82: in every history the purse is real, so that whatever it wants to pay and its coins cover, the node takes ([C82_pays]); and its books are right to the last lovelace. *)
Theorem C82_every_history : forall key H256 H224 (pub : key -> list Z) sgn fuel n0 cs0 n cs got paid fees,
  (forall k, bytesN 32 (pub k)) -> (forall k m, bytesN 64 (sgn k m)) -> (forall x, bytesN 32 (H256 x)) -> (7 <= fuel)%nat ->
  usual n0 -> holds H224 pub n0 cs0 -> history H256 H224 pub sgn fuel n0 cs0 n cs got paid fees ->
  usual n /\ holds H224 pub n cs /\ worth cs + paid + fees = worth cs0 + got.
Proof.
  intros key H256 H224 pub sgn fuel n0 cs0 n cs got paid fees PB SG HB FU U0 H0 HI.
  induction HI as [|n cs got paid fees n' _ (U & H & E) KE U'|n cs got paid fees c _ (U & H & E) RE NI W|n cs got paid fees chosen rest outs ttl ks d change kc b s id o n' _ (U & H & E) PE NE KS ND LD WD PY TS TT CT CK SM CV R ES ID NO AP U' FR].
  - split; [exact U0|]. split; [exact H0|lia].
  - split; [exact U'|]. split; [|exact E]. destruct H as (X & Y). split; [|exact Y]. rewrite Forall_forall in X |- *. intros c I. destruct (X c I) as (X1 & X2). split; [rewrite (KE c I); exact X1|exact X2].
  - split; [exact U|]. destruct H as (X & Y & Z0). split; [|change (worth (c :: cs)) with (u_value (fst c) + worth cs); lia].
    split; [constructor; assumption|]. split; [cbn [map]; constructor; assumption|exact W].
  - destruct (C82_pays key H256 H224 (fun _ _ _ => true) pub sgn fuel n cs chosen rest outs ttl ks d change kc ltac:(reflexivity) PB SG HB FU U H PE NE KS ND LD WD PY TS TT CT CK SM CV)
      as (b' & s' & id' & v & fee & R' & ES' & ID' & _ & OB & FE & EV & _ & _ & NX).
    assert (b' = b) by congruence. subst b'. assert (s' = s) by congruence. subst s'. assert (id' = id) by congruence. subst id'.
    rewrite OB, map_app, nth_error_app2 in NO by (rewrite map_length; lia). rewrite map_length, Nat.sub_diag in NO. cbn [map nth_error] in NO. assert (EO : to_amount o = v) by (assert (X : forall x y : txout, Some x = Some y -> x = y) by congruence; apply X in NO; subst o; reflexivity).
    rewrite EO. split; [exact U'|]. destruct (NX n' AP FR) as (HN & _). split; [exact HN|].
    change (worth (({| u_id := id; u_index := zlen outs; u_value := v |}, kc) :: rest)) with (v + worth rest). pose proof (worth_perm _ _ PE) as WP. rewrite worth_app in WP. rewrite FE. lia.
Qed.
Print Assumptions C82_every_history.

(** What a node accepts it can apply, keeping its parameters. *)
Lemma applies H256 H224 verifies n s : accepts H256 H224 verifies n s -> exists n', applied H256 n s n' /\ (usual n -> usual n') /\ n_slot n' = n_slot n /\ n_min_utxo n' = n_min_utxo n /\ n_max_size n' = n_max_size n /\ n_fee_a n' = n_fee_a n /\ n_fee_b n' = n_fee_b n.
Proof.
  intros (sb & t & IT & _).
  set (taken := fun id i => existsb (fun x => zlist_eqb (fst x) id && (snd x =? i)) (w_ins t)).
  exists {| n_slot := n_slot n; n_fee_a := n_fee_a n; n_fee_b := n_fee_b n; n_min_utxo := n_min_utxo n; n_max_size := n_max_size n; n_key_deposit := n_key_deposit n; n_pool_deposit := n_pool_deposit n;
     n_utxo := fun id i => if zlist_eqb id (H256 sb) then match nth_error (w_outs t) (Z.to_nat i) with Some (a, v) => Some (v, payment_part a) | None => None end else if taken id i then None else n_utxo n id i;
     n_rewards := n_rewards n; n_pool := n_pool n |}.
  split; [|split; [intros U; exact U|repeat split]]. exists sb, t. split; [exact IT|]. intros id i. cbn [n_utxo].
  assert (TK : taken id i = true <-> In (id, i) (w_ins t)).
  { unfold taken. rewrite existsb_exists. split.
    - intros ([a x] & I & E). apply andb_prop in E as [E1 E2]. apply zlist_eqb_spec in E1. apply Z.eqb_eq in E2. cbn [fst snd] in *. subst. exact I.
    - intros I. exists (id, i). split; [exact I|]. cbn [fst snd]. rewrite zlist_eqb_refl, Z.eqb_refl. reflexivity. }
  split; [|split].
  - intros a v -> _ N. rewrite zlist_eqb_refl, N. reflexivity.
  - intros NE I. apply zlist_eqb_false in NE. rewrite NE. apply TK in I. rewrite I. reflexivity.
  - intros NE I. apply zlist_eqb_false in NE. rewrite NE. destruct (taken id i) eqn:E; [|reflexivity]. destruct I. apply TK. reflexivity.
Qed.

(** *** A purse that pays twice *)
(** Two coins at a node, of 600 and 7 ada; 3 ada are paid to [ex_addr] out of the first, the change going to an address of key 5; then 400 ada out of the change and the second coin, to two addresses. *)
Definition p_H := toy_h 32.
Definition p_coins : list (@coin Z) := [(ex_utxo 1 600000000, 1); (ex_utxo 2 7000000, 2)].
Definition p_change : list Z := 97 :: repeat 5 28 ++ repeat 5 28.
Definition p_calls1 : list (@call Z) := pay_calls ex_node [ex_utxo 1 600000000] [(ex_addr, 3000000)] 1000000 p_change ++ [Balance (ex_dummies 1) true] ++ map Sign [1].
Definition p_id1 : list Z := Eval vm_compute in match do_calls p_H ex_pub1 ex_sgn1 10 new_builder p_calls1 with Some (Ok b) => match get_id p_H b with Ok i => i | _ => [] end | _ => [] end.
Definition p_v1 : Z := Eval vm_compute in match do_calls p_H ex_pub1 ex_sgn1 10 new_builder p_calls1 with Some (Ok b) => match nth_error (outputs b) 1 with Some o => to_amount o | None => 0 end | _ => 0 end.
Definition p_change_coin : utxo := {| u_id := p_id1; u_index := 1; u_value := p_v1 |}.
Definition p_outs2 : list (list Z * Z) := [(ex_addr, 300000000); (p_change, 100000000)].
Definition p_calls2 (n : node) : list (@call Z) := pay_calls n [ex_utxo 2 7000000; p_change_coin] p_outs2 2000000 p_change ++ [Balance (ex_dummies 2) true] ++ map Sign [5; 2].
Definition p_id2 : list Z := Eval vm_compute in match do_calls p_H ex_pub1 ex_sgn1 10 new_builder (p_calls2 ex_node) with Some (Ok b) => match get_id p_H b with Ok i => i | _ => [] end | _ => [] end.
Definition p_fee2 : Z := Eval vm_compute in match do_calls p_H ex_pub1 ex_sgn1 10 new_builder (p_calls2 ex_node) with Some (Ok b) => fee_of b | _ => 0 end.
Lemma p_hash x : bytesN 32 (p_H x).
Proof. split; [apply pack_le_ok|]. unfold zlen, p_H, toy_h. rewrite pack_le_length. reflexivity. Qed.
Lemma p_run1 : match do_calls p_H ex_pub1 ex_sgn1 10 new_builder p_calls1 with Some (Ok b) => match get_id p_H b, nth_error (outputs b) 1 with Ok i, Some o => zlist_eqb i p_id1 && (to_amount o =? p_v1) && (fee_of b =? 166865) | _, _ => false end | _ => false end = true.
Proof. vm_compute. reflexivity. Qed.
Lemma p_run2 : match do_calls p_H ex_pub1 ex_sgn1 10 new_builder (p_calls2 ex_node) with Some (Ok b) => match get_id p_H b, nth_error (outputs b) 2 with Ok i, Some o => zlist_eqb i p_id2 && (to_amount o =? p_v1 + 7000000 - 400000000 - fee_of b) && (fee_of b =? p_fee2) | _, _ => false end | _ => false end = true.
Proof. vm_compute. reflexivity. Qed.
Lemma p_dummies k : Forall vkey_wf (ex_dummies k).
Proof. apply Forall_forall. intros x J. apply repeat_spec in J. subst x. split; apply bytesN_b; vm_compute; reflexivity. Qed.
Lemma p_purse : holds ex_H224 ex_pub1 ex_node p_coins.
Proof.
  split; [|split].
  - apply Forall_cons; [|apply Forall_cons; [|apply Forall_nil]]; (split; [vm_compute; reflexivity|]; split; [apply bytesN_b; vm_compute; reflexivity|]; split; [unfold u64; cbn; lia|cbn; lia]).
  - cbn [map p_coins]. apply NoDup_cons; [|apply NoDup_cons; [intros []|apply NoDup_nil]]. intros [E|[]]. assert (X : zlist_eqb (fst (place (ex_utxo 2 7000000, 2))) (fst (place (ex_utxo 1 600000000, 1))) = true) by (rewrite E; apply zlist_eqb_refl). vm_compute in X. discriminate X.
  - vm_compute. reflexivity.
Qed.
Lemma p_usual : usual ex_node.
Proof. unfold usual. cbn [ex_node n_fee_a n_fee_b n_min_utxo n_max_size]. lia. Qed.
Lemma p_texts : text_ok ex_addr /\ text_ok p_change.
Proof. split; apply text_b; vm_compute; reflexivity. Qed.
Lemma p_pubs : NoDup (map ex_pub1 [1]) /\ NoDup (map ex_pub1 [5; 2]).
Proof. split; cbn [map]; [apply NoDup_cons; [intros []|apply NoDup_nil]|apply NoDup_cons; [intros [J|[]]; vm_compute in J; discriminate J|apply NoDup_cons; [intros []|apply NoDup_nil]]]. Qed.
Lemma p_new1 : forallb (fun c : @coin Z => negb (zlist_eqb (u_id (fst c)) p_id1)) p_coins = true.
Proof. vm_compute. reflexivity. Qed.
Lemma p_new2 : forallb (fun c : @coin Z => negb (zlist_eqb (u_id (fst c)) p_id2)) ((p_change_coin, 5) :: tl p_coins) = true.
Proof. vm_compute. reflexivity. Qed.
Lemma new_ids cs id : forallb (fun c : @coin Z => negb (zlist_eqb (u_id (fst c)) id)) cs = true -> forall c, In c cs -> u_id (fst c) <> id.
Proof. rewrite forallb_forall. intros E c J X. specialize (E c J). rewrite X, zlist_eqb_refl in E. discriminate E. Qed.

Example C82_ex : exists n1 n2,
  history p_H ex_H224 ex_pub1 ex_sgn1 10 ex_node p_coins n1 [(p_change_coin, 5); (ex_utxo 2 7000000, 2)] 0 3000000 166865 /\
  history p_H ex_H224 ex_pub1 ex_sgn1 10 ex_node p_coins n2 [({| u_id := p_id2; u_index := 2; u_value := 607000000 - 403000000 - 166865 - p_fee2 |}, 5)] 0 403000000 (166865 + p_fee2).
Proof.
  destruct C70_ex_keys as (K1 & K2 & K3). destruct p_texts as [TA TC]. destruct p_pubs as [P1 P2].
  pose proof p_usual as U0. assert (FU : (7 <= 10)%nat) by lia.
  assert (PY1 : Forall (payable ex_node) [(ex_addr, 3000000)]) by (apply Forall_cons; [|apply Forall_nil]; split; [exact TA|cbn; lia]).
  assert (KS1 : forall c : @coin Z, In c [(ex_utxo 1 600000000, 1)] -> In (snd c) [1]) by (intros c [<-|[]]; left; reflexivity).
  destruct (C82_pays Z p_H ex_H224 ex_verifies ex_pub1 ex_sgn1 10%nat ex_node p_coins [(ex_utxo 1 600000000, 1)] [(ex_utxo 2 7000000, 2)] [(ex_addr, 3000000)] 1000000 [1] (ex_dummies 1) p_change 5
    K1 K2 K3 p_hash ltac:(lia) U0 p_purse (Permutation_refl _) ltac:(discriminate) KS1 P1 eq_refl (p_dummies 1) PY1 ltac:(cbn; lia) ltac:(unfold u64; lia) TC eq_refl ltac:(vm_compute; discriminate) ltac:(vm_compute; reflexivity))
    as (b & s & id & v & fee & R & S & ID & AC & OB & FE & EV & _ & _ & _).
  destruct (applies _ _ _ _ _ AC) as (n1 & AP & US & E1 & E2 & E3 & E4 & E5).
  pose proof p_run1 as Q. unfold p_calls1 in Q. change (map fst [(ex_utxo 1 600000000, 1)]) with [ex_utxo 1 600000000] in R. rewrite R, ID in Q. destruct (nth_error (outputs b) 1) as [o|] eqn:NO; [|discriminate Q].
  apply andb_prop in Q as [Q Q3]. apply andb_prop in Q as [Q1 Q2]. apply zlist_eqb_spec in Q1. apply Z.eqb_eq in Q2, Q3. subst id.
  assert (H1 : history p_H ex_H224 ex_pub1 ex_sgn1 10 ex_node p_coins n1 [(p_change_coin, 5); (ex_utxo 2 7000000, 2)] 0 3000000 166865).
  { pose proof (pays p_H ex_H224 ex_pub1 ex_sgn1 10%nat ex_node p_coins ex_node p_coins 0 0 0 [(ex_utxo 1 600000000, 1)] [(ex_utxo 2 7000000, 2)] [(ex_addr, 3000000)] 1000000 [1] (ex_dummies 1) p_change 5 b s p_id1 o n1
      (begins _ _ _ _ _ _ _) (Permutation_refl _) ltac:(discriminate) KS1 P1 eq_refl (p_dummies 1) PY1 ltac:(cbn; lia) ltac:(unfold u64; lia) TC eq_refl ltac:(vm_compute; discriminate) ltac:(vm_compute; reflexivity) R S ID NO AP (US U0) (new_ids _ _ p_new1)) as X.
    rewrite Q2, Q3 in X. exact X. }
  exists n1. clear R S ID AC OB FE EV NO Q2 Q3 AP b s v fee o.
  destruct (C82_every_history _ _ _ _ _ _ _ _ _ _ _ _ _ K2 K3 p_hash FU U0 p_purse H1) as (U1 & HO1 & _).
  assert (PY2 : Forall (payable n1) p_outs2) by (apply Forall_cons; [|apply Forall_cons; [|apply Forall_nil]]; (split; [assumption|rewrite E2; cbn; lia])).
  assert (KS2 : forall c : @coin Z, In c [(ex_utxo 2 7000000, 2); (p_change_coin, 5)] -> In (snd c) [5; 2]) by (intros c [<-|[<-|[]]]; [right; left; reflexivity|left; reflexivity]).
  assert (PE2 : Permutation [(p_change_coin, 5); (ex_utxo 2 7000000, 2)] ([(ex_utxo 2 7000000, 2); (p_change_coin, 5)] ++ [])) by apply perm_swap.
  assert (TS2 : n_slot n1 <= 2000000) by (rewrite E1; cbn; lia).
  assert (SM2 : room (zlen [(ex_utxo 2 7000000, 2); (p_change_coin, 5)]) (zlen [5; 2]) p_outs2 p_change <= n_max_size n1) by (rewrite E3; vm_compute; discriminate).
  assert (CV2 : total (map snd p_outs2) + (n_fee_a n1 * room (zlen [(ex_utxo 2 7000000, 2); (p_change_coin, 5)]) (zlen [5; 2]) p_outs2 p_change + n_fee_b n1) + 1000000 < worth [(ex_utxo 2 7000000, 2); (p_change_coin, 5)]) by (rewrite E4, E5; vm_compute; reflexivity).
  destruct (C82_pays Z p_H ex_H224 ex_verifies ex_pub1 ex_sgn1 10%nat n1 _ [(ex_utxo 2 7000000, 2); (p_change_coin, 5)] [] p_outs2 2000000 [5; 2] (ex_dummies 2) p_change 5
    K1 K2 K3 p_hash ltac:(lia) U1 HO1 PE2 ltac:(discriminate) KS2 P2 eq_refl (p_dummies 2) PY2 TS2 ltac:(unfold u64; lia) TC eq_refl SM2 CV2)
    as (b & s & id & v & fee & R & S & ID & AC & _).
  destruct (applies _ _ _ _ _ AC) as (n2 & AP & US2 & _).
  pose proof p_run2 as Q. assert (PC : p_calls2 ex_node = p_calls2 n1) by (unfold p_calls2, pay_calls; rewrite E4, E5; reflexivity). rewrite PC in Q. unfold p_calls2 in Q. change (map fst [(ex_utxo 2 7000000, 2); (p_change_coin, 5)]) with [ex_utxo 2 7000000; p_change_coin] in R. rewrite R, ID in Q.
  destruct (nth_error (outputs b) 2) as [o|] eqn:NO; [|discriminate Q].
  apply andb_prop in Q as [Q Q3]. apply andb_prop in Q as [Q1 Q2]. apply zlist_eqb_spec in Q1. apply Z.eqb_eq in Q2, Q3. subst id. rewrite Q3 in Q2.
  exists n2. split; [exact H1|].
  pose proof (pays p_H ex_H224 ex_pub1 ex_sgn1 10%nat ex_node p_coins n1 _ _ _ _ [(ex_utxo 2 7000000, 2); (p_change_coin, 5)] [] p_outs2 2000000 [5; 2] (ex_dummies 2) p_change 5 b s p_id2 o n2
      H1 PE2 ltac:(discriminate) KS2 P2 eq_refl (p_dummies 2) PY2 TS2 ltac:(unfold u64; lia) TC eq_refl SM2 CV2 R S ID NO AP (US2 U1) (new_ids _ _ p_new2)) as X.
  rewrite Q2, Q3 in X. exact X.
Qed.
