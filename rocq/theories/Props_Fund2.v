(** C75, continued: a funded transaction can always be built, and a node accepts it. *)
From Verif Require Import Base BaseLemmas Spec_Cbor Model_Cbor Proof_Cbor Model_Address Spec_Ledger Model_Ledger Proof_Ledger Proof_Ledger2 Model_Tx Spec_Tx Proof_Tx Proof_Tx2 Proof_Tx3 Props_Ledger Props_Tx Props_Wire Props_History Spec_Node Props_Node Props_Fund.
From Coq Require Import Permutation.
Ltac Zify.zify_post_hook ::= idtac.

(** A call that adds to the transaction or sets one of its fields. *)
Definition building {key} (c : @call key) : Prop := match c with UpdateFee _ | Balance _ _ | Sign _ => False | _ => True end.
(** Such calls cannot fail, and the result has a size. *)
Lemma calls_join {key} H (pub : key -> list Z) sgn fuel l1 l2 : forall b b1 b', do_calls H pub sgn fuel b l1 = Some (Ok b1) -> do_calls H pub sgn fuel b1 l2 = Some (Ok b') -> do_calls H pub sgn fuel b (l1 ++ l2) = Some (Ok b').
Proof.
  induction l1 as [|c l1 IH]; intros b b1 b' R1 R2; cbn [app do_calls] in *; [unfold lift in R1; assert (b = b1) by congruence; subst; exact R2|]. apply rbind_ok in R1 as (b2 & S & R1). rewrite S. cbn [rbind]. exact (IH b2 b1 b' R1 R2).
Qed.
Lemma building_runs {key} H (pub : key -> list Z) sgn fuel l : Forall building l -> forall b, exists b', do_calls H pub sgn fuel b l = Some (Ok b') /\ b_min_utxo b' = b_min_utxo b.
Proof.
  induction 1 as [|c l C F IH]; intros b; [exists b; split; reflexivity|]. cbn [do_calls].
  destruct c; try contradiction; cbn [do_call lift rbind];
    match goal with |- exists b', do_calls _ _ _ _ ?x _ = _ /\ _ => destruct (IH x) as (b' & E & M); exists b'; split; [exact E|rewrite M; reflexivity] end.
Qed.
Lemma signing_runs {key} H (pub : key -> list Z) sgn fuel ks : forall b cs, mapM cert_ser (tb_certs (body_of b)) = Ok cs ->
  exists b', do_calls H pub sgn fuel b (map Sign ks) = Some (Ok b') /\ body_of b' = body_of b.
Proof.
  induction ks as [|k ks IH]; intros b cs C; [exists b; split; reflexivity|]. cbn [map do_calls do_call].
  assert (S : exists b1, sign H pub sgn b k = Ok b1 /\ body_of b1 = body_of b).
  { unfold sign, make_witness, get_id, body_id, serialize. rewrite (body_ser _ _ C). cbn [bind]. eexists. split; [reflexivity|]. reflexivity. }
  destruct S as (b1 & S & E1). unfold lift. rewrite S. cbn [rbind]. destruct (IH b1 cs ltac:(rewrite E1; exact C)) as (b' & R & E'). exists b'. split; [exact R|congruence].
Qed.

(** C75: whoever states what is the case, brings enough money for outputs, deposits and the fee of the transaction as it stands, balances with force and signs with
    every key that must sign, gets a transaction, and a node accepts it (if it is not too large for a transaction). *)
Theorem C75_funded_accepted : forall key H256 H224 verifies (pub : key -> list Z) sgn fuel l dummies ks n,
  (forall k m, verifies (pub k) m (sgn k m) = true) -> (forall k, bytesN 32 (pub k)) -> (forall k m, bytesN 64 (sgn k m)) ->
  (7 <= fuel)%nat -> length dummies = length ks -> Forall vkey_wf dummies -> NoDup (map pub ks) ->
  Forall building l -> Forall call_ok l -> Forall (truthful n) l -> (forall a, ~ In (AddStakeDereg a) l) -> zlen l + zlen ks < 2 ^ 59 ->
  inputs_in l <> [] -> NoDup (map (fun u => (u_id u, u_index u)) (inputs_in l)) -> NoDup (map (fun w => RewardsAddress_toBytes (fst w)) (withdrawals_in l)) ->
  n_slot n <= last (ttls_in l) 0 -> last (min_fees_in l) (44, 155381) = (n_fee_a n, n_fee_b n) -> 0 <= n_fee_a n -> 2 ^ 16 <= n_fee_b n -> 0 <= n_min_utxo n <= 1000000 ->
  (forall h, must_sign n l h -> exists k, In k ks /\ H224 (pub k) = h) ->
  Forall (fun x => 0 <= x) (deposits_in l) -> Forall (fun x => 0 <= x) (map u_value (inputs_in l) ++ map snd (withdrawals_in l)) ->
  let money := total (map u_value (inputs_in l)) + total (map snd (withdrawals_in l)) in money < 2 ^ 62 ->
  exists b0 n0, do_calls H256 pub sgn fuel new_builder l = Some (Ok b0) /\ sized b0 dummies (outputs_in l) n0 /\
  (total (map to_amount (outputs_in l)) + total (deposits_in l) + (n_fee_a n * n0 + n_fee_b n) <= money ->
   1000000 + n_fee_a n * (n0 + zlen (b_change b0) + 40) + n_fee_b n < 2 ^ 32 ->
   exists b s, do_calls H256 pub sgn fuel new_builder (l ++ [Balance dummies true] ++ map Sign ks) = Some (Ok b) /\ serialize (tx_ser (b_tx b)) = Ok s /\ lovelace (fee_of b) /\
     (exists change, outputs b = outputs_in l ++ change /\ (length change <= 1)%nat) /\
     (zlen s <= n_max_size n -> n_fee_a n * (n_max_size n + 8) + n_fee_b n < 2 ^ 64 -> accepts H256 H224 verifies n s)).
Proof.
  intros key H256 H224 verifies pub sgn fuel l d ks n VF PB SG FU LD WD ND BU OK T NDR LL NI N1 N2 TTL FE A B MU MS DP IP money MO.
  destruct (building_runs H256 pub sgn fuel l BU new_builder) as (b0 & R0 & M0). change (b_min_utxo new_builder) with 1000000 in M0.
  pose proof (history_asked _ _ _ _ n l b0 R0 OK T MU ltac:(pose proof (zlen_nonneg ks); lia) N1 N2) as AS.
  destruct (certs_cddl _ (as_conf _ _ _ AS)) as (cs & CS & _ & _).
  assert (FA : b_fee_a b0 = n_fee_a n) by (pose proof (as_fees _ _ _ AS); congruence). assert (FB : b_fee_b b0 = n_fee_b n) by (pose proof (as_fees _ _ _ AS); congruence).
  assert (NB : forall d f, ~ In (Balance d f) l) by (intros d' f I; rewrite Forall_forall in BU; exact (BU _ I)).
  destruct (C64_what_was_asked _ _ _ _ _ _ _ R0) as (_ & _ & _ & _ & _ & _ & QO & _). specialize (QO NB). change (tb_outputs (tx_body (b_tx b0))) with (outputs b0) in QO.
  exists b0, (sz b0 d cs (outputs_in l)). split; [exact R0|]. split; [apply sized_is; exact CS|].
  set (n0 := sz b0 d cs (outputs_in l)). intros PAY SM.
  assert (Z0 : sized b0 d (outputs b0) n0) by (rewrite QO; apply sized_is; exact CS).
  assert (nn : forall q, Forall (fun x => 0 <= x) q -> 0 <= total q) by (induction 1; cbn [total]; lia).
  pose proof (nn _ DP) as DN. apply Forall_app in IP as [IP1 IP2]. pose proof (nn _ IP1) as IN1. pose proof (nn _ IP2) as IN2.
  assert (LV : Forall (fun o => lovelace (to_amount o)) (outputs b0)).
  { rewrite QO. apply Forall_forall. intros o I. unfold outputs_in in I. apply in_concat in I as (q & I & J). apply in_map_iff in I as (c & <- & I). rewrite Forall_forall in OK. specialize (OK _ I).
    destruct c; cbn [In] in J; try contradiction. destruct J as [<-|[]]. exact (proj2 OK). }
  assert (OS : 0 <= total (map to_amount (outputs_in l))) by (apply nn; rewrite <- QO; apply Forall_map; eapply Forall_impl; [|exact LV]; intros o []; assumption).
  assert (CN : 0 <= n_fee_a n * n0) by (pose proof (sz_pos b0 d cs (outputs_in l)); unfold n0; nia).
  assert (L1 : lovelace money) by (unfold lovelace; lia). assert (L2 : lovelace (total (deposits_in l))) by (unfold lovelace; lia).
  destruct (C39_running_totals _ _ _ _ _ _ _ R0 L1 L2) as [TI TD]. fold money in TI.
  assert (RE : 0 <= left_over b0 n0) by (unfold left_over; rewrite TI, TD, FA, FB, QO; lia).
  destruct (C75_forced_succeeds fuel b0 d n0 FU Z0 ltac:(lia) ltac:(lia) ltac:(lia) ltac:(rewrite M0, FA, FB; exact SM) LV ltac:(lia) ltac:(lia) RE) as (b1 & os & fee & EB & RB & OO & nx & SX & FL & FH).
  assert (C1 : mapM cert_ser (tb_certs (body_of b1)) = Ok cs) by (unfold rebalanced in RB; rewrite RB; exact CS).
  destruct (signing_runs H256 pub sgn fuel ks b1 cs C1) as (b & R2 & BB).
  assert (R : do_calls H256 pub sgn fuel new_builder (l ++ [Balance d true] ++ map Sign ks) = Some (Ok b)).
  { apply (calls_join _ _ _ _ _ _ _ b0); [exact R0|]. cbn [app do_calls do_call]. rewrite EB. cbn [rbind]. exact R2. }
  assert (OB : outputs b = os) by (unfold outputs; change (tx_body (b_tx b)) with (body_of b); rewrite BB; unfold rebalanced in RB; rewrite RB; reflexivity).
  assert (FO : fee_of b = fee) by (unfold fee_of; change (tx_body (b_tx b)) with (body_of b); rewrite BB; unfold rebalanced in RB; rewrite RB; reflexivity).
  assert (LF : lovelace (fee_of b)).
  { rewrite FO. unfold lovelace. pose proof (sized_sz _ _ _ _ SX) as (cs' & CS' & EX). assert (cs' = cs) by congruence. subst cs'. pose proof (sz_pos b0 d cs os) as SP. rewrite <- EX in SP.
    assert (nx <= n0 + zlen (b_change b0) + 23).
    { unfold n0. destruct OO as [->|(v & -> & _)]; [rewrite EX, QO; pose proof (zlen_nonneg (b_change b0)); lia|]. rewrite EX, QO. unfold sz. pose proof (outs_push (outputs_in l) (to_change b0 v)) as X. rewrite osz_eq in X. cbn [to_change to_addr to_amount] in X.
      pose proof (hl_range (zlen (b_change b0))). pose proof (hl_range v). lia. }
    rewrite FA, FB in *. split; [nia|]. pose proof (zlen_nonneg (b_change b0)).
    assert (n_fee_a n * (nx + zlen (b_change b0) + 23) <= n_fee_a n * (2 * (n0 + zlen (b_change b0) + 40))) by nia.
    assert (n_fee_a n * (n0 + zlen (b_change b0) + 40) < 2 ^ 32) by lia. rewrite M0 in FH. lia. }
  destruct (C70_accepted key H256 H224 verifies pub sgn fuel l d true ks b n VF PB SG R ltac:(lia) LD WD ND OK T NDR LL NI N1 N2 TTL FE A ltac:(lia) MU L1 L2 LF MS) as (s & ES & AC).
  exists b, s. split; [exact R|]. split; [exact ES|]. split; [exact LF|]. split; [|exact AC]. rewrite OB. destruct OO as [->|(v & -> & _)]; rewrite QO; [exists []|exists [to_change b0 v]]; (split; [rewrite ?app_nil_r; reflexivity|cbn [length]; lia]).
Qed.
Print Assumptions C75_funded_accepted.

(** All hypotheses at once: the example of C70, with a pool registration, deposits and a withdrawal, balanced with force. *)
Example C75_ex_accepted : exists b s, do_calls ex_H ex_pub1 ex_sgn1 10 new_builder (ex_l ++ [Balance (ex_dummies 4) true] ++ map Sign [1; 2; 9; 4]) = Some (Ok b) /\ serialize (tx_ser (b_tx b)) = Ok s /\
  (zlen s <= n_max_size ex_node -> accepts ex_H ex_H224 ex_verifies ex_node s).
Proof.
  destruct C70_ex_keys as (K1 & K2 & K3). destruct C70_ex_args as [A1 A2].
  destruct (C75_funded_accepted Z ex_H ex_H224 ex_verifies ex_pub1 ex_sgn1 10%nat ex_l (ex_dummies 4) [1; 2; 9; 4] ex_node K1 K2 K3) as (b0 & n0 & R0 & Z0 & G); try assumption.
  - lia.
  - reflexivity.
  - do 4 (constructor; [split; apply bytesN_b; reflexivity|]). constructor.
  - repeat (constructor; [cbn [In map]; intros Q; repeat (destruct Q as [Q|Q]; [discriminate Q|]); exact Q|]). constructor.
  - unfold ex_l. repeat (apply Forall_cons; [exact I|]). apply Forall_nil.
  - intros a I. unfold ex_l in I. cbn [In] in I. repeat (destruct I as [I|I]; [discriminate I|]); destruct I.
  - reflexivity.
  - discriminate.
  - constructor; [|repeat constructor; intros []]. intros [I|[]]. discriminate I.
  - repeat constructor; intros [].
  - vm_compute. discriminate.
  - reflexivity.
  - cbn; lia.
  - cbn; lia.
  - cbn; lia.
  - exact C70_ex_signers.
  - cbv [ex_l deposits_in map concat app]. repeat constructor; lia.
  - cbv [ex_l inputs_in withdrawals_in map concat app u_value ex_utxo snd]. repeat constructor; lia.
  - vm_compute. reflexivity.
  - assert (E0 : n0 <= 2000 /\ zlen (b_change b0) = 29).
    { destruct (do_calls ex_H ex_pub1 ex_sgn1 10 new_builder ex_l) as [[b0'| |]|] eqn:E; try discriminate R0. assert (b0' = b0) by congruence. subst b0'. vm_compute in E. injection E as <-.
      split; [|reflexivity]. destruct Z0 as (s & S & <-). vm_compute in S. injection S as <-. vm_compute. discriminate. }
    destruct E0 as [E0 E1]. destruct G as (b & s & R & S & _ & _ & AC).
    + cbn [ex_node n_fee_a n_fee_b]. change (total (map to_amount (outputs_in ex_l))) with 3000000. change (total (deposits_in ex_l)) with 502000000. change (total (map u_value (inputs_in ex_l)) + total (map snd (withdrawals_in ex_l))) with 607500000. lia.
    + cbn [ex_node n_fee_a n_fee_b]. rewrite E1. lia.
    + exists b, s. split; [exact R|]. split; [exact S|]. intros L. apply AC; [exact L|reflexivity].
Qed.
