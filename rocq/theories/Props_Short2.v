(** C88, continued: an under-funded payment that is forced is one a node accepts; the loss is final. *)
From Verif Require Import Base BaseLemmas Spec_Cbor Model_Cbor Proof_Cbor Model_Address Spec_Ledger Model_Ledger Proof_Ledger Proof_Ledger2 Model_Tx Spec_Tx Proof_Tx Proof_Tx2 Proof_Tx3 Props_Ledger Props_Tx Props_Exact5 Props_Wire Props_History Spec_Node Props_Node Props_Fund Props_Fund2 Props_Short.
From Coq Require Import Permutation.
Ltac Zify.zify_post_hook ::= idtac.

Lemma update_eta fuel b d : update_fee fuel (at_ b (outputs b) (tb_fee (body_of b))) d = update_fee fuel b d.
Proof. unfold update_fee. destruct b as [[[] w m] ? ? ? ? ? ?]. reflexivity. Qed.
(** C88: whoever states what is the case, brings the deposits and the fee of a transaction without outputs, balances with force and signs with every key that must sign, gets a
    transaction that a node accepts (if it is not too large), whatever he wanted to pay to at most 98 payees.  They all get what he wanted exactly if the money covers it. *)
Theorem C88_loss_is_final : forall key H256 H224 verifies (pub : key -> list Z) sgn fuel l dummies ks n,
  (forall k m, verifies (pub k) m (sgn k m) = true) -> (forall k, bytesN 32 (pub k)) -> (forall k m, bytesN 64 (sgn k m)) ->
  (7 <= fuel)%nat -> length dummies = length ks -> Forall vkey_wf dummies -> NoDup (map pub ks) ->
  Forall building l -> Forall call_ok l -> Forall (truthful n) l -> (forall a, ~ In (AddStakeDereg a) l) -> zlen l + zlen ks < 2 ^ 59 ->
  inputs_in l <> [] -> NoDup (map (fun u => (u_id u, u_index u)) (inputs_in l)) -> NoDup (map (fun w => RewardsAddress_toBytes (fst w)) (withdrawals_in l)) ->
  n_slot n <= last (ttls_in l) 0 -> last (min_fees_in l) (44, 155381) = (n_fee_a n, n_fee_b n) -> 0 <= n_fee_a n -> 2 ^ 16 <= n_fee_b n -> 0 <= n_min_utxo n <= 1000000 ->
  (forall h, must_sign n l h -> exists k, In k ks /\ H224 (pub k) = h) ->
  Forall (fun x => 0 <= x) (deposits_in l) -> Forall (fun x => 0 <= x) (map u_value (inputs_in l) ++ map snd (withdrawals_in l)) ->
  let money := total (map u_value (inputs_in l)) + total (map snd (withdrawals_in l)) in money < 2 ^ 62 ->
  let wanted := total (map to_amount (outputs_in l)) + total (deposits_in l) in wanted < 2 ^ 62 -> (length (outputs_in l) <= 98)%nat ->
  exists b0 bare full, do_calls H256 pub sgn fuel new_builder l = Some (Ok b0) /\ sized b0 dummies [] bare /\ sized b0 dummies (outputs_in l) full /\
  (1000000 + n_fee_a n * (full + zlen (b_change b0) + 40) + n_fee_b n < 2 ^ 32 -> total (deposits_in l) + (n_fee_a n * bare + n_fee_b n) <= money ->
   exists b s, do_calls H256 pub sgn fuel new_builder (l ++ [Balance dummies true] ++ map Sign ks) = Some (Ok b) /\ serialize (tx_ser (b_tx b)) = Ok s /\
     (zlen s <= n_max_size n -> n_fee_a n * (n_max_size n + 8) + n_fee_b n < 2 ^ 64 -> accepts H256 H224 verifies n s) /\
     ((outputs b = outputs_in l \/ exists change, outputs b = outputs_in l ++ [change]) <-> wanted + (n_fee_a n * full + n_fee_b n) <= money) /\
     money = total (map to_amount (outputs b)) + fee_of b + total (deposits_in l)).
Proof.
  intros key H256 H224 verifies pub sgn fuel l d ks n VF PB SG FU LD WD ND BU OK T NDR LL NI N1 N2 TTL FE A B MU MS DP IP money MO wanted WA LE.
  destruct (building_runs H256 pub sgn fuel l BU new_builder) as (b0 & R0 & M0). change (b_min_utxo new_builder) with 1000000 in M0.
  pose proof (history_asked _ _ _ _ n l b0 R0 OK T MU ltac:(pose proof (zlen_nonneg ks); lia) N1 N2) as AS.
  destruct (certs_cddl _ (as_conf _ _ _ AS)) as (cs & CS & _ & _).
  assert (FA : b_fee_a b0 = n_fee_a n) by (pose proof (as_fees _ _ _ AS); congruence). assert (FB : b_fee_b b0 = n_fee_b n) by (pose proof (as_fees _ _ _ AS); congruence).
  assert (NB : forall d f, ~ In (Balance d f) l) by (intros d' f I; rewrite Forall_forall in BU; exact (BU _ I)).
  destruct (C64_what_was_asked _ _ _ _ _ _ _ R0) as (_ & _ & _ & _ & _ & _ & QO & _). specialize (QO NB). change (tb_outputs (tx_body (b_tx b0))) with (outputs b0) in QO.
  exists b0, (sz b0 d cs []), (sz b0 d cs (outputs_in l)). split; [exact R0|]. split; [apply sized_is; exact CS|]. split; [apply sized_is; exact CS|].
  set (full := sz b0 d cs (outputs_in l)). set (bare := sz b0 d cs []). intros SM PAY.
  assert (nn : forall q, Forall (fun x => 0 <= x) q -> 0 <= total q) by (induction 1; cbn [total]; lia).
  pose proof (nn _ DP) as DN. apply Forall_app in IP as [IP1 IP2]. pose proof (nn _ IP1) as IN1. pose proof (nn _ IP2) as IN2.
  assert (LV : Forall (fun o => lovelace (to_amount o)) (outputs b0)).
  { rewrite QO. apply Forall_forall. intros o I. unfold outputs_in in I. apply in_concat in I as (q & I & J). apply in_map_iff in I as (c & <- & I). rewrite Forall_forall in OK. specialize (OK _ I).
    destruct c; cbn [In] in J; try contradiction. destruct J as [<-|[]]. exact (proj2 OK). }
  assert (OS : 0 <= total (map to_amount (outputs_in l))) by (apply nn; rewrite <- QO; apply Forall_map; eapply Forall_impl; [|exact LV]; intros o []; assumption).
  assert (L1 : lovelace money) by (unfold lovelace; lia). assert (L2 : lovelace (total (deposits_in l))) by (unfold lovelace, wanted in *; lia).
  destruct (C39_running_totals _ _ _ _ _ _ _ R0 L1 L2) as [TI TD]. fold money in TI.
  set (size := fun k => sz b0 d cs (firstn k (outputs b0))).
  assert (SZ : sizes b0 d size) by (intros k K; apply sized_is; exact CS).
  assert (EF : size (length (outputs b0)) = full) by (unfold size, full; rewrite firstn_all, QO; reflexivity).
  assert (OR : ordinary b0 (size (length (outputs b0)) + zlen (b_change b0) + 36)).
  { rewrite EF. unfold ordinary. rewrite FA, FB, M0, TI, TD. replace (full + zlen (b_change b0) + 36 + 4) with (full + zlen (b_change b0) + 40) by lia.
    split; [exact A|]. split; [exact B|]. split; [lia|]. split; [exact SM|]. split; [exact LV|]. split; [exact DN|]. rewrite QO. split; [unfold wanted in WA; lia|lia]. }
  destruct (forced_out fuel b0 d size FU SZ OR ltac:(rewrite QO; exact LE)) as [_ Y].
  destruct (Y ltac:(unfold after, size; cbn [firstn map]; change (total []) with 0; rewrite TI, TD, FA, FB; fold bare; lia)) as (b1 & os & fee & EB & RB & LF1). clear Y.
  assert (C1 : mapM cert_ser (tb_certs (body_of b1)) = Ok cs) by (unfold rebalanced in RB; rewrite RB; exact CS).
  destruct (signing_runs H256 pub sgn fuel ks b1 cs C1) as (b & R2 & BB).
  assert (R : do_calls H256 pub sgn fuel new_builder (l ++ [Balance d true] ++ map Sign ks) = Some (Ok b)).
  { apply (calls_join _ _ _ _ _ _ _ b0); [exact R0|]. cbn [app do_calls do_call]. rewrite EB. cbn [rbind]. exact R2. }
  assert (OB : outputs b = outputs b1) by (unfold outputs; change (tx_body (b_tx b)) with (body_of b); rewrite BB; reflexivity).
  assert (F1 : fee_of b1 = fee) by (unfold rebalanced in RB; rewrite RB; reflexivity).
  assert (FO : fee_of b = fee) by (unfold fee_of; change (tx_body (b_tx b)) with (body_of b); rewrite BB; exact F1).
  destruct (C70_accepted key H256 H224 verifies pub sgn fuel l d true ks b n VF PB SG R ltac:(lia) LD WD ND OK T NDR LL NI N1 N2 TTL FE A ltac:(lia) MU L1 L2 ltac:(rewrite FO; exact LF1) MS) as (s & ES & AC).
  exists b, s. split; [exact R|]. split; [exact ES|]. split; [exact AC|]. split.
  - assert (SC : small_cost b0 d cs (outputs b0)).
    { unfold small_cost. rewrite QO. fold full. rewrite FA, FB. pose proof (zlen_nonneg (b_change b0)). pose proof (Z.mul_le_mono_nonneg_l (full + 4) (full + zlen (b_change b0) + 40) (n_fee_a n) A ltac:(lia)). lia. }
    pose proof (update_at b0 d cs fuel FU CS ltac:(lia) ltac:(lia) (outputs b0) (tb_fee (body_of b0)) SC) as UP.
    rewrite update_eta in UP.
    pose proof (cost_range b0 d cs fuel FU ltac:(lia) ltac:(lia) (outputs b0) SC) as CR.
    assert (CE : cost b0 d cs (outputs b0) = n_fee_a n * full + n_fee_b n) by (unfold cost, full; rewrite FA, FB, QO; reflexivity).
    pose proof (total_zsum (map to_amount (outputs_in l))) as TZ.
    pose proof (total_at b0 fuel FU (outputs b0) (cost b0 d cs (outputs b0)) LV ltac:(lia) ltac:(lia)) as TO. specialize (TO ltac:(rewrite TD, CE, QO; unfold wanted in WA; lia)).
    pose proof (C56_kept_exactly fuel b0 d true _ _ b1 UP TO ltac:(lia) LV EB) as K. rewrite TI, TD, CE, QO in K. rewrite OB. unfold wanted. rewrite K. lia.
  - rewrite <- TI, <- TD, OB, FO, <- F1. apply (C36_conserves fuel b0 d true b1); [lia|exact LV|exact EB|rewrite F1; exact LF1].
Qed.
Print Assumptions C88_loss_is_final.

(** All hypotheses at once: the example of C70 (a pool registration, deposits, a withdrawal), where the payee is to get 300 ada that are not there. *)
Definition greedy_l : list (@call Z) := ex_l ++ [AddOutput ex_addr 300000000].
Lemma in_greedy c : In c greedy_l -> In c ex_l \/ c = AddOutput ex_addr 300000000.
Proof. intros I. unfold greedy_l in I. apply in_app_iff in I as [I|[I|[]]]; [left; exact I|right; symmetry; exact I]. Qed.
Example C88_ex_final : exists b s, do_calls ex_H ex_pub1 ex_sgn1 10 new_builder (greedy_l ++ [Balance (ex_dummies 4) true] ++ map Sign [1; 2; 9; 4]) = Some (Ok b) /\ serialize (tx_ser (b_tx b)) = Ok s /\
  (zlen s <= n_max_size ex_node -> accepts ex_H ex_H224 ex_verifies ex_node s) /\ ~ (outputs b = outputs_in greedy_l \/ exists change, outputs b = outputs_in greedy_l ++ [change]).
Proof.
  destruct C70_ex_keys as (K1 & K2 & K3). destruct C70_ex_args as [A1 A2].
  destruct (C88_loss_is_final Z ex_H ex_H224 ex_verifies ex_pub1 ex_sgn1 10%nat greedy_l (ex_dummies 4) [1; 2; 9; 4] ex_node K1 K2 K3) as (b0 & bare & full & R0 & Z0 & Z1 & G).
  - lia.
  - reflexivity.
  - do 4 (constructor; [split; apply bytesN_b; reflexivity|]). constructor.
  - repeat (constructor; [cbn [In map]; intros Q; repeat (destruct Q as [Q|Q]; [discriminate Q|]); exact Q|]). constructor.
  - unfold greedy_l, ex_l. cbn [app]. repeat (apply Forall_cons; [exact I|]). apply Forall_nil.
  - apply Forall_app. split; [exact A1|]. constructor; [|constructor]. cbn [Props_Node.call_ok]. split; [apply text_b; reflexivity|unfold lovelace; lia].
  - apply Forall_app. split; [exact A2|]. constructor; [|constructor]. cbn [truthful ex_node n_min_utxo]. lia.
  - intros a I. apply in_greedy in I as [I|I]; [|discriminate I]. unfold ex_l in I. cbn [In] in I. repeat (destruct I as [I|I]; [discriminate I|]); destruct I.
  - reflexivity.
  - discriminate.
  - constructor; [|repeat constructor; intros []]. intros [I|[]]. discriminate I.
  - repeat constructor; intros [].
  - vm_compute. discriminate.
  - reflexivity.
  - cbn; lia.
  - cbn; lia.
  - cbn; lia.
  - intros h M. apply C70_ex_signers. unfold must_sign in *.
    destruct M as [(u & v & I & U)|[(a & v & I & U)|[(a & p & I & U)|[(a & I & U)|[(p & e & I & U)|(p & d & I & U)]]]]]; apply in_greedy in I as [I|I]; try discriminate I.
    + left; eauto. + right; left; eauto. + right; right; left; eauto. + right; right; right; left; eauto. + do 4 right; left; eauto. + do 5 right; eauto.
  - cbv [greedy_l ex_l deposits_in map concat app]. repeat constructor; lia.
  - cbv [greedy_l ex_l inputs_in withdrawals_in map concat app u_value ex_utxo snd]. repeat constructor; lia.
  - vm_compute. reflexivity.
  - vm_compute. reflexivity.
  - cbv [greedy_l ex_l outputs_in map concat app length]. lia.
  - assert (E0 : 0 <= bare <= 2000 /\ 0 <= full <= 2000 /\ zlen (b_change b0) = 29).
    { destruct (do_calls ex_H ex_pub1 ex_sgn1 10 new_builder greedy_l) as [[b0'| |]|] eqn:E; try discriminate R0. assert (b0' = b0) by congruence. subst b0'. vm_compute in E. injection E as <-.
      split; [|split; [|reflexivity]]; [destruct Z0 as (s & S & <-)|destruct Z1 as (s & S & <-)]; vm_compute in S; injection S as <-; vm_compute; split; discriminate. }
    destruct E0 as (E0 & E1 & E2). destruct G as (b & s & R & S & AC & KE & _).
    + cbn [ex_node n_fee_a n_fee_b]. rewrite E2. lia.
    + cbn [ex_node n_fee_a n_fee_b]. change (total (deposits_in greedy_l)) with 502000000. change (total (map u_value (inputs_in greedy_l)) + total (map snd (withdrawals_in greedy_l))) with 607500000. lia.
    + exists b, s. split; [exact R|]. split; [exact S|]. split; [intros L; apply AC; [exact L|reflexivity]|].
      rewrite KE. cbn [ex_node n_fee_a n_fee_b]. change (total (map to_amount (outputs_in greedy_l))) with 303000000. change (total (deposits_in greedy_l)) with 502000000. change (total (map u_value (inputs_in greedy_l)) + total (map snd (withdrawals_in greedy_l))) with 607500000. lia.
Qed.
