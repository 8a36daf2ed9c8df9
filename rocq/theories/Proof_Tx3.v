From Verif Require Import Base BaseLemmas Model_Hex Spec_Cbor Model_Cbor Proof_Cbor Model_Address Model_Ledger Spec_Ledger Proof_Ledger Proof_Ledger2 Model_Tx Proof_Tx Proof_Tx2.
From Coq Require Import Sorted Permutation.
Ltac Zify.zify_post_hook ::= idtac.

(** ** More fuel changes nothing *)
Lemma fee_loop_more fuel : forall a b t calc r k, fee_loop fuel a b t calc = Some r -> (fuel <= k)%nat -> fee_loop k a b t calc = Some r.
Proof.
  induction fuel as [|n IH]; intros a b t calc r k H L; cbn [fee_loop] in H.
  - destruct k; cbn [fee_loop]; destruct (calc =? tx_fee t); try discriminate; exact H.
  - destruct k as [|k]; [lia|]. cbn [fee_loop]. destruct (calc =? tx_fee t); [exact H|]. cbv zeta in *.
    destruct (fee_once a b (tx_set_fee t calc)) as [c| |]; cbn [lift rbind] in *; try exact H. apply IH; [exact H|lia].
Qed.
Lemma calc_more fuel b d r k : calculate_fee fuel b d = Some r -> (fuel <= k)%nat -> calculate_fee k b d = Some r.
Proof.
  unfold calculate_fee. cbv zeta. destruct (fee_once _ _ _) as [c| |]; cbn [lift rbind]; intros H L; try exact H. exact (fee_loop_more _ _ _ _ _ _ _ H L).
Qed.

(** ** Witness contents *)
Lemma fee_loop_indep fuel : forall a b t t' calc, (forall f, tx_size (tx_set_fee t f) = tx_size (tx_set_fee t' f)) -> tx_fee t = tx_fee t' -> fee_loop fuel a b t calc = fee_loop fuel a b t' calc.
Proof.
  induction fuel as [|n IH]; intros a b t t' calc S F; cbn [fee_loop]; rewrite F; destruct (calc =? tx_fee t'); try reflexivity.
  cbv zeta. unfold fee_once. rewrite (S calc). destruct (tx_size (tx_set_fee t' calc)); cbn [bind lift rbind]; try reflexivity. apply IH; [|reflexivity].
  intros f. rewrite !set_fee_twice. apply S.
Qed.
Lemma calc_indep fuel b d d' : Forall vkey_wf d -> Forall vkey_wf d' -> length d = length d' -> calculate_fee fuel b d = calculate_fee fuel b d'.
Proof.
  intros W W' L. unfold calculate_fee. cbv zeta. unfold fee_once. rewrite (tx_size_indep (b_tx b) d d' W W' L). destruct (tx_size (set_vkeys (b_tx b) d')); cbn [bind lift rbind]; try reflexivity.
  apply fee_loop_indep; [|reflexivity]. intros f. exact (tx_size_indep (tx_set_fee (b_tx b) f) d d' W W' L).
Qed.

(** ** Amounts stay in range *)
Definition in_range (l : list txout) : Prop := Forall (fun o => 0 <= to_amount o < 2 ^ 63) l.
Lemma to_i64_small z : 0 <= z < 2 ^ 63 -> to_i64 z = z.
Proof. intros B. unfold to_i64. cbv zeta. rewrite Z.mod_small by lia. destruct (Z.ltb_spec z (2 ^ 63)); lia. Qed.
Lemma in_range_sum l : in_range l -> map (fun o => to_i64 (to_amount o)) l = map to_amount l.
Proof. induction 1 as [|o l H _ IH]; [reflexivity|]. cbn [map]. rewrite IH, to_i64_small by exact H. reflexivity. Qed.
Lemma balance_range fuel d force left : forall i b b', 0 <= b_min_utxo b -> in_range (tb_outputs (body_of b)) -> balance_loop fuel left i b d force = Some (Ok b') -> in_range (tb_outputs (body_of b')).
Proof.
  induction left as [|left IH]; intros i b b' MU R H; cbn [balance_loop] in H; [discriminate|].
  apply rbind_ok in H as (b1 & U & H). apply update_inv in U as (c & -> & _). apply rbind_ok in H as (out & _ & H). apply rbind_ok in H as (change & S & H). cbn in S. injection S as S. apply ssub_ok in S as [_ SB].
  change (tb_outputs (body_of (set_fee b c))) with (tb_outputs (body_of b)) in H. change (b_min_utxo (set_fee b c)) with (b_min_utxo b) in H.
  destruct (change =? 0); [cbn in H; injection H as <-; exact R|].
  destruct (Z.ltb_spec change 0).
  - destruct (split_last (tb_outputs (body_of b))) as [[ini lst]|] eqn:SL; [|discriminate]. apply split_last_spec in SL. rewrite SL in R. apply Forall_app in R as [R1 R2].
    apply rbind_ok in H as (na & EA & H). cbn in EA. injection EA as EA. apply sadd_ok in EA as [_ EB]. destruct (Z.ltb_spec na (b_min_utxo b)); (eapply IH; [| |exact H]); try exact MU; [exact R1|].
    apply Forall_app. split; [exact R1|]. constructor; [|constructor]. cbn [to_amount]. unfold to_u64. rewrite Z.mod_small by lia. lia.
  - destruct ((i =? 0) && _).
    + eapply IH; [| |exact H]; [exact MU|]. apply Forall_app. split; [exact R|]. constructor; [|constructor]. cbn [to_amount]. unfold to_u64. rewrite Z.mod_small by lia. lia.
    + destruct force; [|eapply IH; [| |exact H]; [exact MU|exact R]]. cbv zeta in H. apply rbind_ok in H as (c2 & _ & H). destruct (_ <? _) in H; [discriminate|]. cbn in H. injection H as <-. exact R.
Qed.
Lemma to_i64_congr z : exists k, to_i64 z = z + k * 2 ^ 64.
Proof. unfold to_i64. cbv zeta. pose proof (Z.div_mod z (2 ^ 64) ltac:(lia)). destruct (_ <? _); [exists (- (z / 2 ^ 64))|exists (- (z / 2 ^ 64) - 1)]; lia. Qed.
Lemma balance_in_range fuel d force b b' : 0 <= b_min_utxo b -> in_range (tb_outputs (body_of b)) -> balance fuel b d force = Some (Ok b') -> in_range (tb_outputs (body_of b')).
Proof. unfold balance. generalize 100%nat. intros n MU R H. exact (balance_range _ _ _ _ _ _ _ MU R H). Qed.
Lemma balance_conserves fuel d force b b' : 0 <= b_min_utxo b -> in_range (tb_outputs (body_of b)) -> balance fuel b d force = Some (Ok b') -> 0 <= tb_fee (body_of b') < 2 ^ 63 ->
  b_input_total b = b_deposit_total b + tb_fee (body_of b') + zsum (map to_amount (tb_outputs (body_of b'))).
Proof.
  intros MU R H FB. assert (R' : in_range (tb_outputs (body_of b'))) by exact (balance_in_range _ _ _ _ _ MU R H).
  apply balance_spec in H. destruct H as [f o E T FE|f o f0 out c FO E FE T CB EF C LE].
  - apply total_val in T. subst b'. unfold amounts in T. rewrite (in_range_sum _ R'), (to_i64_small _ FB) in T. exact T.
  - apply total_val in T. unfold amounts in T. subst b'. change (tb_outputs (body_of (set_outputs (set_fee b f0) o))) with o in T. change (tb_outputs (body_of (set_outputs (set_fee b f) o))) with o in *.
    rewrite (in_range_sum _ R') in T. change (tb_fee (body_of (set_outputs (set_fee b f0) o))) with f0 in T. change (tb_fee (body_of (set_outputs (set_fee b f) o))) with f in *.
    change (b_deposit_total (set_outputs (set_fee b f0) o)) with (b_deposit_total b) in T.
    assert (F0 : 0 <= f0 < 2 ^ 64). { unfold fees, fee_once in FE. apply bind_ok in FE as (n & _ & FE). injection FE as <-. unfold to_u64. apply Z.mod_pos_bound. lia. }
    assert (EF' : f = to_i64 f0 + (b_input_total b - out)); [|lia].
    unfold to_u64 in EF. rewrite (Z.mod_small (b_input_total b - out)) in EF by lia. unfold to_i64. cbv zeta. rewrite (Z.mod_small f0) by exact F0. destruct (Z.ltb_spec f0 (2 ^ 63)).
    + rewrite EF. apply Z.mod_small. lia.
    + destruct (Z.lt_ge_cases (f0 + (b_input_total b - out)) (2 ^ 64)); [rewrite Z.mod_small in EF by lia; lia|].
      rewrite EF. replace (f0 + (b_input_total b - out)) with (f0 - 2 ^ 64 + (b_input_total b - out) + 1 * 2 ^ 64) by lia. rewrite Z.mod_add, Z.mod_small by lia. reflexivity.
Qed.
Lemma balance_shape fuel d force b b' : balance fuel b d force = Some (Ok b') -> exists f o, b' = set_outputs (set_fee b f) o.
Proof. intros H. apply balance_spec in H. destruct H as [f o E _ _|f o f0 out c _ E _ _ _ _ _ _]; exists f, o; exact E. Qed.

(** ** Sorted containers *)
Lemma insert_twice {A} (lt : A -> A -> bool) x l : (forall y, lt y y = false) -> set_insert lt x (set_insert lt x l) = set_insert lt x l.
Proof.
  intros IR. induction l as [|y l IH]; cbn [set_insert]; [rewrite IR; reflexivity|]. destruct (lt x y) eqn:E; [cbn [set_insert]; rewrite IR; reflexivity|].
  destruct (lt y x) eqn:E2; cbn [set_insert]; rewrite E, E2; [rewrite IH; reflexivity|reflexivity].
Qed.
Lemma assign_twice k (v w : Z) l : map_assign k w (map_assign k v l) = map_assign k w l.
Proof.
  pose proof (st_irr _ lex_st) as IR. induction l as [|[k' v'] l IH]; cbn [map_assign]; [rewrite IR; reflexivity|]. destruct (lex_lt k k') eqn:E; [cbn [map_assign]; rewrite IR; reflexivity|].
  destruct (lex_lt k' k) eqn:E2; cbn [map_assign]; rewrite E, E2; [rewrite IH; reflexivity|reflexivity].
Qed.
Lemma insert_perm x l : ~ In x l -> Permutation (set_insert txin_lt x l) (x :: l).
Proof.
  induction l as [|y l IH]; intros N; cbn [set_insert]; [reflexivity|]. destruct (txin_lt x y) eqn:E; [reflexivity|]. destruct (txin_lt y x) eqn:E2.
  - etransitivity; [apply perm_skip, IH; intros I; apply N; right; exact I|apply perm_swap].
  - exfalso. apply N. left. symmetry. exact (st_total _ txin_st _ _ E E2).
Qed.
Lemma assign_perm k (v : Z) l : ~ In k (map fst l) -> Permutation (map_assign k v l) ((k, v) :: l).
Proof.
  induction l as [|[k' v'] l IH]; intros N; cbn [map_assign]; [reflexivity|]. destruct (lex_lt k k') eqn:E; [reflexivity|]. destruct (lex_lt k' k) eqn:E2.
  - etransitivity; [apply perm_skip, IH; intros I; apply N; right; exact I|apply perm_swap].
  - exfalso. apply N. left. symmetry. exact (st_total _ lex_st _ _ E E2).
Qed.
