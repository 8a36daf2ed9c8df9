(** C75: balancing a transaction whose inputs cover what it pays. *)
From Verif Require Import Base BaseLemmas Spec_Cbor Model_Cbor Proof_Cbor Model_Address Spec_Ledger Model_Ledger Proof_Ledger Proof_Ledger2 Model_Tx Spec_Tx Proof_Tx Proof_Tx2 Proof_Tx3 Props_Ledger Props_Tx.
Ltac Zify.zify_post_hook ::= idtac.

(** ** Specification *)
(** The size of the transaction with outputs [os], a fee of five bytes and the expected number of witnesses. *)
Definition sized (b : builder) (dummies : list (list Z * list Z)) (os : list txout) (n : Z) : Prop :=
  let x := tx_body (b_tx b) in
  size_of {| tx_body := {| tb_inputs := tb_inputs x; tb_outputs := os; tb_fee := 2 ^ 16; tb_ttl := tb_ttl x; tb_certs := tb_certs x; tb_withdrawals := tb_withdrawals x; tb_metadata_hash := tb_metadata_hash x |};
             tx_wits := {| ws_vkeys := dummies; ws_scripts := ws_scripts (tx_wits (b_tx b)); ws_bootstrap := ws_bootstrap (tx_wits (b_tx b)) |}; tx_meta := tx_meta (b_tx b) |} n.
(** What is left of the inputs after outputs, deposits and the fee of a transaction of [n] bytes. *)
Definition left_over (b : builder) (n : Z) : Z :=
  b_input_total b - total (map to_amount (outputs b)) - b_deposit_total b - (b_fee_a b * n + b_fee_b b).
Definition to_change (b : builder) (amount : Z) : txout := {| to_addr := b_change b; to_amount := amount |}.
(** The builder [b'] differs from [b] in its outputs and its fee, and has no signatures. *)
Definition rebalanced (b b' : builder) (os : list txout) (fee : Z) : Prop :=
  let x := tx_body (b_tx b) in
  b' = {| b_tx := {| tx_body := {| tb_inputs := tb_inputs x; tb_outputs := os; tb_fee := fee; tb_ttl := tb_ttl x; tb_certs := tb_certs x; tb_withdrawals := tb_withdrawals x; tb_metadata_hash := tb_metadata_hash x |};
                     tx_wits := {| ws_vkeys := []; ws_scripts := ws_scripts (tx_wits (b_tx b)); ws_bootstrap := ws_bootstrap (tx_wits (b_tx b)) |}; tx_meta := tx_meta (b_tx b) |};
          b_change := b_change b; b_fee_a := b_fee_a b; b_fee_b := b_fee_b b; b_min_utxo := b_min_utxo b; b_input_total := b_input_total b; b_deposit_total := b_deposit_total b |}.

(** ** Proof *)
Section Fund.
Variable b : builder.
Variable d : list (list Z * list Z).
Variable cs : list cbor.
Variable fuel : nat.
Hypothesis FU : (7 <= fuel)%nat.
Hypothesis CS : mapM cert_ser (tb_certs (body_of b)) = Ok cs.
Hypothesis A : 0 <= b_fee_a b.
Hypothesis B : 2 ^ 16 <= b_fee_b b.
Definition sz (o : list txout) : Z := base_sz (set_vkeys (b_tx b) d) cs + outs_sz o + 5.
Definition cost (o : list txout) : Z := b_fee_a b * sz o + b_fee_b b.
Definition at_ (o : list txout) (f : Z) : builder := set_outputs (set_fee b f) o.
Definition small_cost (o : list txout) : Prop := b_fee_a b * (sz o + 4) + b_fee_b b < 2 ^ 32.

Lemma hl5 f : 2 ^ 16 <= f < 2 ^ 32 -> hl f = 5.
Proof using. clear FU CS A B. intros R. unfold hl. destruct (Z.ltb_spec f 24), (Z.ltb_spec f (2 ^ 8)), (Z.ltb_spec f (2 ^ 16)), (Z.ltb_spec f (2 ^ 32)); lia. Qed.
Lemma sz_pos o : 5 <= sz o.
Proof using. clear FU CS A B. unfold sz. pose proof (base_sz_nonneg (set_vkeys (b_tx b) d) cs). pose proof (outs_sz_nonneg o). lia. Qed.
Lemma at_fits o f : small_cost o -> fits (at_ o f) d cs.
Proof.
  unfold small_cost. intros S. assert (E : size_k (at_ o f) d cs = sz o - 5) by (unfold sz, size_k; change (base_sz (set_vkeys (b_tx (at_ o f)) d) cs) with (base_sz (set_vkeys (b_tx b) d) cs); change (tb_outputs (body_of (at_ o f))) with o; lia).
  constructor; [exact CS|exact A|change (b_fee_b (at_ o f)) with (b_fee_b b); lia|]. rewrite E. change (b_fee_a (at_ o f)) with (b_fee_a b). change (b_fee_b (at_ o f)) with (b_fee_b b). lia.
Qed.
Lemma fee_fix o f c : small_cost o -> c = Fee (at_ o f) d cs c -> c = cost o.
Proof.
  intros S E. unfold Fee, F in E. change (b_fee_a (at_ o f)) with (b_fee_a b) in E. change (b_fee_b (at_ o f)) with (b_fee_b b) in E.
  change (size_k (at_ o f) d cs) with (base_sz (set_vkeys (b_tx b) d) cs + outs_sz o) in E. unfold small_cost, sz in S. unfold cost, sz.
  pose proof (hl_range c) as HR. pose proof (base_sz_nonneg (set_vkeys (b_tx b) d) cs). pose proof (outs_sz_nonneg o). rewrite (hl5 c) in E by nia. lia.
Qed.
Lemma update_at o f : small_cost o -> update_fee fuel (at_ o f) d = Some (Ok (at_ o (cost o))).
Proof. intros S. destruct (update_ok (at_ o f) d cs fuel (at_fits o f S) FU) as (c & E & FC). rewrite E. apply fee_fix in FC; [|exact S]. subst c. reflexivity. Qed.
Lemma calc_at o f : small_cost o -> calculate_fee fuel (at_ o f) d = Some (Ok (cost o)).
Proof. intros S. destruct (calc_ok (at_ o f) d cs fuel (at_fits o f S) ltac:(lia)) as (c & E & FC). rewrite E. apply fee_fix in FC; [|exact S]. subst c. reflexivity. Qed.
Lemma cost_range o : small_cost o -> 2 ^ 16 <= cost o < 2 ^ 32.
Proof. unfold small_cost, cost. intros S. pose proof (sz_pos o). nia. Qed.
Lemma sadd_is x y : - 2 ^ 63 <= x + y < 2 ^ 63 -> sadd x y = Ok (x + y).
Proof. intros R. unfold sadd, in_i64. destruct (Z.leb_spec (- 2 ^ 63) (x + y)), (Z.ltb_spec (x + y) (2 ^ 63)); try lia. reflexivity. Qed.
Lemma ssub_is x y : - 2 ^ 63 <= x - y < 2 ^ 63 -> ssub x y = Ok (x - y).
Proof. intros R. unfold ssub, in_i64. destruct (Z.leb_spec (- 2 ^ 63) (x - y)), (Z.ltb_spec (x - y) (2 ^ 63)); try lia. reflexivity. Qed.
Lemma fold_is o : in_range o -> forall t, 0 <= t -> t + zsum (map to_amount o) < 2 ^ 63 ->
  fold_left (fun acc x => let* acc := acc in sadd acc (to_i64 (to_amount x))) o (Ok t) = Ok (t + zsum (map to_amount o)).
Proof.
  induction 1 as [|x o X R IH]; intros t T L; cbn [fold_left map zsum fold_right] in *; [f_equal; lia|]. cbn [bind].
  change (fold_right Z.add 0 (map to_amount o)) with (zsum (map to_amount o)) in *. assert (0 <= zsum (map to_amount o)) by (apply zsum_nonneg; apply Forall_map; eapply Forall_impl; [|exact R]; cbn; intros; lia).
  rewrite (to_i64_small _ X), sadd_is by lia. rewrite IH by lia. f_equal. lia.
Qed.
Lemma total_at o f : in_range o -> 0 <= f < 2 ^ 63 -> 0 <= b_deposit_total b -> b_deposit_total b + f + zsum (map to_amount o) < 2 ^ 63 ->
  total_outgoing (at_ o f) = Ok (b_deposit_total b + f + zsum (map to_amount o)).
Proof.
  intros R F0 D L. assert (0 <= zsum (map to_amount o)) by (apply zsum_nonneg; apply Forall_map; eapply Forall_impl; [|exact R]; cbn; intros; lia).
  unfold total_outgoing. change (tb_fee (body_of (at_ o f))) with f. change (b_deposit_total (at_ o f)) with (b_deposit_total b). change (tb_outputs (body_of (at_ o f))) with o.
  rewrite (to_i64_small f F0), sadd_is by lia. cbn [bind]. apply fold_is; [exact R|lia|lia].
Qed.
Definition spare (o : list txout) : Z := b_input_total b - (b_deposit_total b + cost o + zsum (map to_amount o)).
Definition fine (o : list txout) : Prop := small_cost o /\ in_range o /\ b_deposit_total b + cost o + zsum (map to_amount o) < 2 ^ 63.
(** One iteration. *)
Lemma iter k i o f force : 0 <= b_deposit_total b -> 0 <= b_input_total b < 2 ^ 63 -> fine o ->
  balance_loop fuel (S k) i (at_ o f) d force =
  if spare o =? 0 then Some (Ok (at_ o (cost o)))
  else if spare o <? 0 then
    match split_last o with
    | None => Some Throw
    | Some (init, last) =>
        let! new_amt := lift (sadd (to_i64 (to_amount last)) (spare o)) in
        if new_amt <? b_min_utxo b then balance_loop fuel k (i + 1) (at_ init (cost o)) d force
        else balance_loop fuel k (i + 1) (at_ (init ++ [{| to_addr := to_addr last; to_amount := to_u64 new_amt |}]) (cost o)) d force
    end
  else if (i =? 0) && (b_min_utxo b <? spare o) then balance_loop fuel k (i + 1) (at_ (o ++ [to_change b (to_u64 (spare o))]) (cost o)) d force
  else if force then
    (let! c := calculate_fee fuel (at_ o (to_u64 (cost o + to_u64 (spare o)))) d in
     if to_u64 (cost o + to_u64 (spare o)) <? c then Some Throw else Some (Ok (at_ o (to_u64 (cost o + to_u64 (spare o))))))
  else balance_loop fuel k (i + 1) (at_ o (cost o)) d force.
Proof.
  intros D IT (S & R & L). cbn [balance_loop]. rewrite (update_at o f S). cbn [rbind]. pose proof (cost_range o S).
  assert (0 <= zsum (map to_amount o)) by (apply zsum_nonneg; apply Forall_map; eapply Forall_impl; [|exact R]; cbn; intros; lia).
  rewrite (total_at o (cost o) R) by lia. unfold lift at 1. cbn [rbind]. change (b_input_total (at_ o (cost o))) with (b_input_total b).
  rewrite ssub_is by lia. unfold lift at 1. cbn [rbind]. fold (spare o).
  change (tb_outputs (body_of (at_ o (cost o)))) with o. change (b_min_utxo (at_ o (cost o))) with (b_min_utxo b). change (tb_fee (body_of (at_ o (cost o)))) with (cost o).
  change (b_change (at_ o (cost o))) with (b_change b).
  destruct (spare o =? 0); [reflexivity|]. destruct (spare o <? 0); [reflexivity|]. destruct ((i =? 0) && (b_min_utxo b <? spare o)); [reflexivity|]. destruct force; reflexivity.
Qed.
(** Too little for a change output, without force: nothing changes any more. *)
Lemma stuck o : 0 <= b_deposit_total b -> 0 <= b_input_total b < 2 ^ 63 -> fine o -> 0 < spare o ->
  forall k i f, (0 < i \/ spare o <= b_min_utxo b) -> 0 <= i -> balance_loop fuel k i (at_ o f) d false = Some Throw.
Proof.
  intros D IT FI P. induction k as [|k IH]; intros i f G I; [reflexivity|]. rewrite (iter k i o f false D IT FI).
  destruct (Z.eqb_spec (spare o) 0); [lia|]. destruct (Z.ltb_spec (spare o) 0); [lia|].
  destruct (Z.eqb_spec i 0), (Z.ltb_spec (b_min_utxo b) (spare o)); cbn [andb]; try lia; apply IH; lia.
Qed.
(** The same with force: the rest goes to the fee. *)
Lemma forced o k i f : 0 <= b_deposit_total b -> 0 <= b_input_total b < 2 ^ 63 -> fine o -> 0 < spare o -> (0 < i \/ spare o <= b_min_utxo b) -> 0 <= i -> cost o + spare o < 2 ^ 32 ->
  balance_loop fuel (S k) i (at_ o f) d true = Some (Ok (at_ o (cost o + spare o))).
Proof.
  intros D IT FI P G I W. rewrite (iter k i o f true D IT FI). destruct (Z.eqb_spec (spare o) 0); [lia|]. destruct (Z.ltb_spec (spare o) 0); [lia|].
  pose proof (cost_range o (proj1 FI)) as CR. replace (to_u64 (cost o + to_u64 (spare o))) with (cost o + spare o) by (unfold to_u64; rewrite !Z.mod_small; lia).
  rewrite (calc_at o _ (proj1 FI)). cbn [rbind]. destruct (Z.ltb_spec (cost o + spare o) (cost o)); [lia|].
  destruct (Z.eqb_spec i 0), (Z.ltb_spec (b_min_utxo b) (spare o)); cbn [andb]; try lia; reflexivity.
Qed.

Lemma zsum_push o x : zsum (map to_amount (o ++ [x])) = zsum (map to_amount o) + to_amount x.
Proof. rewrite map_app, zsum_app. cbn [map zsum fold_right]. lia. Qed.
Lemma funded k f o force : 0 <= b_deposit_total b -> 0 <= b_input_total b < 2 ^ 62 -> 0 <= b_min_utxo b -> in_range o -> 0 <= spare o ->
  b_min_utxo b + b_fee_a b * (sz o + zlen (b_change b) + 40) + b_fee_b b < 2 ^ 32 ->
  let rest := spare o in let o1 := o ++ [to_change b rest] in let change := rest - (cost o1 - cost o) in let o2 := o ++ [to_change b change] in
  balance_loop fuel (S (S (S k))) 0 (at_ o f) d force =
  if (b_min_utxo b <? rest) && (b_min_utxo b <=? change) then (if force || (cost o2 =? cost o1) then Some (Ok (at_ o2 (cost o1))) else Some Throw)
  else if force || (rest =? 0) then Some (Ok (at_ o (cost o + rest))) else Some Throw.
Proof.
  intros D IT MU R RE M rest o1 change o2. pose proof (sz_pos o) as SP. pose proof (zlen_nonneg (b_change b)) as ZC.
  assert (S0 : small_cost o) by (unfold small_cost; nia).
  pose proof (cost_range o S0) as C0. assert (0 <= zsum (map to_amount o)) by (apply zsum_nonneg; apply Forall_map; eapply Forall_impl; [|exact R]; cbn; intros; lia).
  assert (F0 : fine o) by (unfold spare in RE; split; [exact S0|split; [exact R|lia]]).
  assert (RB : 0 <= rest < 2 ^ 62) by (unfold rest, spare in *; lia).
  assert (Z1 : forall v, sz o <= sz (o ++ [to_change b v]) <= sz o + zlen (b_change b) + 23).
  { intros v. unfold sz. pose proof (outs_pop o (to_change b v)). pose proof (outs_push o (to_change b v)) as X. rewrite osz_eq in X. cbn [to_addr to_amount to_change] in X.
    pose proof (hl_range (zlen (b_change b))). pose proof (hl_range v). lia. }
  assert (S1 : forall v, small_cost (o ++ [to_change b v]) /\ b_min_utxo b + cost (o ++ [to_change b v]) < 2 ^ 32 /\ cost o <= cost (o ++ [to_change b v])).
  { intros v. specialize (Z1 v). unfold small_cost, cost. split; [nia|]. split; nia. }
  assert (D1 : 0 <= cost o1 - cost o < 2 ^ 32) by (destruct (S1 rest) as (_ & X & Y); unfold o1; lia).
  assert (F1 : fine o1). { split; [apply S1|]. split; [unfold o1; apply Forall_app; split; [exact R|constructor; [cbn [to_change to_amount]; lia|constructor]]|]. unfold o1 at 2. rewrite zsum_push. cbn [to_change to_amount]. unfold rest, spare in *. lia. }
  assert (P1 : spare o1 = - (cost o1 - cost o)). { unfold spare. unfold o1 at 2. rewrite zsum_push. cbn [to_change to_amount]. unfold rest, spare. lia. }
  rewrite (iter (S (S k)) 0 o f force D ltac:(lia) F0). fold rest. change (0 + 1) with 1. change (0 =? 0) with true. cbn [andb].
  destruct (Z.eqb_spec rest 0) as [E0|N0].
  { destruct (Z.ltb_spec (b_min_utxo b) rest); [lia|]. cbn [andb]. rewrite orb_true_r, E0, Z.add_0_r. reflexivity. }
  destruct (Z.ltb_spec rest 0); [lia|]. rewrite orb_false_r.
  assert (U : to_u64 rest = rest) by (unfold to_u64; apply Z.mod_small; lia). rewrite U.
  destruct (Z.ltb_spec (b_min_utxo b) rest) as [BIG|SMALL]; cbn [andb].
  2: { assert (E : (if force then let! c := calculate_fee fuel (at_ o (to_u64 (cost o + rest))) d in (if to_u64 (cost o + rest) <? c then Some Throw else Some (Ok (at_ o (to_u64 (cost o + rest))))) else balance_loop fuel (S (S k)) 1 (at_ o (cost o)) d force)
        = if force then Some (Ok (at_ o (cost o + rest))) else Some Throw); [|exact E].
       destruct force; [|apply stuck; try assumption; fold rest; lia].
       pose proof (forced o (S (S k)) 0 f D ltac:(lia) F0 ltac:(fold rest; lia) ltac:(fold rest; lia) ltac:(lia) ltac:(fold rest; destruct (S1 rest) as (_ & X & Y); lia)) as E. fold rest in E. rewrite <- E.
       rewrite (iter (S (S k)) 0 o f true D ltac:(lia) F0). fold rest. destruct (Z.eqb_spec rest 0); [lia|]. destruct (Z.ltb_spec rest 0); [lia|]. destruct (Z.ltb_spec (b_min_utxo b) rest); [lia|]. cbn [andb Z.eqb]. rewrite U. reflexivity. }
  fold o1. rewrite (iter (S k) 1 o1 (cost o) force D ltac:(lia) F1). rewrite P1.
  destruct (Z.eqb_spec (- (cost o1 - cost o)) 0) as [E1|N1].
  { assert (change = rest) by (unfold change; lia). assert (o2 = o1) by (unfold o2, o1; congruence). replace (b_min_utxo b <=? change) with true by (symmetry; apply Z.leb_le; lia).
    replace (cost o2 =? cost o1) with true by (symmetry; apply Z.eqb_eq; congruence). rewrite orb_true_r. congruence. }
  destruct (Z.ltb_spec (- (cost o1 - cost o)) 0); [|lia]. unfold o1 at 1. rewrite split_last_app. cbn [to_change to_amount to_addr].
  rewrite to_i64_small, sadd_is by lia. unfold lift. cbn [rbind]. replace (rest + - (cost o1 - cost o)) with change by (unfold change; lia). change (1 + 1) with 2.
  destruct (Z.ltb_spec change (b_min_utxo b)) as [LOW|HIGH].
  { destruct (Z.leb_spec (b_min_utxo b) change); [lia|]. destruct force.
    - rewrite (forced o k 2 (cost o1) D ltac:(lia) F0); fold rest; try lia; [reflexivity|]. destruct (S1 rest) as (_ & X & Y). fold o1 in X. unfold change in LOW. lia.
    - rewrite (stuck o D ltac:(lia) F0); fold rest; try lia. reflexivity. }
  destruct (Z.leb_spec (b_min_utxo b) change); [|lia]. assert (U2 : to_u64 change = change) by (unfold to_u64, change; apply Z.mod_small; unfold change in *; lia). rewrite U2.
  change {| to_addr := b_change b; to_amount := change |} with (to_change b change). fold o2.
  assert (C2 : cost o2 <= cost o1). { unfold cost. assert (sz o2 <= sz o1); [|nia]. unfold sz, o1, o2. pose proof (outs_shrink o (to_change b rest) (to_change b change) eq_refl ltac:(cbn [to_change to_amount]; unfold change; lia)). lia. }
  assert (P2 : spare o2 = cost o1 - cost o2). { unfold spare. unfold o2 at 2. rewrite zsum_push. cbn [to_change to_amount]. unfold change, rest, spare. lia. }
  assert (F2 : fine o2). { split; [apply S1|]. split; [unfold o2; apply Forall_app; split; [exact R|constructor; [cbn [to_change to_amount]; unfold change in *; lia|constructor]]|]. unfold o2 at 2. rewrite zsum_push. cbn [to_change to_amount]. unfold change, rest, spare in *. lia. }
  destruct (Z.eqb_spec (cost o2) (cost o1)) as [EQ|NE].
  - rewrite (iter k 2 o2 (cost o1) force D ltac:(lia) F2). rewrite P2. destruct (Z.eqb_spec (cost o1 - cost o2) 0); [|lia]. rewrite orb_true_r. congruence.
  - rewrite orb_false_r. destruct force.
    + rewrite (forced o2 k 2 (cost o1) D ltac:(lia) F2); try lia; [do 3 f_equal; lia|]. destruct (S1 rest) as (_ & X & Y). fold o1 in X. lia.
    + apply stuck; try assumption; lia.
Qed.
End Fund.

Lemma sized_sz b d os n : sized b d os n -> exists cs, mapM cert_ser (tb_certs (body_of b)) = Ok cs /\ n = sz b d cs os.
Proof.
  unfold sized. cbv zeta. intros S. apply size_of_iff in S. apply tx_size_inv in S as (cs & C & N). exists cs. split; [exact C|]. rewrite N. unfold sz. cbn [tx_body tb_outputs]. reflexivity.
Qed.
Lemma sized_is b d cs os : mapM cert_ser (tb_certs (body_of b)) = Ok cs -> sized b d os (sz b d cs os).
Proof. intros C. unfold sized. cbv zeta. apply size_of_iff. rewrite (tx_size_eq _ cs) by exact C. reflexivity. Qed.
Lemma in_range_nonneg o : in_range o -> 0 <= zsum (map to_amount o).
Proof. intros R. apply zsum_nonneg. apply Forall_map. eapply Forall_impl; [|exact R]. cbn. intros. lia. Qed.
Lemma rebalanced_at b os f : rebalanced b (at_ b os f) os f. Proof. reflexivity. Qed.

(** ** C75 *)
(** balance() on a transaction whose inputs (and withdrawals) cover outputs, deposits and the fee without a change output.  [n0] is the size without change,
    [rest] what is left over then, [n1] the size with an output of [rest] to the change address, [change] what is left after paying for that output's bytes,
    [n2] the size with an output of [change].
    - If [rest] is above and [change] at least the minimum, [change] is returned to the change address and the fee is that of [n1] bytes;
      without force this needs [n1] and [n2] to cost the same, otherwise balance() throws.
    - Otherwise [rest] is added to the fee if forced (or zero), and balance() throws if not. *)
Theorem C75_balance_funded : forall fuel b dummies force n0, (7 <= fuel)%nat -> sized b dummies (outputs b) n0 ->
  0 <= b_fee_a b -> 2 ^ 16 <= b_fee_b b -> 0 <= b_min_utxo b -> b_min_utxo b + b_fee_a b * (n0 + zlen (b_change b) + 40) + b_fee_b b < 2 ^ 32 ->
  Forall (fun o => lovelace (to_amount o)) (outputs b) -> 0 <= b_deposit_total b -> b_input_total b < 2 ^ 62 ->
  let rest := left_over b n0 in 0 <= rest ->
  forall n1, sized b dummies (outputs b ++ [to_change b rest]) n1 ->
  let change := rest - b_fee_a b * (n1 - n0) in
  forall n2, sized b dummies (outputs b ++ [to_change b change]) n2 ->
  (b_min_utxo b < rest /\ b_min_utxo b <= change ->
     (force = true \/ b_fee_a b = 0 \/ n2 = n1 ->
        exists b', balance fuel b dummies force = Some (Ok b') /\ rebalanced b b' (outputs b ++ [to_change b change]) (b_fee_a b * n1 + b_fee_b b)) /\
     (force = false -> b_fee_a b <> 0 -> n2 <> n1 -> balance fuel b dummies force = Some Throw)) /\
  (rest <= b_min_utxo b \/ change < b_min_utxo b ->
     (force = true \/ rest = 0 -> exists b', balance fuel b dummies force = Some (Ok b') /\ rebalanced b b' (outputs b) (b_fee_a b * n0 + b_fee_b b + rest)) /\
     (force = false -> rest <> 0 -> balance fuel b dummies force = Some Throw)).
Proof.
  intros fuel b d force n0 FU Z0 A B MU M LV D IT rest RE n1 Z1 change n2 Z2.
  apply sized_sz in Z0 as (cs & CS & Z0). apply sized_sz in Z1 as (cs1 & CS1 & Z1). apply sized_sz in Z2 as (cs2 & CS2 & Z2).
  assert (cs1 = cs) by congruence. assert (cs2 = cs) by congruence. subst cs1 cs2. clear CS1 CS2.
  assert (ER : spare b d cs (outputs b) = rest).
  { unfold rest, left_over, spare, cost.
    pose proof (total_zsum (map to_amount (outputs b))). rewrite <- Z0. lia. }
  assert (IT0 : 0 <= b_input_total b). { unfold rest, left_over in RE. rewrite total_zsum in RE. pose proof (in_range_nonneg _ LV). pose proof (sz_pos b d cs (outputs b)) as SP. rewrite <- Z0 in SP. assert (0 <= b_fee_a b * n0) by nia. lia. }
  pose proof (funded b d cs fuel FU CS A B 97 (tb_fee (body_of b)) (outputs b) force D ltac:(lia) MU LV ltac:(lia) ltac:(rewrite <- Z0; exact M)) as E. cbv zeta in E. rewrite ER in E.
  assert (EC : rest - (cost b d cs (outputs b ++ [to_change b rest]) - cost b d cs (outputs b)) = change) by (unfold change, cost; rewrite <- Z0, <- Z1; lia). rewrite EC in E.
  assert (C1 : cost b d cs (outputs b ++ [to_change b rest]) = b_fee_a b * n1 + b_fee_b b) by (unfold cost; rewrite <- Z1; reflexivity).
  assert (C2 : cost b d cs (outputs b ++ [to_change b change]) = b_fee_a b * n2 + b_fee_b b) by (unfold cost; rewrite <- Z2; reflexivity).
  assert (C0 : cost b d cs (outputs b) = b_fee_a b * n0 + b_fee_b b) by (unfold cost; rewrite <- Z0; reflexivity). rewrite C1, C2, C0 in E.
  assert (EB : balance fuel b d force = balance_loop fuel 100 0 (at_ b (outputs b) (tb_fee (body_of b))) d force) by (unfold balance; generalize 100%nat; intros k; rewrite balance_eta; reflexivity).
  change (S (S (S 97))) with 100%nat in E. pose proof (eq_trans EB E) as EE. clear E EB. rewrite EE. clear EE. split.
  - intros [P Q]. destruct (Z.ltb_spec (b_min_utxo b) rest); [|lia]. destruct (Z.leb_spec (b_min_utxo b) change); [|lia]. cbn [andb]. split.
    + intros G. replace (force || _) with true. { eexists. split; [reflexivity|]. apply rebalanced_at. } symmetry. apply orb_true_iff. rewrite Z.eqb_eq. destruct G as [->|[->| ->]]; auto.
    + intros -> NA NN. cbn [orb]. destruct (Z.eqb_spec (b_fee_a b * n2 + b_fee_b b) (b_fee_a b * n1 + b_fee_b b)); [|reflexivity]. exfalso. apply NN. nia.
  - intros PQ. replace ((b_min_utxo b <? rest) && (b_min_utxo b <=? change)) with false by (destruct (Z.ltb_spec (b_min_utxo b) rest), (Z.leb_spec (b_min_utxo b) change); cbn [andb]; lia). split.
    + intros G. replace (force || (rest =? 0)) with true. { eexists. split; [reflexivity|]. apply rebalanced_at. } symmetry. apply orb_true_iff. rewrite Z.eqb_eq. tauto.
    + intros -> NR. cbn [orb]. destruct (Z.eqb_spec rest 0); [contradiction|reflexivity].
Qed.
Print Assumptions C75_balance_funded.
(** So with force a funded transaction is always balanced, without touching the caller's outputs, and the surplus fee is below the minimum output plus the
    cost of the change output. *)
Theorem C75_forced_succeeds : forall fuel b dummies n0, (7 <= fuel)%nat -> sized b dummies (outputs b) n0 ->
  0 <= b_fee_a b -> 2 ^ 16 <= b_fee_b b -> 0 <= b_min_utxo b -> b_min_utxo b + b_fee_a b * (n0 + zlen (b_change b) + 40) + b_fee_b b < 2 ^ 32 ->
  Forall (fun o => lovelace (to_amount o)) (outputs b) -> 0 <= b_deposit_total b -> b_input_total b < 2 ^ 62 -> 0 <= left_over b n0 ->
  exists b' os fee, balance fuel b dummies true = Some (Ok b') /\ rebalanced b b' os fee /\
    (os = outputs b \/ exists v, os = outputs b ++ [to_change b v] /\ b_min_utxo b <= v) /\
    exists n, sized b dummies os n /\ b_fee_a b * n + b_fee_b b <= fee <= b_fee_a b * (n + zlen (b_change b) + 23) + b_fee_b b + b_min_utxo b.
Proof.
  intros fuel b d n0 FU Z0 A B MU M LV D IT RE. pose proof (sized_sz _ _ _ _ Z0) as (cs & CS & E0).
  pose proof (sized_is b d cs (outputs b ++ [to_change b (left_over b n0)]) CS) as Z1. set (n1 := sz b d cs (outputs b ++ [to_change b (left_over b n0)])) in Z1.
  set (change := left_over b n0 - b_fee_a b * (n1 - n0)). pose proof (sized_is b d cs (outputs b ++ [to_change b change]) CS) as Z2. set (n2 := sz b d cs (outputs b ++ [to_change b change])) in Z2.
  assert (ZR : forall v, sz b d cs (outputs b) <= sz b d cs (outputs b ++ [to_change b v]) <= sz b d cs (outputs b) + zlen (b_change b) + 23).
  { intros v. unfold sz. pose proof (outs_pop (outputs b) (to_change b v)). pose proof (outs_push (outputs b) (to_change b v)) as X. rewrite osz_eq in X. cbn [to_addr to_amount to_change] in X.
    pose proof (hl_range (zlen (b_change b))). pose proof (hl_range v). lia. }
  pose proof (ZR (left_over b n0)) as R1. fold n1 in R1. rewrite <- E0 in R1. pose proof (zlen_nonneg (b_change b)) as ZN.
  destruct (C75_balance_funded fuel b d true n0 FU Z0 A B MU M LV D IT RE n1 Z1 n2 Z2) as [X Y].
  destruct (Z.lt_ge_cases (b_min_utxo b) (left_over b n0)) as [P|P]; [destruct (Z.le_gt_cases (b_min_utxo b) change) as [Q|Q]|].
  - destruct (proj1 (X (conj P Q)) (or_introl eq_refl)) as (b' & E & RB). exists b', (outputs b ++ [to_change b change]), (b_fee_a b * n1 + b_fee_b b). split; [exact E|]. split; [exact RB|]. split; [right; eauto|].
    exists n2. split; [exact Z2|]. assert (n0 <= n2) by (pose proof (ZR change) as R2; fold n2 in R2; lia).
    assert (n2 <= n1). { unfold n1, n2, sz. pose proof (outs_shrink (outputs b) (to_change b (left_over b n0)) (to_change b change) eq_refl ltac:(cbn [to_change to_amount]; unfold change; nia)). lia. } nia.
  - destruct (proj1 (Y (or_intror Q)) (or_introl eq_refl)) as (b' & E & RB). exists b', (outputs b), (b_fee_a b * n0 + b_fee_b b + left_over b n0). split; [exact E|]. split; [exact RB|]. split; [left; reflexivity|].
    exists n0. split; [exact Z0|]. unfold change in Q. nia.
  - destruct (proj1 (Y (or_introl P)) (or_introl eq_refl)) as (b' & E & RB). exists b', (outputs b), (b_fee_a b * n0 + b_fee_b b + left_over b n0). split; [exact E|]. split; [exact RB|]. split; [left; reflexivity|].
    exists n0. split; [exact Z0|]. nia.
Qed.
Print Assumptions C75_forced_succeeds.
(** Without force, plenty of money does not help: whenever what is left over is 2^32 lovelace or a little more (less than the cost of the bytes of the
    change output), every such transaction is refused. *)
Theorem C75_unforced_refuted : forall fuel b dummies n0, (7 <= fuel)%nat -> sized b dummies (outputs b) n0 ->
  0 < b_fee_a b -> 2 ^ 16 <= b_fee_b b -> 0 <= b_min_utxo b -> b_min_utxo b + b_fee_a b * (n0 + zlen (b_change b) + 40) + b_fee_b b < 2 ^ 31 ->
  Forall (fun o => lovelace (to_amount o)) (outputs b) -> 0 <= b_deposit_total b -> b_input_total b < 2 ^ 62 ->
  2 ^ 32 <= left_over b n0 < 2 ^ 32 + b_fee_a b * (zlen (b_change b) + 11) -> balance fuel b dummies false = Some Throw.
Proof.
  intros fuel b d n0 FU Z0 A B MU M LV D IT RE. pose proof (sized_sz _ _ _ _ Z0) as (cs & CS & E0). pose proof (sz_pos b d cs (outputs b)) as SP. rewrite <- E0 in SP.
  pose proof (sized_is b d cs (outputs b ++ [to_change b (left_over b n0)]) CS) as Z1. set (n1 := sz b d cs (outputs b ++ [to_change b (left_over b n0)])) in Z1.
  set (change := left_over b n0 - b_fee_a b * (n1 - n0)). pose proof (sized_is b d cs (outputs b ++ [to_change b change]) CS) as Z2. set (n2 := sz b d cs (outputs b ++ [to_change b change])) in Z2.
  pose proof (zlen_nonneg (b_change b)) as ZN.
  assert (H9 : hl (left_over b n0) = 9). { unfold hl. destruct (Z.ltb_spec (left_over b n0) 24), (Z.ltb_spec (left_over b n0) (2 ^ 8)), (Z.ltb_spec (left_over b n0) (2 ^ 16)), (Z.ltb_spec (left_over b n0) (2 ^ 32)); lia. }
  assert (PU : forall v, outs_sz (outputs b ++ [to_change b v]) - outs_sz (outputs b) = hl (zlen (outputs b) + 1) - hl (zlen (outputs b)) + 1 + hl (zlen (b_change b)) + zlen (b_change b) + hl v).
  { intros v. unfold outs_sz. rewrite map_app, zsum_app, zlen_app. cbn [map zsum fold_right]. change (zlen [to_change b v]) with 1. rewrite osz_eq. cbn [to_change to_addr to_amount]. lia. }
  pose proof (hl_succ (zlen (outputs b)) (zlen_nonneg _)) as HS. pose proof (hl_mono (zlen (outputs b)) (zlen (outputs b) + 1) ltac:(lia)) as HM. pose proof (hl_range (zlen (b_change b))) as HC.
  assert (N1 : zlen (b_change b) + 11 <= n1 - n0 <= zlen (b_change b) + 23). { pose proof E0 as E0'. unfold sz in E0'. unfold n1, sz. specialize (PU (left_over b n0)). lia. }
  assert (CB : 2 ^ 31 <= change < 2 ^ 32) by (unfold change; nia).
  assert (H5 : hl change = 5) by (apply hl5; lia).
  assert (N2 : n2 = n1 - 4). { unfold n1, n2, sz. pose proof (PU (left_over b n0)) as X. pose proof (PU change) as Y. lia. }
  destruct (C75_balance_funded fuel b d false n0 FU Z0 ltac:(lia) B MU ltac:(lia) LV D IT ltac:(lia) n1 Z1 n2 Z2) as [X _].
  apply X; [fold change; split; nia|reflexivity|lia|lia].
Qed.
Print Assumptions C75_unforced_refuted.

(** One input of [v] lovelace, one output of two ada, one expected signature: 192 bytes without change. *)
Definition rich (v : Z) : builder := set_change_address (add_output (add_input new_builder (ex_utxo 1 v)) ex_addr 2000000) ex_addr.
Definition went (v : Z) (force : bool) : option (Z * list Z) := result (balance 10 (rich v) (ex_dummies 1) force).
Example C75_ex_sized : forall v, sized (rich v) (ex_dummies 1) (outputs (rich v)) 192.
Proof. intros v. unfold sized, size_of. cbv zeta. eexists. split; [vm_compute; reflexivity|vm_compute; reflexivity]. Qed.
Example C75_ex_premises : forall v, 0 <= v < 2 ^ 62 -> 0 < b_fee_a (rich v) /\ 2 ^ 16 <= b_fee_b (rich v) /\ 0 <= b_min_utxo (rich v) /\
  b_min_utxo (rich v) + b_fee_a (rich v) * (192 + zlen (b_change (rich v)) + 40) + b_fee_b (rich v) < 2 ^ 31 /\ Forall (fun o => lovelace (to_amount o)) (outputs (rich v)) /\
  0 <= b_deposit_total (rich v) /\ b_input_total (rich v) = v /\ left_over (rich v) 192 = v - 2163829.
Proof.
  intros v R. assert (E : b_input_total (rich v) = v). { change (b_input_total (rich v)) with (to_i64 (0 + v)). rewrite Z.add_0_l. apply to_i64_small. lia. }
  split; [reflexivity|]. split; [vm_compute; discriminate|]. split; [vm_compute; discriminate|]. split; [reflexivity|]. split; [constructor; [vm_compute; split; [discriminate|reflexivity]|constructor]|]. split; [vm_compute; discriminate|]. split; [exact E|].
  unfold left_over. rewrite E. change (total (map to_amount (outputs (rich v)))) with 2000000. change (b_deposit_total (rich v)) with 0. change (b_fee_a (rich v)) with 44. change (b_fee_b (rich v)) with 155381. lia.
Qed.
(** nothing left; too little for a change output; change; change that shrinks to five bytes *)
Example C75_ex_cases : map (fun v => (went v false, went v true)) [2163829; 2663829; 10000000; 2 ^ 32 + 2163829 + 100] =
  [(Some (163829, [2000000]), Some (163829, [2000000])); (None, Some (663829, [2000000])); (Some (165457, [2000000; 7834543]), Some (165457, [2000000; 7834543]));
   (None, Some (165633, [2000000; 2 ^ 32 + 100 - 1804]))].
Proof. vm_compute. reflexivity. Qed.
(** Every one of these amounts fails without force. *)
Example C75_ex_refuted : forall x, 0 <= x < 1760 -> balance 10 (rich (2 ^ 32 + 2163829 + x)) (ex_dummies 1) false = Some Throw.
Proof.
  intros x R. destruct (C75_ex_premises (2 ^ 32 + 2163829 + x) ltac:(lia)) as (A & B & M & S & L & D & E & LO).
  apply (C75_unforced_refuted 10 _ _ 192 ltac:(lia) (C75_ex_sized _) A B M S L D ltac:(rewrite E; lia)). rewrite LO. change (b_fee_a (rich (2 ^ 32 + 2163829 + x))) with 44. change (zlen (b_change (rich (2 ^ 32 + 2163829 + x)))) with 29. lia.
Qed.
