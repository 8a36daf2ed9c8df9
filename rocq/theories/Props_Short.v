(** C88: balancing a transaction whose inputs do not cover what it pays: exactly who loses what. *)
From Verif Require Import Base BaseLemmas Spec_Cbor Model_Cbor Proof_Cbor Model_Address Spec_Ledger Model_Ledger Proof_Ledger Proof_Ledger2 Model_Tx Spec_Tx Proof_Tx Proof_Tx2 Proof_Tx3 Props_Ledger Props_Tx Props_Fund.
Ltac Zify.zify_post_hook ::= idtac.

(** ** Specification *)
(** What is left of the inputs after the outputs [os], the deposits and the fee of a transaction of [n] bytes. *)
Definition after (b : builder) (os : list txout) (n : Z) : Z :=
  b_input_total b - total (map to_amount os) - b_deposit_total b - (b_fee_a b * n + b_fee_b b).
(** [size k] is the size of the transaction with the first [k] outputs only. *)
Definition sizes (b : builder) (dummies : list (list Z * list Z)) (size : nat -> Z) : Prop :=
  forall k, (k <= length (outputs b))%nat -> sized b dummies (firstn k (outputs b)) (size k).
(** Output number [j] (counting from 0), as the last one, cannot be kept: the inputs do not suffice, and taking what is missing from it would leave less than the minimum. *)
Definition hopeless (b : builder) (size : nat -> Z) (j : nat) : Prop :=
  exists x, nth_error (outputs b) j = Some x /\ after b (firstn (S j) (outputs b)) (size (S j)) < 0 /\
    to_amount x + after b (firstn (S j) (outputs b)) (size (S j)) < b_min_utxo b.
Definition with_amount (x : txout) (v : Z) : txout := {| to_addr := to_addr x; to_amount := v |}.
(** The ranges of amounts and fee parameters. *)
Definition ordinary (b : builder) (n : Z) : Prop :=
  0 <= b_fee_a b /\ 2 ^ 16 <= b_fee_b b /\ 0 <= b_min_utxo b /\ b_min_utxo b + b_fee_a b * (n + 4) + b_fee_b b < 2 ^ 32 /\
  Forall (fun o => lovelace (to_amount o)) (outputs b) /\ 0 <= b_deposit_total b /\ b_deposit_total b + total (map to_amount (outputs b)) < 2 ^ 62 /\ 0 <= b_input_total b < 2 ^ 62.

(** ** Proof *)
Lemma snoc_at {A} (l : list A) j x : nth_error l j = Some x -> firstn (S j) l = firstn j l ++ [x].
Proof. revert j. induction l as [|y l IH]; intros [|j] E; try discriminate; cbn [nth_error] in E; [injection E as ->; reflexivity|]. cbn [firstn app]. f_equal. apply IH, E. Qed.
Lemma zsum_firstn o : in_range o -> forall k, 0 <= zsum (map to_amount (firstn k o)) <= zsum (map to_amount o).
Proof.
  induction 1 as [|x o X R IH]; intros [|k]; cbn [firstn map]; try (unfold zsum; cbn [fold_right]; lia).
  - split; [unfold zsum; cbn; lia|]. apply (in_range_nonneg (x :: o)). constructor; assumption.
  - specialize (IH k). unfold zsum in *. cbn [fold_right]. lia.
Qed.
Lemma in_range_firstn o k : in_range o -> in_range (firstn k o).
Proof. intros R. revert k. induction R as [|x o X R IH]; intros [|k]; cbn [firstn]; constructor; [exact X|apply IH]. Qed.

Section Short.
Variable b : builder.
Variable d : list (list Z * list Z).
Variable cs : list cbor.
Variable fuel : nat.
Hypothesis FU : (7 <= fuel)%nat.
Hypothesis CS : mapM cert_ser (tb_certs (body_of b)) = Ok cs.
Hypothesis A : 0 <= b_fee_a b.
Hypothesis B : 2 ^ 16 <= b_fee_b b.
Hypothesis D : 0 <= b_deposit_total b.
Hypothesis IT : 0 <= b_input_total b < 2 ^ 62.
Hypothesis MU : 0 <= b_min_utxo b.
Notation sp := (spare b d cs).
Notation co := (cost b d cs).
Notation AT := (at_ b).
Lemma last_in o x : in_range (o ++ [x]) -> 0 <= to_amount x < 2 ^ 63 /\ in_range o.
Proof using. intros R. apply Forall_app in R as [R X]. split; [inversion X; assumption|exact R]. Qed.
Lemma drop k i o x f force : fine b d cs (o ++ [x]) -> sp (o ++ [x]) < 0 -> to_amount x + sp (o ++ [x]) < b_min_utxo b ->
  balance_loop fuel (S k) i (AT (o ++ [x]) f) d force = balance_loop fuel k (i + 1) (AT o (co (o ++ [x]))) d force.
Proof.
  intros FI N H. rewrite (iter b d cs fuel FU CS A B k i (o ++ [x]) f force D ltac:(lia) FI). destruct (Z.eqb_spec (sp (o ++ [x])) 0); [lia|]. destruct (Z.ltb_spec (sp (o ++ [x])) 0); [|lia].
  rewrite split_last_app. destruct FI as (S & R & L). pose proof (last_in _ _ R) as [X _]. rewrite (to_i64_small _ X). rewrite (sadd_is fuel FU) by (unfold spare in *; lia). cbn [lift rbind].
  destruct (Z.ltb_spec (to_amount x + sp (o ++ [x])) (b_min_utxo b)); [reflexivity|lia].
Qed.
Lemma settle k i o f force : fine b d cs o -> 0 <= sp o -> 0 < i -> co o + sp o < 2 ^ 32 ->
  balance_loop fuel (S k) i (AT o f) d force = if force || (sp o =? 0) then Some (Ok (AT o (co o + sp o))) else Some Throw.
Proof.
  intros FI P I W. destruct (Z.eqb_spec (sp o) 0) as [E|NE].
  - rewrite orb_true_r, E, Z.add_0_r. rewrite (iter b d cs fuel FU CS A B k i o f force D ltac:(lia) FI), E. reflexivity.
  - rewrite orb_false_r. destruct force.
    + rewrite (forced b d cs fuel FU CS A B o k i f); try assumption; try lia. reflexivity.
    + apply (stuck b d cs fuel FU CS A B o D ltac:(lia) FI); lia.
Qed.
Lemma reduced_fine o x : fine b d cs (o ++ [x]) -> sp (o ++ [x]) < 0 -> 0 <= to_amount x + sp (o ++ [x]) ->
  let o' := o ++ [with_amount x (to_amount x + sp (o ++ [x]))] in fine b d cs o' /\ co o' <= co (o ++ [x]) /\ sp o' = co (o ++ [x]) - co o'.
Proof.
  intros (S & R & L) N P o'. pose proof (last_in _ _ R) as [X R0]. assert (SZ : sz b d cs o' <= sz b d cs (o ++ [x])).
  { unfold sz, o'. pose proof (outs_shrink o x (with_amount x (to_amount x + sp (o ++ [x]))) eq_refl ltac:(cbn [with_amount to_amount]; lia)). lia. }
  assert (CO : co o' <= co (o ++ [x])) by (unfold cost; nia).
  assert (ZS : zsum (map to_amount o') = zsum (map to_amount (o ++ [x])) + sp (o ++ [x])) by (unfold o'; rewrite !(zsum_push fuel FU); cbn [with_amount to_amount]; lia).
  split; [|split; [exact CO|]].
  - split; [unfold small_cost in *; nia|]. split; [|lia]. apply Forall_app. split; [exact R0|]. constructor; [cbn [with_amount to_amount]; lia|constructor].
  - unfold spare at 1. rewrite ZS. unfold spare. lia.
Qed.
Lemma reduce k i o x f force : fine b d cs (o ++ [x]) -> sp (o ++ [x]) < 0 -> b_min_utxo b <= to_amount x + sp (o ++ [x]) -> 0 <= i ->
  let o' := o ++ [with_amount x (to_amount x + sp (o ++ [x]))] in
  balance_loop fuel (S (S k)) i (AT (o ++ [x]) f) d force = if force || (co o' =? co (o ++ [x])) then Some (Ok (AT o' (co (o ++ [x])))) else Some Throw.
Proof.
  intros FI N H I o'. destruct (reduced_fine o x FI N ltac:(lia)) as (F' & C' & S'). fold o' in F', C', S'.
  rewrite (iter b d cs fuel FU CS A B (S k) i (o ++ [x]) f force D ltac:(lia) FI). destruct (Z.eqb_spec (sp (o ++ [x])) 0); [lia|]. destruct (Z.ltb_spec (sp (o ++ [x])) 0); [|lia].
  rewrite split_last_app. destruct FI as (S & R & L). pose proof (last_in _ _ R) as [X _]. rewrite (to_i64_small _ X). rewrite (sadd_is fuel FU) by (unfold spare in *; lia). cbn [lift rbind].
  destruct (Z.ltb_spec (to_amount x + sp (o ++ [x])) (b_min_utxo b)); [lia|].
  assert (U : to_u64 (to_amount x + sp (o ++ [x])) = to_amount x + sp (o ++ [x])) by (unfold to_u64; apply Z.mod_small; lia). rewrite U.
  change (o ++ [{| to_addr := to_addr x; to_amount := to_amount x + sp (o ++ [x]) |}]) with o'.
  pose proof (cost_range b d cs fuel FU A B (o ++ [x]) S) as CR. rewrite (settle k (i + 1) o' _ force F') by lia. rewrite S'.
  replace (co o' + (co (o ++ [x]) - co o')) with (co (o ++ [x])) by lia.
  destruct (Z.eqb_spec (co (o ++ [x]) - co o') 0), (Z.eqb_spec (co o') (co (o ++ [x]))); try lia; reflexivity.
Qed.
Lemma reduce_out_of_time i o x f force : fine b d cs (o ++ [x]) -> sp (o ++ [x]) < 0 -> balance_loop fuel 1 i (AT (o ++ [x]) f) d force = Some Throw.
Proof.
  intros FI N. rewrite (iter b d cs fuel FU CS A B 0 i (o ++ [x]) f force D ltac:(lia) FI). destruct (Z.eqb_spec (sp (o ++ [x])) 0); [lia|]. destruct (Z.ltb_spec (sp (o ++ [x])) 0); [|lia].
  rewrite split_last_app. destruct FI as (S & R & L). pose proof (last_in _ _ R) as [X _]. rewrite (to_i64_small _ X). rewrite (sadd_is fuel FU) by (unfold spare in *; lia). cbn [lift rbind].
  destruct (_ <? _); reflexivity.
Qed.
Lemma nobody k i f force : fine b d cs [] -> sp [] < 0 -> balance_loop fuel (S k) i (AT [] f) d force = Some Throw.
Proof.
  intros FI N. rewrite (iter b d cs fuel FU CS A B k i [] f force D ltac:(lia) FI). destruct (Z.eqb_spec (sp []) 0); [lia|]. destruct (Z.ltb_spec (sp []) 0); [|lia]. reflexivity.
Qed.
Definition gone (os : list txout) (j : nat) : Prop := exists x, nth_error os j = Some x /\ fine b d cs (firstn (S j) os) /\ sp (firstn (S j) os) < 0 /\ to_amount x + sp (firstn (S j) os) < b_min_utxo b.
Lemma drops os left force : forall m i f, (m <= length os)%nat -> (forall j, (length os - m <= j < length os)%nat -> gone os j) ->
  exists f', balance_loop fuel (m + left) i (AT os f) d force = balance_loop fuel left (i + Z.of_nat m) (AT (firstn (length os - m) os) f') d force.
Proof.
  enough (G : forall m, (m <= length os)%nat -> (forall j, (length os - m <= j < length os)%nat -> gone os j) -> forall l i f, exists f', balance_loop fuel (m + l) i (AT os f) d force = balance_loop fuel l (i + Z.of_nat m) (AT (firstn (length os - m) os) f') d force) by (intros; apply G; assumption).
  induction m as [|m IH]; intros M G l i f.
  - exists f. rewrite Nat.sub_0_r, firstn_all. cbn [Nat.add]. rewrite Z.add_0_r. reflexivity.
  - destruct (IH ltac:(lia) ltac:(intros; apply G; lia) (S l) i f) as (f1 & E). replace (S m + l)%nat with (m + S l)%nat by lia. rewrite E. clear E.
    destruct (G (length os - S m)%nat ltac:(lia)) as (x & NE & FI & N & H). pose proof (snoc_at _ _ _ NE) as SN. replace (length os - m)%nat with (S (length os - S m)) by lia.
    exists (co (firstn (S (length os - S m)) os)). rewrite SN in FI, N, H |- *. rewrite (drop l _ _ _ _ force FI N H). replace (i + Z.of_nat m + 1) with (i + Z.of_nat (S m)) by lia. reflexivity.
Qed.
End Short.

(** Everything the theorems need from their premises. *)
Lemma prepared b d size : sizes b d size -> ordinary b (size (length (outputs b))) ->
  exists cs, mapM cert_ser (tb_certs (body_of b)) = Ok cs /\ (forall k, (k <= length (outputs b))%nat -> size k = sz b d cs (firstn k (outputs b))) /\
    (forall k, (k <= length (outputs b))%nat -> fine b d cs (firstn k (outputs b)) /\ spare b d cs (firstn k (outputs b)) = after b (firstn k (outputs b)) (size k) /\
       cost b d cs (firstn k (outputs b)) = b_fee_a b * size k + b_fee_b b /\ b_min_utxo b + cost b d cs (firstn k (outputs b)) < 2 ^ 32).
Proof.
  intros SZ (A & B & MU & M & LV & D & DT & IT). pose proof (SZ _ (le_n _)) as Z0. rewrite firstn_all in Z0. apply sized_sz in Z0 as (cs & CS & Z0). exists cs. split; [exact CS|].
  assert (E : forall k, (k <= length (outputs b))%nat -> size k = sz b d cs (firstn k (outputs b))).
  { intros k K. destruct (sized_sz _ _ _ _ (SZ k K)) as (cs' & C' & E). assert (cs' = cs) by congruence. subst cs'. exact E. }
  split; [exact E|]. intros k K. assert (SM : sz b d cs (firstn k (outputs b)) <= size (length (outputs b))).
  { rewrite Z0. unfold sz. assert (P : forall l : list txout, forall k, outs_sz (firstn k l) <= outs_sz l).
    { induction l as [|x l IH] using rev_ind; intros q; [rewrite firstn_nil; lia|]. destruct (Nat.le_gt_cases (length (l ++ [x])) q); [rewrite firstn_all2 by assumption; lia|].
      rewrite app_length in H. cbn [length] in H. rewrite firstn_app. replace (q - length l)%nat with 0%nat by lia. cbn [firstn]. rewrite app_nil_r. specialize (IH q). pose proof (outs_pop l x). lia. }
    specialize (P (outputs b) k). lia. }
  pose proof (sz_pos b d cs (firstn k (outputs b))) as SP. rewrite <- (E k K) in SM, SP. assert (C : cost b d cs (firstn k (outputs b)) = b_fee_a b * size k + b_fee_b b) by (unfold cost; rewrite <- (E k K); reflexivity).
  assert (R : in_range (outputs b)) by exact LV. pose proof (zsum_firstn _ R k) as ZF. rewrite total_zsum in DT.
  assert (FEE : b_fee_a b * size k <= b_fee_a b * size (length (outputs b))) by nia. assert (FEE4 : 0 <= b_fee_a b * 4) by lia. rewrite Z.mul_add_distr_l in M.
  assert (CB : b_min_utxo b + cost b d cs (firstn k (outputs b)) < 2 ^ 32) by lia.
  split; [|split; [|split; [exact C|exact CB]]].
  - split; [unfold small_cost; rewrite <- (E k K), Z.mul_add_distr_l; lia|]. split; [apply in_range_firstn, R|]. lia.
  - unfold spare, after. rewrite C. pose proof (total_zsum (map to_amount (firstn k (outputs b)))). lia.
Qed.
Lemma hopeless_gone b d cs size : (forall k, (k <= length (outputs b))%nat -> fine b d cs (firstn k (outputs b)) /\ spare b d cs (firstn k (outputs b)) = after b (firstn k (outputs b)) (size k) /\
       cost b d cs (firstn k (outputs b)) = b_fee_a b * size k + b_fee_b b /\ b_min_utxo b + cost b d cs (firstn k (outputs b)) < 2 ^ 32) ->
  forall j, hopeless b size j -> gone b d cs (outputs b) j.
Proof.
  intros P j (x & NE & N & H). assert (J : (j < length (outputs b))%nat) by (apply nth_error_Some; congruence). destruct (P (S j) ltac:(lia)) as (F & S & _). exists x. rewrite S. auto.
Qed.
Lemma balance_start fuel b d force : balance fuel b d force = balance_loop fuel 100 0 (at_ b (outputs b) (tb_fee (body_of b))) d force.
Proof. unfold balance. generalize 100%nat. intros k. rewrite balance_eta. reflexivity. Qed.
Lemma reach fuel b d cs force k left : (7 <= fuel)%nat -> mapM cert_ser (tb_certs (body_of b)) = Ok cs -> 0 <= b_fee_a b -> 2 ^ 16 <= b_fee_b b -> 0 <= b_deposit_total b -> 0 <= b_input_total b < 2 ^ 62 ->
  (k <= length (outputs b))%nat -> (forall j, (k <= j < length (outputs b))%nat -> gone b d cs (outputs b) j) -> (length (outputs b) - k + left = 100)%nat ->
  exists f, balance fuel b d force = balance_loop fuel left (Z.of_nat (length (outputs b) - k)) (at_ b (firstn k (outputs b)) f) d force.
Proof.
  intros FU CS A B D IT K G L.
  destruct (drops b d cs fuel FU CS A B D IT (outputs b) left force (length (outputs b) - k) 0 (tb_fee (body_of b)) ltac:(lia)) as (f & E).
  { intros j J. apply G. lia. }
  exists f. replace (length (outputs b) - (length (outputs b) - k))%nat with k in E by lia. rewrite Z.add_0_l in E. rewrite <- E, L. apply balance_start.
Qed.

(** ** C88 *)
(** balance() on a transaction whose last outputs, from number [k] on, are all hopeless (with [k] = all of them, none is). The hundred iterations allow 98 or 99 removals.
    1. Without them there is enough: exactly the first [k] outputs remain, unchanged; all that is left goes to the fee if forced (or if nothing is left), none of it to the
       change address, and balance() throws otherwise.
    2. There is not, and output number [k - 1] can bear the difference: it is reduced by exactly that, the others before it stay, and the fee is that of the transaction
       before the reduction; without force the reduced amount must not make the transaction cheaper.
    3. There is not, and no output remains: it throws. *)
Theorem C88_cut_exactly : forall fuel b dummies force size k, (7 <= fuel)%nat -> sizes b dummies size -> ordinary b (size (length (outputs b))) ->
  (k <= length (outputs b))%nat -> (forall j, (k <= j < length (outputs b))%nat -> hopeless b size j) ->
  let rest := after b (firstn k (outputs b)) (size k) in
  (0 <= rest -> (1 <= length (outputs b) - k <= 99)%nat ->
     (force = true \/ rest = 0 -> exists b', balance fuel b dummies force = Some (Ok b') /\
        rebalanced b b' (firstn k (outputs b)) (b_input_total b - b_deposit_total b - total (map to_amount (firstn k (outputs b))))) /\
     (force = false -> rest <> 0 -> balance fuel b dummies force = Some Throw)) /\
  (forall x, rest < 0 -> (1 <= k)%nat -> (length (outputs b) - k <= 98)%nat -> nth_error (outputs b) (k - 1) = Some x -> b_min_utxo b <= to_amount x + rest ->
     forall n, sized b dummies (firstn (k - 1) (outputs b) ++ [with_amount x (to_amount x + rest)]) n ->
     (force = true \/ b_fee_a b = 0 \/ n = size k -> exists b', balance fuel b dummies force = Some (Ok b') /\
        rebalanced b b' (firstn (k - 1) (outputs b) ++ [with_amount x (to_amount x + rest)]) (b_fee_a b * size k + b_fee_b b)) /\
     (force = false -> b_fee_a b <> 0 -> n <> size k -> balance fuel b dummies force = Some Throw)) /\
  (rest < 0 -> k = 0%nat -> balance fuel b dummies force = Some Throw).
Proof.
  intros fuel b d force size k FU SZ OR K HO rest. destruct (prepared b d size SZ OR) as (cs & CS & E & P). destruct OR as (A & B & MU & M & LV & D & DT & IT).
  assert (G : forall j, (k <= j < length (outputs b))%nat -> gone b d cs (outputs b) j) by (intros j J; exact (hopeless_gone b d cs size P j (HO j J))).
  destruct (P k K) as (FI & SPk & C & CB). fold rest in SPk. repeat apply conj.
  - intros RE LE. destruct (reach fuel b d cs force k (100 - (length (outputs b) - k)) FU CS A B D IT K G ltac:(lia)) as (f & R).
    destruct (100 - (length (outputs b) - k))%nat as [|l] eqn:L; [lia|].
    assert (W : cost b d cs (firstn k (outputs b)) + rest < 2 ^ 32).
    { destruct (HO k ltac:(lia)) as (x & NE & N & H). pose proof (snoc_at _ _ _ NE) as SN. destruct (P (S k) ltac:(lia)) as (_ & S1 & C1 & CB1). rewrite <- S1 in H. rewrite <- SPk. unfold spare in H |- *. rewrite SN in H at 2. rewrite (zsum_push fuel FU) in H. lia. }
    rewrite (settle b d cs fuel FU CS A B D IT l _ _ f force FI) in R; [|lia|lia|lia].
    assert (FE : cost b d cs (firstn k (outputs b)) + spare b d cs (firstn k (outputs b)) = b_input_total b - b_deposit_total b - total (map to_amount (firstn k (outputs b)))).
    { pose proof (total_zsum (map to_amount (firstn k (outputs b)))). unfold spare. lia. }
    rewrite FE, SPk in R. split.
    + intros Q. replace (force || (rest =? 0)) with true in R. { eexists. split; [exact R|]. apply rebalanced_at. } symmetry. apply orb_true_iff. rewrite Z.eqb_eq. exact Q.
    + intros -> NZ. cbn [orb] in R. destruct (Z.eqb_spec rest 0); [contradiction|exact R].
  - intros x RE K1 LE NE H n Zn. destruct (reach fuel b d cs force k (100 - (length (outputs b) - k)) FU CS A B D IT K G ltac:(lia)) as (f & R).
    destruct (100 - (length (outputs b) - k))%nat as [|[|l]] eqn:L; [lia|lia|]. pose proof (snoc_at _ _ _ NE) as SN. replace (S (k - 1)) with k in SN by lia.
    apply sized_sz in Zn as (cs' & CS' & Zn). assert (cs' = cs) by congruence. subst cs'.
    assert (SPx : spare b d cs (firstn (k - 1) (outputs b) ++ [x]) = rest) by (rewrite <- SN; exact SPk).
    assert (Cx : cost b d cs (firstn (k - 1) (outputs b) ++ [x]) = b_fee_a b * size k + b_fee_b b) by (rewrite <- SN; exact C).
    rewrite SN in R, FI. pose proof (reduce b d cs fuel FU CS A B D IT MU l (Z.of_nat (length (outputs b) - k)) (firstn (k - 1) (outputs b)) x f force FI) as RD. cbv zeta in RD. rewrite SPx, Cx in RD.
    rewrite RD in R by lia. assert (Cn : cost b d cs (firstn (k - 1) (outputs b) ++ [with_amount x (to_amount x + rest)]) = b_fee_a b * n + b_fee_b b) by (unfold cost; rewrite <- Zn; reflexivity). rewrite Cn in R. split.
    + intros Q. replace (force || _) with true in R. { eexists. split; [exact R|]. apply rebalanced_at. } symmetry. apply orb_true_iff. rewrite Z.eqb_eq. destruct Q as [->|[->| ->]]; auto.
    + intros -> NA NN. cbn [orb] in R. destruct (Z.eqb_spec (b_fee_a b * n + b_fee_b b) (b_fee_a b * size k + b_fee_b b)); [|exact R]. exfalso. apply NN. apply (Z.mul_reg_l _ _ (b_fee_a b)); [exact NA|lia].
  - intros RE ->. destruct (Nat.le_gt_cases (length (outputs b)) 99) as [LE|GT].
    + destruct (reach fuel b d cs force 0 (100 - (length (outputs b) - 0)) FU CS A B D IT K G ltac:(lia)) as (f & R). destruct (100 - (length (outputs b) - 0))%nat as [|l] eqn:L; [lia|].
      rewrite R. cbn [firstn] in *. apply (nobody b d cs fuel FU CS A B D IT); [exact FI|lia].
    + destruct (reach fuel b d cs force (length (outputs b) - 100) 0 FU CS A B D IT ltac:(lia) ltac:(intros; apply G; lia) ltac:(lia)) as (f & R). rewrite R. reflexivity.
Qed.
Print Assumptions C88_cut_exactly.
(** The cases are all there are: some [k] always fits, and only one. *)
Definition settled (b : builder) (size : nat -> Z) (k : nat) : Prop :=
  let rest := after b (firstn k (outputs b)) (size k) in
  0 <= rest \/ (rest < 0 /\ k = 0%nat) \/ (rest < 0 /\ (1 <= k)%nat /\ exists x, nth_error (outputs b) (k - 1) = Some x /\ b_min_utxo b <= to_amount x + rest).
Theorem C88_one_place : forall b size, exists k, ((k <= length (outputs b))%nat /\ (forall j, (k <= j < length (outputs b))%nat -> hopeless b size j) /\ settled b size k) /\
  forall k', (k' <= length (outputs b))%nat -> (forall j, (k' <= j < length (outputs b))%nat -> hopeless b size j) -> settled b size k' -> k' = k.
Proof.
  intros b size. assert (EX : forall m, (m <= length (outputs b))%nat -> (forall j, (m <= j < length (outputs b))%nat -> hopeless b size j) ->
    exists k, (k <= length (outputs b))%nat /\ (forall j, (k <= j < length (outputs b))%nat -> hopeless b size j) /\ settled b size k).
  { induction m as [|m IH]; intros M H.
    - exists 0%nat. split; [lia|]. split; [exact H|]. unfold settled. cbv zeta. destruct (Z.lt_ge_cases (after b (firstn 0 (outputs b)) (size 0%nat)) 0); tauto.
    - destruct (nth_error (outputs b) m) as [x|] eqn:NE; [|apply nth_error_None in NE; lia].
      destruct (Z.lt_ge_cases (after b (firstn (S m) (outputs b)) (size (S m))) 0) as [N|P].
      + destruct (Z.lt_ge_cases (to_amount x + after b (firstn (S m) (outputs b)) (size (S m))) (b_min_utxo b)) as [L|G].
        * apply IH; [lia|]. intros j J. destruct (Nat.eq_dec j m) as [->|]; [exists x; auto|apply H; lia].
        * exists (S m). split; [exact M|]. split; [exact H|]. right. right. split; [exact N|]. split; [lia|]. exists x. replace (S m - 1)%nat with m by lia. auto.
      + exists (S m). split; [exact M|]. split; [exact H|]. left. exact P. }
  assert (NOT : forall k, (1 <= k)%nat -> hopeless b size (k - 1) -> settled b size k -> False).
  { intros k K (x & NE & N & L) S. replace (Datatypes.S (k - 1)) with k in N, L by lia. unfold settled in S. cbv zeta in S. destruct S as [S|[[_ S]|(_ & _ & y & NY & S)]]; [lia|lia|]. rewrite NE in NY. injection NY as ->. lia. }
  destruct (EX (length (outputs b)) (le_n _) ltac:(intros; lia)) as (k & K & H & S). exists k. split; [auto|]. intros k' K' H' S'.
  destruct (Nat.lt_trichotomy k' k) as [L|[L|L]]; [exfalso|exact L|exfalso].
  - apply (NOT k ltac:(lia)); [apply H'; lia|exact S].
  - apply (NOT k' ltac:(lia)); [apply H; lia|exact S'].
Qed.
Print Assumptions C88_one_place.
(** With a hundred hopeless outputs at the end (or ninety-nine before one that could bear the difference), balance() gives up. *)
Theorem C88_gives_up : forall fuel b dummies force size, (7 <= fuel)%nat -> sizes b dummies size -> ordinary b (size (length (outputs b))) ->
  forall k, (k <= length (outputs b))%nat -> (forall j, (k <= j < length (outputs b))%nat -> hopeless b size j) ->
  (100 <= length (outputs b) - k)%nat \/ (length (outputs b) - k = 99)%nat /\ (1 <= k)%nat /\ after b (firstn k (outputs b)) (size k) < 0 -> balance fuel b dummies force = Some Throw.
Proof.
  intros fuel b d force size FU SZ OR k K HO Q. destruct (prepared b d size SZ OR) as (cs & CS & E & P). destruct OR as (A & B & MU & M & LV & D & DT & IT).
  assert (G : forall j, (k <= j < length (outputs b))%nat -> gone b d cs (outputs b) j) by (intros j J; exact (hopeless_gone b d cs size P j (HO j J))). destruct Q as [Q|(Q & K1 & N)].
  - destruct (reach fuel b d cs force (length (outputs b) - 100) 0 FU CS A B D IT ltac:(lia) ltac:(intros; apply G; lia) ltac:(lia)) as (f & R). rewrite R. reflexivity.
  - destruct (reach fuel b d cs force k 1 FU CS A B D IT K G ltac:(lia)) as (f & R). rewrite R. destruct (P k K) as (FI & SPk & _).
    destruct (nth_error (outputs b) (k - 1)) as [x|] eqn:NE; [|apply nth_error_None in NE; lia]. pose proof (snoc_at _ _ _ NE) as SN. replace (S (k - 1)) with k in SN by lia. rewrite SN in *.
    apply (reduce_out_of_time b d cs fuel FU CS A B D IT); [exact FI|lia].
Qed.
Print Assumptions C88_gives_up.
(** What the payees lose: when outputs are removed, the fee exceeds what the transaction with one output more would cost by less than the minimum output; and the payee
    removed last could have been paid almost that much. *)
Theorem C88_fee_bound : forall b size k, (k < length (outputs b))%nat -> hopeless b size k ->
  b_input_total b - b_deposit_total b - total (map to_amount (firstn k (outputs b))) < b_fee_a b * size (S k) + b_fee_b b + b_min_utxo b.
Proof.
  intros b size k K (x & NE & N & H). pose proof (snoc_at _ _ _ NE) as SN. unfold after in H. rewrite SN in H. rewrite map_app in H. rewrite total_zsum in H |- *. rewrite zsum_app in H. cbn [map] in H. change (zsum [to_amount x]) with (to_amount x + 0) in H. lia.
Qed.
Print Assumptions C88_fee_bound.

Lemma forced_out : forall fuel b dummies size, (7 <= fuel)%nat -> sizes b dummies size -> ordinary b (size (length (outputs b)) + zlen (b_change b) + 36) -> (length (outputs b) <= 98)%nat ->
  (after b [] (size 0%nat) < 0 -> balance fuel b dummies true = Some Throw) /\
  (0 <= after b [] (size 0%nat) -> exists b' os fee, balance fuel b dummies true = Some (Ok b') /\ rebalanced b b' os fee /\ lovelace fee).
Proof.
  intros fuel b d size FU SZ OR' LE. assert (OR : ordinary b (size (length (outputs b)))).
  { destruct OR' as (A & B & MU & M & LV & D & DT & IT). repeat (split; [assumption|]). split; [|repeat (split; [assumption|]); assumption]. pose proof (zlen_nonneg (b_change b)) as ZN. pose proof (Z.mul_le_mono_nonneg_l (size (length (outputs b)) + 4) (size (length (outputs b)) + zlen (b_change b) + 36 + 4) (b_fee_a b) A ltac:(lia)). lia. }
  destruct (prepared b d size SZ OR) as (cs & CS & E & P). destruct OR' as (A & B & MU & M & LV & D & DT & IT).
  assert (ST : forall j x, nth_error (outputs b) j = Some x -> to_amount x + after b (firstn (S j) (outputs b)) (size (S j)) <= after b (firstn j (outputs b)) (size j) /\ 0 <= to_amount x).
  { intros j x NE. assert (J : (j < length (outputs b))%nat) by (apply nth_error_Some; congruence). pose proof (snoc_at _ _ _ NE) as SN. split.
    - assert (SM : size j <= size (S j)). { rewrite (E j), (E (S j)) by lia. unfold sz. rewrite SN. pose proof (outs_pop (firstn j (outputs b)) x). lia. }
      unfold after. rewrite SN. pose proof (total_zsum (map to_amount (firstn j (outputs b) ++ [x]))) as T1. pose proof (total_zsum (map to_amount (firstn j (outputs b)))) as T2. pose proof (zsum_push fuel FU (firstn j (outputs b)) x) as T3. pose proof (Z.mul_le_mono_nonneg_l _ _ (b_fee_a b) A SM). lia.
    - rewrite Forall_forall in LV. apply (LV x). eapply nth_error_In, NE. }
  assert (MO : forall j, (j <= length (outputs b))%nat -> after b (firstn j (outputs b)) (size j) <= after b [] (size 0%nat)).
  { induction j as [|j IH]; intros J; [cbn [firstn]; lia|]. destruct (nth_error (outputs b) j) as [x|] eqn:NE; [|apply nth_error_None in NE; lia]. destruct (ST j x NE). specialize (IH ltac:(lia)). lia. }
  destruct (C88_one_place b size) as (k & (K & HO & S) & _). pose proof (C88_cut_exactly fuel b d true size k FU SZ OR K HO) as X. cbv zeta in X. destruct X as (X1 & X2 & X3).
  unfold settled in S. cbv zeta in S. destruct S as [S|[[S ->]|(S & K1 & x & NE & H)]].
  - split; [intros Q; specialize (MO k K); lia|]. intros _. destruct (Nat.eq_dec k (length (outputs b))) as [->|NK].
    + assert (LO : 0 <= left_over b (size (length (outputs b)))) by (rewrite firstn_all in S; exact S).
      pose proof (SZ _ (le_n _)) as Z0. rewrite firstn_all in Z0.
      destruct (C75_forced_succeeds fuel b d _ FU Z0 A B MU ltac:(replace (size (length (outputs b)) + zlen (b_change b) + 40) with (size (length (outputs b)) + zlen (b_change b) + 36 + 4) by lia; exact M) LV D ltac:(lia) LO) as (b' & os & fee & R & RB & OO & nx & SX & FL & FH). exists b', os, fee. split; [exact R|]. split; [exact RB|].
      pose proof (sized_sz _ _ _ _ SX) as (cs' & CS' & EX). assert (cs' = cs) by congruence. subst cs'. pose proof (sz_pos b d cs os) as SP. rewrite <- EX in SP.
      set (n0 := size (length (outputs b))) in *. pose proof (zlen_nonneg (b_change b)) as ZN. assert (EN : n0 = sz b d cs (outputs b)) by (unfold n0; rewrite (E _ (le_n _)), firstn_all; reflexivity). pose proof (sz_pos b d cs (outputs b)) as SP0. assert (NX : nx <= n0 + zlen (b_change b) + 23).
      { rewrite EN, EX. destruct OO as [->|(v & -> & _)]; [lia|]. unfold sz. pose proof (outs_push (outputs b) (to_change b v)) as X. rewrite osz_eq in X. cbn [to_change to_addr to_amount] in X.
        pose proof (hl_range (zlen (b_change b))). pose proof (hl_range v). lia. }
      unfold lovelace. assert (0 <= b_fee_a b * nx) by nia. assert (b_fee_a b * (nx + zlen (b_change b) + 23) <= b_fee_a b * (2 * (n0 + zlen (b_change b) + 36 + 4))) by (apply Z.mul_le_mono_nonneg_l; lia). lia.
    + destruct (proj1 (X1 S ltac:(lia)) (or_introl eq_refl)) as (b' & R & RB). exists b'. do 2 eexists. split; [exact R|]. split; [exact RB|].
      pose proof (zsum_firstn (outputs b) LV k) as ZF. pose proof (total_zsum (map to_amount (firstn k (outputs b)))) as T1. destruct (P k K) as (_ & SP1 & C1 & _). pose proof (cost_range b d cs fuel FU A B _ (proj1 (proj1 (P k K)))) as CR.
      unfold lovelace. rewrite <- SP1 in S. unfold spare in S. lia.
  - specialize (X3 S eq_refl). cbn [firstn] in S. split; [intros _; exact X3|lia].
  - destruct (ST (k - 1)%nat x NE) as [Q _]. replace (Datatypes.S (k - 1)) with k in Q by lia. specialize (MO (k - 1)%nat ltac:(lia)). split; [intros Q0; lia|]. intros _.
    destruct (proj1 (X2 x S K1 ltac:(lia) NE H _ (sized_is b d cs _ CS)) (or_introl eq_refl)) as (b' & R & RB). exists b'. do 2 eexists. split; [exact R|]. split; [exact RB|].
    destruct (P k K) as (_ & _ & C1 & _). pose proof (cost_range b d cs fuel FU A B _ (proj1 (proj1 (P k K)))) as CR. unfold lovelace. lia.
Qed.
(** So, with force and at most 98 outputs, balance() succeeds exactly when the inputs pay the deposits and the fee of a transaction without outputs: whom it
    pays, and how much, plays no part. *)
Theorem C88_forced_iff : forall fuel b dummies size, (7 <= fuel)%nat -> sizes b dummies size -> ordinary b (size (length (outputs b)) + zlen (b_change b) + 36) -> (length (outputs b) <= 98)%nat ->
  ((exists b', balance fuel b dummies true = Some (Ok b')) <-> 0 <= after b [] (size 0%nat)).
Proof.
  intros fuel b d size FU SZ OR LE. destruct (forced_out fuel b d size FU SZ OR LE) as [X Y]. split.
  - intros (b' & R). apply Z.nlt_ge. intros N. specialize (X N). congruence.
  - intros N. destruct (Y N) as (b' & os & fee & R & _). exists b'. exact R.
Qed.
Print Assumptions C88_forced_iff.

(** Three payees: five, three and two ada; one input of [v] lovelace. *)
Definition payees (v : Z) : builder := set_change_address (add_output (add_output (add_output (add_input new_builder (ex_utxo 1 v)) ex_addr 5000000) ex_addr 3000000) ex_addr 2000000) ex_addr.
Definition payees_size (k : nat) : Z := 155 + 37 * Z.of_nat k.
Definition payees_went (v : Z) (force : bool) : option (Z * list Z) := result (balance 10 (payees v) (ex_dummies 1) force).
Example C88_ex_sizes : forall v, sizes (payees v) (ex_dummies 1) payees_size.
Proof.
  intros v k K. change (length (outputs (payees v))) with 3%nat in K. unfold sized, size_of. cbv zeta.
  destruct k as [|[|[|[|k]]]]; [| | | |exfalso; lia]; (eexists; split; [vm_compute; reflexivity|vm_compute; reflexivity]).
Qed.
Example C88_ex_ordinary : forall v, 0 <= v < 2 ^ 62 -> ordinary (payees v) (payees_size 3) /\ b_input_total (payees v) = v.
Proof.
  intros v R. assert (E : b_input_total (payees v) = v). { change (b_input_total (payees v)) with (to_i64 (0 + v)). rewrite Z.add_0_l. apply to_i64_small. lia. }
  split; [|exact E]. unfold ordinary. rewrite E. split; [vm_compute; discriminate|]. split; [vm_compute; discriminate|]. split; [vm_compute; discriminate|]. split; [reflexivity|].
  split; [repeat (constructor; [vm_compute; split; [discriminate|reflexivity]|]); constructor|]. split; [vm_compute; discriminate|]. split; [reflexivity|]. exact R.
Qed.
Lemma payees_after v k : 0 <= v < 2 ^ 62 -> (k <= 3)%nat -> after (payees v) (firstn k (outputs (payees v))) (payees_size k) = v - nth k [0; 5000000; 8000000; 10000000] 0 - (162201 + 1628 * Z.of_nat k).
Proof.
  intros R K. unfold after. rewrite (proj2 (C88_ex_ordinary v R)). change (b_deposit_total (payees v)) with 0. change (b_fee_a (payees v)) with 44. change (b_fee_b (payees v)) with 155381.
  unfold payees_size. destruct k as [|[|[|[|k]]]]; [| | | |lia];
  match goal with |- context [total ?t] => let x := eval vm_compute in (total t) in change (total t) with x end; cbn [nth]; lia.
Qed.
(** The last payee is dropped for every input below 9.167085 ada, the second as well below 6.165457 ... *)
Example C88_ex_hopeless : forall v, 0 <= v < 6165457 -> forall j, (1 <= j < 3)%nat -> hopeless (payees v) payees_size j.
Proof.
  intros v R j J. destruct j as [|[|[|j]]]; [lia| | |lia].
  - exists {| to_addr := ex_addr; to_amount := 3000000 |}. split; [reflexivity|]. rewrite (payees_after v 2) by lia. cbn [nth to_amount]. change (b_min_utxo (payees v)) with 1000000. lia.
  - exists {| to_addr := ex_addr; to_amount := 2000000 |}. split; [reflexivity|]. rewrite (payees_after v 3) by lia. cbn [nth to_amount]. change (b_min_utxo (payees v)) with 1000000. lia.
Qed.
(** ... and then, between 5.163829 and 6.165457 ada, the first payee gets five ada and the fee is all the rest: up to 1.165456 ada. *)
Example C88_ex_all : forall v, 5163829 <= v < 6165457 -> exists b', balance 10 (payees v) (ex_dummies 1) true = Some (Ok b') /\
  rebalanced (payees v) b' [{| to_addr := ex_addr; to_amount := 5000000 |}] (v - 5000000).
Proof.
  intros v R. destruct (C88_ex_ordinary v ltac:(lia)) as [OR IV].
  destruct (C88_cut_exactly 10 (payees v) (ex_dummies 1) true payees_size 1 ltac:(lia) (C88_ex_sizes v) OR ltac:(change (length (outputs (payees v))) with 3%nat; lia) (C88_ex_hopeless v ltac:(lia))) as (X & _ & _).
  rewrite (payees_after v 1) in X by lia. destruct (proj1 (X ltac:(cbn [nth]; lia) ltac:(change (length (outputs (payees v))) with 3%nat; lia)) (or_introl eq_refl)) as (b' & E & RB). exists b'. split; [exact E|].
  rewrite IV in RB. change (firstn 1 (outputs (payees v))) with [{| to_addr := ex_addr; to_amount := 5000000 |}] in RB. change (b_deposit_total (payees v)) with 0 in RB. cbn [map to_amount total fold_right] in RB.
  replace (v - 0 - (5000000 + 0)) with (v - 5000000) in RB by lia. exact RB.
Qed.
(** Nothing missing; the last reduced; the last removed and the rest burned; two removed; the first reduced; nobody paid and the whole input burned; refused. *)
Example C88_ex_cases : map (fun v => (payees_went v false, payees_went v true)) [10167085; 9500000; 8800000; 6000000; 4000000; 1000000; 162200] =
  [(Some (167085, [5000000; 3000000; 2000000]), Some (167085, [5000000; 3000000; 2000000])); (Some (167085, [5000000; 3000000; 1332915]), Some (167085, [5000000; 3000000; 1332915]));
   (None, Some (800000, [5000000; 3000000])); (None, Some (1000000, [5000000])); (Some (163829, [3836171]), Some (163829, [3836171])); (None, Some (1000000, [])); (None, None)].
Proof. vm_compute. reflexivity. Qed.
(** A hundred and one payees and no money: refused although an input that pays the bare fee is there. *)
Definition crowd : builder := Nat.iter 101 (fun b => add_output b ex_addr 2000000) (add_input new_builder (ex_utxo 1 500000)).
Example C88_ex_crowd : result (balance 10 crowd (ex_dummies 1) true) = None.
Proof. vm_compute. reflexivity. Qed.
(** The three payees: every input of at least 0.162201 ada is balanced by force, no smaller one is. *)
Example C88_ex_iff : forall v, 0 <= v < 2 ^ 62 -> ((exists b', balance 10 (payees v) (ex_dummies 1) true = Some (Ok b')) <-> 162201 <= v).
Proof.
  intros v R. assert (OR : ordinary (payees v) (payees_size (length (outputs (payees v))) + zlen (b_change (payees v)) + 36)).
  { destruct (C88_ex_ordinary v R) as [(A & B & MU & _ & LV & D & DT & IT) _]. refine (conj A (conj B (conj MU (conj _ (conj LV (conj D (conj DT IT))))))). reflexivity. }
  rewrite (C88_forced_iff 10 (payees v) (ex_dummies 1) payees_size ltac:(lia) (C88_ex_sizes v) OR ltac:(change (length (outputs (payees v))) with 3%nat; lia)).
  change (@nil txout) with (firstn 0 (outputs (payees v))). rewrite (payees_after v 0 R) by lia. cbn [nth]. lia.
Qed.
