(** C89: a transaction that is already balanced is added to and balanced again. *)
From Verif Require Import Base BaseLemmas Spec_Cbor Model_Cbor Proof_Cbor Model_Address Spec_Ledger Model_Ledger Proof_Ledger Proof_Ledger2 Model_Tx Spec_Tx Proof_Tx Proof_Tx2 Proof_Tx3 Props_Ledger Props_Tx Props_Fund Props_Short.
Ltac Zify.zify_post_hook ::= idtac.

(** ** Specification *)
(** More payees: one addOutput() for each. *)
Definition add_outputs (b : builder) (xs : list txout) : builder := fold_left (fun b x => add_output b (to_addr x) (to_amount x)) xs b.
(** The transaction is balanced and unsigned: its inputs pay for its outputs, its deposits and its fee, which is that of its size and [rest] more. *)
Definition balanced_with (b : builder) (dummies : list (list Z * list Z)) (rest : Z) : Prop :=
  exists n, sized b dummies (outputs b) n /\ fee_of b = b_fee_a b * n + b_fee_b b + rest /\ witnesses b = [] /\
    b_input_total b = total (map to_amount (outputs b)) + b_deposit_total b + fee_of b.

(** ** Proof *)
Lemma added b xs : witnesses b = [] -> add_outputs b xs = at_ b (outputs b ++ xs) (fee_of b).
Proof.
  revert b. induction xs as [|x xs IH]; intros b W.
  - cbn [add_outputs fold_left]. rewrite app_nil_r. destruct b as [[[] [] m] ? ? ? ? ? ?]. unfold witnesses in W. cbn in W. subst. reflexivity.
  - change (add_outputs b (x :: xs)) with (add_outputs (add_output b (to_addr x) (to_amount x)) xs). rewrite IH by reflexivity.
    change (outputs (add_output b (to_addr x) (to_amount x))) with (outputs b ++ [{| to_addr := to_addr x; to_amount := to_amount x |}]). rewrite <- app_assoc.
    destruct x as [a v]. reflexivity.
Qed.
Lemma itself b : witnesses b = [] -> at_ b (outputs b) (fee_of b) = b.
Proof. intros W. pose proof (added b [] W) as E. rewrite app_nil_r in E. rewrite <- E. reflexivity. Qed.

Lemma grows o x : outs_sz o + 1 <= outs_sz (o ++ [x]).
Proof.
  unfold outs_sz. rewrite map_app, zsum_app, zlen_app. cbn [map]. change (zsum [osz x]) with (osz x + 0). change (zlen [x]) with 1. pose proof (hl_mono (zlen o) (zlen o + 1) ltac:(lia)).
  pose proof (osz_eq x). pose proof (hl_range (zlen (to_addr x))). pose proof (hl_range (to_amount x)). pose proof (zlen_nonneg (to_addr x)). lia.
Qed.

(** ** C89 *)
(** Adding payees to a balanced transaction and balancing it again, with or without force: balance() succeeds and returns the transaction as it was before they were
    added.  None of them is paid, whatever the change output holds.  (With [rest] more in the fee, as force may leave it, the second balance() needs force too.  No payees:
    balancing twice is balancing once.) *)
Theorem C89_payees_lost : forall fuel b dummies force rest xs m, (7 <= fuel)%nat -> balanced_with b dummies rest -> 0 < b_fee_a b -> 0 <= rest <= b_min_utxo b ->
  (forall x, In x xs -> rest <= to_amount x) -> (length xs <= 99)%nat -> sized b dummies (outputs b ++ xs) m -> ordinary (add_outputs b xs) m ->
  (force = true \/ rest = 0 -> balance fuel (add_outputs b xs) dummies force = Some (Ok b)) /\
  (force = false -> rest <> 0 -> balance fuel (add_outputs b xs) dummies force = Some Throw).
Proof.
  intros fuel b d force rest xs m FU (n & SN & FE & W & BAL) A RE XS LX SM OR.
  destruct (sized_sz _ _ _ _ SN) as (cs & CS & EN). destruct (sized_sz _ _ _ _ SM) as (cs' & CS' & EM). assert (cs' = cs) by congruence. subst cs'. clear CS'.
  pose proof (added b xs W) as AD. set (b1 := add_outputs b xs) in *.
  assert (O1 : outputs b1 = outputs b ++ xs) by (rewrite AD; reflexivity).
  assert (CS1 : mapM cert_ser (tb_certs (body_of b1)) = Ok cs) by (rewrite AD; exact CS).
  assert (SZ1 : forall o, sz b1 d cs o = sz b d cs o) by (intros o; rewrite AD; reflexivity).
  assert (I1 : b_input_total b1 = b_input_total b) by (rewrite AD; reflexivity). assert (D1 : b_deposit_total b1 = b_deposit_total b) by (rewrite AD; reflexivity).
  assert (A1 : b_fee_a b1 = b_fee_a b) by (rewrite AD; reflexivity). assert (B1 : b_fee_b b1 = b_fee_b b) by (rewrite AD; reflexivity). assert (M1 : b_min_utxo b1 = b_min_utxo b) by (rewrite AD; reflexivity).
  assert (AT1 : at_ b1 (outputs b) (fee_of b) = b) by (rewrite AD; etransitivity; [|apply itself, W]; reflexivity).
  clear AD. clearbody b1. set (size := fun k => sz b1 d cs (firstn k (outputs b1))).
  assert (SI : sizes b1 d size) by (intros k K; apply (sized_is b1 d cs _ CS1)).
  assert (EM' : size (length (outputs b1)) = m) by (unfold size; rewrite firstn_all, SZ1, O1; symmetry; exact EM). rewrite <- EM' in OR.
  set (k := length (outputs b)). assert (L1 : length (outputs b1) = (k + length xs)%nat) by (rewrite O1, app_length; reflexivity).
  assert (FK : firstn k (outputs b1) = outputs b) by (rewrite O1; unfold k; apply firstn_app_exact; reflexivity).
  assert (SK : size k = n) by (unfold size; rewrite FK, SZ1; symmetry; exact EN).
  assert (AF : after b1 (firstn k (outputs b1)) (size k) = rest) by (unfold after; rewrite FK, SK, I1, D1, A1, B1; lia).
  destruct (prepared b1 d size SI OR) as (cs2 & CS2 & E2 & P). assert (cs2 = cs) by congruence. subst cs2. destruct (P k ltac:(lia)) as (FI & SP & CO & CB). rewrite FK in FI, SP, CO, CB. rewrite FK in AF. rewrite AF in SP. rewrite SK in CO.
  destruct xs as [|x0 xs0] eqn:X0.
  - rewrite balance_start. rewrite app_nil_r in O1. rewrite O1. destruct OR as (_ & B & MU & M & LV & D & DT & IT). rewrite M1 in CB. rewrite A1, B1 in CO.
    assert (A' : 0 <= b_fee_a b1) by lia. assert (Q : cost b1 d cs (outputs b) + spare b1 d cs (outputs b) = fee_of b) by lia.
    destruct (Z.eq_dec rest 0) as [R0|RN].
    + split; [intros _|congruence]. rewrite (iter b1 d cs fuel FU CS1 A' B 99 0 (outputs b) _ force D ltac:(lia) FI). rewrite SP, R0. cbn [Z.eqb].
      replace (cost b1 d cs (outputs b)) with (fee_of b) by lia. rewrite AT1. reflexivity.
    + split; [intros [->|E]; [|contradiction]|intros -> _].
      * rewrite (forced b1 d cs fuel FU CS1 A' B (outputs b) 99 0) by (try assumption; lia). rewrite Q, AT1. reflexivity.
      * apply (stuck b1 d cs fuel FU CS1 A' B (outputs b) D ltac:(lia) FI); lia.
  - rewrite <- X0 in *. assert (LX1 : (1 <= length xs)%nat) by (rewrite X0; cbn; lia). clear x0 xs0 X0.
    assert (RI : in_range (outputs b1)) by (destruct OR as (_ & _ & _ & _ & LV & _); exact LV).
    assert (DN : forall j, (j <= length xs)%nat -> after b1 (firstn (k + j) (outputs b1)) (size (k + j)%nat) <= rest - total (map to_amount (firstn j xs)) - b_fee_a b * Z.of_nat j).
    { induction j as [|j IH]; intros J; [rewrite Nat.add_0_r; cbn [firstn map total]; rewrite FK in *; rewrite AF; lia|]. specialize (IH ltac:(lia)).
      destruct (nth_error xs j) as [x|] eqn:NE; [|apply nth_error_None in NE; lia].
      assert (NE1 : nth_error (outputs b1) (k + j) = Some x). { rewrite O1, nth_error_app2 by (unfold k; lia). replace (k + j - length (outputs b))%nat with j by (unfold k; lia). exact NE. }
      replace (k + S j)%nat with (S (k + j)) by lia. pose proof (snoc_at _ _ _ NE1) as S1. pose proof (snoc_at _ _ _ NE) as S2.
      assert (GR : size (k + j)%nat + 1 <= size (S (k + j))). { unfold size. rewrite S1. unfold sz. pose proof (grows (firstn (k + j) (outputs b1)) x). lia. }
      pose proof (Z.mul_le_mono_nonneg_l _ _ (b_fee_a b) ltac:(lia) GR) as MG. unfold after in IH |- *. rewrite A1 in IH |- *. rewrite S2, S1.
      pose proof (total_zsum (map to_amount (firstn (k + j) (outputs b1) ++ [x]))) as T1. pose proof (total_zsum (map to_amount (firstn (k + j) (outputs b1)))) as T2. pose proof (zsum_push fuel FU (firstn (k + j) (outputs b1)) x) as T3.
      pose proof (total_zsum (map to_amount (firstn j xs ++ [x]))) as T4. pose proof (total_zsum (map to_amount (firstn j xs))) as T5. pose proof (zsum_push fuel FU (firstn j xs) x) as T6. lia. }
    assert (RX : in_range xs) by (rewrite O1 in RI; apply Forall_app in RI as [_ RI]; exact RI).
    assert (HO : forall j, (k <= j < length (outputs b1))%nat -> hopeless b1 size j).
    { intros j J. set (i := (j - k)%nat). replace j with (k + i)%nat by lia. assert (I : (i < length xs)%nat) by lia. destruct (nth_error xs i) as [x|] eqn:NE; [|apply nth_error_None in NE; lia].
      exists x. split; [rewrite O1, nth_error_app2 by (unfold k; lia); replace (k + i - length (outputs b))%nat with i by (unfold k; lia); exact NE|].
      specialize (DN (S i) ltac:(lia)). replace (k + S i)%nat with (S (k + i)) in DN by lia. rewrite (snoc_at _ _ _ NE) in DN.
      pose proof (total_zsum (map to_amount (firstn i xs ++ [x]))) as T4. pose proof (total_zsum (map to_amount (firstn i xs))) as T5. pose proof (zsum_push fuel FU (firstn i xs) x) as T6.
      pose proof (zsum_firstn xs RX i) as [T7 _]. pose proof (XS x (nth_error_In _ _ NE)) as XR. assert (PO : 0 < b_fee_a b * Z.of_nat (S i)) by (apply Z.mul_pos_pos; lia). set (q := b_fee_a b * Z.of_nat (S i)) in *. clearbody q. rewrite M1. split; lia. }
    pose proof (C88_cut_exactly fuel b1 d force size k FU SI OR ltac:(lia) HO) as (X1 & _ & _). cbv zeta in X1. rewrite FK, AF in X1. destruct (X1 ltac:(lia) ltac:(lia)) as [Y Z0]. split; [|exact Z0].
    intros F. destruct (Y F) as (b' & R & RB). rewrite R. f_equal. f_equal. rewrite <- AT1. rewrite I1, D1 in RB.
    replace (b_input_total b - b_deposit_total b - total (map to_amount (outputs b))) with (fee_of b) in RB by lia. exact RB.
Qed.
Print Assumptions C89_payees_lost.
(** What balance() leaves without force is balanced, with nothing more in the fee. *)
Theorem C89_balanced : forall fuel b0 dummies b n, balance fuel b0 dummies false = Some (Ok b) -> 0 <= b_min_utxo b0 -> Forall (fun o => lovelace (to_amount o)) (outputs b0) ->
  sized b dummies (outputs b) n -> 0 <= b_fee_a b -> 2 ^ 16 <= b_fee_b b -> b_fee_a b * (n + 4) + b_fee_b b < 2 ^ 32 -> balanced_with b dummies 0.
Proof.
  intros fuel b0 d b n R MU LV SN A B M. pose proof (C36_frame _ _ _ _ _ R) as (_ & _ & _ & _ & _ & FI & FD & FW). destruct (C36_fee_exact _ _ _ _ R) as (n' & SN' & FE).
  pose proof (balance_shape _ _ _ _ _ R) as (f' & o' & E'). assert (A0 : b_fee_a b = b_fee_a b0) by (rewrite E'; reflexivity). assert (B0 : b_fee_b b = b_fee_b b0) by (rewrite E'; reflexivity). clear E'.
  rewrite <- A0, <- B0 in FE. destruct (sized_sz _ _ _ _ SN) as (cs & CS & EN). rewrite carrying_eq in SN'. apply size_of_iff in SN'. pose proof (size_any_fee b d cs (fee_of b) CS) as SY.
  change (set_vkeys (tx_set_fee (b_tx b) (fee_of b)) d) with (tx_set_fee (set_vkeys (b_tx b) d) (fee_of b)) in SN'. rewrite SY in SN'. injection SN' as <-.
  assert (SK : size_k b d cs = n - 5) by (rewrite EN; unfold sz, size_k, outputs, body_of; cbn [tx_body set_vkeys]; lia).
  pose proof (hl_range (fee_of b)) as HR. pose proof (size_k_nonneg b d cs) as SKN. rewrite SK in FE, SKN.
  pose proof (Z.mul_le_mono_nonneg_l (n - 5 + hl (fee_of b)) (n + 4) (b_fee_a b) A ltac:(lia)) as MM. assert (0 <= b_fee_a b * (n - 5 + hl (fee_of b))) by (apply Z.mul_nonneg_nonneg; lia).
  assert (0 <= b_fee_a b) by lia. assert (A64 : b_fee_a b < 2 ^ 64). { pose proof (Z.mul_le_mono_nonneg_l 1 (n + 4) (b_fee_a b) A ltac:(lia)). lia. }
  rewrite (Z.mod_small (b_fee_a b)), (Z.mod_small (b_fee_b b)) in FE by lia. rewrite Z.mod_small in FE by lia. assert (H5 : hl (fee_of b) = 5) by (apply hl5; lia).
  exists n. split; [exact SN|]. split; [rewrite H5 in FE; replace (n - 5 + 5) with n in FE by lia; lia|]. split; [exact FW|].
  pose proof (C36_conserves fuel b0 d false b MU LV R ltac:(unfold lovelace; lia)). lia.
Qed.
Print Assumptions C89_balanced.
(** So: balance, addOutput any number of times, balance again.  The second balance() succeeds and gives back what the first one gave. *)
Theorem C89_balance_add_balance : forall fuel b0 dummies b force xs n m, (7 <= fuel)%nat -> balance fuel b0 dummies false = Some (Ok b) -> Forall (fun o => lovelace (to_amount o)) (outputs b0) -> 0 < b_fee_a b ->
  sized b dummies (outputs b) n -> sized b dummies (outputs b ++ xs) m -> ordinary (add_outputs b xs) m -> (length xs <= 99)%nat ->
  balance fuel (add_outputs b xs) dummies force = Some (Ok b).
Proof.
  intros fuel b0 d b force xs n m FU R LV A SN SM OR LX. pose proof (C36_frame _ _ _ _ _ R) as (_ & _ & _ & _ & _ & FI & FD & FW). pose proof (balance_shape _ _ _ _ _ R) as (f' & o' & E'). assert (M0 : b_min_utxo b = b_min_utxo b0) by (rewrite E'; reflexivity). clear E'.
  pose proof (added b xs FW) as AD. assert (OR' := OR). rewrite AD in OR. destruct OR as (_ & B & MU & M & LO & _). change (b_min_utxo (at_ b (outputs b ++ xs) (fee_of b))) with (b_min_utxo b) in MU, M. change (b_fee_a (at_ b (outputs b ++ xs) (fee_of b))) with (b_fee_a b) in M. change (b_fee_b (at_ b (outputs b ++ xs) (fee_of b))) with (b_fee_b b) in B, M.
  change (outputs (at_ b (outputs b ++ xs) (fee_of b))) with (outputs b ++ xs) in LO.
  assert (NM : n <= m). { destruct (sized_sz _ _ _ _ SN) as (cs & CS & ->). destruct (sized_sz _ _ _ _ SM) as (cs' & CS' & ->). assert (cs' = cs) by congruence. subst cs'. unfold sz.
    assert (P : forall l o, outs_sz o <= outs_sz (o ++ l)). { induction l as [|y l IH]; intros o; [rewrite app_nil_r; lia|]. specialize (IH (o ++ [y])). rewrite <- app_assoc in IH. pose proof (grows o y). cbn [app] in IH. lia. } specialize (P xs (outputs b)). lia. }
  pose proof (Z.mul_le_mono_nonneg_l (n + 4) (m + 4) (b_fee_a b) ltac:(lia) ltac:(lia)).
  assert (BW : balanced_with b d 0) by (apply (C89_balanced fuel b0 d b n R); try assumption; lia).
  apply (C89_payees_lost fuel b d force 0 xs m FU BW A); try assumption; [lia| |right; reflexivity].
  intros x I. apply Forall_app in LO as [_ LO]. rewrite Forall_forall in LO. apply (LO x I).
Qed.
Print Assumptions C89_balance_add_balance.
(** A further input that brings no more than the minimum output over what it costs itself: balance() refuses, and with force the whole input goes to the fee, although the
    change output of the first balance() could have been increased. *)
Theorem C89_small_top_up : forall fuel b dummies u n n1, (7 <= fuel)%nat -> balanced_with b dummies 0 -> sized b dummies (outputs b) n -> sized (add_input b u) dummies (outputs b) n1 -> ordinary (add_input b u) n1 ->
  0 <= u_value u -> b_input_total b + u_value u < 2 ^ 62 ->
  0 < u_value u - b_fee_a b * (n1 - n) <= b_min_utxo b ->
  balance fuel (add_input b u) dummies false = Some Throw /\
  exists b', balance fuel (add_input b u) dummies true = Some (Ok b') /\ rebalanced (add_input b u) b' (outputs b) (fee_of b + u_value u).
Proof.
  intros fuel b d u n n1 FU (n' & SN' & FE & W & BAL) SN S1 OR UV IU EX. destruct (sized_sz _ _ _ _ SN) as (cs0 & CS0 & E0). destruct (sized_sz _ _ _ _ SN') as (cs0' & CS0' & E0'). assert (cs0' = cs0) by congruence. subst cs0'. assert (NN : n' = n) by congruence. rewrite NN in FE, SN'. clear E0' NN CS0' SN'.
  set (b1 := add_input b u) in *. assert (O1 : outputs b1 = outputs b) by reflexivity. assert (A1 : b_fee_a b1 = b_fee_a b) by reflexivity. assert (B1 : b_fee_b b1 = b_fee_b b) by reflexivity. assert (M1 : b_min_utxo b1 = b_min_utxo b) by reflexivity. assert (D1 : b_deposit_total b1 = b_deposit_total b) by reflexivity.
  assert (I1 : b_input_total b1 = to_i64 (b_input_total b + u_value u)) by reflexivity. clearbody b1.
  destruct OR as (A & B & MU & M & LV & D & DT & IT). rewrite O1 in *. pose proof (in_range_nonneg (outputs b) LV) as ZN. pose proof (total_zsum (map to_amount (outputs b))) as T1. pose proof (sized_sz _ _ _ _ S1) as (cs & CS & EN). pose proof (sz_pos b1 d cs (outputs b)) as SP.
  rewrite D1 in D, DT. assert (F0 : 0 <= b_input_total b). { rewrite A1 in *. rewrite B1 in *. pose proof (sz_pos b d cs0 (outputs b)) as Q. rewrite <- E0 in Q. pose proof (Z.mul_nonneg_nonneg (b_fee_a b) n A ltac:(lia)). lia. }
  rewrite to_i64_small in I1 by lia. rewrite <- EN in SP.
  assert (COS : cost b1 d cs (outputs b) = b_fee_a b1 * n1 + b_fee_b b1) by (unfold cost; rewrite <- EN; reflexivity).
  assert (FI : fine b1 d cs (outputs b)). { rewrite Z.mul_add_distr_l in M. split; [unfold small_cost; rewrite <- EN, Z.mul_add_distr_l; lia|]. split; [exact LV|]. lia. }
  assert (SPA : spare b1 d cs (outputs b) = u_value u - b_fee_a b * (n1 - n)). { unfold spare. rewrite COS, I1, D1, A1, B1, BAL, FE. rewrite Z.mul_sub_distr_l. lia. }
  rewrite !balance_start, O1. rewrite Z.mul_add_distr_l in M. rewrite A1, B1, M1 in *. split.
  - apply (stuck b1 d cs fuel FU CS ltac:(lia) ltac:(lia) (outputs b) ltac:(lia) ltac:(lia) FI); [lia|right; rewrite M1; lia|lia].
  - rewrite (forced b1 d cs fuel FU CS ltac:(lia) ltac:(lia) (outputs b) 99 0); [|lia|lia|exact FI|lia|right; rewrite M1; lia|lia|lia].
    eexists. split; [reflexivity|]. rewrite SPA, COS. replace (b_fee_a b * n1 + b_fee_b b + (u_value u - b_fee_a b * (n1 - n))) with (fee_of b + u_value u) by (rewrite FE, Z.mul_sub_distr_l; lia). apply rebalanced_at.
Qed.
Print Assumptions C89_small_top_up.
(** A certificate added after balancing (each of the five certificate calls is [add_cert] with its certificate and deposit): the deposit and the longer transaction are paid by
    the last output alone, which is the change if the first balance() made one; a payee otherwise. *)
Theorem C89_certificate : forall fuel b dummies force c deposit n n1 before x m, (7 <= fuel)%nat -> balanced_with b dummies 0 -> sized b dummies (outputs b) n ->
  let b1 := add_cert b c deposit in
  sized b1 dummies (outputs b) n1 -> ordinary b1 n1 -> 0 <= b_deposit_total b -> 0 <= deposit -> b_deposit_total b + deposit < 2 ^ 62 -> outputs b = before ++ [x] ->
  let missing := deposit + b_fee_a b * (n1 - n) in
  0 < missing -> b_min_utxo b <= to_amount x - missing ->
  sized b1 dummies (before ++ [with_amount x (to_amount x - missing)]) m -> force = true \/ m = n1 ->
  exists b', balance fuel b1 dummies force = Some (Ok b') /\ rebalanced b1 b' (before ++ [with_amount x (to_amount x - missing)]) (b_fee_a b * n1 + b_fee_b b).
Proof.
  intros fuel b d force c dep n n1 before x m FU (n' & SN' & FE & W & BAL) SN b1 S1 OR D0 DP DD OB missing MI MIN SM F.
  destruct (sized_sz _ _ _ _ SN) as (cs0 & CS0 & E0). destruct (sized_sz _ _ _ _ SN') as (cs0' & CS0' & E0'). assert (cs0' = cs0) by congruence. subst cs0'. assert (NN : n' = n) by congruence. rewrite NN in FE, SN'. clear E0' NN CS0' SN' E0 CS0 cs0.
  assert (O1 : outputs b1 = outputs b) by reflexivity. assert (A1 : b_fee_a b1 = b_fee_a b) by reflexivity. assert (B1 : b_fee_b b1 = b_fee_b b) by reflexivity. assert (M1 : b_min_utxo b1 = b_min_utxo b) by reflexivity.
  assert (I1 : b_input_total b1 = b_input_total b) by reflexivity. assert (D1 : b_deposit_total b1 = to_i64 (b_deposit_total b + dep)) by reflexivity. rewrite to_i64_small in D1 by lia. clearbody b1.
  destruct (sized_sz _ _ _ _ S1) as (cs & CS & E1). set (size := fun k => sz b1 d cs (firstn k (outputs b1))). assert (SI : sizes b1 d size) by (intros k K; apply (sized_is b1 d cs _ CS)).
  assert (SL : size (length (outputs b1)) = n1) by (unfold size; rewrite firstn_all, O1; symmetry; exact E1). rewrite <- SL in OR.
  assert (AF : after b1 (firstn (length (outputs b1)) (outputs b1)) (size (length (outputs b1))) = - missing). { rewrite SL, firstn_all. unfold after, missing. rewrite O1, I1, D1, A1, B1, BAL, FE, Z.mul_sub_distr_l. lia. }
  assert (LE : length (outputs b1) = S (length before)) by (rewrite O1, OB, app_length; cbn [length]; lia).
  pose proof (C88_cut_exactly fuel b1 d force size (length (outputs b1)) FU SI OR (le_n _) ltac:(intros; lia)) as (_ & X2 & _). cbv zeta in X2. rewrite AF in X2. rewrite LE in X2.
  replace (S (length before) - 1)%nat with (length before) in X2 by lia. replace (S (length before) - S (length before))%nat with 0%nat in X2 by lia.
  assert (FB : firstn (length before) (outputs b1) = before) by (rewrite O1, OB; apply firstn_app_exact; reflexivity). rewrite FB in X2. rewrite <- LE, SL in X2.
  specialize (X2 x ltac:(lia) ltac:(lia) ltac:(lia)). rewrite O1, OB in X2. rewrite nth_error_app2, Nat.sub_diag in X2 by lia. specialize (X2 eq_refl ltac:(lia) m). replace (to_amount x + - missing) with (to_amount x - missing) in X2 by lia. specialize (X2 SM) as [Y _].
  rewrite A1, B1 in Y. apply Y. tauto.
Qed.
Print Assumptions C89_certificate.

(** *** Example: twenty ada in, five to a payee, the rest is change; then three ada to another payee. *)
Definition tw : builder := set_change_address (add_output (add_input new_builder (ex_utxo 1 20000000)) ex_addr 5000000) ex_addr.
Definition tw1 : builder := at_ tw [{| to_addr := ex_addr; to_amount := 5000000 |}; {| to_addr := ex_addr; to_amount := 14834543 |}] 165457.
Definition late : txout := {| to_addr := ex_addr; to_amount := 3000000 |}.
Example C89_ex_first : balance 10 tw (ex_dummies 1) false = Some (Ok tw1).
Proof. vm_compute. reflexivity. Qed.
Example C89_ex_sized : sized tw1 (ex_dummies 1) (outputs tw1) 229 /\ sized tw1 (ex_dummies 1) (outputs tw1 ++ [late]) 266.
Proof. split; (eexists; split; [vm_compute; reflexivity|vm_compute; reflexivity]). Qed.
Example C89_ex_ordinary : ordinary (add_outputs tw1 [late]) 266.
Proof.
  unfold ordinary. split; [vm_compute; discriminate|]. split; [vm_compute; discriminate|]. split; [vm_compute; discriminate|]. split; [reflexivity|].
  split; [repeat (constructor; [vm_compute; split; [discriminate|reflexivity]|]); constructor|]. split; [vm_compute; discriminate|]. split; [reflexivity|]. split; [vm_compute; discriminate|reflexivity].
Qed.
(** Fourteen ada of change, and the payee of three is not paid. *)
Example C89_ex_lost : forall force, balance 10 (add_outputs tw1 [late]) (ex_dummies 1) force = Some (Ok tw1).
Proof.
  intros force. apply (C89_balance_add_balance 10 tw (ex_dummies 1) tw1 force [late] 229 266); [lia|exact C89_ex_first| |reflexivity|exact (proj1 C89_ex_sized)|exact (proj2 C89_ex_sized)|exact C89_ex_ordinary|cbn; lia].
  constructor; [vm_compute; split; [discriminate|reflexivity]|constructor].
Qed.
(** The same two payees before the first balance() are both paid. *)
Example C89_ex_in_time : result (balance 10 (add_outputs tw [late]) (ex_dummies 1) false) = Some (167085, [5000000; 3000000; 11832915]).
Proof. vm_compute. reflexivity. Qed.
(** One ada more as input: refused, or burned. *)
Example C89_ex_top_up : result (balance 10 (add_input tw1 (ex_utxo 2 1000000)) (ex_dummies 1) false) = None /\
  exists b', balance 10 (add_input tw1 (ex_utxo 2 1000000)) (ex_dummies 1) true = Some (Ok b') /\ rebalanced (add_input tw1 (ex_utxo 2 1000000)) b' (outputs tw1) 1165457.
Proof.
  destruct (C89_small_top_up 10 tw1 (ex_dummies 1) (ex_utxo 2 1000000) 229 265) as [E R].
  - lia.
  - apply (C89_balanced 10 tw (ex_dummies 1) tw1 229 C89_ex_first); [vm_compute; discriminate| |exact (proj1 C89_ex_sized)|vm_compute; discriminate|vm_compute; discriminate|reflexivity].
    constructor; [vm_compute; split; [discriminate|reflexivity]|constructor].
  - exact (proj1 C89_ex_sized).
  - eexists; split; [vm_compute; reflexivity|vm_compute; reflexivity].
  - unfold ordinary. split; [vm_compute; discriminate|]. split; [vm_compute; discriminate|]. split; [vm_compute; discriminate|]. split; [reflexivity|].
    split; [repeat (constructor; [vm_compute; split; [discriminate|reflexivity]|]); constructor|]. split; [vm_compute; discriminate|]. split; [reflexivity|]. split; [vm_compute; discriminate|reflexivity].
  - vm_compute. discriminate.
  - reflexivity.
  - split; [reflexivity|vm_compute; discriminate].
  - split; [rewrite E; reflexivity|exact R].
Qed.
(** A stake registration after balancing: two ada and the longer transaction come out of the change. *)
Example C89_ex_certificate : forall force, exists b', balance 10 (add_stake_registration tw1 ex_account 2000000) (ex_dummies 1) force = Some (Ok b') /\
  rebalanced (add_stake_registration tw1 ex_account 2000000) b' [{| to_addr := ex_addr; to_amount := 5000000 |}; {| to_addr := ex_addr; to_amount := 12832959 |}] 167041.
Proof.
  intros force. apply (C89_certificate 10 tw1 (ex_dummies 1) force (StakeReg (reward_cred ex_account)) 2000000 229 265 [{| to_addr := ex_addr; to_amount := 5000000 |}] {| to_addr := ex_addr; to_amount := 14834543 |} 265).
  - lia.
  - apply (C89_balanced 10 tw (ex_dummies 1) tw1 229 C89_ex_first); [vm_compute; discriminate| |exact (proj1 C89_ex_sized)|vm_compute; discriminate|vm_compute; discriminate|reflexivity].
    constructor; [vm_compute; split; [discriminate|reflexivity]|constructor].
  - exact (proj1 C89_ex_sized).
  - eexists; split; [vm_compute; reflexivity|vm_compute; reflexivity].
  - unfold ordinary. split; [vm_compute; discriminate|]. split; [vm_compute; discriminate|]. split; [vm_compute; discriminate|]. split; [reflexivity|].
    split; [repeat (constructor; [vm_compute; split; [discriminate|reflexivity]|]); constructor|]. split; [vm_compute; discriminate|]. split; [reflexivity|]. split; [vm_compute; discriminate|reflexivity].
  - vm_compute. discriminate.
  - lia.
  - reflexivity.
  - reflexivity.
  - reflexivity.
  - vm_compute. discriminate.
  - eexists; split; [vm_compute; reflexivity|vm_compute; reflexivity].
  - right. reflexivity.
Qed.
