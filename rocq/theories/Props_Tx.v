(** C36 to C40 and C56: the transaction builders. *)
From Verif Require Import Base BaseLemmas Model_Hex Spec_Cbor Model_Cbor Proof_Cbor Model_Address Model_Ledger Spec_Ledger Proof_Ledger Proof_Ledger2 Model_Tx Spec_Tx Proof_Tx Proof_Tx2 Proof_Tx3 Proof_Babbage Props_Ledger.
From Coq Require Import Sorted Permutation.
Ltac Zify.zify_post_hook ::= idtac.

Lemma total_zsum l : total l = zsum l. Proof. induction l as [|x l IH]; [reflexivity|]. cbn [total zsum fold_right]. rewrite IH. reflexivity. Qed.
Lemma size_of_iff t n : size_of t n <-> tx_size t = Ok n.
Proof.
  unfold size_of, tx_size. destruct (serialize (tx_ser t)) as [s| |]; cbn [bind]; split.
  - intros (s' & E & L). injection E as <-. rewrite L. reflexivity.
  - intros E. injection E as E. exists s. auto.
  - intros (s' & E & L). discriminate.
  - discriminate.
  - intros (s' & E & L). discriminate.
  - discriminate.
Qed.
Lemma carrying_eq t f w : carrying t f w = set_vkeys (tx_set_fee t f) w. Proof. reflexivity. Qed.
Lemma fee_once_size a b t c : fee_once a b t = Ok c -> exists n, size_of t n /\ c = (a * n + b) mod 2 ^ 64.
Proof. unfold fee_once. intros H. apply bind_ok in H as (n & S & H). injection H as <-. exists n. split; [apply size_of_iff, S|reflexivity]. Qed.
Lemma size_fits b d n0 : size_of (set_vkeys (b_tx b) d) n0 -> 0 <= b_fee_a b -> 0 <= b_fee_b b -> b_fee_a b * (n0 + 8) + b_fee_b b < 2 ^ 64 -> exists cs, fits b d cs.
Proof.
  intros S A B M. apply size_of_iff in S. apply tx_size_inv in S as (cs & C & N). exists cs. constructor; [exact C|exact A|exact B|].
  change (base_sz (set_vkeys (b_tx b) d) cs + outs_sz (tb_outputs (tx_body (set_vkeys (b_tx b) d)))) with (size_k b d cs) in N. pose proof (hl_range (tx_fee (set_vkeys (b_tx b) d))). nia.
Qed.

(** ** C37: fees *)
(** What calculateFee returns is a * size + b (in 64-bit arithmetic), for the size of the transaction that carries that very fee and the requested number of witnesses. *)
Theorem C37_fee_exact : forall fuel b dummies fee, calculate_fee fuel b dummies = Some (Ok fee) ->
  exists n, size_of (carrying (b_tx b) fee dummies) n /\ fee = ((b_fee_a b mod 2 ^ 64) * n + b_fee_b b mod 2 ^ 64) mod 2 ^ 64.
Proof. intros fuel b d fee H. apply calc_fix in H. apply fee_once_size in H. exact H. Qed.
(** With parameters that are not negative and no 64-bit overflow it terminates, within six rounds, and the fee is exact without any modulus. *)
Theorem C37_terminates : forall b dummies n0, size_of (carrying (b_tx b) (fee_of b) dummies) n0 ->
  0 <= b_fee_a b -> 0 <= b_fee_b b -> b_fee_a b * (n0 + 8) + b_fee_b b < 2 ^ 64 ->
  exists fee n, (forall fuel, (6 <= fuel)%nat -> calculate_fee fuel b dummies = Some (Ok fee)) /\
    size_of (carrying (b_tx b) fee dummies) n /\ fee = b_fee_a b * n + b_fee_b b.
Proof.
  intros b d n0 S A B M. rewrite carrying_eq in S. change (tx_set_fee (b_tx b) (fee_of b)) with (tx_set_fee (b_tx b) (tx_fee (b_tx b))) in S. rewrite set_fee_same in S.
  destruct (size_fits b d n0 S A B M) as [cs W]. destruct (calc_ok b d cs 6 W ltac:(lia)) as (c & E & FC). exists c, (size_k b d cs + hl c).
  split; [intros fuel L; exact (calc_more _ _ _ _ _ E L)|]. split; [|exact FC]. apply size_of_iff. destruct W as [C _ _ _]. exact (size_any_fee b d cs c C).
Qed.
(** It does not depend on the witnesses' contents, so the fee of the dummy-witnessed transaction is the fee of the signed one. *)
Theorem C37_fee_witness_independent : forall fuel b d d', Forall vkey_wf d -> Forall vkey_wf d' -> length d = length d' -> calculate_fee fuel b d = calculate_fee fuel b d'.
Proof. intros. apply calc_indep; assumption. Qed.
Theorem C37_fee_of_signed : forall fuel b dummies fee signed, calculate_fee fuel b dummies = Some (Ok fee) ->
  Forall vkey_wf dummies -> Forall vkey_wf signed -> length signed = length dummies ->
  exists n, size_of (carrying (b_tx b) fee signed) n /\ fee = ((b_fee_a b mod 2 ^ 64) * n + b_fee_b b mod 2 ^ 64) mod 2 ^ 64.
Proof.
  intros fuel b d fee s H W W' L. destruct (C37_fee_exact _ _ _ _ H) as (n & S & E). exists n. split; [|exact E]. apply size_of_iff. apply size_of_iff in S. rewrite carrying_eq in *. rewrite <- S. apply tx_size_indep; assumption.
Qed.
(** updateFee changes the fee only, discards the witnesses, and leaves the exact fee in the body. *)
Theorem C37_update_fee : forall fuel b dummies b', update_fee fuel b dummies = Some (Ok b') ->
  b_tx b' = carrying (b_tx b) (fee_of b') [] /\ b_input_total b' = b_input_total b /\ b_deposit_total b' = b_deposit_total b /\
  exists n, size_of (carrying (b_tx b) (fee_of b') dummies) n /\ fee_of b' = ((b_fee_a b mod 2 ^ 64) * n + b_fee_b b mod 2 ^ 64) mod 2 ^ 64.
Proof.
  intros fuel b d b' H. apply update_inv in H as (c & -> & FE). split; [reflexivity|]. split; [reflexivity|]. split; [reflexivity|]. apply fee_once_size in FE. exact FE.
Qed.
Theorem C37_update_fee_terminates : forall b dummies n0, size_of (carrying (b_tx b) (fee_of b) dummies) n0 ->
  0 <= b_fee_a b -> 0 <= b_fee_b b -> b_fee_a b * (n0 + 8) + b_fee_b b < 2 ^ 64 ->
  forall fuel, (7 <= fuel)%nat -> exists b' n, update_fee fuel b dummies = Some (Ok b') /\ size_of (carrying (b_tx b) (fee_of b') dummies) n /\ fee_of b' = b_fee_a b * n + b_fee_b b.
Proof.
  intros b d n0 S A B M fuel L. rewrite carrying_eq in S. change (tx_set_fee (b_tx b) (fee_of b)) with (tx_set_fee (b_tx b) (tx_fee (b_tx b))) in S. rewrite set_fee_same in S.
  destruct (size_fits b d n0 S A B M) as [cs W]. destruct (update_ok b d cs fuel W L) as (c & E & FC). exists (set_fee b c), (size_k b d cs + hl c). split; [exact E|]. split; [|exact FC].
  apply size_of_iff. destruct W as [C _ _ _]. exact (size_any_fee b d cs c C).
Qed.
(** setMinFeeA takes a signed value.  With a negative one the iteration can oscillate for ever: this builder is one such. *)
Definition osc_builder : builder := set_min_fee new_builder (-1) (65536 + 11 + 4).
Lemma osc_size f : tx_size (tx_set_fee (b_tx osc_builder) f) = Ok (11 + hl f).
Proof. rewrite (tx_size_eq (tx_set_fee (b_tx osc_builder) f) []); reflexivity. Qed.
Lemma osc_once f : fee_once (to_u64 (-1)) (to_u64 65551) (tx_set_fee (b_tx osc_builder) f) = Ok (65540 - hl f).
Proof.
  unfold fee_once. rewrite osc_size. cbn [bind]. f_equal. unfold to_u64. pose proof (hl_range f). rewrite (Z.mod_small 65551) by lia.
  change ((-1) mod 2 ^ 64) with (2 ^ 64 - 1). replace ((2 ^ 64 - 1) * (11 + hl f) + 65551) with (65540 - hl f + (11 + hl f) * 2 ^ 64) by lia. rewrite Z.mod_add, Z.mod_small by lia. reflexivity.
Qed.
Theorem C37_negative_fee_parameter_refuted : exists b, b_fee_a b = -1 /\ (exists n, size_of (carrying (b_tx b) (fee_of b) []) n) /\ forall fuel, calculate_fee fuel b [] = None.
Proof.
  exists osc_builder. split; [reflexivity|]. split; [eexists; apply size_of_iff; exact (osc_size 0)|]. intros fuel. unfold calculate_fee. cbv zeta.
  change (set_vkeys (b_tx osc_builder) []) with (tx_set_fee (b_tx osc_builder) 0). change (b_fee_a osc_builder) with (-1). change (b_fee_b osc_builder) with 65551. unfold lift. rewrite osc_once. cbn [rbind]. change (65540 - hl 0) with 65539.
  assert (X : forall fuel, fee_loop fuel (to_u64 (-1)) (to_u64 65551) (tx_set_fee (b_tx osc_builder) 65539) 65535 = None /\ fee_loop fuel (to_u64 (-1)) (to_u64 65551) (tx_set_fee (b_tx osc_builder) 65535) 65537 = None /\ fee_loop fuel (to_u64 (-1)) (to_u64 65551) (tx_set_fee (b_tx osc_builder) 65537) 65535 = None).
  { induction fuel0 as [|k (I1 & I2 & I3)]; [repeat split; reflexivity|]. repeat split; cbn [fee_loop]; rewrite ?set_fee_twice;
      match goal with |- (if ?x =? tx_fee (tx_set_fee _ ?y) then _ else _) = _ => change (x =? tx_fee (tx_set_fee (b_tx osc_builder) y)) with (x =? y) end; cbn [Z.eqb Pos.eqb]; cbv zeta; rewrite ?set_fee_twice; unfold lift; rewrite osc_once; cbn [rbind]; first [exact I2|exact I3]. }
  destruct fuel as [|k]; [reflexivity|]. cbn [fee_loop]. change (65539 =? tx_fee (tx_set_fee (b_tx osc_builder) 0)) with false. cbv beta iota zeta. rewrite ?set_fee_twice. unfold lift. rewrite osc_once. cbn [rbind].
  change (65540 - hl 65539) with 65535. exact (proj1 (X k)).
Qed.
(** The Babbage builder's calculateFee also returns the exact fee, but stores it in the body and discards the caller's signatures. *)
Definition bcarrying (b : bbuilder) (f : Z) (w : list (list Z * list Z)) : bbuilder :=
  {| bb_body := {| bb_inputs := bb_inputs (bb_body b); bb_outputs := bb_outputs (bb_body b); bb_fee := f; bb_ttl := bb_ttl (bb_body b); bb_certs := bb_certs (bb_body b); bb_withdrawals := bb_withdrawals (bb_body b) |};
     bb_vkeys := w; bb_flag := bb_flag b; bb_a := bb_a b; bb_b := bb_b b |}.
Definition bsize (b : bbuilder) : Z := zlen (cbor_encode (btx_ser (bb_body b) (bb_vkeys b) (bb_flag b))).
Lemma bb_same b : bcarrying b (bb_fee (bb_body b)) (bb_vkeys b) = b. Proof. destruct b as [[] ? ? ? ?]. reflexivity. Qed.
Lemma bb_loop fuel : forall b calc b', calc = to_u64 (bb_a b * bb_size b + bb_b b) -> bb_fee_loop fuel b calc = Some (Ok b') ->
  exists f, b' = bcarrying b f (bb_vkeys b) /\ f = to_u64 (bb_a b * bb_size b' + bb_b b).
Proof.
  induction fuel as [|k IH]; intros b calc b' C H; cbn [bb_fee_loop] in H.
  - destruct (Z.eqb_spec calc (bb_fee (bb_body b))) as [E|]; [|discriminate]. cbn in H. injection H as <-. exists calc. rewrite E at 1. rewrite bb_same. auto.
  - destruct (Z.eqb_spec calc (bb_fee (bb_body b))) as [E|]; [cbn in H; injection H as <-; exists calc; rewrite E at 1; rewrite bb_same; auto|].
    cbv zeta in H. apply IH in H; [|reflexivity]. destruct H as (f & -> & F). exists f. split; [reflexivity|exact F].
Qed.
Theorem C37_babbage_fee_exact : forall fuel b dummies fee b', bb_calculate_fee fuel b dummies = Some (Ok (fee, b')) ->
  b' = bcarrying b fee [] /\ fee = (bb_a b * bsize (bcarrying b fee dummies) + bb_b b) mod 2 ^ 64.
Proof.
  intros fuel b d fee b' H. unfold bb_calculate_fee in H. cbv zeta in H. apply rbind_ok in H as (b1 & L & H). cbn in H. injection H as H1 H2. apply bb_loop in L; [|reflexivity]. destruct L as (f & -> & F).
  cbn in H1. subst f. split; [rewrite <- H2; reflexivity|exact F].
Qed.
(** The Babbage loop ends for every body, with non-negative parameters and no 64-bit overflow; the fee
    does not depend on what the witnesses contain and is exact for the transaction as finally signed. *)
Theorem C37_babbage_terminates : forall b dummies, 0 <= bb_a b -> 0 <= bb_b b ->
  bb_a b * (bsize (bcarrying b (bb_fee (bb_body b)) dummies) + 8) + bb_b b < 2 ^ 64 ->
  forall fuel, (6 <= fuel)%nat -> exists fee, bb_calculate_fee fuel b dummies = Some (Ok (fee, bcarrying b fee [])) /\
    fee = bb_a b * bsize (bcarrying b fee dummies) + bb_b b.
Proof.
  intros b d A B M fuel L. change (bsize (bcarrying b (bb_fee (bb_body b)) d)) with (bb_size (bwith b (bb_fee (bb_body b)) d)) in M. rewrite bsize_eq in M.
  destruct (bcalc_ok b d A B) with (fuel := fuel) as (c & E & F); [pose proof (hl_range (bb_fee (bb_body b))); nia|exact L|]. exists c. split; [exact E|exact F].
Qed.
Theorem C37_babbage_witness_independent : forall fuel b d d', Forall vkey_wf d -> Forall vkey_wf d' -> length d = length d' -> bb_calculate_fee fuel b d = bb_calculate_fee fuel b d'.
Proof. exact bcalc_indep. Qed.
Theorem C37_babbage_fee_of_signed : forall fuel b dummies fee b' signed, bb_calculate_fee fuel b dummies = Some (Ok (fee, b')) ->
  Forall vkey_wf dummies -> Forall vkey_wf signed -> length signed = length dummies ->
  fee = (bb_a b * bsize (bcarrying b fee signed) + bb_b b) mod 2 ^ 64.
Proof.
  intros fuel b d fee b' s H W W' L. apply C37_babbage_fee_exact in H as [_ F]. change (bsize (bcarrying b fee ?x)) with (bb_size (bwith b fee x)) in *.
  rewrite (bsize_indep b fee s d) by auto. exact F.
Qed.

(** ** C36: balancing *)
(** Inputs (UTxOs and withdrawals) equal outputs, fee and deposits. *)
Theorem C36_conserves : forall fuel b dummies force b', 0 <= b_min_utxo b -> Forall (fun o => lovelace (to_amount o)) (outputs b) ->
  balance fuel b dummies force = Some (Ok b') -> lovelace (fee_of b') ->
  b_input_total b = total (map to_amount (outputs b')) + fee_of b' + b_deposit_total b.
Proof. intros fuel b d force b' MU R H F. rewrite total_zsum. pose proof (balance_conserves fuel d force b b' MU R H F) as X. unfold outputs, fee_of, body_of in *. lia. Qed.
(** Only the outputs and the fee change; the witnesses are gone. *)
Theorem C36_frame : forall fuel b dummies force b', balance fuel b dummies force = Some (Ok b') ->
  let t := tx_body (b_tx b) in let t' := tx_body (b_tx b') in
  tb_inputs t' = tb_inputs t /\ tb_withdrawals t' = tb_withdrawals t /\ tb_certs t' = tb_certs t /\ tb_ttl t' = tb_ttl t /\ tb_metadata_hash t' = tb_metadata_hash t /\
  b_input_total b' = b_input_total b /\ b_deposit_total b' = b_deposit_total b /\ witnesses b' = [].
Proof. intros fuel b d force b' H. apply balance_shape in H as (f & o & ->). repeat split. Qed.
(** Without force the fee is exactly the fee of the result. *)
Theorem C36_fee_exact : forall fuel b dummies b', balance fuel b dummies false = Some (Ok b') ->
  exists n, size_of (carrying (b_tx b') (fee_of b') dummies) n /\ fee_of b' = ((b_fee_a b mod 2 ^ 64) * n + b_fee_b b mod 2 ^ 64) mod 2 ^ 64.
Proof.
  intros fuel b d b' H. apply balance_spec in H. destruct H as [f o -> T FE|? ? ? ? ? F]; [|discriminate]. apply fee_once_size in FE. exact FE.
Qed.
(** With or without force it covers the minimum fee of the result (parameters not negative, no 64-bit overflow). *)
Theorem C36_fee_covers : forall fuel b dummies force b' n, (6 <= fuel)%nat -> balance fuel b dummies force = Some (Ok b') ->
  size_of (carrying (b_tx b') (fee_of b') dummies) n -> 0 <= b_fee_a b -> 0 <= b_fee_b b -> b_fee_a b * (n + 8) + b_fee_b b < 2 ^ 64 ->
  b_fee_a b * n + b_fee_b b <= fee_of b'.
Proof.
  intros fuel b d force b' n L H S A B M. pose proof (balance_shape _ _ _ _ _ H) as (f' & o' & E'). apply balance_spec in H.
  assert (S' : size_of (set_vkeys (b_tx b') d) n). { rewrite carrying_eq in S. change (fee_of b') with (tx_fee (b_tx b')) in S. rewrite set_fee_same in S. exact S. }
  assert (A' : b_fee_a b' = b_fee_a b) by (rewrite E'; reflexivity). assert (B' : b_fee_b b' = b_fee_b b) by (rewrite E'; reflexivity).
  destruct (size_fits b' d n S' ltac:(lia) ltac:(lia) ltac:(rewrite A', B'; exact M)) as [cs W].
  destruct (fits_params _ _ _ W) as [EA EB]. pose proof W as W0. destruct W as [C _ _ MX].
  pose proof (size_any_fee b' d cs (fee_of b') C) as SZ. apply size_of_iff in S. rewrite carrying_eq in S. change (set_vkeys (tx_set_fee (b_tx b') (fee_of b')) d) with (tx_set_fee (set_vkeys (b_tx b') d) (fee_of b')) in S. rewrite S in SZ. injection SZ as SZ.
  destruct H as [f o E T FE|f o f0 out c FO E FE T CB EF CF LE].
  - unfold fees in FE. rewrite EA, EB in FE. unfold fee_once in FE. apply size_of_iff in S'. rewrite S' in FE. cbn [bind] in FE. injection FE as FE. assert (FF : fee_of b' = f) by (rewrite E; reflexivity).
    rewrite FF, <- FE, A', B'. unfold to_u64. rewrite Z.mod_small; [lia|]. pose proof (hl_range (fee_of b')). pose proof (size_k_nonneg b' d cs). nia.
  - rewrite (calc_fits b' d cs fuel W0) in CF. assert (FF : fee_of b' = f) by (rewrite E; reflexivity).
    pose proof (loop_covers (b_fee_a b') (b_fee_b b') (set_vkeys (b_tx b') d) (size_k b' d cs) ltac:(lia) ltac:(lia) (fun f => size_any_fee b' d cs f C) MX (size_k_nonneg b' d cs) fuel (fee_of b') c CF L ltac:(lia)) as X.
    unfold F in X. rewrite A', B' in X. lia.
Qed.
(** balance() comes to an end: it returns or throws. *)
Theorem C36_terminates : forall fuel b dummies force n0, (7 <= fuel)%nat -> size_of (carrying (b_tx b) (fee_of b) dummies) n0 ->
  0 <= b_fee_a b -> 0 <= b_fee_b b -> 0 <= b_min_utxo b -> Forall (fun o => 0 <= to_amount o) (outputs b) ->
  b_fee_a b * (n0 + zlen (b_change b) + 40) + b_fee_b b < 2 ^ 64 -> balance fuel b dummies force <> None.
Proof.
  intros fuel b d force n0 L S A B MU P M. rewrite carrying_eq in S. change (tx_set_fee (b_tx b) (fee_of b)) with (tx_set_fee (b_tx b) (tx_fee (b_tx b))) in S. rewrite set_fee_same in S.
  apply size_of_iff in S. apply tx_size_inv in S as (cs & C & N). unfold balance. generalize 100%nat. intros k. rewrite balance_eta.
  apply (balance_total fuel d force cs k L 0 b _ _ (outs_sz (tb_outputs (body_of b)) + 23 + zlen (b_change b))); try assumption; try lia.
  - change (tb_outputs (tx_body (set_vkeys (b_tx b) d))) with (tb_outputs (body_of b)) in N. pose proof (hl_range (tx_fee (set_vkeys (b_tx b) d))). nia.
  - cbn [Z.eqb]. lia.
Qed.

(** ** C56: balance() and the caller's outputs *)
(** If the inputs cover outputs, deposits and the fee without change, the caller's outputs are untouched, and at most one output is
    appended: to the change address, with at least the minimum amount. *)
Theorem C56_outputs_kept : forall fuel b dummies force b1 out b', update_fee fuel b dummies = Some (Ok b1) -> total_outgoing b1 = Ok out -> out <= b_input_total b ->
  0 <= b_min_utxo b -> balance fuel b dummies force = Some (Ok b') ->
  outputs b' = outputs b \/ exists change, outputs b' = outputs b ++ [change] /\ to_addr change = b_change b /\ b_min_utxo b <= to_amount change.
Proof.
  intros fuel b d force b1 out b' U T COV MU. unfold balance. generalize 100%nat. intros k H. rewrite balance_eta in H.
  exact (balance_outputs fuel d force b b1 out U T COV MU k 0 _ _ b' ltac:(lia) (or_introl eq_refl) H).
Qed.

(** The inputs do not cover the outputs: balance() can still succeed, and silently takes the difference out of the caller's last output. *)
Definition ex_addr : list Z := 97 :: ex_hash 5 28.
Definition ex_utxo (n v : Z) : utxo := {| u_id := ex_hash n 32; u_index := 0; u_value := v |}.
Definition ex_dummies (n : nat) : list (list Z * list Z) := repeat (ex_hash 0 32, ex_hash 0 64) n.
Definition poor : builder := set_change_address (add_output (add_input new_builder (ex_utxo 1 3000000)) ex_addr 5000000) ex_addr.
Definition result (r : run builder) : option (Z * list Z) := match r with Some (Ok b) => Some (fee_of b, map to_amount (outputs b)) | _ => None end.
Theorem C56_output_reduced_refuted : exists b dummies b' fee, outputs b = [{| to_addr := ex_addr; to_amount := 5000000 |}] /\ b_input_total b = 3000000 /\ balance 10 b dummies false = Some (Ok b') /\ outputs b' = [{| to_addr := ex_addr; to_amount := 3000000 - fee |}] /\ fee_of b' = fee /\ 0 < fee.
Proof.
  exists poor, (ex_dummies 1). destruct (balance 10 poor (ex_dummies 1) false) as [[b'| |]|] eqn:E; try (exfalso; vm_compute in E; discriminate E).
  exists b', 163829. split; [reflexivity|]. split; [reflexivity|]. split; [reflexivity|]. vm_compute in E. injection E as <-. split; [reflexivity|]. split; [reflexivity|lia].
Qed.
(** Or removes it, with all the money going to the fee when forced. *)
Definition poorer : builder := set_change_address (add_output (add_input new_builder (ex_utxo 1 1000000)) ex_addr 5000000) ex_addr.
Theorem C56_output_removed_refuted : exists b dummies b', outputs b = [{| to_addr := ex_addr; to_amount := 5000000 |}] /\ balance 10 b dummies true = Some (Ok b') /\ outputs b' = [] /\ fee_of b' = b_input_total b.
Proof.
  exists poorer, (ex_dummies 1). destruct (balance 10 poorer (ex_dummies 1) true) as [[b'| |]|] eqn:E; try (exfalso; vm_compute in E; discriminate E).
  exists b'. split; [reflexivity|]. split; [reflexivity|]. vm_compute in E. injection E as <-. split; reflexivity.
Qed.

(** ** C38: signatures and edits *)
(** Every witness the builder holds is a signature, by the key it names, of the builder's present transaction id. *)
Definition current {key} (H : list Z -> list Z) (pub : key -> list Z) (sgn : key -> list Z -> list Z) (b : builder) : Prop :=
  forall w, In w (witnesses b) -> exists k id, get_id H b = Ok id /\ w = (pub k, sgn k id).
(** Along every history in which no certificate is added after a signature, whatever else is called in whatever order. *)
Lemma sign_current {key} H (pub : key -> list Z) sgn b k b' : current H pub sgn b -> sign H pub sgn b k = Ok b' -> current H pub sgn b'.
Proof.
  intros C S. unfold sign in S. apply bind_ok in S as (w & M & S). apply ok_inj in S. subst b'. unfold make_witness in M. apply bind_ok in M as (id & G & M). apply ok_inj in M. subst w.
  intros w I. change (get_id H (set_tx b _)) with (get_id H b). unfold witnesses in I. cbn [set_tx b_tx set_vkeys tx_wits ws_vkeys] in I. apply in_app_iff in I as [I|[<-|[]]].
  - apply filter_In in I as [I _]. exact (C w I).
  - exists k, id. auto.
Qed.
Lemma step_current {key} H (pub : key -> list Z) sgn fuel b c b' : is_cert c = false -> current H pub sgn b -> do_call H pub sgn fuel b c = Some (Ok b') -> current H pub sgn b'.
Proof.
  intros N C S. assert (X : forall x, witnesses x = [] -> current H pub sgn x) by (intros x E w I; rewrite E in I; destruct I).
  destruct c; cbn [is_cert] in N; try discriminate; cbn [do_call] in S; unfold lift in S;
    try (assert (E : b' = _) by (symmetry; exact (ok_inj _ _ (f_equal (fun o => match o with Some x => x | None => Throw end) S))); rewrite E; first [apply X; reflexivity|exact C]).
  - apply update_inv in S as (f & -> & _). apply X. reflexivity.
  - apply balance_shape in S as (f & o & ->). apply X. reflexivity.
  - assert (S' : sign H pub sgn b k = Ok b') by congruence. exact (sign_current _ _ _ _ _ _ C S').
Qed.
Theorem C38_witnesses_current : forall key H (pub : key -> list Z) sgn fuel l b b', witnesses b = [] ->
  (forall l1 k l2, l = l1 ++ Sign k :: l2 -> forall c, In c l2 -> is_cert c = false) ->
  do_calls H pub sgn fuel b l = Some (Ok b') -> current H pub sgn b'.
Proof.
  intros key H pub sgn fuel l b b' W N R.
  assert (G : current H pub sgn b /\ (witnesses b = [] \/ forall c, In c l -> is_cert c = false)) by (split; [intros w I; rewrite W in I; destruct I|left; exact W]). clear W.
  revert b N G R. induction l as [|c l IH]; intros b N [C D] R; cbn [do_calls] in R; [injection R as <-; exact C|].
  apply rbind_ok in R as (b1 & S & R). assert (N' : forall l1 k l2, l = l1 ++ Sign k :: l2 -> forall x, In x l2 -> is_cert x = false) by (intros l1 k l2 E; apply (N (c :: l1) k l2); rewrite E; reflexivity).
  apply (IH b1 N'); [|exact R]. destruct (is_cert c) eqn:IC.
  - assert (W : witnesses b = []) by (destruct D as [W|D]; [exact W|rewrite (D c (or_introl eq_refl)) in IC; discriminate]).
    assert (W1 : witnesses b1 = []). { destruct c; try discriminate; cbn [do_call] in S; unfold lift in S; (assert (E : b1 = _) by (symmetry; exact (ok_inj _ _ (f_equal (fun o => match o with Some x => x | None => Throw end) S)))); rewrite E; exact W. }
    split; [intros w I; rewrite W1 in I; destruct I|left; exact W1].
  - split; [exact (step_current _ _ _ _ _ _ _ IC C S)|]. destruct (is_sign c) eqn:IS.
    + right. destruct c; try discriminate. intros x I. exact (N [] k l eq_refl x I).
    + destruct D as [W|D]; [left|right; intros x I; apply D; right; exact I].
      destruct c; try discriminate; cbn [do_call] in S; unfold lift in S;
        try ((assert (E : b1 = _) by (symmetry; exact (ok_inj _ _ (f_equal (fun o => match o with Some x => x | None => Throw end) S)))); rewrite E; first [reflexivity|exact W]).
      * apply update_inv in S as (f & -> & _). reflexivity.
      * apply balance_shape in S as (f & o & ->). reflexivity.
Qed.
(** Exactly what the calls do to the witnesses: every other edit discards them all; ... *)
Theorem C38_edits_discard : forall key H (pub : key -> list Z) sgn fuel b c b', do_call H pub sgn fuel b c = Some (Ok b') ->
  is_cert c = false -> is_sign c = false -> body_of b' <> body_of b -> witnesses b' = [].
Proof.
  intros key H pub sgn fuel b c b' S NC NS D.
  destruct c; try discriminate; cbn [do_call] in S; unfold lift in S;
    try (assert (E : b' = _) by (symmetry; exact (ok_inj _ _ (f_equal (fun o => match o with Some x => x | None => Throw end) S))); subst b'; first [reflexivity|exfalso; apply D; reflexivity]).
  - apply update_inv in S as (f & -> & _). reflexivity.
  - apply balance_shape in S as (f & o & ->). reflexivity.
Qed.
(** ... a certificate adder appends its certificate and keeps them all; ... *)
Theorem C38_certificates_keep : forall key H (pub : key -> list Z) sgn fuel b c b', do_call H pub sgn fuel b c = Some (Ok b') -> is_cert c = true ->
  witnesses b' = witnesses b /\ exists x, body_of b' = with_certs (body_of b) (tb_certs (body_of b) ++ [x]).
Proof.
  intros key H pub sgn fuel b c b' S IC.
  destruct c; try discriminate; cbn [do_call] in S; unfold lift in S;
    (assert (E : b' = _) by (symmetry; exact (ok_inj _ _ (f_equal (fun o => match o with Some x => x | None => Throw end) S))); subst b'; split; [reflexivity|eexists; reflexivity]).
Qed.
(** ... so after any history at all, each witness is a signature of the present body without the certificates
    appended after it was made. *)
Theorem C38_witness_origin : forall key H (pub : key -> list Z) sgn fuel l b b', witnesses b = [] -> do_calls H pub sgn fuel b l = Some (Ok b') ->
  forall w, In w (witnesses b') -> exists k id n, w = (pub k, sgn k id) /\ (n <= length (tb_certs (body_of b')))%nat /\
    body_id H (with_certs (body_of b') (firstn n (tb_certs (body_of b')))) = Ok id.
Proof.
  intros key H pub sgn fuel l b b' W R.
  set (good := fun b : builder => forall w, In w (witnesses b) -> exists k id n, w = (pub k, sgn k id) /\ (n <= length (tb_certs (body_of b)))%nat /\
    body_id H (with_certs (body_of b) (firstn n (tb_certs (body_of b)))) = Ok id).
  change (good b'). assert (G : good b) by (intros w I; rewrite W in I; destruct I). clear W.
  revert b G R. induction l as [|c l IH]; intros b G R; cbn [do_calls] in R; [injection R as <-; exact G|].
  apply rbind_ok in R as (b1 & S & R). apply (IH b1); [|exact R]. clear IH R.
  assert (X : witnesses b1 = [] -> good b1) by (intros E w I; rewrite E in I; destruct I).
  destruct (is_cert c) eqn:IC.
  - destruct (C38_certificates_keep _ _ _ _ _ _ _ _ S IC) as (E & x & B). intros w I. rewrite E in I. destruct (G w I) as (k & id & n & A & L & D).
    exists k, id, n. split; [exact A|]. rewrite B. cbn [with_certs tb_certs]. rewrite app_length. split; [lia|].
    rewrite firstn_app. replace (n - length (tb_certs (body_of b)))%nat with 0%nat by lia. cbn [firstn]. rewrite app_nil_r. exact D.
  - destruct (is_sign c) eqn:IS.
    + destruct c; try discriminate. cbn [do_call] in S. assert (S' : sign H pub sgn b k = Ok b1) by (unfold lift in S; congruence). clear S.
      unfold sign in S'. apply bind_ok in S' as (w0 & M & S). apply ok_inj in S. subst b1. unfold make_witness in M. apply bind_ok in M as (id & I & M). apply ok_inj in M. subst w0.
      intros w Iw. change (body_of (set_tx b _)) with (body_of b). unfold witnesses in Iw. cbn [set_tx b_tx set_vkeys tx_wits ws_vkeys] in Iw. apply in_app_iff in Iw as [Iw|[<-|[]]].
      * apply filter_In in Iw as [Iw _]. exact (G w Iw).
      * exists k, id, (length (tb_certs (body_of b))). split; [reflexivity|]. split; [lia|]. rewrite firstn_all. unfold get_id in I. rewrite <- I. destruct (body_of b); reflexivity.
    + destruct c; try discriminate; cbn [do_call] in S; unfold lift in S;
        try (assert (E : b1 = _) by (symmetry; exact (ok_inj _ _ (f_equal (fun o => match o with Some x => x | None => Throw end) S))); subst b1; first [apply X; reflexivity|exact G]).
      * apply update_inv in S as (f & -> & _). apply X. reflexivity.
      * apply balance_shape in S as (f & o & ->). apply X. reflexivity.
Qed.
(** Adding a certificate after signing keeps the signatures: the transaction then carries a witness for a different body. *)
Lemma body_bytes_inj x y s : body_wf x -> body_wf y -> Forall simple_cert (tb_certs x) -> Forall simple_cert (tb_certs y) -> serialize (txbody_ser x) = Ok s -> serialize (txbody_ser y) = Ok s -> x = y.
Proof.
  intros WX WY SX SY EX EY. destruct (C54_body_round_trip x WX SX) as (s1 & E1 & D1). destruct (C54_body_round_trip y WY SY) as (s2 & E2 & D2). congruence.
Qed.
Theorem C38_certificate_keeps_signatures_refuted : forall key H (pub : key -> list Z) sgn b k b1 account deposit,
  body_wf (tx_body (b_tx b)) -> Forall simple_cert (tb_certs (tx_body (b_tx b))) -> zlen (tb_certs (tx_body (b_tx b))) + 1 < 2 ^ 64 -> cred_wf (reward_cred account) ->
  sign H pub sgn b k = Ok b1 ->
  exists s1 s2, let b2 := add_stake_registration b1 account deposit in
    serialize (txbody_ser (tx_body (b_tx b))) = Ok s1 /\ serialize (txbody_ser (tx_body (b_tx b2))) = Ok s2 /\ s1 <> s2 /\
    get_id H b2 = Ok (H s2) /\ In (pub k, sgn k (H s1)) (witnesses b2).
Proof.
  intros key H pub sgn b k b1 a dep WB SC LC WC S. unfold sign in S. apply bind_ok in S as (w & M & S). apply ok_inj in S. subst b1. unfold make_witness, get_id, body_id in M. apply bind_ok in M as (id & G & M). apply ok_inj in M. subst w.
  apply bind_ok in G as (s1 & E1 & G). apply ok_inj in G. subst id. set (x := tx_body (b_tx b)) in *. change (body_of b) with x in E1.
  set (y := with_certs x (tb_certs x ++ [StakeReg (reward_cred a)])). assert (WY : body_wf y).
  { destruct WB as (W1 & W2 & W3 & W4 & W5 & [W6 W6'] & W7 & W8 & W9). split; [exact W1|]. split; [exact W2|]. split; [exact W3|]. split; [exact W4|]. split; [exact W5|]. split; [|split; [exact W7|split; [exact W8|exact W9]]].
    unfold y. cbn [with_certs tb_certs]. split; [apply Forall_app; split; [exact W6|constructor; [exact WC|constructor]]|rewrite zlen_app; exact LC]. }
  assert (SY : Forall simple_cert (tb_certs y)) by (unfold y; cbn [with_certs tb_certs]; apply Forall_app; split; [exact SC|repeat constructor]).
  destruct (C54_body_round_trip y WY SY) as (s2 & E2 & _). exists s1, s2. cbv zeta.
  assert (BY : tx_body (b_tx (add_stake_registration (set_tx b (set_vkeys (b_tx b) (filter (fun e => negb (zlist_eqb (fst e) (pub k))) (ws_vkeys (tx_wits (b_tx b))) ++ [(pub k, sgn k (H s1))]))) a dep)) = y) by reflexivity.
  split; [exact E1|]. rewrite BY. split; [exact E2|]. split; [|split].
  - intros ->. pose proof (body_bytes_inj x y s2 WB WY SC SY E1 E2) as E. apply (f_equal tb_certs) in E. unfold y in E. cbn [with_certs tb_certs] in E. apply (f_equal (@length cert)) in E. rewrite app_length in E. cbn in E. lia.
  - unfold get_id, body_id, body_of. rewrite BY, E2. reflexivity.
  - unfold witnesses. cbn. apply in_app_iff. right. left. reflexivity.
Qed.
(** The Babbage builder has no certificate adders; there the property holds for every history. *)
Definition bcurrent {key} (H : list Z -> list Z) (pub : key -> list Z) (sgn : key -> list Z -> list Z) (b : bbuilder) : Prop :=
  forall w, In w (bb_vkeys b) -> exists k, w = (pub k, sgn k (H (cbor_encode (btxbody_ser (bb_body b))))).
Theorem C38_babbage_witnesses_current : forall key H (pub : key -> list Z) sgn fuel l b b', bb_vkeys b = [] -> do_bcalls H pub sgn fuel b l = Some (Ok b') -> bcurrent H pub sgn b'.
Proof.
  intros key H pub sgn fuel l b b' W R. assert (C : bcurrent H pub sgn b) by (intros w I; rewrite W in I; destruct I). clear W. revert b C R. induction l as [|c l IH]; intros b C R; cbn [do_bcalls] in R; [injection R as <-; exact C|].
  apply rbind_ok in R as (b1 & S & R). apply (IH b1); [|exact R]. assert (X : forall x, bb_vkeys x = [] -> bcurrent H pub sgn x) by (intros x E w I; rewrite E in I; destruct I).
  destruct c; cbn [do_bcall] in S; unfold lift in S.
  - unfold bb_add_input in S. destruct (zlen id <? 32); [discriminate|]. assert (E : b1 = _) by (symmetry; exact (ok_inj _ _ (f_equal (fun o => match o with Some x => x | None => Throw end) S))). rewrite E. apply X. reflexivity.
  - assert (E : b1 = _) by (symmetry; exact (ok_inj _ _ (f_equal (fun o => match o with Some x => x | None => Throw end) S))). rewrite E. apply X. reflexivity.
  - assert (E : b1 = _) by (symmetry; exact (ok_inj _ _ (f_equal (fun o => match o with Some x => x | None => Throw end) S))). rewrite E. apply X. reflexivity.
  - assert (E : b1 = _) by (symmetry; exact (ok_inj _ _ (f_equal (fun o => match o with Some x => x | None => Throw end) S))). rewrite E. apply X. reflexivity.
  - assert (E : b1 = _) by (symmetry; exact (ok_inj _ _ (f_equal (fun o => match o with Some x => x | None => Throw end) S))). rewrite E. apply X. reflexivity.
  - apply rbind_ok in S as ([f b2] & S & E). cbn [snd] in E. assert (b2 = b1) by congruence. subst b2. apply C37_babbage_fee_exact in S as [-> _]. apply X. reflexivity.
  - assert (E : b1 = _) by (symmetry; exact (ok_inj _ _ (f_equal (fun o => match o with Some x => x | None => Throw end) S))). rewrite E. clear E S.
    intros w I. cbn [bb_sign bb_upd bb_vkeys bb_body] in *. apply in_app_iff in I as [I|[<-|[]]]; [apply filter_In in I as [I _]; exact (C w I)|]. exists k. reflexivity.
  - assert (E : b1 = b) by congruence. rewrite E. exact C.
  - assert (E : b1 = bb_clear b) by congruence. rewrite E. apply X. reflexivity.
  - assert (E : b1 = bb_set_min_a b a) by congruence. rewrite E. exact C.
  - assert (E : b1 = bb_set_min_b b c) by congruence. rewrite E. exact C.
  - discriminate.
Qed.

(** ** C40: transaction id and witnesses *)
(** The id is the hash of the serialised body: equal ids mean equal bodies, or a collision of Blake2b-256. *)
Theorem C40_id_of_body : forall H b, get_id H b = (let* s := serialize (txbody_ser (tx_body (b_tx b))) in Ok (H s)).
Proof. reflexivity. Qed.
Theorem C40_id_binds_simple : forall H b b' id, body_wf (tx_body (b_tx b)) -> body_wf (tx_body (b_tx b')) ->
  Forall simple_cert (tb_certs (tx_body (b_tx b))) -> Forall simple_cert (tb_certs (tx_body (b_tx b'))) ->
  get_id H b = Ok id -> get_id H b' = Ok id -> tx_body (b_tx b) = tx_body (b_tx b') \/ exists s s', serialize (txbody_ser (tx_body (b_tx b))) = Ok s /\ serialize (txbody_ser (tx_body (b_tx b'))) = Ok s' /\ s <> s' /\ H s = H s'.
Proof.
  intros H b b' id W W' S S' E E'. unfold get_id, body_id, body_of in *. apply bind_ok in E as (s & E1 & E2). apply bind_ok in E' as (s' & E1' & E2'). injection E2 as E2. injection E2' as E2'.
  destruct (list_eq_dec Z.eq_dec s s') as [->|N]; [left; exact (body_bytes_inj _ _ s' W W' S S' E1 E1')|right; exists s, s'; split; [exact E1|]; split; [exact E1'|]; split; [exact N|congruence]].
Qed.
(** sign: exactly one witness for the key, at the end; all other keys' witnesses kept in order; nothing else changes. *)
Theorem C40_sign : forall key H (pub : key -> list Z) sgn b k b', sign H pub sgn b k = Ok b' ->
  b_tx b' = carrying (b_tx b) (fee_of b) (witnesses b') /\ b_input_total b' = b_input_total b /\ b_deposit_total b' = b_deposit_total b /\
  exists id, get_id H b = Ok id /\ get_id H b' = Ok id /\
    (forall w, In w (witnesses b') -> fst w = pub k -> w = (pub k, sgn k id)) /\
    count_occ (list_eq_dec Z.eq_dec) (map fst (witnesses b')) (pub k) = 1%nat /\
    (forall w, fst w <> pub k -> (In w (witnesses b') <-> In w (witnesses b))).
Proof.
  intros key H pub sgn b k b' S. unfold sign in S. apply bind_ok in S as (w & M & S). apply ok_inj in S. unfold make_witness in M. apply bind_ok in M as (id & G & M). apply ok_inj in M. subst w b'.
  assert (WE : witnesses (set_tx b (set_vkeys (b_tx b) (filter (fun e => negb (zlist_eqb (fst e) (pub k))) (ws_vkeys (tx_wits (b_tx b))) ++ [(pub k, sgn k id)]))) = filter (fun e => negb (zlist_eqb (fst e) (pub k))) (witnesses b) ++ [(pub k, sgn k id)]) by reflexivity.
  split; [rewrite WE; destruct b as [[[] [] ] ? ? ? ? ? ?]; reflexivity|]. split; [reflexivity|]. split; [reflexivity|]. exists id. split; [exact G|]. split; [exact G|]. rewrite WE. clear WE. split; [|split].
  - intros w I E. apply in_app_iff in I as [I|[<-|[]]]; [|reflexivity]. apply filter_In in I as [_ I]. rewrite E, zlist_eqb_refl in I. discriminate.
  - rewrite map_app, count_occ_app. cbn [map fst count_occ]. destruct (list_eq_dec Z.eq_dec (pub k) (pub k)) as [_|N]; [|contradiction].
    assert (Z0 : count_occ (list_eq_dec Z.eq_dec) (map fst (filter (fun e => negb (zlist_eqb (fst e) (pub k))) (witnesses b))) (pub k) = 0%nat); [|rewrite Z0; reflexivity].
    apply count_occ_not_In. intros I. apply in_map_iff in I as (w & E & I). apply filter_In in I as [_ I]. rewrite E, zlist_eqb_refl in I. discriminate.
  - intros w N. rewrite in_app_iff, filter_In. cbn [In]. destruct (zlist_eqb (fst w) (pub k)) eqn:E; [apply zlist_eqb_spec in E; contradiction|]. cbn [negb]. split; [intros [[I _]|[<-|[]]]; [exact I|cbn in N; contradiction]|intros I; left; auto].
Qed.
(** Signing with any list of keys: one witness per distinct public key. *)
Definition signs {key} (ks : list key) : list (@call key) := map Sign ks.
Theorem C40_sign_many : forall key H (pub : key -> list Z) sgn fuel ks b b', witnesses b = [] -> do_calls H pub sgn fuel b (signs ks) = Some (Ok b') ->
  NoDup (map fst (witnesses b')) /\ (forall v, In v (map fst (witnesses b')) <-> In v (map pub ks)) /\ current H pub sgn b' /\ tx_body (b_tx b') = tx_body (b_tx b).
Proof.
  intros key H pub sgn fuel ks b b' W R.
  assert (G : NoDup (map fst (witnesses b')) /\ (forall v, In v (map fst (witnesses b')) <-> In v (map fst (witnesses b)) \/ In v (map pub ks)) /\ current H pub sgn b' /\ tx_body (b_tx b') = tx_body (b_tx b)).
  { assert (C : current H pub sgn b) by (intros w I; rewrite W in I; destruct I). assert (ND : NoDup (map fst (witnesses b))) by (rewrite W; constructor). clear W. revert b C ND R.
    induction ks as [|k ks IH]; intros b C ND R; cbn [signs map do_calls] in R; [injection R as <-; split; [exact ND|]; split; [intros v; cbn; tauto|]; split; [exact C|reflexivity]|].
    apply rbind_ok in R as (b1 & S & R). cbn [do_call] in S. assert (S' : sign H pub sgn b k = Ok b1) by (unfold lift in S; congruence). clear S.
    pose proof (sign_current _ _ _ _ _ _ C S') as C1. unfold sign in S'. apply bind_ok in S' as (w & M & S'). apply ok_inj in S'.
    assert (W1 : witnesses b1 = filter (fun e => negb (zlist_eqb (fst e) (pub k))) (witnesses b) ++ [(pub k, w)]) by (rewrite <- S'; reflexivity).
    assert (B1 : tx_body (b_tx b1) = tx_body (b_tx b)) by (rewrite <- S'; reflexivity). clear S' M.
    assert (IN : forall v, In v (map fst (filter (fun e => negb (zlist_eqb (fst e) (pub k))) (witnesses b))) <-> In v (map fst (witnesses b)) /\ v <> pub k).
    { intros v. rewrite !in_map_iff. split.
      - intros (x & E & I). apply filter_In in I as [I J]. split; [exists x; auto|]. intros ->. rewrite E, zlist_eqb_refl in J. discriminate.
      - intros [(x & E & I) N]. exists x. split; [exact E|]. apply filter_In. split; [exact I|]. destruct (zlist_eqb (fst x) (pub k)) eqn:Q; [apply zlist_eqb_spec in Q; congruence|reflexivity]. }
    assert (ND1 : NoDup (map fst (witnesses b1))).
    { rewrite W1, map_app. cbn [map fst]. apply (Permutation_NoDup (Permutation_app_comm [pub k] _)). cbn [app]. constructor; [intros I; apply IN in I as [_ N]; contradiction|]. clear -ND. induction (witnesses b) as [|x l IHl]; [constructor|]. cbn [map filter] in *. inversion ND as [|? ? N1 N2]; subst.
      destruct (negb _); [|apply IHl, N2]. cbn [map]. constructor; [|apply IHl, N2]. intros I. apply N1. apply in_map_iff in I as (y & E & I). apply filter_In in I as [I _]. rewrite <- E. apply in_map, I. }
    destruct (IH b1 C1 ND1 R) as (G1 & G2 & G3 & G4). split; [exact G1|]. split; [|split; [exact G3|congruence]]. intros v. rewrite G2, W1, map_app, in_app_iff, IN. cbn [map fst In].
    destruct (list_eq_dec Z.eq_dec v (pub k)) as [->|NE]; intuition congruence. }
  destruct G as (G1 & G2 & G3 & G4). split; [exact G1|]. split; [|auto]. intros v. rewrite G2, W. cbn. tauto.
Qed.

(** ** C39: bookkeeping *)
Lemma to_i64_add x y : to_i64 (to_i64 x + y) = to_i64 (x + y).
Proof. destruct (to_i64_congr x) as [k E]. unfold to_i64 at 1 3. rewrite E. replace (x + k * 2 ^ 64 + y) with (x + y + k * 2 ^ 64) by lia. rewrite Z.mod_add by lia. reflexivity. Qed.
Definition step_in {key} (c : @call key) : Z := match c with AddInput u => u_value u | AddWithdrawal _ n => n | _ => 0 end.
Definition step_dep {key} (c : @call key) : Z := match c with AddPoolReg _ d => d | AddStakeReg _ d => d | _ => 0 end.
Lemma step_books {key} H (pub : key -> list Z) sgn fuel b c b' : do_call H pub sgn fuel b c = Some (Ok b') ->
  (exists x, b_input_total b' = x /\ to_i64 x = to_i64 (b_input_total b + step_in c)) /\ (exists x, b_deposit_total b' = x /\ to_i64 x = to_i64 (b_deposit_total b + step_dep c)) /\
  tb_inputs (body_of b') = match c with AddInput u => set_insert txin_lt {| ti_id := u_id u; ti_index := u_index u |} (tb_inputs (body_of b)) | _ => tb_inputs (body_of b) end /\
  tb_withdrawals (body_of b') = match c with AddWithdrawal a n => map_assign (RewardsAddress_toBytes a) n (tb_withdrawals (body_of b)) | _ => tb_withdrawals (body_of b) end.
Proof.
  assert (T0 : forall x, to_i64 (to_i64 x) = to_i64 x) by (intros x; pose proof (to_i64_add x 0) as E; rewrite !Z.add_0_r in E; exact E).
  intros S. destruct c; cbn [do_call] in S; unfold lift in S; cbn [step_in step_dep];
    try (assert (E : b' = _) by (symmetry; exact (ok_inj _ _ (f_equal (fun o => match o with Some x => x | None => Throw end) S))); subst b'; clear S;
         split; [eexists; split; [reflexivity|rewrite ?Z.add_0_r; first [apply T0|reflexivity]]|]; split; [eexists; split; [reflexivity|rewrite ?Z.add_0_r; first [reflexivity|apply (T0 (b_deposit_total b + _))|cbn [add_pool_retirement add_stake_deregistration add_stake_delegation add_cert set_totals b_deposit_total set_body set_tx]; rewrite Z.add_0_r; apply T0]]|]; split; reflexivity).
  - apply update_inv in S as (f & -> & _). rewrite !Z.add_0_r. repeat split; eexists; split; reflexivity.
  - apply balance_shape in S as (f & o & ->). rewrite !Z.add_0_r. repeat split; eexists; split; reflexivity.
  - assert (S' : sign H pub sgn b k = Ok b') by congruence. unfold sign in S'. apply bind_ok in S' as (w & _ & S'). apply ok_inj in S'. subst b'. rewrite !Z.add_0_r. repeat split; eexists; split; reflexivity.
Qed.
(** Every history: the running totals are the sums of the amounts handed in (in 64-bit arithmetic). *)
Definition in_amounts {key} (l : list (@call key)) : Z := total (map u_value (inputs_in l)) + total (map snd (withdrawals_in l)).
Lemma total_app a b : total (a ++ b) = total a + total b. Proof. induction a as [|x a IH]; [reflexivity|]. cbn [app total]. rewrite IH. lia. Qed.
Lemma in_amounts_cons {key} (c : @call key) l : in_amounts (c :: l) = step_in c + in_amounts l.
Proof. unfold in_amounts, inputs_in, withdrawals_in. cbn [map concat]. rewrite !map_app, !total_app. destruct c; cbn [map total step_in snd]; lia. Qed.
Lemma deposits_cons {key} (c : @call key) l : total (deposits_in (c :: l)) = step_dep c + total (deposits_in l).
Proof. unfold deposits_in. cbn [map concat]. rewrite total_app. destruct c; cbn [total step_dep]; lia. Qed.
Lemma books {key} H (pub : key -> list Z) sgn fuel l : forall b b', do_calls H pub sgn fuel b l = Some (Ok b') ->
  to_i64 (b_input_total b') = to_i64 (b_input_total b + in_amounts l) /\ to_i64 (b_deposit_total b') = to_i64 (b_deposit_total b + total (deposits_in l)).
Proof.
  induction l as [|c l IH]; intros b b' R; cbn [do_calls] in R; [injection R as <-; unfold in_amounts; cbn; rewrite !Z.add_0_r; auto|].
  apply rbind_ok in R as (b1 & S & R). apply step_books in S as ((x & E1 & X1) & (y & E2 & Y1) & _). destruct (IH _ _ R) as [I1 I2]. rewrite I1, I2, in_amounts_cons, deposits_cons, E1, E2.
  rewrite <- (to_i64_add x), <- (to_i64_add y), X1, Y1, !to_i64_add. split; f_equal; lia.
Qed.
Definition total_i64 (b : builder) : Prop := to_i64 (b_input_total b) = b_input_total b /\ to_i64 (b_deposit_total b) = b_deposit_total b.
Lemma step_i64 {key} H (pub : key -> list Z) sgn fuel b c b' : total_i64 b -> do_call H pub sgn fuel b c = Some (Ok b') -> total_i64 b'.
Proof.
  assert (T0 : forall x, to_i64 (to_i64 x) = to_i64 x) by (intros x; pose proof (to_i64_add x 0) as E; rewrite !Z.add_0_r in E; exact E).
  intros [I D] S. destruct c; cbn [do_call] in S; unfold lift in S;
    try (assert (E : b' = _) by (symmetry; exact (ok_inj _ _ (f_equal (fun o => match o with Some x => x | None => Throw end) S))); subst b'; clear S; split; first [exact I|exact D|apply (T0 (b_input_total b + _))|apply (T0 (b_deposit_total b + _))]).
  - apply update_inv in S as (f & -> & _). split; assumption.
  - apply balance_shape in S as (f & o & ->). split; assumption.
  - assert (S' : sign H pub sgn b k = Ok b') by congruence. unfold sign in S'. apply bind_ok in S' as (w & _ & S'). apply ok_inj in S'. subst b'. split; assumption.
Qed.
Lemma history_i64 {key} H (pub : key -> list Z) sgn fuel l : forall b b', total_i64 b -> do_calls H pub sgn fuel b l = Some (Ok b') -> total_i64 b'.
Proof. induction l as [|c l IH]; intros b b' T R; cbn [do_calls] in R; [injection R as <-; exact T|]. apply rbind_ok in R as (b1 & S & R). exact (IH b1 b' (step_i64 _ _ _ _ _ _ _ T S) R). Qed.
Theorem C39_running_totals : forall key H (pub : key -> list Z) sgn fuel l b, do_calls H pub sgn fuel new_builder l = Some (Ok b) ->
  lovelace (total (map u_value (inputs_in l)) + total (map snd (withdrawals_in l))) -> lovelace (total (deposits_in l)) ->
  b_input_total b = total (map u_value (inputs_in l)) + total (map snd (withdrawals_in l)) /\ b_deposit_total b = total (deposits_in l).
Proof.
  intros key H pub sgn fuel l b R B1 B2. destruct (books _ _ _ _ _ _ _ R) as [I D]. destruct (history_i64 _ _ _ _ _ _ _ (conj eq_refl eq_refl : total_i64 new_builder) R) as [TI TD].
  cbn [new_builder b_input_total b_deposit_total] in I, D. rewrite Z.add_0_l in I, D. unfold in_amounts in I. rewrite (to_i64_small _ B1) in I. rewrite (to_i64_small _ B2) in D. lia.
Qed.
(** If every UTxO and every account is added once, those are the sums over the inputs and withdrawals that are serialised. *)
Theorem C39_totals_of_body : forall key H (pub : key -> list Z) sgn fuel l b, do_calls H pub sgn fuel new_builder l = Some (Ok b) ->
  NoDup (map (fun u => (u_id u, u_index u)) (inputs_in l)) -> NoDup (map (fun w => RewardsAddress_toBytes (fst w)) (withdrawals_in l)) ->
  Permutation (map (fun i => (ti_id i, ti_index i)) (tb_inputs (tx_body (b_tx b)))) (map (fun u => (u_id u, u_index u)) (inputs_in l)) /\
  Permutation (tb_withdrawals (tx_body (b_tx b))) (map (fun w => (RewardsAddress_toBytes (fst w), snd w)) (withdrawals_in l)).
Proof.
  intros key H pub sgn fuel l b R N1 N2.
  assert (G : forall l b b', do_calls H pub sgn fuel b l = Some (Ok b') ->
    NoDup (map (fun i => (ti_id i, ti_index i)) (tb_inputs (body_of b)) ++ map (fun u => (u_id u, u_index u)) (inputs_in l)) ->
    NoDup (map fst (tb_withdrawals (body_of b)) ++ map (fun w => RewardsAddress_toBytes (fst w)) (withdrawals_in l)) ->
    Permutation (map (fun i => (ti_id i, ti_index i)) (tb_inputs (body_of b'))) (map (fun i => (ti_id i, ti_index i)) (tb_inputs (body_of b)) ++ map (fun u => (u_id u, u_index u)) (inputs_in l)) /\
    Permutation (tb_withdrawals (body_of b')) (tb_withdrawals (body_of b) ++ map (fun w => (RewardsAddress_toBytes (fst w), snd w)) (withdrawals_in l))).
  { clear. induction l as [|c l IH]; intros b b' R N1 N2; cbn [do_calls] in R; [injection R as <-; cbn; rewrite !app_nil_r; split; reflexivity|].
    apply rbind_ok in R as (b1 & S & R). apply step_books in S as (_ & _ & EI & EW). unfold inputs_in, withdrawals_in in N1, N2 |- *. cbn [map concat] in *. fold (inputs_in l) in *. fold (withdrawals_in l) in *.
    specialize (IH b1 b' R). rewrite EI, EW in IH. clear EI EW R.
    destruct c; cbn [app map] in *; try (exact (IH N1 N2)).
    - assert (NI : ~ In {| ti_id := u_id u; ti_index := u_index u |} (tb_inputs (body_of b))).
      { intros I. apply NoDup_remove_2 in N1. apply N1. apply in_or_app. left. apply in_map_iff. eexists. split; [|exact I]. reflexivity. }
      pose proof (Permutation_map (fun i => (ti_id i, ti_index i)) (insert_perm _ _ NI)) as P. cbn [map ti_id ti_index] in P.
      assert (Q : Permutation (map (fun i => (ti_id i, ti_index i)) (tb_inputs (body_of b)) ++ (u_id u, u_index u) :: map (fun u => (u_id u, u_index u)) (inputs_in l))
                              (map (fun i => (ti_id i, ti_index i)) (set_insert txin_lt {| ti_id := u_id u; ti_index := u_index u |} (tb_inputs (body_of b))) ++ map (fun u => (u_id u, u_index u)) (inputs_in l))).
      { rewrite P. cbn [app]. symmetry. apply Permutation_middle. }
      destruct (IH (Permutation_NoDup Q N1) N2) as [I1 I2]. split; [|exact I2]. rewrite I1. symmetry. exact Q.
    - cbn [fst snd] in *. assert (NI : ~ In (RewardsAddress_toBytes a) (map fst (tb_withdrawals (body_of b)))) by (intros I; apply NoDup_remove_2 in N2; apply N2; apply in_or_app; left; exact I).
      pose proof (assign_perm (RewardsAddress_toBytes a) amount (tb_withdrawals (body_of b)) NI) as P.
      assert (Q : Permutation (map fst (tb_withdrawals (body_of b)) ++ RewardsAddress_toBytes a :: map (fun w => RewardsAddress_toBytes (fst w)) (withdrawals_in l))
                              (map fst (map_assign (RewardsAddress_toBytes a) amount (tb_withdrawals (body_of b))) ++ map (fun w => RewardsAddress_toBytes (fst w)) (withdrawals_in l))).
      { rewrite (Permutation_map fst P). cbn [map fst app]. symmetry. apply Permutation_middle. }
      destruct (IH N1 (Permutation_NoDup Q N2)) as [I1 I2]. split; [exact I1|]. rewrite I2, P. cbn [app]. apply Permutation_middle. }
  destruct (G l new_builder b R N1 N2) as [P1 P2]. split; [exact P1|exact P2].
Qed.
(** Adding a UTxO twice leaves one input but counts its value twice; a second withdrawal from an account replaces the first but both count. *)
Theorem C39_duplicate_input_refuted : forall b u, let b1 := add_input b u in let b2 := add_input b1 u in
  b_tx b2 = b_tx b1 /\ b_input_total b2 = to_i64 (b_input_total b1 + u_value u).
Proof.
  intros b u. cbv zeta. split; [|reflexivity]. unfold add_input. cbv zeta. cbn [set_totals b_tx set_body set_tx clear_witness_set set_vkeys tx_body tx_wits tx_meta body_of with_inputs tb_inputs tb_outputs tb_fee tb_ttl tb_certs tb_withdrawals tb_metadata_hash].
  rewrite (insert_twice txin_lt _ _ (st_irr _ txin_st)). reflexivity.
Qed.
Theorem C39_withdrawal_replaced_refuted : forall b a m n, let b1 := add_withdrawal b a n in let b2 := add_withdrawal (add_withdrawal b a m) a n in
  b_tx b2 = b_tx b1 /\ b_input_total b2 = to_i64 (b_input_total b1 + m).
Proof.
  intros b a m n. cbv zeta. split.
  - unfold add_withdrawal. cbv zeta. cbn [set_totals b_tx set_body set_tx clear_witness_set set_vkeys tx_body tx_wits tx_meta body_of with_withdrawals tb_inputs tb_outputs tb_fee tb_ttl tb_certs tb_withdrawals tb_metadata_hash].
    rewrite assign_twice. reflexivity.
  - change (to_i64 (to_i64 (b_input_total b + m) + n) = to_i64 (to_i64 (b_input_total b + n) + m)). rewrite !to_i64_add. f_equal. lia.
Qed.
(** A builder made from a serialised transaction starts with totals of zero whatever the transaction contains, so that it can never be balanced. *)
Theorem C39_loaded_totals_refuted : forall s b, builder_fromCBOR s = Ok b -> b_input_total b = 0 /\ b_deposit_total b = 0.
Proof. intros s b H. unfold builder_fromCBOR in H. apply bind_ok in H as (t & _ & H). apply ok_inj in H. subst b. split; reflexivity. Qed.
Theorem C39_loaded_cannot_balance : forall s b fuel dummies force b', builder_fromCBOR s = Ok b -> Forall (fun o => lovelace (to_amount o)) (outputs b) ->
  balance fuel b dummies force = Some (Ok b') -> lovelace (fee_of b') -> False.
Proof.
  intros s b fuel d force b' L R H FB. unfold builder_fromCBOR in L. apply bind_ok in L as (t & _ & L). apply ok_inj in L. subst b.
  pose proof (C36_conserves fuel (builder_of t) d force b' ltac:(cbn; lia) R H FB) as C. cbn [builder_of b_input_total b_deposit_total] in C. rewrite Z.add_0_r in C.
  pose proof (balance_in_range fuel d force (builder_of t) b' ltac:(cbn; lia) R H) as R'. assert (P : 0 <= total (map to_amount (outputs b'))).
  { rewrite total_zsum. apply zsum_nonneg. apply Forall_forall. intros x I. apply in_map_iff in I as (o & <- & I). pose proof (proj1 (Forall_forall _ _) R' o I). cbn in H0. lia. }
  assert (F0 : fee_of b' = 0) by (destruct FB; lia). apply balance_spec in H.
  assert (ODD : forall n, (44 mod 2 ^ 64 * n + 155381 mod 2 ^ 64) mod 2 ^ 64 = 0 -> False).
  { intros n F. apply Z.mod_divide in F; [|lia]. destruct F as [q F]. change (44 mod 2 ^ 64) with 44 in F. change (155381 mod 2 ^ 64) with 155381 in F. lia. }
  destruct H as [f o E T FE|f o f0 out c FO E FE T CB EF CF LE].
  - apply fee_once_size in FE as (n & _ & F). assert (Q : f = 0) by (rewrite E in F0; exact F0). rewrite E in F. apply (ODD n). rewrite <- Q. symmetry. exact F.
  - apply C37_fee_exact in CF as (n & _ & F). assert (f = 0) by (rewrite E in F0; exact F0). rewrite E in F. change (b_fee_a (set_outputs (set_fee (builder_of t) f) o)) with 44 in F. change (b_fee_b (set_outputs (set_fee (builder_of t) f) o)) with 155381 in F.
    apply (ODD n). rewrite <- F. pose proof (Z.mod_pos_bound (44 mod 2 ^ 64 * n + 155381 mod 2 ^ 64) (2 ^ 64) ltac:(lia)). lia.
Qed.
(** C36 and C39 together: from a new builder, through any history, what goes in comes out. *)
Theorem C36_history_conserves : forall key H (pub : key -> list Z) sgn fuel l dummies force b, do_calls H pub sgn fuel new_builder (l ++ [Balance dummies force]) = Some (Ok b) ->
  (forall a n, In (AddOutput a n) l -> lovelace n) -> lovelace (total (map u_value (inputs_in l)) + total (map snd (withdrawals_in l))) -> lovelace (total (deposits_in l)) -> lovelace (fee_of b) ->
  total (map u_value (inputs_in l)) + total (map snd (withdrawals_in l)) = total (map to_amount (outputs b)) + fee_of b + total (deposits_in l).
Proof.
  intros key H pub sgn fuel l d force b R OB B1 B2 FB.
  assert (X : exists b0, do_calls H pub sgn fuel new_builder l = Some (Ok b0) /\ balance fuel b0 d force = Some (Ok b)).
  { clear -R. revert R. generalize new_builder. induction l as [|c l IH]; intros b1 R; cbn [app do_calls] in *.
    - exists b1. split; [reflexivity|]. apply rbind_ok in R as (b2 & S & R). cbn [do_call] in S. injection R as <-. exact S.
    - destruct (do_call H pub sgn fuel b1 c) as [[b2| |]|]; cbn [rbind] in R |- *; try discriminate. exact (IH b2 R). }
  destruct X as (b0 & R0 & RB). destruct (C39_running_totals _ _ _ _ _ _ _ R0 B1 B2) as [<- <-].
  assert (G : forall l b b', (forall a n, In (AddOutput a n) l -> lovelace n) -> do_calls H pub sgn fuel b l = Some (Ok b') -> 0 <= b_min_utxo b /\ in_range (outputs b) -> 0 <= b_min_utxo b' /\ in_range (outputs b')).
  { clear. induction l as [|c l IH]; intros b b' OB R G; cbn [do_calls] in R; [injection R as <-; exact G|]. apply rbind_ok in R as (b1 & S & R). apply (IH b1 b'); [intros a n I; apply (OB a n); right; exact I|exact R|].
    destruct G as [G1 G2]. destruct c; cbn [do_call] in S; unfold lift in S;
      try (assert (E : b1 = _) by (symmetry; exact (ok_inj _ _ (f_equal (fun o => match o with Some x => x | None => Throw end) S))); rewrite E; clear E S; first [split; [exact G1|exact G2]|idtac]).
    - split; [exact G1|]. unfold outputs. cbn. apply Forall_app. split; [exact G2|]. constructor; [|constructor]. cbn [to_amount]. exact (OB addr amount (or_introl eq_refl)).
    - apply update_inv in S as (f & -> & _). split; [exact G1|exact G2].
    - split; [apply balance_shape in S as (f & o & ->); exact G1|]. exact (balance_in_range _ _ _ _ _ G1 G2 S).
    - assert (S' : sign H pub sgn b k = Ok b1) by congruence. unfold sign in S'. apply bind_ok in S' as (w & _ & S'). apply ok_inj in S'. subst b1. split; [exact G1|exact G2]. }
  assert (G0 : 0 <= b_min_utxo new_builder /\ in_range (outputs new_builder)) by (split; [cbn; lia|constructor]). destruct (G l new_builder b0 OB R0 G0) as [M R']. exact (C36_conserves fuel b0 d force b M R' RB FB).
Qed.

(** ** The hypotheses are met *)
Definition ex_H (s : list Z) : list Z := firstn 32 (rev s ++ repeat 0 32).
Definition ex_pub (k : Z) : list Z := repeat k 32.
Definition ex_sgn (k : Z) (m : list Z) : list Z := repeat (k + hd 0 m) 64.
Definition ex_account : rewards_address := {| ra_header := 224; ra_hash := ex_hash 9 28 |}.
Definition ex_build : list (@call Z) :=
  [AddInput (ex_utxo 1 10000000); AddInput (ex_utxo 2 7000000); AddWithdrawal ex_account 500000; AddStakeReg ex_account 2000000; AddOutput ex_addr 3000000; SetTtl 1000000; SetChange ex_addr].
Definition ex_calls : list (@call Z) := ex_build ++ [Balance (ex_dummies 2) false].
Definition ex_run (l : list (@call Z)) : run builder := do_calls ex_H ex_pub ex_sgn 10 new_builder l.
Example C36_ex : exists b, ex_run ex_calls = Some (Ok b) /\ map to_amount (outputs b) = [3000000; 12325083] /\ fee_of b = 174917 /\
  10000000 + 7000000 + 500000 = 3000000 + 12325083 + 174917 + 2000000.
Proof.
  destruct (ex_run ex_calls) as [[b| |]|] eqn:E; try (exfalso; vm_compute in E; discriminate E). exists b. split; [reflexivity|]. vm_compute in E. injection E as <-. split; [reflexivity|]. split; [reflexivity|lia].
Qed.
(** ... for the history theorems (C36, C39): *)
Example C36_ex_history : lovelace (total (map u_value (inputs_in ex_build)) + total (map snd (withdrawals_in ex_build))) /\ lovelace (total (deposits_in ex_build)) /\
  (forall a n, In (AddOutput a n) ex_build -> lovelace n) /\ NoDup (map (fun u => (u_id u, u_index u)) (inputs_in ex_build)) /\
  NoDup (map (fun w => RewardsAddress_toBytes (fst w)) (withdrawals_in ex_build)).
Proof.
  unfold lovelace. split; [vm_compute; intuition congruence|]. split; [vm_compute; intuition congruence|].
  split; [intros a n I; unfold ex_build in I; cbn [In] in I; repeat (destruct I as [I|I]; [first [discriminate I|injection I as <- <-; lia]|]); destruct I|].
  split; [|repeat constructor; intros []]. constructor; [|repeat constructor; intros []]. intros [I|[]]. discriminate I.
Qed.
Definition ex_b : builder := match ex_run ex_build with Some (Ok b) => b | _ => new_builder end.
Example C36_ex_size : size_of (carrying (b_tx ex_b) (fee_of ex_b) (ex_dummies 2)) 403 /\ b_fee_a ex_b * (403 + zlen (b_change ex_b) + 40) + b_fee_b ex_b < 2 ^ 64.
Proof. split; [apply size_of_iff; vm_compute; reflexivity|vm_compute; reflexivity]. Qed.
Example C37_ex : calculate_fee 6 ex_b (ex_dummies 2) = Some (Ok 173289) /\ Forall vkey_wf (ex_dummies 2).
Proof. split; [vm_compute; reflexivity|]. do 2 (constructor; [split; apply bytesN_b; reflexivity|]). constructor. Qed.
Example C56_ex : exists b1 out b', update_fee 10 ex_b (ex_dummies 2) = Some (Ok b1) /\ total_outgoing b1 = Ok out /\ out <= b_input_total ex_b /\ balance 10 ex_b (ex_dummies 2) false = Some (Ok b') /\ length (outputs b') = 2%nat.
Proof.
  destruct (update_fee 10 ex_b (ex_dummies 2)) as [[b1| |]|] eqn:E; try (exfalso; vm_compute in E; discriminate E).
  destruct (balance 10 ex_b (ex_dummies 2) false) as [[b'| |]|] eqn:E2; try (exfalso; vm_compute in E2; discriminate E2).
  exists b1, 5173289, b'. split; [reflexivity|]. split; [vm_compute in E; injection E as <-; vm_compute; reflexivity|]. split; [vm_compute; discriminate|]. split; [reflexivity|]. vm_compute in E2. injection E2 as <-. reflexivity.
Qed.
(** signing after balancing, twice with the same key and once with another: two witnesses *)
Example C38_ex : exists b, ex_run (ex_calls ++ [Sign 1; Sign 2; Sign 1]) = Some (Ok b) /\ map fst (witnesses b) = [ex_pub 2; ex_pub 1] /\
  (forall l1 k l2, ex_calls ++ [Sign 1; Sign 2; Sign 1] = l1 ++ Sign k :: l2 -> forall c, In c l2 -> is_cert c = false).
Proof.
  destruct (ex_run (ex_calls ++ [Sign 1; Sign 2; Sign 1])) as [[b| |]|] eqn:E; try (exfalso; vm_compute in E; discriminate E).
  exists b. split; [reflexivity|]. split; [vm_compute in E; injection E as <-; reflexivity|].
  intros l1 k l2 Q c I. unfold ex_calls, ex_build in Q. cbn [app] in Q. do 8 (destruct l1 as [|? l1]; [discriminate Q|injection Q as _ Q]).
  assert (J : In c [Sign 2; Sign 1]). { destruct l1 as [|? l1]; [injection Q as _ Q; rewrite Q; exact I|injection Q as _ Q]. destruct l1 as [|? l1]; [injection Q as _ Q; right; rewrite Q; exact I|injection Q as _ Q].
    destruct l1 as [|? l1]; [injection Q as _ Q; rewrite <- Q in I; destruct I|injection Q as _ Q]. destruct l1; discriminate Q. }
  destruct J as [<-|[<-|[]]]; reflexivity.
Qed.
Example C38_ex_cert : body_wf ex_body /\ Forall simple_cert (tb_certs ex_body) /\ zlen (tb_certs ex_body) + 1 < 2 ^ 64 /\ cred_wf (reward_cred ex_account) /\
  exists b1, sign ex_H ex_pub ex_sgn (builder_of {| tx_body := ex_body; tx_wits := empty_wits; tx_meta := false |}) 1 = Ok b1.
Proof. destruct C54_ex_body as [A B]. split; [exact A|]. split; [exact B|]. split; [reflexivity|]. split; [apply bytesN_b; reflexivity|]. eexists. reflexivity. Qed.
Example C38_ex_babbage : exists b', do_bcalls ex_H ex_pub ex_sgn 10 {| bb_body := {| bb_inputs := []; bb_outputs := []; bb_fee := 0; bb_ttl := None; bb_certs := []; bb_withdrawals := [] |}; bb_vkeys := []; bb_flag := true; bb_a := 44; bb_b := 155381 |}
    [BAddInput (ex_hash 1 32) 0; BAddOutput ex_addr 2000000 false; BCalculateFee (ex_dummies 1); BSign 3] = Some (Ok b') /\ bb_fee (bb_body b') = 163873 /\ map fst (bb_vkeys b') = [ex_pub 3].
Proof. eexists. split; [vm_compute; reflexivity|]. split; reflexivity. Qed.
Example C39_ex_loaded : exists s b, serialize (tx_ser {| tx_body := ex_body; tx_wits := empty_wits; tx_meta := false |}) = Ok s /\ builder_fromCBOR s = Ok b /\ outputs b <> [].
Proof.
  destruct (serialize (tx_ser {| tx_body := ex_body; tx_wits := empty_wits; tx_meta := false |})) as [s| |] eqn:E; try (exfalso; vm_compute in E; discriminate E). exists s. vm_compute in E. apply ok_inj in E. subst s.
  eexists. split; [reflexivity|]. split; [vm_compute; reflexivity|]. discriminate.
Qed.
(** what a duplicate input leads to: 6 ADA out of a 3 ADA input *)
Example C39_ex_duplicate : exists b, ex_run [AddInput (ex_utxo 1 3000000); AddInput (ex_utxo 1 3000000); SetChange ex_addr; Balance (ex_dummies 1) false] = Some (Ok b) /\
  length (tb_inputs (tx_body (b_tx b))) = 1%nat /\ total (map to_amount (outputs b)) + fee_of b = 6000000.
Proof.
  destruct (ex_run _) as [[b| |]|] eqn:E; try (exfalso; vm_compute in E; discriminate E). exists b. split; [reflexivity|]. vm_compute in E. injection E as <-. split; reflexivity.
Qed.

Print Assumptions C37_fee_exact.
Print Assumptions C37_terminates.
Print Assumptions C37_fee_witness_independent.
Print Assumptions C37_fee_of_signed.
Print Assumptions C37_update_fee.
Print Assumptions C37_update_fee_terminates.
Print Assumptions C37_negative_fee_parameter_refuted.
Print Assumptions C37_babbage_fee_exact. Print Assumptions C37_babbage_terminates. Print Assumptions C37_babbage_witness_independent. Print Assumptions C37_babbage_fee_of_signed.
Print Assumptions C36_conserves.
Print Assumptions C36_frame.
Print Assumptions C36_fee_exact.
Print Assumptions C36_fee_covers.
Print Assumptions C36_terminates.
Print Assumptions C56_outputs_kept.
Print Assumptions C56_output_reduced_refuted.
Print Assumptions C56_output_removed_refuted.
Print Assumptions C38_witnesses_current. Print Assumptions C38_edits_discard. Print Assumptions C38_certificates_keep. Print Assumptions C38_witness_origin.
Print Assumptions C38_certificate_keeps_signatures_refuted.
Print Assumptions C38_babbage_witnesses_current.
Print Assumptions C40_id_of_body.
Print Assumptions C40_id_binds_simple.
Print Assumptions C40_sign.
Print Assumptions C40_sign_many.
Print Assumptions C39_running_totals.
Print Assumptions C39_totals_of_body.
Print Assumptions C39_duplicate_input_refuted.
Print Assumptions C39_withdrawal_replaced_refuted.
Print Assumptions C39_loaded_totals_refuted.
Print Assumptions C39_loaded_cannot_balance.
Print Assumptions C36_history_conserves.
