(** C56: what balance() does to the caller's outputs, in every case. *)
From Coq Require Import ZArith List Lia Bool.
From Verif Require Import Base BaseLemmas Model_Cbor Model_Address Model_Ledger Model_Tx Spec_Tx Proof_Ledger Proof_Tx Proof_Tx2 Proof_Tx3 Props_Ledger Props_Tx.
Import ListNotations.
Open Scope Z_scope.
Ltac Zify.zify_post_hook ::= idtac.

(** Some outputs at the end are gone; of the one before them less than the caller wanted, though not less than the minimum, may be left. *)
Definition cut_back (least : Z) (before after : list txout) : Prop := exists k, (k < length before)%nat /\
  (after = firstn k before \/ exists o, nth_error before k = Some o /\ exists amount, least <= amount < to_amount o /\ after = firstn k before ++ [{| to_addr := to_addr o; to_amount := amount |}]).

Lemma split_last_snoc {A} : forall l (i : list A) x, split_last l = Some (i, x) -> l = i ++ [x].
Proof.
  induction l as [|a l IH]; intros i x H; [discriminate|]. cbn [split_last] in H. destruct l as [|b l]; [injection H as <- <-; reflexivity|].
  destruct (split_last (b :: l)) as [[i' y]|] eqn:E; [|discriminate]. injection H as <- <-. cbn [app]. f_equal. apply IH. reflexivity.
Qed.
Lemma snoc_firstn {A} (l : list A) i x : l = i ++ [x] -> i = firstn (length i) l /\ nth_error l (length i) = Some x /\ (length i < length l)%nat.
Proof. intros ->. rewrite firstn_app, firstn_all, Nat.sub_diag, app_nil_r. rewrite nth_error_app2, Nat.sub_diag, app_length by lia. cbn. split; [reflexivity|]. split; [reflexivity|lia]. Qed.
Lemma cut_loop fuel d force b : 0 <= b_min_utxo b -> let U := tb_outputs (body_of b) in Forall (fun o => 0 <= to_amount o < 2 ^ 63) U ->
  forall left i f o b', 1 <= i -> cut_back (b_min_utxo b) U o -> balance_loop fuel left i (set_outputs (set_fee b f) o) d force = Some (Ok b') -> cut_back (b_min_utxo b) U (tb_outputs (body_of b')).
Proof.
  intros MU U RU. induction left as [|left IH]; intros i f o b' I0 INV H; cbn [balance_loop] in H; [discriminate|].
  apply rbind_ok in H as (b2 & UP & H). apply rbind_ok in H as (out2 & T & H). cbn in T. injection T as T. apply rbind_ok in H as (change & S & H). cbn in S. injection S as S. apply ssub_ok in S as [S SB].
  pose proof (update_inv _ _ _ _ UP) as (c & E2 & _). rewrite set_outs_fee in E2. subst b2. change (b_input_total (set_outputs (set_fee b c) o)) with (b_input_total b) in S.
  change (tb_outputs (body_of (set_outputs (set_fee b c) o))) with o in H. rewrite ?set_outs_outs in H. change (b_min_utxo (set_outputs (set_fee b c) o)) with (b_min_utxo b) in H. change (b_change (set_outputs (set_fee b c) o)) with (b_change b) in H.
  destruct (Z.eqb_spec change 0) as [Z0|NZ].
  { cbn in H. injection H as <-. change (tb_outputs (body_of (set_outputs (set_fee b c) o))) with o. exact INV. }
  destruct (Z.ltb_spec change 0) as [NEG|POS].
  { destruct (split_last o) as [[ini last]|] eqn:SL; [|discriminate]. apply split_last_snoc in SL. apply rbind_ok in H as (na & EA & H). cbn in EA. injection EA as EA. apply sadd_ok in EA as [EA EB]. rewrite !set_outs_outs in H.
    (* the last output now present is one of the caller's, perhaps reduced already *)
    assert (LAST : exists o0, nth_error U (length ini) = Some o0 /\ to_addr last = to_addr o0 /\ 0 <= to_amount last <= to_amount o0 /\ ini = firstn (length ini) U /\ (length ini < length U)%nat).
    { destruct INV as (k & K & [E|(o0 & N0 & amt & AM & E)]).
      - rewrite E in SL. destruct (snoc_firstn _ _ _ SL) as (F & N & L). rewrite firstn_length in L.
        assert (LI : (length ini < k)%nat) by lia. assert (N' : nth_error U (length ini) = Some last).
        { rewrite <- (firstn_skipn k U), nth_error_app1 by (rewrite firstn_length; lia). exact N. }
        exists last. split; [exact N'|]. split; [reflexivity|]. rewrite Forall_forall in RU. pose proof (RU last (nth_error_In _ _ N')). split; [lia|]. split; [|lia]. rewrite firstn_firstn, Nat.min_l in F by lia. exact F.
      - rewrite E in SL. apply app_inj_tail in SL as [<- <-]. cbn [to_addr to_amount]. rewrite firstn_length, Nat.min_l by lia. exists o0. split; [exact N0|]. split; [reflexivity|]. split; [lia|]. split; [reflexivity|exact K]. }
    destruct LAST as (o0 & N0 & AD & AM & IF & IL).
    assert (R0 : 0 <= to_amount o0 < 2 ^ 63) by (rewrite Forall_forall in RU; exact (RU _ (nth_error_In _ _ N0))).
    assert (LA : to_i64 (to_amount last) = to_amount last) by (apply to_i64_small; lia). rewrite LA in EA.
    destruct (Z.ltb_spec na (b_min_utxo b)).
    - eapply IH; [|  |exact H]; [lia|]. exists (length ini). split; [exact IL|]. left. exact IF.
    - eapply IH; [|  |exact H]; [lia|]. exists (length ini). split; [exact IL|]. right. exists o0. split; [exact N0|]. exists na. split; [lia|]. rewrite <- IF, AD. unfold to_u64. rewrite Z.mod_small by lia. reflexivity. }
  destruct (Z.eqb_spec i 0) as [Ei|Ni]; cbn [andb] in H; [lia|].
  destruct force; [|eapply IH; [| |exact H]; [lia|exact INV]].
  cbv zeta in H. apply rbind_ok in H as (c2 & _ & H). destruct (_ <? _) in H; [discriminate|]. cbn in H. injection H as <-.
  match goal with |- context [tb_outputs (body_of ?x)] => change (tb_outputs (body_of x)) with o end. exact INV.
Qed.
Lemma cut_start fuel left b d force b1 out b' : update_fee fuel b d = Some (Ok b1) -> total_outgoing b1 = Ok out -> b_input_total b < out ->
  0 <= b_min_utxo b -> Forall (fun o => 0 <= to_amount o < 2 ^ 63) (outputs b) -> balance_loop fuel left 0 b d force = Some (Ok b') -> cut_back (b_min_utxo b) (outputs b) (outputs b').
Proof.
  intros U T COV MU RU H.
  destruct left as [|left]; [discriminate|]. cbn [balance_loop] in H. rewrite U in H. cbn [rbind] in H. rewrite T in H. unfold lift at 1 in H. cbn [rbind] in H.
    pose proof (update_inv _ _ _ _ U) as (c & E2 & _). apply rbind_ok in H as (change & S & H). cbn in S. injection S as S. apply ssub_ok in S as [S SB].
    assert (OB : tb_outputs (body_of b1) = outputs b) by (rewrite E2; reflexivity). assert (IB : b_input_total b1 = b_input_total b) by (rewrite E2; reflexivity). assert (MB : b_min_utxo b1 = b_min_utxo b) by (rewrite E2; reflexivity).
    rewrite IB in S. destruct (Z.eqb_spec change 0); [lia|]. destruct (Z.ltb_spec change 0); [|lia]. rewrite OB in H. destruct (split_last (outputs b)) as [[ini last]|] eqn:SL; [|discriminate]. apply split_last_snoc in SL.
    destruct (snoc_firstn _ _ _ SL) as (F & N & L). apply rbind_ok in H as (na & EA & H). cbn in EA. injection EA as EA. apply sadd_ok in EA as [EA EB]. rewrite MB in H.
    assert (R0 : 0 <= to_amount last < 2 ^ 63) by (rewrite Forall_forall in RU; exact (RU _ (nth_error_In _ _ N))).
    rewrite to_i64_small in EA by lia.
    assert (ST : forall o, set_outputs b1 o = set_outputs (set_fee b c) o) by (intros o; rewrite E2; reflexivity). rewrite !ST in H.
    destruct (Z.ltb_spec na (b_min_utxo b)).
    - eapply (cut_loop fuel d force b MU RU left (0 + 1)); [|  |exact H]; [lia|]. exists (length ini). split; [exact L|]. left. exact F.
    - eapply (cut_loop fuel d force b MU RU left (0 + 1)); [|  |exact H]; [lia|]. exists (length ini). split; [exact L|]. right. exists last. split; [exact N|]. exists na. split; [lia|]. change (tb_outputs (body_of b)) with (outputs b). rewrite <- F. unfold to_u64. rewrite Z.mod_small by lia. reflexivity.
Qed.
(** The inputs do not cover outputs, deposits and the fee: if balance() returns at all, it has cut back the caller's outputs, and it has added none. *)
Theorem C56_outputs_cut_back : forall fuel b dummies force b1 out b', update_fee fuel b dummies = Some (Ok b1) -> total_outgoing b1 = Ok out -> b_input_total b < out ->
  0 <= b_min_utxo b -> Forall (fun o => 0 <= to_amount o < 2 ^ 63) (outputs b) -> balance fuel b dummies force = Some (Ok b') -> cut_back (b_min_utxo b) (outputs b) (outputs b') /\ outputs b' <> outputs b.
Proof.
  intros fuel b d force b1 out b' U T COV MU RU H. assert (C : cut_back (b_min_utxo b) (outputs b) (outputs b')).
  { revert H. unfold balance. generalize 100%nat. intros k H. exact (cut_start fuel k b d force b1 out b' U T COV MU RU H). }
  split; [exact C|]. intros E. destruct C as (k & K & [X|(o & N & amt & AM & X)]); rewrite E in X.
  - apply (f_equal (@length _)) in X. rewrite firstn_length in X. lia.
  - apply (f_equal (fun l => nth_error l k)) in X. rewrite N, nth_error_app2 in X by (rewrite firstn_length; lia). rewrite firstn_length, Nat.min_l, Nat.sub_diag in X by lia. cbn in X. assert (Y : to_amount o = amt) by (apply (f_equal (fun o => match o with Some o => to_amount o | None => 0 end)) in X; exact X). lia.
Qed.
Print Assumptions C56_outputs_cut_back.
(** So the outputs survive exactly when the inputs cover outputs, deposits and the fee that the transaction needs without change. *)
Theorem C56_kept_exactly : forall fuel b dummies force b1 out b', update_fee fuel b dummies = Some (Ok b1) -> total_outgoing b1 = Ok out ->
  0 <= b_min_utxo b -> Forall (fun o => 0 <= to_amount o < 2 ^ 63) (outputs b) -> balance fuel b dummies force = Some (Ok b') ->
  ((outputs b' = outputs b \/ exists change, outputs b' = outputs b ++ [change]) <-> out <= b_input_total b).
Proof.
  intros fuel b d force b1 out b' U T MU RU H. split.
  - intros K. apply Z.nlt_ge. intros L. destruct (C56_outputs_cut_back fuel b d force b1 out b' U T L MU RU H) as [(k & K1 & C) N]. destruct K as [K|(x & K)]; [exact (N K)|].
    assert (LE : (length (outputs b') <= length (outputs b))%nat). { destruct C as [->|(o & _ & amt & _ & ->)]; [rewrite firstn_length; lia|rewrite app_length, firstn_length; cbn; lia]. }
    rewrite K, app_length in LE. cbn in LE. lia.
  - intros L. destruct (C56_outputs_kept fuel b d force b1 out b' U T L MU H) as [E|(x & E & _)]; eauto.
Qed.
Print Assumptions C56_kept_exactly.
(** Both kinds of cut are in C56_output_reduced_refuted and C56_output_removed_refuted; here two outputs of which one goes and the other is reduced. *)
Definition two : builder := set_change_address (add_output (add_output (add_input new_builder (ex_utxo 1 4000000)) ex_addr 5000000) ex_addr 2000000) ex_addr.
Example C56_cut_back_case : exists b', balance 10 two (ex_dummies 1) false = Some (Ok b') /\ length (outputs two) = 2%nat /\ length (outputs b') = 1%nat /\ cut_back (b_min_utxo two) (outputs two) (outputs b').
Proof.
  destruct (balance 10 two (ex_dummies 1) false) as [[b'| |]|] eqn:E; try (exfalso; vm_compute in E; discriminate E). exists b'. split; [reflexivity|]. split; [reflexivity|].
  assert (LEN : length (outputs b') = 1%nat) by (vm_compute in E; injection E as <-; reflexivity). split; [exact LEN|].
  destruct (update_fee 10 two (ex_dummies 1)) as [[b1| |]|] eqn:U; try (exfalso; vm_compute in U; discriminate U). destruct (total_outgoing b1) as [out| |] eqn:T; try (exfalso; vm_compute in U; injection U as <-; vm_compute in T; discriminate T).
  apply (C56_outputs_cut_back 10 two (ex_dummies 1) false b1 out b' U T); [|vm_compute; discriminate| |exact E].
  - vm_compute in U. injection U as <-. vm_compute in T. injection T as <-. vm_compute. reflexivity.
  - repeat (constructor; [vm_compute; split; [discriminate|reflexivity]|]). constructor.
Qed.
