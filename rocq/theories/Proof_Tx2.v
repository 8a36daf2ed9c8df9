From Verif Require Import Base BaseLemmas Model_Hex Spec_Cbor Model_Cbor Model_Address Model_Ledger Spec_Ledger Proof_Ledger Proof_Ledger2 Model_Tx Proof_Tx.
Ltac Zify.zify_post_hook ::= idtac.

(** ** What a run of updateFee or balance can return, for any parameters *)
Definition fees (b : builder) (d : list (list Z * list Z)) : outcome Z := fee_once (to_u64 (b_fee_a b)) (to_u64 (b_fee_b b)) (set_vkeys (b_tx b) d).
Lemma set_fee_fee b f g : set_fee (set_fee b f) g = set_fee b g. Proof. reflexivity. Qed.
Lemma set_outs_fee b f g o : set_fee (set_outputs (set_fee b f) o) g = set_outputs (set_fee b g) o. Proof. reflexivity. Qed.
Lemma set_outs_outs b o o' : set_outputs (set_outputs b o) o' = set_outputs b o'. Proof. reflexivity. Qed.
Lemma set_outs_same b : set_outputs b (tb_outputs (body_of b)) = b.
Proof. destruct b as [[[] w m] ? ? ? ? ? ?]. reflexivity. Qed.
Lemma fee_of_set b f : tx_fee (b_tx (set_fee b f)) = f. Proof. reflexivity. Qed.
Lemma calc_set fuel b f d c : calculate_fee fuel (set_fee b f) d = Some (Ok c) -> fees (set_fee b c) d = Ok c.
Proof. intros H. apply calc_fix in H. exact H. Qed.
Lemma update_loop_inv fuel : forall b f d calc b', calculate_fee fuel (set_fee b f) d = Some (Ok calc) \/ (exists n, calculate_fee n (set_fee b f) d = Some (Ok calc)) ->
  update_loop fuel (set_fee b f) d calc = Some (Ok b') -> exists c, b' = set_fee b c /\ fees b' d = Ok c.
Proof.
  induction fuel as [|k IH]; intros b f d calc b' C H; cbn [update_loop] in H; rewrite fee_of_set in H.
  - destruct (Z.eqb_spec calc f) as [->|]; [|discriminate]. cbn in H. injection H as <-. exists f. split; [reflexivity|]. destruct C as [C|[n C]]; exact (calc_set _ _ _ _ _ C).
  - destruct (Z.eqb_spec calc f) as [->|]; [cbn in H; injection H as <-; exists f; split; [reflexivity|]; destruct C as [C|[n C]]; exact (calc_set _ _ _ _ _ C)|].
    cbv zeta in H. rewrite set_fee_fee in H. apply rbind_ok in H as (c' & C' & H). apply (IH b calc d c' b'); [right; exists (S k); exact C'|exact H].
Qed.
Lemma update_inv fuel b d b' : update_fee fuel b d = Some (Ok b') -> exists c, b' = set_fee b c /\ fees b' d = Ok c.
Proof. intros H. unfold update_fee in H. cbv zeta in H. apply rbind_ok in H as (c & C & H). exact (update_loop_inv fuel b _ d c b' (or_introl C) H). Qed.
Lemma update_start fuel b b' d : set_fee b (to_u64 (b_fee_b b)) = set_fee b' (to_u64 (b_fee_b b')) -> update_fee fuel b d = update_fee fuel b' d.
Proof. intros E. unfold update_fee. cbv zeta. rewrite E. reflexivity. Qed.

Definition amounts (b : builder) : Z := zsum (map (fun o => to_i64 (to_amount o)) (tb_outputs (body_of b))).
Lemma sadd_ok x y z : sadd x y = Ok z -> z = x + y /\ - 2 ^ 63 <= z < 2 ^ 63.
Proof. unfold sadd, in_i64. destruct ((- 2 ^ 63 <=? x + y) && (x + y <? 2 ^ 63)) eqn:E; [|discriminate]. intros H. injection H as <-. apply andb_prop in E as [E1 E2]. lia. Qed.
Lemma ssub_ok x y z : ssub x y = Ok z -> z = x - y /\ - 2 ^ 63 <= z < 2 ^ 63.
Proof. unfold ssub, in_i64. destruct ((- 2 ^ 63 <=? x - y) && (x - y <? 2 ^ 63)) eqn:E; [|discriminate]. intros H. injection H as <-. apply andb_prop in E as [E1 E2]. lia. Qed.
Lemma fold_out l : forall acc out, fold_left (fun acc o => let* acc := acc in sadd acc (to_i64 (to_amount o))) l acc = Ok out ->
  exists a, acc = Ok a /\ out = a + zsum (map (fun o => to_i64 (to_amount o)) l).
Proof.
  induction l as [|o l IH]; intros acc out H; cbn [fold_left map zsum fold_right] in *; [exists out; split; [exact H|lia]|].
  apply IH in H as (a & E & ->). destruct acc as [a0| |]; cbn [bind] in E; try discriminate. apply sadd_ok in E as [-> _]. exists a0. split; [reflexivity|]. unfold zsum. lia.
Qed.
Lemma total_val b out : total_outgoing b = Ok out -> out = b_deposit_total b + to_i64 (tb_fee (body_of b)) + amounts b.
Proof.
  unfold total_outgoing. intros H. apply bind_ok in H as (t0 & E & H). apply sadd_ok in E as [-> _]. apply fold_out in H as (a & E & ->). injection E as <-. unfold amounts. lia.
Qed.
Lemma split_last_app {A} (l : list A) x : split_last (l ++ [x]) = Some (l, x).
Proof. induction l as [|y l IH]; [reflexivity|]. cbn [app split_last]. rewrite IH. destruct (l ++ [x]) eqn:E; [destruct l; discriminate|reflexivity]. Qed.
Lemma split_last_spec {A} (l i : list A) x : split_last l = Some (i, x) -> l = i ++ [x].
Proof.
  revert i; induction l as [|y l IH]; intros i H; [discriminate|]. cbn [split_last] in H. destruct l as [|z l]; [injection H as <- <-; reflexivity|].
  destruct (split_last (z :: l)) as [[i' y']|] eqn:E; [|discriminate]. injection H as <- <-. cbn [app]. f_equal. apply IH. reflexivity.
Qed.

Inductive balanced (fuel : nat) (d : list (list Z * list Z)) (force : bool) (b b' : builder) : Prop :=
| bal_exact f o : b' = set_outputs (set_fee b f) o -> total_outgoing b' = Ok (b_input_total b) -> fees b' d = Ok f -> balanced fuel d force b b'
| bal_forced f o f0 out c : force = true -> b' = set_outputs (set_fee b f) o ->
    fees (set_outputs (set_fee b f0) o) d = Ok f0 -> total_outgoing (set_outputs (set_fee b f0) o) = Ok out ->
    0 < b_input_total b - out < 2 ^ 63 -> f = to_u64 (f0 + to_u64 (b_input_total b - out)) ->
    calculate_fee fuel b' d = Some (Ok c) -> c <= f -> balanced fuel d force b b'.
Lemma balance_inv fuel d force left : forall i b o0 f0 b', balance_loop fuel left i (set_outputs (set_fee b f0) o0) d force = Some (Ok b') -> balanced fuel d force b b'.
Proof.
  induction left as [|left IH]; intros i b o0 f0 b' H; cbn [balance_loop] in H; [discriminate|].
  apply rbind_ok in H as (b1 & U & H). apply update_inv in U as (c & E1 & FE). rewrite set_outs_fee in E1. subst b1. apply rbind_ok in H as (out & T & H). cbn in T. injection T as T.
  apply rbind_ok in H as (change & S & H). cbn in S. injection S as S. apply ssub_ok in S as [S SB]. change (b_input_total (set_outputs (set_fee b c) o0)) with (b_input_total b) in S.
  destruct (Z.eqb_spec change 0) as [Z0|NZ].
  { cbn in H. injection H as <-. apply (bal_exact fuel d force b _ c o0); [reflexivity| |exact FE]. rewrite T. f_equal. lia. }
  destruct (Z.ltb_spec change 0) as [NEG|POS].
  { change (tb_outputs (body_of (set_outputs (set_fee b c) o0))) with o0 in H. destruct (split_last o0) as [[ini lst]|]; [|discriminate].
    apply rbind_ok in H as (na & _ & H). rewrite !set_outs_outs in H. destruct (na <? _); eapply IH; exact H. }
  change (tb_outputs (body_of (set_outputs (set_fee b c) o0))) with o0 in H. rewrite !set_outs_outs in H.
  destruct ((i =? 0) && _); [eapply IH; exact H|]. destruct force; [|eapply IH; exact H].
  cbv zeta in H. apply rbind_ok in H as (c2 & C2 & H). 
  match type of C2 with calculate_fee _ ?x _ = _ => set (b2 := x) in * end.
  destruct (Z.ltb_spec (tb_fee (body_of b2)) c2); [discriminate|]. cbn in H. injection H as <-.
  apply (bal_forced fuel d true b b2 (to_u64 (c + to_u64 change)) o0 c out c2); try reflexivity; try assumption; try lia. rewrite S. reflexivity.
Qed.
Lemma balance_start fuel left i b b' d force : set_fee b (to_u64 (b_fee_b b)) = set_fee b' (to_u64 (b_fee_b b')) ->
  balance_loop fuel left i b d force = balance_loop fuel left i b' d force.
Proof. intros E. destruct left; [reflexivity|]. cbn [balance_loop]. rewrite (update_start fuel b b' d E). reflexivity. Qed.
Lemma balance_eta fuel left i b d force : balance_loop fuel left i b d force = balance_loop fuel left i (set_outputs (set_fee b (tb_fee (body_of b))) (tb_outputs (body_of b))) d force.
Proof. apply balance_start. destruct b as [[[] w m] ? ? ? ? ? ?]. reflexivity. Qed.
Lemma balance_spec fuel d force b b' : balance fuel b d force = Some (Ok b') -> balanced fuel d force b b'.
Proof. unfold balance. generalize 100%nat. intros n H. rewrite balance_eta in H. exact (balance_inv fuel d force n 0 b _ _ b' H). Qed.

(** ** With fee parameters that are not negative and do not overflow *)
Definition size_k (b : builder) (d : list (list Z * list Z)) (cs : list cbor) : Z := base_sz (set_vkeys (b_tx b) d) cs + outs_sz (tb_outputs (body_of b)).
Lemma outs_sz_nonneg o : 0 <= outs_sz o.
Proof. unfold outs_sz. pose proof (hl_range (zlen o)). assert (0 <= zsum (map osz o)) by (apply zsum_nonneg; apply Forall_forall; intros x I; apply in_map_iff in I as (y & <- & _); unfold osz; pose proof (esz_pos (txout_ser y)); lia). lia. Qed.
Lemma base_sz_nonneg t cs : 0 <= base_sz t cs.
Proof.
  unfold base_sz. cbv zeta. pose proof (hl_range (4 + zlen (rest_map (tx_body t) cs))). pose proof (hl_range (tb_ttl (tx_body t))). pose proof (esz_pos (CArray (map txin_ser (tb_inputs (tx_body t))))). pose proof (esz_pos (witset_ser (tx_wits t))).
  assert (0 <= zsum (map psz (rest_map (tx_body t) cs))) by (apply zsum_nonneg; apply Forall_forall; intros x I; apply in_map_iff in I as (y & <- & _); unfold psz; pose proof (esz_pos (fst y)); pose proof (esz_pos (snd y)); lia).
  destruct (tx_meta t); lia.
Qed.
Lemma size_k_nonneg b d cs : 0 <= size_k b d cs.
Proof. unfold size_k. pose proof (outs_sz_nonneg (tb_outputs (body_of b))). pose proof (base_sz_nonneg (set_vkeys (b_tx b) d) cs). lia. Qed.
Lemma size_any_fee b d cs f : mapM cert_ser (tb_certs (body_of b)) = Ok cs -> tx_size (tx_set_fee (set_vkeys (b_tx b) d) f) = Ok (size_k b d cs + hl f).
Proof. intros E. rewrite (tx_size_eq (tx_set_fee (set_vkeys (b_tx b) d) f) cs E). reflexivity. Qed.
Record fits (b : builder) (d : list (list Z * list Z)) (cs : list cbor) : Prop := {
  fit_certs : mapM cert_ser (tb_certs (body_of b)) = Ok cs;
  fit_a : 0 <= b_fee_a b;
  fit_b : 0 <= b_fee_b b;
  fit_max : b_fee_a b * (size_k b d cs + 9) + b_fee_b b < 2 ^ 64 }.
Lemma fits_params b d cs : fits b d cs -> to_u64 (b_fee_a b) = b_fee_a b /\ to_u64 (b_fee_b b) = b_fee_b b.
Proof. intros [_ A B M]. pose proof (size_k_nonneg b d cs). unfold to_u64. rewrite !Z.mod_small by nia. auto. Qed.
Definition Fee (b : builder) (d : list (list Z * list Z)) (cs : list cbor) (f : Z) : Z := F (b_fee_a b) (b_fee_b b) (size_k b d cs) f.
Lemma calc_fits b d cs fuel : fits b d cs -> calculate_fee fuel b d = fee_loop fuel (b_fee_a b) (b_fee_b b) (tx_set_fee (set_vkeys (b_tx b) d) (tx_fee (b_tx b))) (Fee b d cs (tx_fee (b_tx b))).
Proof.
  intros W. destruct (fits_params _ _ _ W) as [EA EB]. destruct W as [C A B M]. unfold calculate_fee. rewrite EA, EB. cbv zeta.
  assert (T : set_vkeys (b_tx b) d = tx_set_fee (set_vkeys (b_tx b) d) (tx_fee (b_tx b))) by (symmetry; apply (set_fee_same (set_vkeys (b_tx b) d))).
  rewrite T at 1. unfold lift. rewrite (F_once (b_fee_a b) (b_fee_b b) (set_vkeys (b_tx b) d) (size_k b d cs) A B (fun f => size_any_fee b d cs f C) M (size_k_nonneg b d cs)). cbn [rbind].
  rewrite T at 1. reflexivity.
Qed.
Lemma calc_ok b d cs fuel : fits b d cs -> (6 <= fuel)%nat -> exists c, calculate_fee fuel b d = Some (Ok c) /\ c = Fee b d cs c.
Proof.
  intros W N. rewrite (calc_fits b d cs fuel W). destruct W as [C A B M].
  exact (loop_any (b_fee_a b) (b_fee_b b) (set_vkeys (b_tx b) d) (size_k b d cs) A B (fun f => size_any_fee b d cs f C) M (size_k_nonneg b d cs) fuel _ N).
Qed.
Lemma fits_fee b d cs f : fits b d cs -> fits (set_fee b f) d cs.
Proof. intros [C A B M]. constructor; assumption. Qed.
Lemma calc_fixed b d cs fuel c : fits b d cs -> c = Fee b d cs c -> calculate_fee fuel (set_fee b c) d = Some (Ok c).
Proof.
  intros W E. rewrite (calc_fits _ d cs fuel (fits_fee _ _ _ c W)). destruct W as [C A B M].
  change (tx_set_fee (set_vkeys (b_tx (set_fee b c)) d) (tx_fee (b_tx (set_fee b c)))) with (tx_set_fee (set_vkeys (b_tx b) d) c).
  change (Fee (set_fee b c) d cs (tx_fee (b_tx (set_fee b c)))) with (F (b_fee_a b) (b_fee_b b) (size_k b d cs) c).
  change (b_fee_a (set_fee b c)) with (b_fee_a b). change (b_fee_b (set_fee b c)) with (b_fee_b b).
  rewrite (loop_step (b_fee_a b) (b_fee_b b) (set_vkeys (b_tx b) d) (size_k b d cs) A B (fun f => size_any_fee b d cs f C) M (size_k_nonneg b d cs) fuel c).
  unfold Fee in E. rewrite <- E, Z.eqb_refl. reflexivity.
Qed.
Lemma update_ok b d cs fuel : fits b d cs -> (7 <= fuel)%nat -> exists c, update_fee fuel b d = Some (Ok (set_fee b c)) /\ c = Fee b d cs c.
Proof.
  intros W N. unfold update_fee. cbv zeta. destruct (calc_ok _ d cs fuel (fits_fee b d cs (to_u64 (b_fee_b b)) W) ltac:(lia)) as (c & E & FC).
  rewrite E. cbn [rbind]. change (Fee (set_fee b (to_u64 (b_fee_b b))) d cs c) with (Fee b d cs c) in FC. exists c. split; [|exact FC].
  destruct fuel as [|k]; [lia|]. cbn [update_loop]. rewrite fee_of_set. destruct (Z.eqb_spec c (to_u64 (b_fee_b b))) as [->|NE]; [reflexivity|].
  cbv zeta. rewrite set_fee_fee, (calc_fixed b d cs (S k) c W FC). cbn [rbind]. destruct k; cbn [update_loop]; rewrite fee_of_set, Z.eqb_refl; reflexivity.
Qed.

(** ** Termination of balance *)
Lemma hl_succ n : 0 <= n -> hl (n + 1) <= hl n + 4.
Proof.
  intros L. unfold hl.
  destruct (Z.ltb_spec n 24), (Z.ltb_spec n (2 ^ 8)), (Z.ltb_spec n (2 ^ 16)), (Z.ltb_spec n (2 ^ 32)), (Z.ltb_spec (n + 1) 24), (Z.ltb_spec (n + 1) (2 ^ 8)), (Z.ltb_spec (n + 1) (2 ^ 16)), (Z.ltb_spec (n + 1) (2 ^ 32)); lia.
Qed.
Lemma outs_push o x : outs_sz (o ++ [x]) <= outs_sz o + osz x + 4.
Proof. unfold outs_sz. rewrite map_app, zsum_app, zlen_app. cbn [map zsum fold_right]. change (zlen [x]) with 1. pose proof (hl_succ (zlen o) (zlen_nonneg o)). lia. Qed.
Lemma outs_pop o x : outs_sz o <= outs_sz (o ++ [x]).
Proof. unfold outs_sz. rewrite map_app, zsum_app, zlen_app. cbn [map zsum fold_right]. change (zlen [x]) with 1. pose proof (hl_mono (zlen o) (zlen o + 1) ltac:(lia)). pose proof (esz_pos (txout_ser x)) as X. fold (osz x) in X. lia. Qed.
Lemma outs_shrink o x y : to_addr y = to_addr x -> to_amount y <= to_amount x -> outs_sz (o ++ [y]) <= outs_sz (o ++ [x]).
Proof. intros E L. unfold outs_sz. rewrite !map_app, !zsum_app, !zlen_app. cbn [map zsum fold_right]. change (zlen [x]) with 1. change (zlen [y]) with 1. rewrite !osz_eq, E. pose proof (hl_mono _ _ L). lia. Qed.
Lemma to_i64_le z : 0 <= z -> to_i64 z <= z.
Proof. intros. unfold to_i64. cbv zeta. pose proof (Z.mod_le z (2 ^ 64) ltac:(lia) ltac:(lia)). destruct (_ <? _); lia. Qed.
Lemma balance_total fuel d force cs left : (7 <= fuel)%nat -> forall i b f o lim, 0 <= i ->
  mapM cert_ser (tb_certs (body_of b)) = Ok cs -> 0 <= b_fee_a b -> 0 <= b_fee_b b -> 0 <= b_min_utxo b ->
  b_fee_a b * (base_sz (set_vkeys (b_tx b) d) cs + lim + 9) + b_fee_b b < 2 ^ 64 -> Forall (fun x => 0 <= to_amount x) o ->
  outs_sz o + (if i =? 0 then 1 + (9 + zlen (b_change b)) + 9 + 4 else 0) <= lim ->
  balance_loop fuel left i (set_outputs (set_fee b f) o) d force <> None.
Proof.
  intros FU. induction left as [|left IH]; intros i b f o lim I0 C A B MU M P L; cbn [balance_loop]; [discriminate|].
  assert (LO : outs_sz o <= lim) by (destruct (i =? 0); [pose proof (zlen_nonneg (b_change b))|]; lia).
  assert (W : fits (set_outputs (set_fee b f) o) d cs).
  { constructor; [exact C|exact A|exact B|]. change (size_k (set_outputs (set_fee b f) o) d cs) with (base_sz (set_vkeys (b_tx b) d) cs + outs_sz o). change (b_fee_a (set_outputs (set_fee b f) o)) with (b_fee_a b). change (b_fee_b (set_outputs (set_fee b f) o)) with (b_fee_b b). nia. }
  destruct (update_ok _ d cs fuel W FU) as (c & -> & FC). cbn [rbind]. rewrite set_outs_fee.
  destruct (total_outgoing _) as [out| |]; cbn [lift rbind]; try discriminate. destruct (ssub _ _) as [change| |] eqn:ES; cbn [rbind]; try discriminate.
  apply ssub_ok in ES as [_ CB]. change (tb_outputs (body_of (set_outputs (set_fee b c) o))) with o. rewrite ?set_outs_outs.
  change (b_min_utxo (set_outputs (set_fee b c) o)) with (b_min_utxo b). change (b_change (set_outputs (set_fee b c) o)) with (b_change b).
  destruct (change =? 0); [discriminate|]. assert (I1 : (i + 1 =? 0) = false) by (apply Z.eqb_neq; lia).
  destruct (Z.ltb_spec change 0) as [NEG|POS].
  - destruct (split_last o) as [[ini lst]|] eqn:SL; [|discriminate]. apply split_last_spec in SL. subst o. apply Forall_app in P as [P1 P2]. inversion P2 as [|? ? PL _]; subst.
    destruct (sadd _ change) as [na| |] eqn:EA; cbn [rbind]; try discriminate. apply sadd_ok in EA as [EA _]. rewrite !set_outs_outs. destruct (Z.ltb_spec na (b_min_utxo b)).
    + apply (IH (i + 1) b c ini lim); try assumption; try lia. rewrite I1. pose proof (outs_pop ini lst). lia.
    + pose proof (to_i64_le (to_amount lst) PL). apply (IH (i + 1) b c _ lim); try assumption; try lia.
      * apply Forall_app. split; [exact P1|]. constructor; [|constructor]. cbn [to_amount]. unfold to_u64. apply Z.mod_pos_bound. lia.
      * rewrite I1. pose proof (outs_shrink ini lst {| to_addr := to_addr lst; to_amount := to_u64 na |} eq_refl) as X. cbn [to_amount] in X.
        assert (to_u64 na <= to_amount lst) by (unfold to_u64; pose proof (Z.mod_le na (2 ^ 64) ltac:(lia) ltac:(lia)); lia). specialize (X H1). lia.
  - destruct (Z.eqb_spec i 0) as [Ei|Ni]; cbn [andb].
    + destruct (b_min_utxo b <? change).
      * apply (IH (i + 1) b c _ lim); try assumption; try lia.
        { apply Forall_app. split; [exact P|]. constructor; [|constructor]. cbn [to_amount]. unfold to_u64. apply Z.mod_pos_bound. lia. }
        rewrite I1. match goal with |- outs_sz (o ++ [?x]) + 0 <= _ => pose proof (outs_push o x) as X; pose proof (osz_eq x) as Y end. cbn [to_addr to_amount] in Y.
        pose proof (hl_range (zlen (b_change b))). pose proof (hl_range (to_u64 change)). lia.
      * destruct force; [|apply (IH (i + 1) b c o lim); try assumption; try lia; rewrite I1; lia].
        cbv zeta. match goal with |- rbind (calculate_fee _ ?x _) _ <> _ => assert (W2 : fits x d cs) by exact (fits_fee _ d cs (to_u64 (c + to_u64 change)) W); destruct (calc_ok x d cs fuel W2 ltac:(lia)) as (c2 & -> & _) end.
        cbn [rbind]. destruct (_ <? _); discriminate.
    + destruct force; [|apply (IH (i + 1) b c o lim); try assumption; try lia; rewrite I1; lia].
      cbv zeta. match goal with |- rbind (calculate_fee _ ?x _) _ <> _ => assert (W2 : fits x d cs) by exact (fits_fee _ d cs (to_u64 (c + to_u64 change)) W); destruct (calc_ok x d cs fuel W2 ltac:(lia)) as (c2 & -> & _) end.
      cbn [rbind]. destruct (_ <? _); discriminate.
Qed.

(** ** The caller's outputs *)
Lemma balance_outputs fuel d force b b1 out : update_fee fuel b d = Some (Ok b1) -> total_outgoing b1 = Ok out -> out <= b_input_total b -> 0 <= b_min_utxo b ->
  let U := tb_outputs (body_of b) in
  forall left i f o b', 0 <= i -> (o = U \/ i <> 0 /\ exists x, o = U ++ [x] /\ to_addr x = b_change b /\ b_min_utxo b <= to_amount x) ->
  balance_loop fuel left i (set_outputs (set_fee b f) o) d force = Some (Ok b') ->
  let o' := tb_outputs (body_of b') in o' = U \/ exists x, o' = U ++ [x] /\ to_addr x = b_change b /\ b_min_utxo b <= to_amount x.
Proof.
  intros U1 T1 COV MU U. induction left as [|left IH]; intros i f o b' I0 INV H; cbn [balance_loop] in H; [discriminate|].
  apply rbind_ok in H as (b2 & UP & H). apply rbind_ok in H as (out2 & T & H). cbn in T. injection T as T. apply rbind_ok in H as (change & S & H). cbn in S. injection S as S. apply ssub_ok in S as [S SB].
  pose proof (update_inv _ _ _ _ UP) as (c & E2 & _). rewrite set_outs_fee in E2. subst b2. change (b_input_total (set_outputs (set_fee b c) o)) with (b_input_total b) in S.
  change (tb_outputs (body_of (set_outputs (set_fee b c) o))) with o in H. rewrite ?set_outs_outs in H. change (b_min_utxo (set_outputs (set_fee b c) o)) with (b_min_utxo b) in H. change (b_change (set_outputs (set_fee b c) o)) with (b_change b) in H.
  assert (CH : o = U -> 0 <= change).
  { intros ->. assert (EQ : update_fee fuel (set_outputs (set_fee b f) U) d = update_fee fuel b d) by (apply update_start; unfold U; rewrite set_outs_fee; apply (set_outs_same (set_fee b _))).
    rewrite EQ, U1 in UP. injection UP as ->. rewrite T1 in T. injection T as ->. lia. }
  destruct (Z.eqb_spec change 0) as [Z0|NZ].
  { cbn in H. injection H as <-. cbv zeta. change (tb_outputs (body_of (set_outputs (set_fee b c) o))) with o. destruct INV as [->|[_ X]]; auto. }
  assert (I1 : 0 <= i + 1 /\ i + 1 <> 0) by lia.
  destruct (Z.ltb_spec change 0) as [NEG|POS].
  { destruct INV as [E|[NI (x & -> & XA & XM)]]; [specialize (CH E); lia|]. rewrite split_last_app in H. apply rbind_ok in H as (na & EA & H). cbn in EA. injection EA as EA. apply sadd_ok in EA as [EA EB]. rewrite !set_outs_outs in H.
    destruct (Z.ltb_spec na (b_min_utxo b)).
    - eapply IH; [exact (proj1 I1)| |exact H]. left; reflexivity.
    - eapply IH; [exact (proj1 I1)| |exact H]. right. split; [exact (proj2 I1)|]. eexists. split; [reflexivity|]. cbn [to_addr to_amount]. split; [exact XA|]. unfold to_u64. rewrite Z.mod_small by lia. assumption. }
  destruct (Z.eqb_spec i 0) as [Ei|Ni]; cbn [andb] in H.
  - destruct INV as [->|[NI _]]; [|contradiction]. destruct (Z.ltb_spec (b_min_utxo b) change).
    + eapply IH; [exact (proj1 I1)| |exact H]. right. split; [exact (proj2 I1)|]. eexists. split; [reflexivity|]. cbn [to_addr to_amount]. split; [reflexivity|]. unfold to_u64. rewrite Z.mod_small by lia. lia.
    + destruct force; [|eapply IH; [exact (proj1 I1)|left; reflexivity|exact H]]. cbv zeta in H. apply rbind_ok in H as (c2 & _ & H). destruct (_ <? _) in H; [discriminate|]. cbn in H. injection H as <-. left; reflexivity.
  - destruct force; [|eapply IH; [exact (proj1 I1)| |exact H]; destruct INV as [->|[_ X]]; [left; reflexivity|right; split; [exact (proj2 I1)|exact X]]].
    cbv zeta in H. apply rbind_ok in H as (c2 & _ & H). destruct (_ <? _) in H; [discriminate|]. cbn in H. injection H as <-. cbv zeta. 
    match goal with |- context [tb_outputs (body_of ?x)] => change (tb_outputs (body_of x)) with o end. destruct INV as [->|[_ X]]; auto.
Qed.
