(** Property C70: from the calls to the node.  A transaction that was built, balanced and signed with the Shelley builder passes the node's checks. *)
From Verif Require Import Base BaseLemmas Spec_Cbor Model_Cbor Proof_Cbor Model_Address Spec_Ledger Model_Ledger Proof_Ledger Proof_Ledger2 Model_Tx Spec_Tx Proof_Tx Proof_Tx2 Proof_Tx3 Props_Ledger Props_Tx Props_Wire Props_History Spec_Node.
From Coq Require Import Sorted Permutation.
Ltac Zify.zify_post_hook ::= idtac.

(** ** Specification: the histories in question *)
Definition account_ok (a : rewards_address) : Prop := byte_ok (ra_header a) /\ bytesN 28 (ra_hash a).
(** the arguments are values of the C++ parameter types *)
Definition call_ok {key} (c : @call key) : Prop :=
  match c with
  | AddInput u => bytesN 32 (u_id u) /\ u64 (u_index u)
  | AddOutput a v => text_ok a /\ lovelace v
  | AddWithdrawal a v => account_ok a /\ u64 v
  | AddPoolReg p _ => pool_wf p
  | AddPoolRetire p e => bytesN 28 p /\ u64 e
  | AddStakeReg a _ | AddStakeDereg a => account_ok a
  | AddStakeDeleg a p => account_ok a /\ bytesN 28 p
  | SetTtl t => u64 t
  | SetChange a => text_ok a
  | _ => True
  end.
(** the caller states what is the case: what the inputs are worth, what the accounts hold, what the deposits are, and pays the
    minimum; pool registrations have owners, relays and metadata (C55) *)
Definition truthful {key} (n : node) (c : @call key) : Prop :=
  match c with
  | AddInput u => exists h, n_utxo n (u_id u) (u_index u) = Some (u_value u, h)
  | AddOutput _ v => n_min_utxo n <= v
  | AddWithdrawal a v => n_rewards n (RewardsAddress_toBytes a) = Some v
  | AddPoolReg p d => conforming (PoolReg p) /\ d = if n_pool n (pp_operator p) then 0 else n_pool_deposit n
  | AddStakeReg _ d => d = n_key_deposit n
  | _ => True
  end.
Definition min_fees_in {key} (l : list (@call key)) : list (Z * Z) := concat (map (fun c => match c with SetMinFee a b => [(a, b)] | _ => [] end) l).
(** whose signatures the transaction needs *)
Definition must_sign {key} (n : node) (l : list (@call key)) (h : list Z) : Prop :=
  (exists u v, In (AddInput u) l /\ n_utxo n (u_id u) (u_index u) = Some (v, h)) \/
  (exists a v, In (AddWithdrawal a v) l /\ h = ra_hash a) \/ (exists a p, In (AddStakeDeleg a p) l /\ h = ra_hash a) \/ (exists a, In (AddStakeDereg a) l /\ h = ra_hash a) \/
  (exists p e, In (AddPoolRetire p e) l /\ h = p) \/ (exists p d, In (AddPoolReg p d) l /\ (h = pp_operator p \/ In h (pp_owners p))).

Definition is_dereg {key} (c : @call key) : bool := match c with AddStakeDereg _ => true | _ => false end.

(** ** Lemmas *)
Lemma do_calls_app {key} H (pub : key -> list Z) sgn fuel l1 l2 : forall b b', do_calls H pub sgn fuel b (l1 ++ l2) = Some (Ok b') ->
  exists b1, do_calls H pub sgn fuel b l1 = Some (Ok b1) /\ do_calls H pub sgn fuel b1 l2 = Some (Ok b').
Proof.
  induction l1 as [|c l1 IH]; intros b b' R; [exists b; split; [reflexivity|exact R]|]. cbn [app do_calls] in R |- *.
  apply rbind_ok in R as (b1 & S & R). rewrite S. cbn [rbind]. exact (IH b1 b' R).
Qed.
Ltac same_len := match goal with |- ?x <= ?y + _ => change x with y; lia end.
(** outputs stay payable and addressed, and grow by at most one per call *)
Definition out_ok (m : Z) (o : txout) : Prop := text_ok (to_addr o) /\ m <= to_amount o < 2 ^ 63.
Lemma split_last_len {A} (l i : list A) x : split_last l = Some (i, x) -> zlen l = zlen i + 1.
Proof. intros E. apply split_last_spec in E. rewrite E. unfold zlen. rewrite app_length, Nat2Z.inj_add. reflexivity. Qed.
Lemma balance_outs fuel d force m left : forall i b b', 0 <= m <= b_min_utxo b -> text_ok (b_change b) -> Forall (out_ok m) (tb_outputs (body_of b)) ->
  0 <= i -> balance_loop fuel left i b d force = Some (Ok b') ->
  Forall (out_ok m) (tb_outputs (body_of b')) /\ zlen (tb_outputs (body_of b')) <= zlen (tb_outputs (body_of b)) + (if i =? 0 then 1 else 0) /\ b_change b' = b_change b /\ b_min_utxo b' = b_min_utxo b /\ b_fee_a b' = b_fee_a b /\ b_fee_b b' = b_fee_b b.
Proof.
  induction left as [|left IH]; intros i b b' MU CA R I0 H; cbn [balance_loop] in H; [discriminate|].
  apply rbind_ok in H as (b1 & U & H). apply update_inv in U as (c & -> & _). apply rbind_ok in H as (out & _ & H). apply rbind_ok in H as (change & S & H). cbn in S. injection S as S. apply ssub_ok in S as [_ SB].
  change (tb_outputs (body_of (set_fee b c))) with (tb_outputs (body_of b)) in H. change (b_min_utxo (set_fee b c)) with (b_min_utxo b) in H. change (b_change (set_fee b c)) with (b_change b) in H.
  assert (LE : 0 <= (if i =? 0 then 1 else 0)) by (destruct (i =? 0); lia). assert (NZ : (i + 1 =? 0) = false) by (destruct (Z.eqb_spec (i + 1) 0); lia).
  destruct (Z.eqb_spec change 0) as [|N0]; [cbn in H; injection H as <-; split; [exact R|]; split; [same_len|]; repeat split; reflexivity|].
  destruct (Z.ltb_spec change 0).
  - destruct (split_last (tb_outputs (body_of b))) as [[ini lst]|] eqn:SL; [|discriminate]. pose proof (split_last_len _ _ _ SL) as LN. apply split_last_spec in SL. rewrite SL in R. apply Forall_app in R as [R1 R2].
    apply rbind_ok in H as (na & EA & H). cbn in EA. injection EA as EA. apply sadd_ok in EA as [_ EB]. destruct (Z.ltb_spec na (b_min_utxo b)).
    + apply IH in H; [|exact MU|exact CA|exact R1|lia]. rewrite NZ in H. destruct H as (A & B & C & D). split; [exact A|]. change (tb_outputs (body_of (set_outputs (set_fee b c) ini))) with ini in B. split; [lia|]. split; [exact C|exact D].
    + apply IH in H; [|exact MU|exact CA| |lia].
      * rewrite NZ in H. destruct H as (A & B & C & D). split; [exact A|]. cbn [set_outputs set_body set_tx body_of b_tx tx_body with_outputs tb_outputs] in B. split; [|split; [exact C|exact D]]. unfold zlen in *. rewrite app_length in B. cbn [length] in B. lia.
      * apply Forall_app. split; [exact R1|]. constructor; [|constructor]. inversion R2 as [|? ? [X1 X2] _]; subst. split; [exact X1|]. cbn [to_amount]. unfold to_u64. rewrite Z.mod_small by lia. lia.
  - destruct ((i =? 0) && _) eqn:CC.
    + apply andb_prop in CC as [C1 C2]. apply Z.ltb_lt in C2. rewrite C1. apply IH in H; [|exact MU|exact CA| |lia].
      * rewrite NZ in H. destruct H as (A & B & C & D). split; [exact A|]. cbn [set_outputs set_body set_tx body_of b_tx tx_body with_outputs tb_outputs] in B. split; [|split; [exact C|exact D]]. unfold zlen in *. rewrite app_length in B. cbn [length] in B. lia.
      * apply Forall_app. split; [exact R|]. constructor; [|constructor]. split; [exact CA|]. cbn [to_amount]. unfold to_u64. rewrite Z.mod_small by lia. lia.
    + destruct force.
      * cbv zeta in H. apply rbind_ok in H as (c2 & _ & H). destruct (_ <? _) in H; [discriminate|]. cbn in H. injection H as <-. split; [exact R|]. split; [same_len|]. repeat split; reflexivity.
      * apply IH in H; [|exact MU|exact CA|exact R|lia]. rewrite NZ in H. destruct H as (A & B & C & D). split; [exact A|]. change (tb_outputs (body_of (set_fee b c))) with (tb_outputs (body_of b)) in B. split; [lia|]. split; [exact C|exact D].
Qed.
Lemma balance_outs' fuel d force m b b' : 0 <= m <= b_min_utxo b -> text_ok (b_change b) -> Forall (out_ok m) (tb_outputs (body_of b)) -> balance fuel b d force = Some (Ok b') ->
  Forall (out_ok m) (tb_outputs (body_of b')) /\ zlen (tb_outputs (body_of b')) <= zlen (tb_outputs (body_of b)) + 1 /\ b_change b' = b_change b /\ b_min_utxo b' = b_min_utxo b /\ b_fee_a b' = b_fee_a b /\ b_fee_b b' = b_fee_b b.
Proof. unfold balance. generalize 100%nat. intros left MU CA R S. exact (balance_outs _ _ _ m _ _ _ _ MU CA R (Z.le_refl 0) S). Qed.
Lemma history_outs {key} H (pub : key -> list Z) sgn fuel m l : forall b b', 0 <= m <= b_min_utxo b -> text_ok (b_change b) -> Forall (out_ok m) (tb_outputs (body_of b)) ->
  Forall call_ok l -> (forall a v, In (AddOutput a v) l -> m <= v) -> do_calls H pub sgn fuel b l = Some (Ok b') ->
  Forall (out_ok m) (tb_outputs (body_of b')) /\ zlen (tb_outputs (body_of b')) <= zlen (tb_outputs (body_of b)) + zlen l /\
  (b_fee_a b', b_fee_b b') = last (min_fees_in l) (b_fee_a b, b_fee_b b) /\ b_min_utxo b' = b_min_utxo b /\ text_ok (b_change b').
Proof.
  induction l as [|c l IH]; intros b b' MU CA R OK MO X; cbn [do_calls] in X.
  { injection X as <-. split; [exact R|]. split; [unfold zlen; cbn; lia|]. split; [reflexivity|]. split; [reflexivity|exact CA]. }
  inversion OK as [|? ? OC OK']; subst. apply rbind_ok in X as (b1 & S & X).
  assert (ST : Forall (out_ok m) (tb_outputs (body_of b1)) /\ zlen (tb_outputs (body_of b1)) <= zlen (tb_outputs (body_of b)) + 1 /\
    (b_fee_a b1, b_fee_b b1) = last (min_fees_in [c]) (b_fee_a b, b_fee_b b) /\ b_min_utxo b1 = b_min_utxo b /\ text_ok (b_change b1)).
  { pose proof (fun a v I => MO a v (or_introl I)) as MO1. clear X IH MO. destruct c; cbn [do_call] in S; unfold lift in S;
      try (assert (E : b1 = _) by (symmetry; exact (ok_inj _ _ (f_equal (fun o => match o with Some x => x | None => Throw end) S))); subst b1; clear S;
           try (split; [exact R|split; [same_len|split; [reflexivity|split; [reflexivity|first [exact CA|exact OC]]]]])).
    - destruct OC as [O1 [_ O2]]. split; [cbn; apply Forall_app; split; [exact R|]; constructor; [|constructor]; split; [exact O1|cbn [to_amount]; split; [exact (MO1 _ _ eq_refl)|exact O2]]|].
      split; [change (tb_outputs (body_of (add_output b addr amount))) with (tb_outputs (body_of b) ++ [{| to_addr := addr; to_amount := amount |}]); unfold zlen; rewrite app_length; cbn [length]; lia|]. repeat split; try reflexivity; apply CA.
    - apply update_inv in S as (f & -> & _). split; [exact R|]. split; [same_len|]. repeat split; try reflexivity; apply CA.
    - destruct (balance_outs' _ _ _ m _ _ MU CA R S) as (A & B & C & D & E & F). split; [exact A|]. split; [exact B|]. rewrite C, D, E, F. split; [reflexivity|]. split; [reflexivity|exact CA].
    - assert (S' : sign H pub sgn b k = Ok b1) by congruence. unfold sign in S'. apply bind_ok in S' as (w & _ & S'). apply ok_inj in S'. subst b1. split; [exact R|]. split; [same_len|]. repeat split; try reflexivity; apply CA. }
  { destruct ST as (A & B & C & D & E). destruct (IH b1 b') as (A' & B' & C' & D' & E'); [rewrite D; exact MU|exact E|exact A|exact OK'|intros a v I; exact (MO a v (or_intror I))|exact X|].
    split; [exact A'|]. split; [unfold zlen in *; cbn [length]; lia|]. split; [|split; [congruence|exact E']]. rewrite C', C. unfold min_fees_in at 3. rewrite concat_cons, last_join. reflexivity. }
Qed.
Lemma all_some_app {A} (a b : list (option A)) r : all_some (a ++ b) = Some r -> exists r1 r2, all_some a = Some r1 /\ all_some b = Some r2 /\ r = r1 ++ r2.
Proof.
  revert r. induction a as [|[x|] a IH]; intros r E; cbn [app all_some] in *; [exists [], r; auto| |discriminate].
  destruct (all_some (a ++ b)) as [r0|]; [|discriminate]. injection E as <-. destruct (IH r0 eq_refl) as (r1 & r2 & E1 & E2 & ->). exists (x :: r1), r2. rewrite E1. auto.
Qed.
Lemma all_some_in {A B} (f : A -> option B) l r y : all_some (map f l) = Some r -> In y r -> exists x, In x l /\ f x = Some y.
Proof.
  revert r. induction l as [|x l IH]; intros r E I; cbn [map all_some] in E; [injection E as <-; destruct I|].
  destruct (f x) as [z|] eqn:F; [|discriminate]. destruct (all_some (map f l)) as [r0|]; [|discriminate]. injection E as <-. destruct I as [<-|I]; [exists x; split; [left; reflexivity|exact F]|].
  destruct (IH r0 eq_refl I) as (x' & I' & F'). exists x'. split; [right; exact I'|exact F'].
Qed.
Lemma sum_app a b : sum (a ++ b) = sum a + sum b. Proof. induction a as [|x a IH]; [reflexivity|]. cbn [app sum]. rewrite IH. lia. Qed.
Lemma sum_perm a b : Permutation a b -> sum a = sum b. Proof. induction 1; cbn [sum]; lia. Qed.
Lemma sum_total l : sum l = total l. Proof. induction l as [|x l IH]; [reflexivity|]. cbn [sum total]. rewrite IH. reflexivity. Qed.
Lemma in_certs {key} (l : list (@call key)) c : In c (certs_in l) -> exists x, In x l /\ In c (certs_in [x]).
Proof. unfold certs_in. intros I. apply in_concat in I as (y & J & I). apply in_map_iff in J as (x & <- & J). exists x. split; [exact J|]. cbn [map concat]. rewrite app_nil_r. exact I. Qed.
Lemma certs_books {key} n (l : list (@call key)) : forall cs, Forall (truthful n) l -> all_some (map cddl_cert (certs_in l)) = Some cs ->
  sum (map (deposit n) cs) = total (deposits_in l) /\ sum (map (refund n) cs) = n_key_deposit n * zlen (filter is_dereg l).
Proof.
  induction l as [|c l IH]; intros cs T E; [cbn in E; injection E as <-; split; [reflexivity|cbn; lia]|]. inversion T as [|? ? TC T']; subst.
  unfold certs_in in E. rewrite concat_cons, map_app in E. apply all_some_app in E as (r1 & r2 & E1 & E2 & ->). destruct (IH r2 T' E2) as [D R]. rewrite deposits_cons, !map_app, !sum_app, D, R. clear IH D R E2 T.
  assert (X : sum (map (deposit n) r1) = step_dep c /\ sum (map (refund n) r1) = n_key_deposit n * if is_dereg c then 1 else 0); [|cbn [filter]; destruct (is_dereg c); unfold zlen; cbn [length]; lia].
  destruct c; cbn [map concat app all_some cddl_cert step_dep truthful] in *; cbn [is_dereg]; try (injection E1 as <-; split; [reflexivity|cbn [map refund sum]; lia]).
  - destruct TC as [_ ->]. destruct (all_some (map cddl_relay (pp_relays p))); [|discriminate]. injection E1 as <-. cbn [map deposit refund sum]. split; lia.
  - subst deposit. injection E1 as <-. cbn [map Spec_Node.deposit refund sum]. split; lia.
Qed.
Lemma certs_good {key} n (l : list (@call key)) : Forall call_ok l -> Forall (truthful n) l -> Forall cert_wf (certs_in l) /\ Forall conforming (certs_in l) /\ zlen (certs_in l) <= zlen l.
Proof.
  induction l as [|c l IH]; intros O T; [split; [constructor|]; split; [constructor|reflexivity]|]. inversion T as [|? ? TC T']; subst. inversion O as [|? ? OC O']; subst. destruct (IH O' T') as (A & B & C).
  unfold certs_in. rewrite concat_cons. fold (certs_in [c]) (certs_in l).
  assert (X : Forall cert_wf (certs_in [c]) /\ Forall conforming (certs_in [c]) /\ zlen (certs_in [c]) <= 1).
  { destruct c; cbn [certs_in map concat app call_ok truthful] in *; (split; [|split; [|unfold zlen; cbn [length]; lia]]); constructor; try apply Forall_nil; cbn [cert_wf conforming account]; auto; try contradiction.
    - exact (proj1 TC).
    - exact (proj2 OC).
    - exact (proj2 OC).
    - split; [exact (proj2 (proj1 OC))|exact (proj2 OC)]. }
  destruct X as (X1 & X2 & X3). split; [apply Forall_app; auto|]. split; [apply Forall_app; auto|]. unfold zlen in *. rewrite app_length. cbn [length]. lia.
Qed.
Lemma certs_signers {key} n (l : list (@call key)) cs h : all_some (map cddl_cert (certs_in l)) = Some cs -> Forall (truthful n) l ->
  (exists c, In c cs /\ In h (cert_signers c)) -> must_sign n l h.
Proof.
  intros E T (c & I & J). destruct (all_some_in _ _ _ _ E I) as (x & Ix & F). destruct (in_certs _ _ Ix) as (y & Iy & K). pose proof (proj1 (Forall_forall _ _) T y Iy) as TY. unfold must_sign.
  destruct y; cbn [certs_in map concat app In] in K; try contradiction; destruct K as [<-|[]]; cbn [cddl_cert] in F; cbn [truthful] in TY; try contradiction.
  - destruct (all_some (map cddl_relay (pp_relays p))); [|discriminate]. injection F as <-. cbn [cert_signers] in J. right. right. right. right. right. exists p, deposit. split; [exact Iy|]. destruct J as [<-|J]; [left; reflexivity|right].
    apply in_concat in J as (z & J1 & J2). apply in_map_iff in J1 as (w & <- & J1). apply in_map_iff in J1 as (v & <- & J1). destruct J2 as [<-|[]]. exact J1.
  - injection F as <-. cbn [cert_signers] in J. destruct J as [<-|[]]. right. right. right. right. left. exists pool, epoch. auto.
  - injection F as <-. cbn in J. destruct J.
  - injection F as <-. cbn [cert_signers] in J. destruct J as [<-|[]]. right. right. right. left. exists a. auto.
  - injection F as <-. cbn [cert_signers] in J. destruct J as [<-|[]]. right. right. left. exists a, pool. auto.
Qed.
Definition wire_of (t : tx) (cs : list cbor) : wire_tx :=
  {| w_ins := map (fun i => (ti_id i, ti_index i)) (tb_inputs (tx_body t)); w_outs := map (fun o => (to_addr o, to_amount o)) (tb_outputs (tx_body t));
     w_fee := tb_fee (tx_body t); w_ttl := tb_ttl (tx_body t); w_certs := cs; w_wds := tb_withdrawals (tx_body t); w_sigs := ws_vkeys (tx_wits t) |}.
Lemma at_key_entry c k v : NoDup (keys c) -> (at_key c k v <-> entry c k v).
Proof. destruct c; cbn; tauto. Qed.
Lemma is_tx_of t : body_wf (tx_body t) -> Forall conforming (tb_certs (tx_body t)) -> wits_wf (tx_wits t) -> tx_meta t = false -> ws_scripts (tx_wits t) = [] -> ws_bootstrap (tx_wits t) = 0 ->
  tb_metadata_hash (tx_body t) = None ->
  exists s sb cs, serialize (tx_ser t) = Ok s /\ serialize (txbody_ser (tx_body t)) = Ok sb /\ all_some (map cddl_cert (tb_certs (tx_body t))) = Some cs /\ is_tx s sb (wire_of t cs).
Proof.
  intros W C WW M S B MH. destruct (C63_shelley_body _ W C) as (sb & body & cs & E1 & D1 & AS & ND & K & EN). destruct (C63_shelley_transaction _ W C WW) as (s & sb' & body' & wits & E2 & E3 & D2 & D3 & NW & KW & EW).
  rewrite E1 in E3. apply ok_inj in E3. subst sb'. unfold denotes in D1, D2, D3. rewrite D1 in D2. assert (body' = body) by congruence. subst body'. clear D2. rewrite M in D3. cbn [app] in D3.
  assert (CN : cs = [] <-> tb_certs (tx_body t) = []).
  { split; intros Q; [|rewrite Q in AS; cbn in AS; congruence]. destruct (tb_certs (tx_body t)) as [|x l]; [reflexivity|]. cbn [map all_some] in AS. destruct (cddl_cert x); [|discriminate]. destruct (all_some (map cddl_cert l)); congruence. }
  exists s, sb, cs. split; [exact E2|]. split; [exact E1|]. split; [exact AS|]. exists body, wits.
  assert (X : exists rest, s = 131 :: sb ++ rest).
  { unfold serialize in E1, E2. apply bind_ok in E1 as (x & X1 & X2). apply bind_ok in E2 as (y & Y1 & Y2). apply ok_inj in X2, Y2. unfold tx_ser in Y1. rewrite X1 in Y1. cbn [bind] in Y1. apply ok_inj in Y1. rewrite M in Y1. subst y s sb.
    cbn [app cbor_encode map concat]. change (cbor_head 4 (zlen [x; witset_ser (tx_wits t); CNull])) with [131]. cbn [app]. eexists. reflexivity. }
  destruct X as (rest & Es). exists rest. split; [exact D3|]. split; [exact Es|]. split; [exact D1|].
  assert (OK : forall c ks, (forall k, In k (keys c) <-> exists n, k = CUint n /\ exists v, entry c n v) -> (exists v, entry c (hd 0 ks) v) \/ (exists m, c = CMap m) -> (forall n v, entry c n v -> In n ks) -> only_keys c ks).
  { intros c ks KC P Q. assert (exists m, c = CMap m) as [m ->] by (destruct P as [[v P]|P]; [destruct c; try contradiction; eauto|exact P]). cbn [only_keys keys] in *. intros k I. apply KC in I as (z & -> & v & I). exists z. split; [exact (Q z v I)|reflexivity]. }
  split. { apply OK; [exact K|left; eexists; apply EN; left; split; [reflexivity|reflexivity]|]. intros n v I. apply EN in I. rewrite MH in I. cbn [In]. destruct I as [[-> _]|[[-> _]|[[-> _]|[[-> _]|[[-> _]|[[-> _]|(_ & h & Q & _)]]]]]]; [tauto..|discriminate]. }
  cbn [wire_of w_ins w_outs w_fee w_ttl w_certs w_wds w_sigs]. rewrite !map_map.
  split; [apply at_key_entry; [exact ND|]; apply EN; left; split; reflexivity|].
  split; [apply at_key_entry; [exact ND|]; apply EN; right; left; split; reflexivity|].
  split; [apply at_key_entry; [exact ND|]; apply EN; tauto|]. split; [apply at_key_entry; [exact ND|]; apply EN; tauto|].
  split. { unfold at_key_opt. destruct cs as [|x l].
    - left. split; [reflexivity|]. intros v Q. apply at_key_entry in Q; [|exact ND]. apply EN in Q. destruct Q as [[Q _]|[[Q _]|[[Q _]|[[Q _]|[(_ & Q & _)|[[Q _]|(Q & _)]]]]]]; try discriminate. apply Q, CN. reflexivity.
    - right. split; [discriminate|]. apply at_key_entry; [exact ND|]. apply EN. right. right. right. right. left. split; [reflexivity|]. split; [|reflexivity]. intros Q. apply CN in Q. discriminate. }
  split. { unfold at_key_opt. destruct (tb_withdrawals (tx_body t)) as [|x l].
    - left. split; [reflexivity|]. intros v Q. apply at_key_entry in Q; [|exact ND]. apply EN in Q. destruct Q as [[Q _]|[[Q _]|[[Q _]|[[Q _]|[[Q _]|[(_ & Q & _)|(Q & _)]]]]]]; try discriminate. apply Q. reflexivity.
    - right. split; [discriminate|]. apply at_key_entry; [exact ND|]. apply EN. right. right. right. right. right. left. split; [reflexivity|]. split; [discriminate|reflexivity]. }
  rewrite S, B in EW.
  assert (WM : exists m, wits = CMap m).
  { unfold serialize in E2. apply bind_ok in E2 as (y & Y1 & Y2). apply ok_inj in Y2. unfold tx_ser in Y1. unfold serialize in E1. apply bind_ok in E1 as (x & X1 & _). rewrite X1 in Y1. cbn [bind] in Y1. apply ok_inj in Y1. rewrite M in Y1.
    pose proof (body_ok _ _ W X1) as O1. pose proof (wits_ok _ WW) as O2. assert (O : cbor_ok y) by (subst y; apply ok_array; split; [reflexivity|]; constructor; [exact O1|]; constructor; [exact O2|]; repeat constructor).
    pose proof (encode_denotes _ O) as D. unfold denotes in D. rewrite Y2, D3 in D. subst y. injection D as _ ->. unfold witset_ser. eauto. }
  split. { apply OK; [exact KW|right; exact WM|]. intros n v I. apply EW in I. destruct I as [[-> _]|[(_ & Q & _)|(_ & Q & _)]]; [left; reflexivity|congruence|lia]. }
  unfold at_key_opt. destruct (ws_vkeys (tx_wits t)) as [|x l].
  - left. split; [reflexivity|]. intros v Q. apply at_key_entry in Q; [|exact NW]. apply EW in Q. destruct Q as [(_ & Q & _)|[(_ & Q & _)|(_ & Q & _)]]; [congruence..|lia].
  - right. split; [discriminate|]. apply at_key_entry; [exact NW|]. apply EW. left. split; [reflexivity|]. split; [discriminate|reflexivity].
Qed.
Lemma in_inputs {key} (l : list (@call key)) u : In u (inputs_in l) <-> In (AddInput u) l.
Proof.
  unfold inputs_in. split.
  - intros I. apply in_concat in I as (x & J & K). apply in_map_iff in J as (c & <- & J). destruct c; try (destruct K; fail). destruct K as [->|[]]. exact J.
  - intros I. apply in_concat. exists [u]. split; [|left; reflexivity]. apply in_map_iff. exists (AddInput u). auto.
Qed.
Lemma in_withdrawals {key} (l : list (@call key)) a v : In (a, v) (withdrawals_in l) <-> In (AddWithdrawal a v) l.
Proof.
  unfold withdrawals_in. split.
  - intros I. apply in_concat in I as (x & J & K). apply in_map_iff in J as (c & <- & J). destruct c; try (destruct K; fail). destruct K as [K|[]]. injection K as -> ->. exact J.
  - intros I. apply in_concat. exists [(a, v)]. split; [|left; reflexivity]. apply in_map_iff. exists (AddWithdrawal a v). auto.
Qed.
Lemma len_concat {A B} (f : A -> list B) l : (forall x, (length (f x) <= 1)%nat) -> zlen (concat (map f l)) <= zlen l.
Proof. intros F. unfold zlen. induction l as [|x l IH]; [reflexivity|]. cbn [map concat length]. rewrite app_length. specialize (F x). lia. Qed.
(** after a history: the body is well formed and holds what was asked *)
Record asked {key} (n : node) (l : list (@call key)) (b : builder) : Prop := {
  as_ins : Permutation (map (fun i => (ti_id i, ti_index i)) (tb_inputs (body_of b))) (map (fun u => (u_id u, u_index u)) (inputs_in l));
  as_wds : Permutation (tb_withdrawals (body_of b)) (map (fun w => (RewardsAddress_toBytes (fst w), snd w)) (withdrawals_in l));
  as_certs : tb_certs (body_of b) = certs_in l;
  as_ttl : tb_ttl (body_of b) = last (ttls_in l) 0;
  as_outs : Forall (out_ok (n_min_utxo n)) (tb_outputs (body_of b));
  as_fees : (b_fee_a b, b_fee_b b) = last (min_fees_in l) (44, 155381);
  as_meta : tx_meta (b_tx b) = false; as_scripts : ws_scripts (tx_wits (b_tx b)) = []; as_boot : ws_bootstrap (tx_wits (b_tx b)) = 0; as_hash : tb_metadata_hash (body_of b) = None;
  as_wf : u64 (tb_fee (body_of b)) -> body_wf (body_of b); as_conf : Forall conforming (tb_certs (body_of b))
}.
Lemma last_in_or {A} (l : list A) d : In (last l d) l \/ last l d = d.
Proof. induction l as [|x l IH] using rev_ind; [right; reflexivity|]. left. rewrite last_last. apply in_or_app. right. left. reflexivity. Qed.
Lemma history_asked {key} H (pub : key -> list Z) sgn fuel n l b : do_calls H pub sgn fuel new_builder l = Some (Ok b) ->
  Forall call_ok l -> Forall (truthful n) l -> 0 <= n_min_utxo n <= 1000000 -> zlen l < 2 ^ 60 ->
  NoDup (map (fun u => (u_id u, u_index u)) (inputs_in l)) -> NoDup (map (fun w => RewardsAddress_toBytes (fst w)) (withdrawals_in l)) -> asked n l b.
Proof.
  intros R OK T MU LL N1 N2. destruct (C39_totals_of_body _ _ _ _ _ _ _ R N1 N2) as [PI PW].
  destruct (C64_what_was_asked _ _ _ _ _ _ _ R) as (QI & _ & _ & _ & QC & QT & _ & _ & QM & QX & QS & QB).
  assert (TX0 : text_ok []) by (split; [constructor|reflexivity]).
  destruct (history_outs _ _ _ _ (n_min_utxo n) l new_builder b MU TX0 (Forall_nil _) OK (fun a v I => proj1 (Forall_forall _ _) T _ I) R) as (OO & OL & OF & _ & _).
  destruct (calls_history _ _ _ _ _ _ _ R) as [(I & _ & _ & _ & _ & W & _) _].
  destruct (set_fold txin_lt txin_st (map (fun u => {| ti_id := u_id u; ti_index := u_index u |}) (inputs_in l)) [] (SSorted_nil _)) as [SS _]. fold (fold_i (map (fun u => {| ti_id := u_id u; ti_index := u_index u |}) (inputs_in l)) []) in SS.
  assert (IS : tb_inputs (body_of b) = fold_i (map (fun u => {| ti_id := u_id u; ti_index := u_index u |}) (inputs_in l)) []) by exact I. rewrite <- IS in SS.
  destruct (certs_good n l OK T) as (CW & CC & CL). rewrite Forall_forall in OK.
  assert (LI : zlen (inputs_in l) <= zlen l) by (apply len_concat; intros []; cbn; lia). assert (LW : zlen (withdrawals_in l) <= zlen l) by (apply len_concat; intros []; cbn; lia).
  pose proof (Permutation_length PI) as LP. rewrite !map_length in LP. pose proof (Permutation_length PW) as LP2. rewrite map_length in LP2.
  constructor; try assumption.
  - intros FU. unfold body_of in *. assert (PP : (2:Z) ^ 60 < 2 ^ 64) by reflexivity. split; [|split; [exact SS|split; [|split; [exact FU|split; [|split; [|split; [|split]]]]]]].
    + split; [|unfold zlen in *; lia]. apply Forall_forall. intros i J. apply QI in J as (u & J & ->). exact (OK _ J).
    + split; [|unfold zlen in *; cbn in OL; lia]. apply (Forall_impl _ (P := out_ok (n_min_utxo n))); [|exact OO]. intros o [O1 O2]. split; [exact O1|]. unfold u64. lia.
    + rewrite QT. destruct (last_in_or (ttls_in l) 0) as [J|J]; [|rewrite J; unfold u64; lia]. unfold ttls_in in J at 2. apply in_concat in J as (x & J1 & J2). apply in_map_iff in J1 as (c & <- & J1). specialize (OK _ J1).
      destruct c; try (destruct J2; fail). destruct J2 as [J2|[]]. rewrite <- J2. exact OK.
    + rewrite QC. split; [exact CW|]. lia.
    + split; [|unfold zlen in *; lia]. apply Forall_forall. intros p J. apply (Permutation_in _ PW) in J. apply in_map_iff in J as ([a v] & <- & J). cbn [fst snd]. apply in_withdrawals in J. specialize (OK _ J). destruct OK as [[A1 [A2 A3]] A4].
      split; [|exact A4]. split; [constructor; [exact A1|exact A2]|]. unfold RewardsAddress_toBytes, zlen in *. cbn [length]. lia.
    + assert (WS : tb_withdrawals (tx_body (b_tx b)) = fold_w (withdrawals_in l) []) by exact W. rewrite WS. apply fold_w_sorted. constructor.
    + rewrite QM. exact Logic.I.
  - unfold body_of. rewrite QC. exact CC.
Qed.

(** what is serialised, and that the books balance *)
Lemma submitted {key} H256 (pub : key -> list Z) sgn fuel n l d force ks b :
  (forall k, bytesN 32 (pub k)) -> (forall k m, bytesN 64 (sgn k m)) ->
  do_calls H256 pub sgn fuel new_builder (l ++ [Balance d force] ++ map Sign ks) = Some (Ok b) ->
  Forall call_ok l -> Forall (truthful n) l -> zlen l + zlen ks < 2 ^ 59 -> 0 <= n_min_utxo n <= 1000000 ->
  NoDup (map (fun u => (u_id u, u_index u)) (inputs_in l)) -> NoDup (map (fun w => RewardsAddress_toBytes (fst w)) (withdrawals_in l)) ->
  lovelace (total (map u_value (inputs_in l)) + total (map snd (withdrawals_in l))) -> lovelace (total (deposits_in l)) -> lovelace (fee_of b) ->
  exists b0 b1 s sb cs, do_calls H256 pub sgn fuel new_builder l = Some (Ok b0) /\ balance fuel b0 d force = Some (Ok b1) /\ asked n l b0 /\
  set_vkeys (b_tx b1) (witnesses b) = b_tx b /\ Forall vkey_wf (witnesses b) /\ NoDup (map fst (witnesses b)) /\ (forall v, In v (map fst (witnesses b)) <-> In v (map pub ks)) /\ current H256 pub sgn b /\
  Permutation (map (fun i => (ti_id i, ti_index i)) (tb_inputs (tx_body (b_tx b)))) (map (fun u => (u_id u, u_index u)) (inputs_in l)) /\
  Permutation (tb_withdrawals (tx_body (b_tx b))) (map (fun w => (RewardsAddress_toBytes (fst w), snd w)) (withdrawals_in l)) /\
  Forall (out_ok (n_min_utxo n)) (tb_outputs (tx_body (b_tx b))) /\ tb_ttl (tx_body (b_tx b)) = last (ttls_in l) 0 /\
  serialize (tx_ser (b_tx b)) = Ok s /\ serialize (txbody_ser (tx_body (b_tx b))) = Ok sb /\ all_some (map cddl_cert (certs_in l)) = Some cs /\ is_tx s sb (wire_of (b_tx b) cs) /\
  sum (map (value_of n) (w_ins (wire_of (b_tx b) cs))) + sum (map snd (w_wds (wire_of (b_tx b) cs))) = sum (map snd (w_outs (wire_of (b_tx b) cs))) + w_fee (wire_of (b_tx b) cs) + sum (map (deposit n) cs) /\
  sum (map (refund n) cs) = n_key_deposit n * zlen (filter is_dereg l).
Proof.
  intros PB SG R OK T LL MU N1 N2 B1 B2 B3.
  rewrite app_assoc in R. apply do_calls_app in R as (b1 & R1 & R2). pose proof R1 as R1'. apply do_calls_app in R1' as (b0 & R0 & RB). cbn [do_calls] in RB. apply rbind_ok in RB as (b1' & RB & E). assert (b1' = b1) by (unfold lift in E; congruence). subst b1'. clear E. cbn [do_call] in RB.
  pose proof (history_asked _ _ _ _ n l b0 R0 OK T MU ltac:(unfold zlen in *; lia) N1 N2) as A0.
  assert (OK1 : Forall call_ok (l ++ [Balance d force])) by (apply Forall_app; split; [exact OK|repeat constructor]). assert (T1 : Forall (truthful n) (l ++ [@Balance key d force])) by (apply Forall_app; split; [exact T|repeat constructor]).
  assert (EI : inputs_in (l ++ [Balance d force]) = inputs_in l) by (unfold inputs_in; rewrite map_app, concat_app; apply app_nil_r).
  assert (EW : withdrawals_in (l ++ [Balance d force]) = withdrawals_in l) by (unfold withdrawals_in; rewrite map_app, concat_app; apply app_nil_r).
  assert (EC : certs_in (l ++ [Balance d force]) = certs_in l) by (unfold certs_in; rewrite map_app, concat_app; apply app_nil_r).
  assert (ET : ttls_in (l ++ [Balance d force]) = ttls_in l) by (unfold ttls_in; rewrite map_app, concat_app; apply app_nil_r).
  pose proof (history_asked H256 pub sgn fuel n (l ++ [Balance d force]) b1 R1 OK1 T1 MU ltac:(unfold zlen in *; rewrite app_length; cbn [length]; lia) ltac:(rewrite EI; exact N1) ltac:(rewrite EW; exact N2)) as A1.
  destruct (C36_frame _ _ _ _ _ RB) as (_ & _ & _ & _ & _ & _ & _ & W0). destruct (C40_sign_many _ _ _ _ _ _ _ _ W0 R2) as (WN & WI & CU & BB).
  destruct (calls_history _ _ _ _ _ _ _ R2) as [_ (RS1 & RS2 & RS3)].
  destruct A1 as [PI PW AC AT AO _ AM AS AB AH AWF ACF]. rewrite EI in PI. rewrite EW in PW. rewrite EC in AC. rewrite ET in AT. unfold body_of in *.
  assert (FE : fee_of b1 = fee_of b) by (unfold fee_of; rewrite BB; reflexivity).
  assert (FU64 : u64 (tb_fee (tx_body (b_tx b1)))) by (destruct B3 as [X1 X2]; rewrite <- FE in X1, X2; unfold u64, fee_of in *; lia).
  pose proof (AWF FU64) as BW. rewrite <- BB in BW, ACF, PI, PW, AC, AT, AO, AH.
  assert (WL : (length (witnesses b) <= length ks)%nat).
  { rewrite <- (map_length fst), <- (map_length pub ks). apply NoDup_incl_length; [exact WN|]. intros x I; apply WI; exact I. }
  assert (VW : Forall vkey_wf (witnesses b)) by (apply Forall_forall; intros w I; destruct (CU w I) as (k & id & _ & ->); split; [apply PB|apply SG]).
  assert (WW : wits_wf (tx_wits (b_tx b))).
  { split; [split; [exact VW|]|]. - unfold zlen, witnesses in *. lia. - rewrite RS1, AS, RS2, AB. split; [split; [constructor|reflexivity]|lia]. }
  destruct (is_tx_of (b_tx b) BW ACF WW ltac:(congruence) ltac:(congruence) ltac:(congruence) AH) as (s & sb & cs & ES & EB & ECS & IT).
  rewrite AC in ECS. destruct (certs_books n l cs T ECS) as [CD CR].
  exists b0, b1, s, sb, cs. split; [exact R0|]. split; [exact RB|]. split; [exact A0|].
  split. { unfold set_vkeys, witnesses. rewrite <- BB, <- RS1, <- RS2, <- RS3. destruct (b_tx b) as [? [] ?]. reflexivity. }
  split; [exact VW|]. split; [exact WN|]. split; [exact WI|]. split; [exact CU|]. split; [exact PI|]. split; [exact PW|]. split; [exact AO|]. split; [exact AT|]. split; [exact ES|]. split; [exact EB|]. split; [exact ECS|]. split; [exact IT|].
  split; [|exact CR]. rewrite Forall_forall in T, OK. cbn [wire_of w_ins w_outs w_fee w_certs w_wds]. rewrite <- FE in B3.
  pose proof (C36_history_conserves _ _ _ _ _ _ _ _ _ R1 (fun a v I => proj2 (OK _ I)) B1 B2 B3) as C. rewrite FE in C. rewrite CD.
  rewrite (sum_perm _ _ (Permutation_map (value_of n) PI)), (sum_perm _ _ (Permutation_map snd PW)), !map_map. cbn [fst snd].
  assert (E1 : map (fun u => value_of n (u_id u, u_index u)) (inputs_in l) = map u_value (inputs_in l)).
  { apply map_ext_in. intros u I. apply in_inputs in I. destruct (T _ I) as (h & E). unfold value_of. cbn [fst snd]. rewrite E. reflexivity. }
  rewrite E1. unfold outputs, fee_of in C. rewrite <- BB in C. change (map (fun w : rewards_address * Z => snd w) (withdrawals_in l)) with (map snd (withdrawals_in l)). change (map (fun x : txout => to_amount x) (tb_outputs (tx_body (b_tx b)))) with (map to_amount (tb_outputs (tx_body (b_tx b)))).
  rewrite (sum_total (map u_value (inputs_in l))), (sum_total (map snd (withdrawals_in l))), (sum_total (map to_amount (tb_outputs (tx_body (b_tx b))))). lia.
Qed.

(** ** The transaction is accepted *)
Theorem C70_accepted : forall key H256 H224 verifies (pub : key -> list Z) sgn fuel l dummies force ks b n,
  (forall k m, verifies (pub k) m (sgn k m) = true) -> (forall k, bytesN 32 (pub k)) -> (forall k m, bytesN 64 (sgn k m)) ->
  (* built, balanced for as many signatures as are then made, and signed *)
  do_calls H256 pub sgn fuel new_builder (l ++ [Balance dummies force] ++ map Sign ks) = Some (Ok b) -> (6 <= fuel)%nat ->
  length dummies = length ks -> Forall vkey_wf dummies -> NoDup (map pub ks) ->
  (* from sound and truthful arguments *)
  Forall call_ok l -> Forall (truthful n) l -> (forall a, ~ In (AddStakeDereg a) l) -> zlen l + zlen ks < 2 ^ 59 ->
  inputs_in l <> [] -> NoDup (map (fun u => (u_id u, u_index u)) (inputs_in l)) -> NoDup (map (fun w => RewardsAddress_toBytes (fst w)) (withdrawals_in l)) ->
  n_slot n <= last (ttls_in l) 0 -> last (min_fees_in l) (44, 155381) = (n_fee_a n, n_fee_b n) -> 0 <= n_fee_a n -> 0 <= n_fee_b n -> 0 <= n_min_utxo n <= 1000000 ->
  lovelace (total (map u_value (inputs_in l)) + total (map snd (withdrawals_in l))) -> lovelace (total (deposits_in l)) -> lovelace (fee_of b) ->
  (* by everyone who must *)
  (forall h, must_sign n l h -> exists k, In k ks /\ H224 (pub k) = h) ->
  exists s, serialize (tx_ser (b_tx b)) = Ok s /\ (zlen s <= n_max_size n -> n_fee_a n * (n_max_size n + 8) + n_fee_b n < 2 ^ 64 -> accepts H256 H224 verifies n s).
Proof.
  intros key H256 H224 verifies pub sgn fuel l d force ks b n VF PB SG R FU LD WD NK OK T ND LL NE N1 N2 TTL MF FA FB MU B1 B2 B3 MS.
  destruct (submitted H256 pub sgn fuel n l d force ks b PB SG R OK T LL MU N1 N2 B1 B2 B3) as (b0 & b1 & s & sb & cs & R0 & RB & A0 & EQ & VW & WN & WI & CU & PI & PW & AO & AT & ES & EB & ECS & IT & CV & CR).
  exists s. split; [exact ES|]. intros SZ MX. exists sb, (wire_of (b_tx b) cs). split; [exact IT|].
  assert (WL : length (witnesses b) = length ks).
  { rewrite <- (map_length fst), <- (map_length pub ks). apply Nat.le_antisymm; apply NoDup_incl_length; try assumption; intros x I; apply WI; exact I. }
  unfold valid. split; [cbn [wire_of w_ttl]; rewrite AT; exact TTL|].
  assert (PN : NoDup (map (fun i => (ti_id i, ti_index i)) (tb_inputs (tx_body (b_tx b))))) by (apply (Permutation_NoDup (Permutation_sym PI)); exact N1).
  split. { cbn [wire_of w_ins]. intros Q. rewrite Q in PI. apply Permutation_nil in PI. destruct (inputs_in l); [congruence|discriminate]. }
  split; [exact PN|]. pose proof T as T'. rewrite Forall_forall in T.
  split. { cbn [wire_of w_ins]. intros id i I. apply (Permutation_in _ PI) in I. apply in_map_iff in I as (u & E & I). injection E as <- <-. apply in_inputs in I. destruct (T _ I) as (h & ->). discriminate. }
  split. { cbn [wire_of w_wds]. intros a v I. apply (Permutation_in _ PW) in I. apply in_map_iff in I as ([a' v'] & E & I). injection E as <- <-. apply in_withdrawals in I. exact (T _ I). }
  split. { cbn [wire_of w_wds]. apply (Permutation_NoDup (Permutation_map fst (Permutation_sym PW))). rewrite map_map. exact N2. }
  split.
  { (* the fee *) destruct A0 as [_ _ _ _ _ X _ _ _ _ _ _]. rewrite MF in X. injection X as BFa BFb. assert (FE : fee_of b1 = w_fee (wire_of (b_tx b) cs)) by (rewrite <- EQ; reflexivity).
    assert (SZ' : size_of (carrying (b_tx b1) (fee_of b1) d) (zlen s)).
    { apply size_of_iff. rewrite carrying_eq. change (fee_of b1) with (tx_fee (b_tx b1)). rewrite set_fee_same. rewrite (tx_size_indep _ d (witnesses b) WD VW ltac:(congruence)).
      rewrite EQ. apply size_of_iff. exists s. split; [exact ES|reflexivity]. }
    pose proof (C36_fee_covers fuel b0 d force b1 (zlen s) FU RB SZ' ltac:(lia) ltac:(lia)) as X. rewrite BFa, BFb in X. specialize (X ltac:(nia)). lia. }
  split. { unfold preserves_value. change (w_certs (wire_of (b_tx b) cs)) with cs. assert (F0 : filter is_dereg l = []).
    { destruct (filter is_dereg l) as [|c r] eqn:Q; [reflexivity|]. assert (I : In c (filter is_dereg l)) by (rewrite Q; left; reflexivity). apply filter_In in I as [I J]. destruct c; try discriminate J. destruct (ND _ I). }
    rewrite F0 in CR. change (zlen []) with 0 in CR. lia. }
  split. { cbn [wire_of w_outs]. intros a v I. apply in_map_iff in I as (o & E & I). injection E as <- <-. pose proof (proj1 (Forall_forall _ _) AO o I) as [_ X]. lia. }
  split; [exact SZ|]. split.
  { cbn [wire_of w_sigs]. intros k g I. destruct (CU _ I) as (k' & id & G & E). injection E as -> ->. unfold get_id, body_id, body_of in G. rewrite EB in G. cbn [bind] in G. apply ok_inj in G. subst id. apply VF. }
  intros h SH. assert (M : must_sign n l h).
  { destruct SH as [(id & i & v & I & U)|[(a & I & ->)|SH]].
    - cbn [wire_of w_ins] in I. apply (Permutation_in _ PI) in I. apply in_map_iff in I as (u & E & I). injection E as <- <-. apply in_inputs in I. left. exists u, v. auto.
    - cbn [wire_of w_wds] in I. apply (Permutation_in _ (Permutation_map fst PW)) in I. rewrite map_map in I. apply in_map_iff in I as ([a' v] & <- & I). apply in_withdrawals in I. right. left. exists a', v. split; [exact I|reflexivity].
    - exact (certs_signers n l cs h ECS T' SH). }
  destruct (MS h M) as (k & IK & <-). assert (J : In (pub k) (map fst (witnesses b))) by (apply WI, in_map, IK). apply in_map_iff in J as ([k' g] & E & J). cbn [fst] in E. subst k'. exists (pub k), g. split; [exact J|reflexivity].
Qed.

(** ** Transactions the node refuses *)
Lemma at_key_fun c k v v' : at_key c k v -> at_key c k v' -> v = v'.
Proof.
  destruct c; cbn [at_key]; try contradiction. match goal with |- In _ ?x /\ _ -> _ => rename x into m end. intros [I N] [I' _]. induction m as [|[k0 x] m IH]; [destruct I|]. cbn [map fst] in N. inversion N as [|? ? N1 N2]; subst.
  assert (F : forall y, In (CUint k, y) m -> In (CUint k) (map fst m)) by (intros y J; apply in_map_iff; exists (CUint k, y); auto).
  destruct I as [E|I], I' as [E'|I']; [congruence|injection E as -> ->; destruct (N1 (F _ I'))|injection E' as -> ->; destruct (N1 (F _ I))|exact (IH I N2 I')].
Qed.
Lemma map_inj {A B} (f : A -> B) l l' : (forall x y, f x = f y -> x = y) -> map f l = map f l' -> l = l'.
Proof. intros J. revert l'. induction l as [|x l IH]; intros [|y l'] E; cbn [map] in E; try discriminate; [reflexivity|]. injection E as E1 E2. rewrite (J _ _ E1), (IH _ E2). reflexivity. Qed.
Lemma at_key_opt_fun {A} c k (l l' : list A) (f : list A -> cbor) : (forall x y, f x = f y -> x = y) -> at_key_opt c k l (f l) -> at_key_opt c k l' (f l') -> l = l'.
Proof. intros J [[E F]|[N K]] [[E' F']|[N' K']]; [congruence|destruct (F _ K')|destruct (F' _ K)|]. exact (J _ _ (at_key_fun _ _ _ _ K K')). Qed.
Lemma is_tx_fun s sb sb' t t' : is_tx s sb t -> is_tx s sb' t' -> t = t'.
Proof.
  intros (body & wits & rest & R & _ & _ & _ & A0 & A1 & A2 & A3 & A4 & A5 & _ & W) (body' & wits' & rest' & R' & _ & _ & _ & A0' & A1' & A2' & A3' & A4' & A5' & _ & W'). rewrite R in R'. injection R' as <- <-. clear R.
  assert (J1 : forall x y : list Z * Z, bytes_uint x = bytes_uint y -> x = y) by (intros [? ?] [? ?] E; unfold bytes_uint in E; cbn [fst snd] in E; injection E as -> ->; reflexivity). assert (J2 : forall x y : list Z * list Z, two_bytes x = two_bytes y -> x = y) by (intros [? ?] [? ?] E; unfold two_bytes in E; cbn [fst snd] in E; injection E as -> ->; reflexivity).
  pose proof (at_key_fun _ _ _ _ A0 A0') as E0. pose proof (at_key_fun _ _ _ _ A1 A1') as E1. pose proof (at_key_fun _ _ _ _ A2 A2') as E2. pose proof (at_key_fun _ _ _ _ A3 A3') as E3.
  assert (E0' : w_ins t = w_ins t') by (apply (map_inj bytes_uint); [exact J1|congruence]). assert (E1' : w_outs t = w_outs t') by (apply (map_inj bytes_uint); [exact J1|congruence]).
  assert (E4 : w_certs t = w_certs t') by (refine (at_key_opt_fun _ _ _ _ CArray _ A4 A4'); congruence).
  assert (E5 : w_wds t = w_wds t').
  { refine (at_key_opt_fun _ _ _ _ (fun l => CMap (map (fun p => (CBytes (fst p), CUint (snd p))) l)) _ A5 A5'). intros x y E. assert (E' : map (fun p : list Z * Z => (CBytes (fst p), CUint (snd p))) x = map (fun p => (CBytes (fst p), CUint (snd p))) y) by congruence. apply map_inj in E'; [exact E'|]. intros [? ?] [? ?] Q; cbn [fst snd] in Q; injection Q as -> ->; reflexivity. }
  assert (E6 : w_sigs t = w_sigs t').
  { refine (at_key_opt_fun _ _ _ _ (fun l => CArray (map two_bytes l)) _ W W'). intros x y E. assert (E' : map two_bytes x = map two_bytes y) by congruence. exact (map_inj _ _ _ J2 E'). }
  assert (E2' : w_fee t = w_fee t') by congruence. assert (E3' : w_ttl t = w_ttl t') by congruence. clear -E0' E1' E2' E3' E4 E5 E6. destruct t, t'. cbn in *. subst. reflexivity.
Qed.
(** Deregistering an account: the node pays the deposit back, balance() does not know it; the values never agree. *)
Theorem C70_deregistration_refuted : forall key H256 H224 verifies (pub : key -> list Z) sgn fuel l dummies force ks b n a,
  (forall k, bytesN 32 (pub k)) -> (forall k m, bytesN 64 (sgn k m)) ->
  do_calls H256 pub sgn fuel new_builder (l ++ [Balance dummies force] ++ map Sign ks) = Some (Ok b) ->
  Forall call_ok l -> Forall (truthful n) l -> In (AddStakeDereg a) l -> 0 < n_key_deposit n -> zlen l + zlen ks < 2 ^ 59 -> 0 <= n_min_utxo n <= 1000000 ->
  NoDup (map (fun u => (u_id u, u_index u)) (inputs_in l)) -> NoDup (map (fun w => RewardsAddress_toBytes (fst w)) (withdrawals_in l)) ->
  lovelace (total (map u_value (inputs_in l)) + total (map snd (withdrawals_in l))) -> lovelace (total (deposits_in l)) -> lovelace (fee_of b) ->
  exists s, serialize (tx_ser (b_tx b)) = Ok s /\ ~ accepts H256 H224 verifies n s.
Proof.
  intros key H256 H224 verifies pub sgn fuel l d force ks b n a PB SG R OK T ID KD LL MU N1 N2 B1 B2 B3.
  destruct (submitted H256 pub sgn fuel n l d force ks b PB SG R OK T LL MU N1 N2 B1 B2 B3) as (b0 & b1 & s & sb & cs & R0 & RB & A0 & EQ & VW & WN & WI & CU & PI & PW & AO & AT & ES & EB & ECS & IT & CV & CR).
  exists s. split; [exact ES|]. intros (sb' & t & IT' & V). pose proof (is_tx_fun _ _ _ _ _ IT IT') as <-. destruct V as (_ & _ & _ & _ & _ & _ & _ & PV & _). unfold preserves_value in PV. change (w_certs (wire_of (b_tx b) cs)) with cs in PV.
  assert (0 < zlen (filter is_dereg l)). { assert (I : In (AddStakeDereg a) (filter is_dereg l)) by (apply filter_In; split; [exact ID|reflexivity]). destruct (filter is_dereg l); [destruct I|unfold zlen; cbn [length]; lia]. } nia.
Qed.
(** Without setTtl the transaction has expired from the first slot on. *)
Theorem C70_no_ttl_refuted : forall key H256 H224 verifies (pub : key -> list Z) sgn fuel l dummies force ks b n,
  (forall k, bytesN 32 (pub k)) -> (forall k m, bytesN 64 (sgn k m)) ->
  do_calls H256 pub sgn fuel new_builder (l ++ [Balance dummies force] ++ map Sign ks) = Some (Ok b) ->
  Forall call_ok l -> Forall (truthful n) l -> (forall t, ~ In (SetTtl t) l) -> 0 < n_slot n -> zlen l + zlen ks < 2 ^ 59 -> 0 <= n_min_utxo n <= 1000000 ->
  NoDup (map (fun u => (u_id u, u_index u)) (inputs_in l)) -> NoDup (map (fun w => RewardsAddress_toBytes (fst w)) (withdrawals_in l)) ->
  lovelace (total (map u_value (inputs_in l)) + total (map snd (withdrawals_in l))) -> lovelace (total (deposits_in l)) -> lovelace (fee_of b) ->
  exists s, serialize (tx_ser (b_tx b)) = Ok s /\ ~ accepts H256 H224 verifies n s.
Proof.
  intros key H256 H224 verifies pub sgn fuel l d force ks b n PB SG R OK T NT SL LL MU N1 N2 B1 B2 B3.
  destruct (submitted H256 pub sgn fuel n l d force ks b PB SG R OK T LL MU N1 N2 B1 B2 B3) as (b0 & b1 & s & sb & cs & R0 & RB & A0 & EQ & VW & WN & WI & CU & PI & PW & AO & AT & ES & EB & ECS & IT & CV & CR).
  exists s. split; [exact ES|]. intros (sb' & t & IT' & V). pose proof (is_tx_fun _ _ _ _ _ IT IT') as <-. destruct V as (TT & _). cbn [wire_of w_ttl] in TT. rewrite AT in TT.
  destruct (last_in_or (ttls_in l) 0) as [J|J]; [|lia]. unfold ttls_in in J at 2. apply in_concat in J as (x & J1 & J2). apply in_map_iff in J1 as (c & <- & J1). destruct c; try (destruct J2; fail). destruct (NT _ J1).
Qed.

(** ** Which transactions are accepted, exactly *)
Lemma all_some_to {A B} (f : A -> option B) l r x y : all_some (map f l) = Some r -> In x l -> f x = Some y -> In y r.
Proof.
  revert r. induction l as [|z l IH]; intros r E I F; [destruct I|]. cbn [map all_some] in E. destruct (f z) as [w|] eqn:FZ; [|discriminate]. destruct (all_some (map f l)) as [r0|] eqn:R; [|discriminate]. injection E as <-.
  destruct I as [->|I]; [left; congruence|right; exact (IH r0 eq_refl I F)].
Qed.
Lemma all_some_def {A B} (f : A -> option B) l r x : all_some (map f l) = Some r -> In x l -> exists y, f x = Some y.
Proof.
  revert r. induction l as [|z l IH]; intros r E I; [destruct I|]. cbn [map all_some] in E. destruct (f z) as [w|] eqn:FZ; [|discriminate]. destruct (all_some (map f l)) as [r0|] eqn:R; [|discriminate]. destruct I as [->|I]; [eauto|exact (IH r0 eq_refl I)].
Qed.
Lemma to_certs {key} (l : list (@call key)) x c : In x l -> In c (certs_in [x]) -> In c (certs_in l).
Proof. intros I J. unfold certs_in in *. cbn [map concat] in J. rewrite app_nil_r in J. apply in_concat. eexists. split; [|exact J]. apply in_map_iff. exists x. auto. Qed.
Lemma must_sign_signer {key} n (l : list (@call key)) cs h : all_some (map cddl_cert (certs_in l)) = Some cs ->
  (exists a v, In (AddWithdrawal a v) l /\ h = ra_hash a) \/ (exists u v, In (AddInput u) l /\ n_utxo n (u_id u) (u_index u) = Some (v, h)) \/ (exists c, In c cs /\ In h (cert_signers c)) <-> must_sign n l h \/ (exists c, In c cs /\ In h (cert_signers c)).
Proof.
  intros E. split; [intros [(a & v & X)|[(u & v & X)|X]]; [left; right; left; eauto|left; left; eauto|right; exact X]|]. intros [M|X]; [|auto].
  assert (G : forall x c, In x l -> In c (certs_in [x]) -> (forall y, cddl_cert c = Some y -> In h (cert_signers y)) -> exists c, In c cs /\ In h (cert_signers c)).
  { intros x c I J K. pose proof (to_certs l x c I J) as IC. destruct (all_some_def _ _ _ _ E IC) as (y & F). exists y. split; [exact (all_some_to _ _ _ _ _ E IC F)|exact (K y F)]. }
  destruct M as [(u & v & I & U)|[(a & v & I & ->)|[(a & p & I & ->)|[(a & I & ->)|[(p & e & I & ->)|(p & d & I & J)]]]]]; [right; left; eauto|left; eauto| | | |]; right; right.
  - refine (G _ _ I (or_introl eq_refl) _). intros y Y. cbn in Y. injection Y as <-. left. reflexivity.
  - refine (G _ _ I (or_introl eq_refl) _). intros y Y. cbn in Y. injection Y as <-. left. reflexivity.
  - refine (G _ _ I (or_introl eq_refl) _). intros y Y. cbn in Y. injection Y as <-. left. reflexivity.
  - refine (G _ _ I (or_introl eq_refl) _). intros y Y. cbn [cddl_cert] in Y. destruct (all_some (map cddl_relay (pp_relays p))); [|discriminate]. injection Y as <-. cbn [cert_signers]. destruct J as [->|J]; [left; reflexivity|right].
    apply in_concat. exists [h]. split; [|left; reflexivity]. apply in_map_iff. exists (CBytes h). split; [reflexivity|]. apply in_map. exact J.
Qed.
Theorem C70_accepted_iff : forall key H256 H224 verifies (pub : key -> list Z) sgn fuel l dummies force ks b n,
  (forall k m, verifies (pub k) m (sgn k m) = true) -> (forall k, bytesN 32 (pub k)) -> (forall k m, bytesN 64 (sgn k m)) ->
  do_calls H256 pub sgn fuel new_builder (l ++ [Balance dummies force] ++ map Sign ks) = Some (Ok b) ->
  Forall call_ok l -> Forall (truthful n) l -> zlen l + zlen ks < 2 ^ 59 -> 0 <= n_min_utxo n <= 1000000 ->
  NoDup (map (fun u => (u_id u, u_index u)) (inputs_in l)) -> NoDup (map (fun w => RewardsAddress_toBytes (fst w)) (withdrawals_in l)) ->
  lovelace (total (map u_value (inputs_in l)) + total (map snd (withdrawals_in l))) -> lovelace (total (deposits_in l)) -> lovelace (fee_of b) ->
  exists s, serialize (tx_ser (b_tx b)) = Ok s /\
   (accepts H256 H224 verifies n s <->
    n_slot n <= last (ttls_in l) 0 /\ inputs_in l <> [] /\ n_fee_a n * zlen s + n_fee_b n <= fee_of b /\ (n_key_deposit n = 0 \/ forall a, ~ In (AddStakeDereg a) l) /\ zlen s <= n_max_size n /\
    forall h, must_sign n l h -> exists k, In k ks /\ H224 (pub k) = h).
Proof.
  intros key H256 H224 verifies pub sgn fuel l d force ks b n VF PB SG R OK T LL MU N1 N2 B1 B2 B3.
  destruct (submitted H256 pub sgn fuel n l d force ks b PB SG R OK T LL MU N1 N2 B1 B2 B3) as (b0 & b1 & s & sb & cs & R0 & RB & A0 & EQ & VW & WN & WI & CU & PI & PW & AO & AT & ES & EB & ECS & IT & CV & CR).
  exists s. split; [exact ES|].
  assert (DR : zlen (filter is_dereg l) = 0 <-> forall a, ~ In (AddStakeDereg a) l).
  { split.
    - intros Q a I. assert (J : In (AddStakeDereg a) (filter is_dereg l)) by (apply filter_In; split; [exact I|reflexivity]). destruct (filter is_dereg l); [destruct J|]. unfold zlen in Q. cbn [length] in Q. lia.
    - intros ND. destruct (filter is_dereg l) as [|c r] eqn:Q; [reflexivity|]. assert (I : In c (filter is_dereg l)) by (rewrite Q; left; reflexivity). apply filter_In in I as [I J]. destruct c; try discriminate J. destruct (ND _ I). }
  assert (SG' : forall h, signer n (wire_of (b_tx b) cs) h <-> must_sign n l h).
  { intros h. split.
    - intros [(id & i & v & I & U)|[(a & I & ->)|SH]].
      + cbn [wire_of w_ins] in I. apply (Permutation_in _ PI) in I. apply in_map_iff in I as (u & E & I). injection E as <- <-. apply in_inputs in I. left. exists u, v. auto.
      + cbn [wire_of w_wds] in I. apply (Permutation_in _ (Permutation_map fst PW)) in I. rewrite map_map in I. apply in_map_iff in I as ([a' v] & <- & I). apply in_withdrawals in I. right. left. exists a', v. split; [exact I|reflexivity].
      + exact (certs_signers n l cs h ECS T SH).
    - intros M. destruct (proj2 (must_sign_signer n l cs h ECS) (or_introl M)) as [(a & v & I & ->)|[(u & v & I & U)|X]].
      + right. left. exists (RewardsAddress_toBytes a). split; [|reflexivity]. cbn [wire_of w_wds]. apply (Permutation_in _ (Permutation_map fst (Permutation_sym PW))). rewrite map_map. apply in_map_iff. exists (a, v). split; [reflexivity|apply in_withdrawals; exact I].
      + left. exists (u_id u), (u_index u), v. split; [|exact U]. cbn [wire_of w_ins]. apply (Permutation_in _ (Permutation_sym PI)). apply in_map_iff. exists u. split; [reflexivity|apply in_inputs; exact I].
      + right. right. exact X. }
  assert (PV : preserves_value n (wire_of (b_tx b) cs) <-> n_key_deposit n = 0 \/ forall a, ~ In (AddStakeDereg a) l).
  { unfold preserves_value. change (w_certs (wire_of (b_tx b) cs)) with cs. rewrite <- DR. split; intros Q.
    - assert (n_key_deposit n * zlen (filter is_dereg l) = 0) as M by lia. apply Z.mul_eq_0 in M. exact M.
    - assert (n_key_deposit n * zlen (filter is_dereg l) = 0) by (destruct Q as [-> | ->]; lia). lia. }
  assert (NI : w_ins (wire_of (b_tx b) cs) = [] <-> inputs_in l = []).
  { cbn [wire_of w_ins]. split; intros Q; [rewrite Q in PI; apply Permutation_nil in PI; destruct (inputs_in l); [reflexivity|discriminate]|]. rewrite Q in PI. apply Permutation_sym, Permutation_nil in PI. exact PI. }
  split.
  - intros (sb' & t & IT' & V). pose proof (is_tx_fun _ _ _ _ _ IT IT') as <-. destruct V as (V1 & V2 & _ & _ & _ & _ & V7 & V8 & _ & V10 & _ & V12).
    split; [cbn [wire_of w_ttl] in V1; rewrite AT in V1; exact V1|]. split; [intros Q; apply V2, NI, Q|]. split; [exact V7|]. split; [apply PV, V8|]. split; [exact V10|].
    intros h M. destruct (V12 h (proj2 (SG' h) M)) as (k & g & I & E). assert (J : In k (map pub ks)) by (apply WI, in_map_iff; exists (k, g); auto). apply in_map_iff in J as (k' & <- & J). eauto.
  - intros (C1 & C2 & C3 & C4 & C5 & C6). exists sb, (wire_of (b_tx b) cs). split; [exact IT|]. unfold valid. rewrite Forall_forall in T.
    split; [cbn [wire_of w_ttl]; rewrite AT; exact C1|]. split; [intros Q; apply C2, NI, Q|]. split; [exact (Permutation_NoDup (Permutation_sym PI) N1)|].
    split. { cbn [wire_of w_ins]. intros id i I. apply (Permutation_in _ PI) in I. apply in_map_iff in I as (u & E & I). injection E as <- <-. apply in_inputs in I. destruct (T _ I) as (h & ->). discriminate. }
    split. { cbn [wire_of w_wds]. intros a v I. apply (Permutation_in _ PW) in I. apply in_map_iff in I as ([a' v'] & E & I). injection E as <- <-. apply in_withdrawals in I. exact (T _ I). }
    split. { cbn [wire_of w_wds]. apply (Permutation_NoDup (Permutation_map fst (Permutation_sym PW))). rewrite map_map. exact N2. }
    split; [exact C3|]. split; [apply PV, C4|].
    split. { cbn [wire_of w_outs]. intros a v I. apply in_map_iff in I as (o & E & I). injection E as <- <-. pose proof (proj1 (Forall_forall _ _) AO o I) as [_ X]. lia. }
    split; [exact C5|]. split.
    { cbn [wire_of w_sigs]. intros k g I. destruct (CU _ I) as (k' & id & G & E). injection E as -> ->. unfold get_id, body_id, body_of in G. rewrite EB in G. cbn [bind] in G. apply ok_inj in G. subst id. apply VF. }
    intros h SH. destruct (C6 h (proj1 (SG' h) SH)) as (k & IK & <-). assert (J : In (pub k) (map fst (witnesses b))) by (apply WI, in_map, IK). apply in_map_iff in J as ([k' g] & E & J). cbn [fst] in E. subst k'. exists (pub k), g. split; [exact J|reflexivity].
Qed.

(** ** The hypotheses are met *)
(** a node on which the example history is truthful; the three keys 1, 2 and 9 hash to what must sign *)
Definition ex_H224 (k : list Z) : list Z := repeat (hd 0 k) 28.
Definition ex_account9 : rewards_address := {| ra_header := 224; ra_hash := repeat 9 28 |}.
Definition ex_pool : pool_params :=
  {| pp_operator := repeat 9 28; pp_vrf := ex_hash 3 32; pp_pledge := 5; pp_cost := 340000000; pp_margin := {| rnum := 1; rden := 2 |}; pp_account := 224 :: repeat 9 28; pp_owners := [repeat 2 28];
     pp_relays := [RAddr (Some [127; 0; 0; 1]) None (Some 3001)]; pp_metadata := Some {| pm_url := [97]; pm_hash := ex_hash 5 32 |} |}.
Definition ex_node : node :=
  {| n_slot := 999999; n_fee_a := 44; n_fee_b := 155381; n_min_utxo := 1000000; n_max_size := 16384; n_key_deposit := 2000000; n_pool_deposit := 500000000;
     n_utxo := fun id i => if (zlist_eqb id (u_id (ex_utxo 1 0))) && (i =? u_index (ex_utxo 1 0)) then Some (600000000, repeat 1 28) else if (zlist_eqb id (u_id (ex_utxo 2 0))) && (i =? u_index (ex_utxo 2 0)) then Some (7000000, repeat 2 28) else None;
     n_rewards := fun a => if zlist_eqb a (224 :: repeat 9 28) then Some 500000 else None; n_pool := fun _ => false |}.
Definition ex_l : list (@call Z) :=
  [AddInput (ex_utxo 1 600000000); AddInput (ex_utxo 2 7000000); AddWithdrawal ex_account9 500000; AddStakeReg ex_account9 2000000; AddPoolReg ex_pool 500000000; AddStakeDeleg ex_account9 (ex_hash 4 28);
   AddOutput ex_addr 3000000; SetTtl 1000000; SetChange ex_addr].
Definition ex_verifies (k m g : list Z) : bool := zlist_eqb g (repeat (hd 0 k) 64).
Definition ex_pub1 (k : Z) : list Z := repeat (k mod 256) 32.
Definition ex_sgn1 (k : Z) (m : list Z) : list Z := repeat (k mod 256) 64.
Lemma repeat_bytesN x n : byte_ok x -> bytesN (Z.of_nat n) (repeat x n).
Proof. intros B. split; [|unfold zlen; rewrite repeat_length; reflexivity]. apply Forall_forall. intros y I. apply repeat_spec in I. subst y. exact B. Qed.
Lemma ex_hash_ok x : byte_ok (x mod 256). Proof. unfold byte_ok. pose proof (Z.mod_pos_bound x 256 ltac:(lia)). lia. Qed.
Example C70_ex_keys : (forall k m, ex_verifies (ex_pub1 k) m (ex_sgn1 k m) = true) /\ (forall k, bytesN 32 (ex_pub1 k)) /\ (forall k m, bytesN 64 (ex_sgn1 k m)).
Proof.
  split; [intros; apply zlist_eqb_refl|]. split; intros; [apply (repeat_bytesN _ 32)|apply (repeat_bytesN _ 64)]; apply ex_hash_ok.
Qed.
Example C70_ex_args : Forall call_ok ex_l /\ Forall (truthful ex_node) ex_l.
Proof.
  split.
  - unfold ex_l. repeat (apply Forall_cons; [|]); try apply Forall_nil; cbn [call_ok ex_utxo u_id u_index ex_account9 ra_header ra_hash account_ok]; unfold account_ok, u64, lovelace; cbn [ex_account9 ra_header ra_hash].
    + split; [apply bytesN_b; reflexivity|lia].
    + split; [apply bytesN_b; reflexivity|lia].
    + split; [split; [unfold byte_ok; lia|apply bytesN_b; reflexivity]|lia].
    + split; [unfold byte_ok; lia|apply bytesN_b; reflexivity].
    + unfold pool_wf, ex_pool, u64, rational_wf, many, u64. cbn [pp_operator pp_vrf pp_pledge pp_cost pp_margin pp_account pp_owners pp_relays pp_metadata rnum rden opt].
      split; [apply bytesN_b; reflexivity|]. split; [apply bytesN_b; reflexivity|]. split; [lia|]. split; [lia|]. split; [lia|]. split; [apply text_b; reflexivity|].
      split; [split; [constructor; [apply bytesN_b; reflexivity|constructor]|reflexivity]|]. split; [repeat constructor|].
      split; [split; [constructor; [|constructor]|reflexivity]|]. * split; [apply bytesN_b; reflexivity|]. split; [exact I|]. cbn. unfold port_ok. lia. * split; [apply text_b; reflexivity|apply bytesN_b; reflexivity].
    + split; [split; [unfold byte_ok; lia|apply bytesN_b; reflexivity]|apply bytesN_b; reflexivity].
    + split; [apply text_b; reflexivity|lia].
    + lia.
    + apply text_b; reflexivity.
  - unfold ex_l. repeat (apply Forall_cons; [|]); try apply Forall_nil; cbn [truthful ex_utxo u_id u_index u_value]; try exact I; try reflexivity.
    + eexists. reflexivity.
    + eexists. reflexivity.
    + split; [|reflexivity]. cbn [conforming ex_pool pp_owners pp_relays pp_metadata]. split; [discriminate|]. split; [discriminate|]. split; [repeat constructor|discriminate].
    + cbn [ex_node n_min_utxo]. lia.
Qed.
Example C70_ex_signers : forall h, must_sign ex_node ex_l h -> exists k, In k [1; 2; 9; 4] /\ ex_H224 (ex_pub1 k) = h.
Proof.
  intros h M. unfold must_sign, ex_l in M. cbn [In] in M.
  destruct M as [(u & v & I & U)|[(a & v & I & ->)|[(a & p & I & ->)|[(a & I & _)|[(p & e & I & _)|(p & d & I & J)]]]]].
  - destruct I as [I|[I|I]]; [injection I as <-; vm_compute in U; injection U as _ <-; exists 1; split; [left; reflexivity|reflexivity]|injection I as <-; vm_compute in U; injection U as _ <-; exists 2; split; [right; left; reflexivity|reflexivity]|repeat (destruct I as [I|I]; [discriminate I|]); destruct I].
  - do 2 (destruct I as [I|I]; [discriminate I|]). destruct I as [I|I]; [injection I as <- _; exists 9; split; [cbn; tauto|reflexivity]|repeat (destruct I as [I|I]; [discriminate I|]); destruct I].
  - do 5 (destruct I as [I|I]; [discriminate I|]). destruct I as [I|I]; [injection I as <- _; exists 9; split; [cbn; tauto|reflexivity]|repeat (destruct I as [I|I]; [discriminate I|]); destruct I].
  - repeat (destruct I as [I|I]; [discriminate I|]); destruct I.
  - repeat (destruct I as [I|I]; [discriminate I|]); destruct I.
  - do 4 (destruct I as [I|I]; [discriminate I|]). destruct I as [I|I]; [injection I as <- _|repeat (destruct I as [I|I]; [discriminate I|]); destruct I]. destruct J as [->|[<-|[]]]; [exists 9; split; [cbn; tauto|reflexivity]|exists 2; split; [cbn; tauto|reflexivity]].
Qed.
Example C70_ex_run : exists b s, do_calls ex_H ex_pub1 ex_sgn1 10 new_builder (ex_l ++ [Balance (ex_dummies 4) false] ++ map Sign [1; 2; 9; 4]) = Some (Ok b) /\ lovelace (fee_of b) /\
  serialize (tx_ser (b_tx b)) = Ok s /\ zlen s <= n_max_size ex_node /\ map to_amount (outputs b) = [3000000; 102305107].
Proof.
  destruct (do_calls _ _ _ _ _ _) as [[b| |]|] eqn:E; try (exfalso; vm_compute in E; discriminate E). exists b. vm_compute in E. injection E as <-. eexists. split; [reflexivity|].
  split; [vm_compute; split; [discriminate|reflexivity]|]. split; [vm_compute; reflexivity|]. split; [vm_compute; discriminate|reflexivity].
Qed.
(** all hypotheses at once: the example transaction is accepted *)
Example C70_ex : exists b s, do_calls ex_H ex_pub1 ex_sgn1 10 new_builder (ex_l ++ [Balance (ex_dummies 4) false] ++ map Sign [1; 2; 9; 4]) = Some (Ok b) /\ serialize (tx_ser (b_tx b)) = Ok s /\ accepts ex_H ex_H224 ex_verifies ex_node s.
Proof.
  destruct C70_ex_run as (b & s & R & F & S & SZ & _). destruct C70_ex_keys as (K1 & K2 & K3). destruct C70_ex_args as [A1 A2]. exists b, s. split; [exact R|]. split; [exact S|].
  destruct (C70_accepted Z ex_H ex_H224 ex_verifies ex_pub1 ex_sgn1 10%nat ex_l (ex_dummies 4) false [1; 2; 9; 4] b ex_node K1 K2 K3 R) as (s' & S' & AC); try assumption.
  - lia.
  - reflexivity.
  - do 4 (constructor; [split; apply bytesN_b; reflexivity|]). constructor.
  - repeat (constructor; [cbn [In map]; intros Q; repeat (destruct Q as [Q|Q]; [discriminate Q|]); exact Q|]). constructor.
  - intros a I. unfold ex_l in I. cbn [In] in I. repeat (destruct I as [I|I]; [discriminate I|]); destruct I.
  - reflexivity.
  - discriminate.
  - constructor; [|repeat constructor; intros []]. intros [I|[]]. discriminate I.
  - repeat constructor; intros [].
  - vm_compute. discriminate.
  - reflexivity.
  - cbn; lia.
  - cbn; lia.
  - cbn; lia.
  - vm_compute. split; [discriminate|reflexivity].
  - vm_compute. split; [discriminate|reflexivity].
  - exact C70_ex_signers.
  - rewrite S in S'. apply ok_inj in S'. subst s'. apply AC; [exact SZ|reflexivity].
Qed.
(** and a deregistration that is not *)
Example C70_ex_dereg : exists b, do_calls ex_H ex_pub1 ex_sgn1 10 new_builder ((AddStakeDereg ex_account9 :: ex_l) ++ [Balance (ex_dummies 4) false] ++ map Sign [1; 2; 9; 4]) = Some (Ok b) /\ lovelace (fee_of b).
Proof.
  destruct (do_calls _ _ _ _ _ _) as [[b| |]|] eqn:E; try (exfalso; vm_compute in E; discriminate E). exists b. split; [reflexivity|]. vm_compute in E. injection E as <-. vm_compute. split; [discriminate|reflexivity].
Qed.
(** the operator, who owns account 9, did not sign: refused *)
Example C70_ex_unsigned : exists b s, do_calls ex_H ex_pub1 ex_sgn1 10 new_builder (ex_l ++ [Balance (ex_dummies 4) false] ++ map Sign [1; 2; 4]) = Some (Ok b) /\ serialize (tx_ser (b_tx b)) = Ok s /\ ~ accepts ex_H ex_H224 ex_verifies ex_node s.
Proof.
  destruct C70_ex_keys as (K1 & K2 & K3). destruct C70_ex_args as [A1 A2].
  destruct (do_calls ex_H ex_pub1 ex_sgn1 10 new_builder (ex_l ++ [Balance (ex_dummies 4) false] ++ map Sign [1; 2; 4])) as [[b| |]|] eqn:R; try (exfalso; vm_compute in R; discriminate R).
  assert (FB : lovelace (fee_of b)) by (vm_compute in R; injection R as <-; vm_compute; split; [discriminate|reflexivity]).
  destruct (C70_accepted_iff Z ex_H ex_H224 ex_verifies ex_pub1 ex_sgn1 10%nat ex_l (ex_dummies 4) false [1; 2; 4] b ex_node K1 K2 K3 R A1 A2) as (s & S & AC); try exact FB.
  - reflexivity.
  - cbn; lia.
  - constructor; [|repeat constructor; intros []]. intros [I|[]]. discriminate I.
  - repeat constructor; intros [].
  - vm_compute. split; [discriminate|reflexivity].
  - vm_compute. split; [discriminate|reflexivity].
  - exists b, s. split; [reflexivity|]. split; [exact S|]. intros Q. apply AC in Q as (_ & _ & _ & _ & _ & Q). destruct (Q (repeat 9 28)) as (k & I & E).
    + right. left. exists ex_account9, 500000. split; [unfold ex_l; cbn [In]; tauto|reflexivity].
    + destruct I as [<-|[<-|[<-|[]]]]; vm_compute in E; discriminate E.
Qed.
Print Assumptions C70_accepted.
Print Assumptions C70_accepted_iff.
Print Assumptions C70_deregistration_refuted.
Print Assumptions C70_no_ttl_refuted.
