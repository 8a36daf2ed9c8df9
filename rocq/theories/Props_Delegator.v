(** C84: a purse that stakes.  Payments as in C82 that also register the purse's reward account, delegate it and collect its rewards. *)
From Verif Require Import Base BaseLemmas Spec_Cbor Model_Cbor Proof_Cbor Model_Address Spec_Ledger Model_Ledger Proof_Ledger Proof_Ledger2 Model_Tx Spec_Tx Proof_Tx Proof_Tx2 Proof_Tx3 Props_Ledger Props_Tx Props_Wire Props_History Spec_Node Props_Node Props_Fund Props_Fund2 Props_Spend Spec_Purse Props_Purse Spec_Stake Props_Stake Spec_Delegator.
From Coq Require Import Permutation.
Ltac Zify.zify_post_hook ::= idtac.

(** The calls that carry out a plan for the account [a], whose rewards are [v]. *)
Definition stake_calls {key} (n : node) (a : rewards_address) (v : Z) (p : plan) : list (@call key) :=
  (if pl_join p then [AddStakeReg a (n_key_deposit n)] else []) ++ (match pl_pool p with Some q => [AddStakeDeleg a q] | None => [] end) ++ (if pl_collect p then [AddWithdrawal a v] else []).

(** ** Lemmas *)
Definition plan_certs (h : list Z) (p : plan) : list cbor :=
  (if pl_join p then [CArray [CUint 0; CArray [CUint 0; CBytes h]]] else []) ++ (match pl_pool p with Some q => [CArray [CUint 2; CArray [CUint 0; CBytes h]; CBytes q]] | None => [] end).
Section Stake_calls.
Context {key : Type}.
Variables (n : node) (a : rewards_address) (v : Z) (p : plan).
Notation l := (@stake_calls key n a v p).
Lemma stake_inputs : inputs_in l = [].
Proof. unfold stake_calls. destruct (pl_join p), (pl_pool p), (pl_collect p); reflexivity. Qed.
Lemma stake_outputs : outputs_in l = [].
Proof. unfold stake_calls. destruct (pl_join p), (pl_pool p), (pl_collect p); reflexivity. Qed.
Lemma stake_withdrawals : withdrawals_in l = if pl_collect p then [(a, v)] else [].
Proof. unfold stake_calls. destruct (pl_join p), (pl_pool p), (pl_collect p); reflexivity. Qed.
Lemma stake_deposits : deposits_in l = if pl_join p then [n_key_deposit n] else [].
Proof. unfold stake_calls. destruct (pl_join p), (pl_pool p), (pl_collect p); reflexivity. Qed.
Lemma stake_certs : mapM cert_ser (certs_in l) = Ok (plan_certs (ra_hash a) p).
Proof. unfold stake_calls, plan_certs. destruct (pl_join p), (pl_pool p), (pl_collect p); reflexivity. Qed.
Lemma stake_ttl : ttls_in l = [].
Proof. unfold stake_calls. destruct (pl_join p), (pl_pool p), (pl_collect p); reflexivity. Qed.
Lemma stake_min_fee : min_fees_in l = [].
Proof. unfold stake_calls. destruct (pl_join p), (pl_pool p), (pl_collect p); reflexivity. Qed.
Lemma stake_forall (P : @call key -> Prop) : (pl_join p = true -> P (AddStakeReg a (n_key_deposit n))) -> (forall q, pl_pool p = Some q -> P (AddStakeDeleg a q)) -> (pl_collect p = true -> P (AddWithdrawal a v)) -> Forall P l.
Proof. unfold stake_calls. destruct (pl_join p), (pl_pool p) as [q|], (pl_collect p); intros A B C; cbn [app]; repeat (apply Forall_cons; [first [apply A; reflexivity|apply B; reflexivity|apply C; reflexivity]|]); apply Forall_nil. Qed.
Lemma stake_len : 0 <= zlen l <= 3.
Proof. unfold stake_calls, zlen. destruct (pl_join p), (pl_pool p), (pl_collect p); cbn; lia. Qed.
End Stake_calls.
Lemma in_app_calls {key} {B} (f : @call key -> list B) l1 l2 : concat (map f (l1 ++ l2)) = concat (map f l1) ++ concat (map f l2).
Proof. rewrite map_app, concat_app. reflexivity. Qed.

Lemma account_size h : zlen h = 28 -> esz (CArray [CUint 0; CBytes h]) = 32.
Proof. intros E. rewrite esz_array. cbn [map zsum fold_right]. rewrite esz_bytes, esz_uint, E. reflexivity. Qed.
Lemma rest_size x h v p hdr : tb_metadata_hash x = None -> tb_withdrawals x = (if pl_collect p then [(hdr :: h, v)] else []) -> zlen h = 28 -> (forall q, pl_pool p = Some q -> zlen q = 28) ->
  hl (4 + zlen (rest_map x (plan_certs h p))) = 1 /\ zsum (map psz (rest_map x (plan_certs h p))) <= stake_room p.
Proof.
  intros M W E Q. unfold rest_map. rewrite M, W, app_nil_r.
  assert (R : esz (CArray [CUint 0; CArray [CUint 0; CBytes h]]) = 34) by (rewrite esz_array; cbn [map zsum fold_right]; rewrite (account_size h E), esz_uint; reflexivity).
  assert (D : forall q, pl_pool p = Some q -> esz (CArray [CUint 2; CArray [CUint 0; CBytes h]; CBytes q]) = 64) by (intros q QQ; rewrite esz_array; cbn [map zsum fold_right]; rewrite (account_size h E), esz_uint, esz_bytes, (Q q QQ); reflexivity).
  assert (T : psz (CUint 5, CMap (wd_ser [(hdr :: h, v)])) <= 42).
  { unfold psz. cbn [fst snd wd_ser map]. rewrite esz_map. cbn [map zsum fold_right]. unfold psz. cbn [fst snd]. rewrite esz_bytes, !esz_uint. change (hl (zlen [(CBytes (hdr :: h), CUint v)])) with 1. rewrite (zlen_cons hdr h), E. change (hl (28 + 1)) with 2. change (hl 5) with 1. pose proof (hl_range v). lia. }
  assert (C : forall cs, cs <> [] -> (match cs with [] => [] | cs => [(CUint 4, CArray cs)] end) = [(CUint 4, CArray cs)]) by (intros [|]; congruence).
  assert (P : forall cs, psz (CUint 4, CArray cs) = 1 + hl (zlen cs) + zsum (map esz cs)) by (intros cs; unfold psz; cbn [fst snd]; rewrite esz_uint, esz_array; change (hl 4) with 1; lia).
  unfold plan_certs, stake_room. destruct (pl_join p), (pl_pool p) as [q|], (pl_collect p); cbn [app]; rewrite ?C by discriminate; (split; [reflexivity|]); cbn [app map zsum fold_right]; rewrite ?P; cbn [map zsum fold_right]; rewrite ?R, ?(D q eq_refl);
    repeat match goal with |- context [hl (zlen ?z)] => change (hl (zlen z)) with 1 end; lia.
Qed.
Lemma tx_room2 (t : tx) cs extra ins outs change : hl (4 + zlen (rest_map (tx_body t) cs)) = 1 -> zsum (map psz (rest_map (tx_body t) cs)) <= extra -> ws_scripts (tx_wits t) = [] -> ws_bootstrap (tx_wits t) = 0 ->
  Forall (fun i => zlen (ti_id i) = 32) (tb_inputs (tx_body t)) -> zlen (tb_inputs (tx_body t)) = ins -> Forall vkey_wf (ws_vkeys (tx_wits t)) -> forall v,
  base_sz t cs + outs_sz (map (fun o => {| to_addr := fst o; to_amount := snd o |}) outs ++ [{| to_addr := change; to_amount := v |}]) + 5 <= room ins (zlen (ws_vkeys (tx_wits t))) outs change + extra.
Proof.
  intros C W S B I N V v. unfold base_sz. cbv zeta. rewrite C.
  destruct t as [x [vk sc bo] m]. cbn [tx_body tx_wits tx_meta ws_vkeys ws_scripts ws_bootstrap] in *. subst sc bo. pose proof (wits_size vk V) as WS. rewrite esz_array, map_map.
  pose proof (zsum_le_const (fun i => esz (txin_ser i)) 44 (tb_inputs x)) as Q. rewrite Forall_forall in I. specialize (Q (fun i J => txin_size i (I i J))). rewrite N in Q.
  pose proof (hl_range (zlen (map txin_ser (tb_inputs x)))). pose proof (hl_range (tb_ttl x)).
  unfold outs_sz. rewrite map_app, zsum_app. cbn [map zsum fold_right]. rewrite map_map.
  match goal with |- context [hl (zlen ?q)] => lazymatch q with _ ++ _ => pose proof (hl_range (zlen q)) end end.
  pose proof (zsum_le_total (fun o : list Z * Z => osz {| to_addr := fst o; to_amount := snd o |}) (fun o => zlen (fst o) + 19) outs) as O.
  assert (OE : forall o : txout, osz o <= zlen (to_addr o) + 19) by (intros o; rewrite osz_eq; pose proof (hl_range (zlen (to_addr o))); pose proof (hl_range (to_amount o)); lia).
  specialize (O (fun o => OE _)). pose proof (OE {| to_addr := change; to_amount := v |}) as OC. cbn [to_addr] in OC. unfold room. destruct m; lia.
Qed.

(** Certificates and withdrawals of a plan, as the ledger takes them. *)
Definition plain {key} (c : @call key) : Prop := match c with AddInput _ | AddOutput _ _ | SetTtl _ | SetMinFee _ _ | SetChange _ => True | _ => False end.
Lemma all_fine_join {key} r st (l1 l2 : list (@call key)) : all_fine r st l1 -> Forall plain l2 -> all_fine r st (l1 ++ l2).
Proof.
  intros F P. induction l2 as [|c l2 IH] using rev_ind; [rewrite app_nil_r; exact F|]. rewrite app_assoc. apply Forall_app in P as [P PC]. apply all_fine_snoc. split; [apply IH, P|]. inversion PC as [|? ? PC' _]; subst. destruct c; try contradiction; exact I.
Qed.
Lemma all_fine_nil {key} r st : all_fine r st (@nil (@call key)).
Proof. intros [|] ? ? E; discriminate E. Qed.
Lemma emptied_none st w x : st_balance (emptied st w) x = None <-> st_balance st x = None.
Proof. cbn [emptied st_balance]. destruct (st_balance st x); [|split; auto]. destruct (existsb _ w); split; discriminate. Qed.
Lemma plan_fine {key} r st w n a v p : sensible st (ra_hash a) p -> all_fine r (emptied st w) (@stake_calls key n a v p).
Proof.
  intros (S1 & S2 & S3). unfold stake_calls.
  assert (B0 : forall l : list (@call key), balances (ra_hash a) l = [] -> balance_after (emptied st w) l (ra_hash a) = st_balance (emptied st w) (ra_hash a)) by (intros l E; unfold balance_after; rewrite E; reflexivity).
  assert (F1 : all_fine r (emptied st w) (if pl_join p then [@AddStakeReg key a (n_key_deposit n)] else [])).
  { destruct (pl_join p); [|apply all_fine_nil]. apply (all_fine_snoc r _ [] (@AddStakeReg key a (n_key_deposit n))). split; [apply all_fine_nil|]. cbn [fine]. rewrite B0 by reflexivity. apply emptied_none, S1. reflexivity. }
  assert (F2 : all_fine r (emptied st w) ((if pl_join p then [@AddStakeReg key a (n_key_deposit n)] else []) ++ match pl_pool p with Some q => [AddStakeDeleg a q] | None => [] end)).
  { destruct (pl_pool p) as [q|] eqn:EP; [|rewrite app_nil_r; exact F1]. apply all_fine_snoc. split; [exact F1|]. cbn [fine]. destruct (S3 q eq_refl) as (_ & SP & SB). split.
    - destruct (pl_join p).
      + unfold balance_after, balances. cbn [map concat app]. rewrite mine_same. cbn [app last]. discriminate.
      + rewrite B0 by reflexivity. intros X. apply emptied_none in X. destruct SB as [SB|SB]; [discriminate SB|exact (SB X)].
    - unfold pool_after. cbn [emptied st_pool]. destruct (st_pool st q); [discriminate|congruence]. }
  rewrite app_assoc. destruct (pl_collect p); [|rewrite app_nil_r; exact F2]. apply all_fine_snoc. split; [exact F2|exact I].
Qed.
Lemma plan_done {key} st n a v p (pays : list (@call key)) st' : sensible st (ra_hash a) p -> Forall plain pays -> withdrawals_in pays = [] ->
  described (drawn st (stake_calls n a v p ++ pays)) (stake_calls n a v p ++ pays) st' -> done st (ra_hash a) p st'.
Proof.
  intros (S1 & S2 & S3) P W D.
  assert (EB : forall x, balances x (stake_calls n a v p ++ pays) = if pl_join p then mine x (ra_hash a) (Some 0) else []).
  { intros x. unfold balances. rewrite in_app_calls, (concat_none _ pays) by (intros c J; rewrite Forall_forall in P; specialize (P c J); destruct c; try contradiction; reflexivity). rewrite app_nil_r. unfold stake_calls. destruct (pl_join p), (pl_pool p), (pl_collect p); cbn [app map concat]; rewrite ?app_nil_r; reflexivity. }
  assert (ED : forall x, delegations x (stake_calls n a v p ++ pays) = match pl_pool p with Some q => mine x (ra_hash a) (Some q) | None => [] end).
  { intros x. unfold delegations. rewrite in_app_calls, (concat_none _ pays) by (intros c J; rewrite Forall_forall in P; specialize (P c J); destruct c; try contradiction; reflexivity). rewrite app_nil_r. unfold stake_calls. destruct (pl_join p), (pl_pool p), (pl_collect p); cbn [app map concat]; rewrite ?app_nil_r; reflexivity. }
  assert (ER : forall x, registrations x (stake_calls n a v p ++ pays) = []).
  { intros x. unfold registrations. rewrite in_app_calls, (concat_none _ pays) by (intros c J; rewrite Forall_forall in P; specialize (P c J); destruct c; try contradiction; reflexivity). rewrite app_nil_r. unfold stake_calls. destruct (pl_join p), (pl_pool p), (pl_collect p); reflexivity. }
  assert (ET : forall x, retirements x (stake_calls n a v p ++ pays) = []).
  { intros x. unfold retirements. rewrite in_app_calls, (concat_none _ pays) by (intros c J; rewrite Forall_forall in P; specialize (P c J); destruct c; try contradiction; reflexivity). rewrite app_nil_r. unfold stake_calls. destruct (pl_join p), (pl_pool p), (pl_collect p); reflexivity. }
  assert (DR : forall x, st_balance (drawn st (stake_calls n a v p ++ pays)) x = match st_balance st x with Some b => if pl_collect p then (if list_eq_dec Z.eq_dec (ra_hash a) x then Some 0 else Some b) else Some b | None => None end).
  { intros x. unfold drawn. replace (withdrawals_in (stake_calls n a v p ++ pays)) with (if pl_collect p then [(a, v)] else []) by (unfold withdrawals_in; rewrite in_app_calls; fold (withdrawals_in pays); fold (@withdrawals_in key (stake_calls n a v p)); rewrite W, stake_withdrawals, app_nil_r; reflexivity).
    cbn [emptied st_balance]. destruct (st_balance st x); [|reflexivity]. destruct (pl_collect p); [|reflexivity]. cbn [map existsb fst RewardsAddress_toBytes skipn]. destruct (list_eq_dec Z.eq_dec (ra_hash a) x); reflexivity. }
  assert (DD : forall x, st_delegated (drawn st (stake_calls n a v p ++ pays)) x = st_delegated st x) by reflexivity.
  split; [|split; [|split]].
  - destruct (D (ra_hash a)) as (D1 & _). rewrite D1. unfold balance_after. rewrite EB, DR. destruct (pl_join p); [rewrite mine_same; reflexivity|]. cbn [last orb]. destruct (pl_collect p); [|destruct (st_balance st (ra_hash a)); reflexivity].
    destruct (st_balance st (ra_hash a)); [|destruct (S2 eq_refl eq_refl)]. destruct (list_eq_dec Z.eq_dec (ra_hash a) (ra_hash a)); congruence.
  - destruct (D (ra_hash a)) as (_ & D2 & _). rewrite D2. unfold delegated_after. rewrite ED, DD. destruct (pl_pool p); [rewrite mine_same; reflexivity|reflexivity].
  - intros x NE. destruct (D x) as (D1 & D2 & _). rewrite D1, D2. unfold balance_after, delegated_after. rewrite EB, ED, DR, DD. assert (MO : forall A (y : A), mine x (ra_hash a) y = []) by (intros; apply mine_other; congruence).
    split; [|destruct (pl_pool p); rewrite ?MO; reflexivity]. assert (X : (if pl_join p then mine x (ra_hash a) (Some 0) else []) = []) by (destruct (pl_join p); [apply MO|reflexivity]). rewrite X. cbn [last].
    destruct (st_balance st x); [|reflexivity]. destruct (pl_collect p); [|reflexivity]. destruct (list_eq_dec Z.eq_dec (ra_hash a) x); [congruence|reflexivity].
  - intros x. destruct (D x) as (_ & _ & D3 & D4 & D5). rewrite D3, D4, D5. unfold pool_after, next_after, retiring_after, later. rewrite ER, ET. cbn [drawn emptied st_pool st_next st_retiring]. destruct (st_pool st x); cbn [map last tl hd_error]; auto.
Qed.

(** C84: a payment that carries out a plan for the purse's reward account [a], with key [ka]: if the plan makes sense it is built, the ledger takes it and then holds what the plan
    says; the rewards collected come to the purse, the deposit goes from it; all else is as in C82. *)
Theorem C84_pays : forall key H256 H224 verifies (pub : key -> list Z) sgn fuel n r st coins chosen rest outs ttl ks dummies change kc a ka p,
  (forall k m, verifies (pub k) m (sgn k m) = true) -> (forall k, bytesN 32 (pub k)) -> (forall k m, bytesN 64 (sgn k m)) -> (forall x, bytesN 32 (H256 x)) -> (7 <= fuel)%nat ->
  usual n -> 0 <= n_key_deposit n -> holds H224 pub n coins ->
  account_ok a -> ra_hash a = H224 (pub ka) -> n_rewards n (RewardsAddress_toBytes a) = st_balance st (ra_hash a) -> 0 <= pending st (ra_hash a) -> worth coins + pending st (ra_hash a) < 2 ^ 62 ->
  sensible st (ra_hash a) p -> (pl_pool p <> None \/ pl_collect p = true -> In ka ks) ->
  Permutation coins (chosen ++ rest) -> chosen <> [] -> (forall c, In c chosen -> In (snd c) ks) -> NoDup (map pub ks) -> length dummies = length ks -> Forall vkey_wf dummies ->
  Forall (payable n) outs -> n_slot n <= ttl -> u64 ttl -> text_ok change -> payment_part change = H224 (pub kc) ->
  let size := room (zlen chosen) (zlen ks) outs change + stake_room p in size <= n_max_size n ->
  total (map snd outs) + deposited n p + (n_fee_a n * size + n_fee_b n) + 1000000 < worth chosen + collected st (ra_hash a) p ->
  exists b s id v fee, do_calls H256 pub sgn fuel new_builder ((stake_calls n a (pending st (ra_hash a)) p ++ pay_calls n (map fst chosen) outs ttl change) ++ [Balance dummies true] ++ map Sign ks) = Some (Ok b) /\
    serialize (tx_ser (b_tx b)) = Ok s /\ get_id H256 b = Ok id /\ (exists st', admits H256 H224 verifies r n st s st') /\ (forall st', admits H256 H224 verifies r n st s st' -> done st (ra_hash a) p st') /\
    outputs b = map (fun o => {| to_addr := fst o; to_amount := snd o |}) (outs ++ [(change, v)]) /\ fee_of b = fee /\
    v = worth chosen + collected st (ra_hash a) p - total (map snd outs) - deposited n p - fee /\ 1000000 <= v /\ n_fee_a n * zlen s + n_fee_b n <= fee <= n_fee_a n * (zlen s + 4) + n_fee_b n /\
    forall n', applied H256 n s n' -> (forall c, In c coins -> u_id (fst c) <> id) ->
      holds H224 pub n' (({| u_id := id; u_index := zlen outs; u_value := v |}, kc) :: rest) /\
      (forall c, In c chosen -> n_utxo n' (u_id (fst c)) (u_index (fst c)) = None) /\
      (forall i y x, nth_error outs i = Some (y, x) -> n_utxo n' id (Z.of_nat i) = Some (x, payment_part y)) /\
      (forall id' i, id' <> id -> ~ In (id', i) (map place chosen) -> n_utxo n' id' i = n_utxo n id' i).
Proof.
  intros key H256 H224 verifies pub sgn fuel n r st coins chosen rest outs ttl ks d change kc a ka p VF PB SG HB FU (A & B & MU & MX & PR) KD HC0 AO AK AG PN WP SE AKS PE NE KS ND LD WD PY TS TT CT CK size SM CV.
  pose proof (holds_perm _ _ _ _ _ PE HC0) as HC. pose proof (holds_part _ _ _ _ _ HC) as (RC & NC & WC).
  set (h := ra_hash a) in *. set (w := pending st h) in *. set (l1 := @stake_calls key n a w p). set (l2 := @pay_calls key n (map fst chosen) outs ttl change). set (l := l1 ++ l2).
  pose proof (worth_perm _ _ PE) as WPE. rewrite worth_app in WPE. assert (WR : 0 <= worth rest) by (destruct HC as (RA & _); apply Forall_app in RA as [_ RR]; exact (worth_nonneg _ _ _ _ RR)).
  assert (CO : 0 <= collected st h p <= w) by (unfold collected; fold w; destruct (pl_collect p); lia). assert (DE : 0 <= deposited n p) by (unfold deposited; destruct (pl_join p); lia).
  assert (BAL : pl_collect p = true -> st_balance st h = Some w) by (intros E; destruct SE as (_ & S2 & _); specialize (S2 E); unfold w, pending; destruct (st_balance st h); congruence).
  pose proof (worth_nonneg _ _ _ _ RC) as WN1.
  assert (PL : Forall plain l2) by (apply pay_forall; split; [|split; [|repeat split]]; apply Forall_forall; intros; exact I).
  assert (BU : Forall building l) by (apply Forall_app; split; [apply stake_forall; intros; exact I|]; apply pay_forall; split; [|split; [|repeat split]]; apply Forall_forall; intros; exact I).
  assert (OK : Forall call_ok l).
  { apply Forall_app. split; [apply stake_forall; [intros _; exact AO|intros q E; split; [exact AO|exact (proj1 (proj2 (proj2 SE) q E))]|intros E; split; [exact AO|unfold u64; lia]]|]. apply pay_forall. split; [|split; [|split; [|split]]].
    - apply Forall_map. eapply Forall_impl; [|exact RC]. intros c (_ & X & Y & _). split; assumption.
    - eapply Forall_impl; [|exact PY]. intros o (X & Y). split; [exact X|]. unfold lovelace. lia.
    - exact TT.
    - exact I.
    - exact CT. }
  assert (OKO : Forall (fun o => lovelace (to_amount o)) (map (fun o : list Z * Z => {| to_addr := fst o; to_amount := snd o |}) outs)) by (apply Forall_map; eapply Forall_impl; [|exact PY]; intros o (_ & X); unfold lovelace; cbn [to_amount]; lia).
  assert (T : Forall (truthful n) l).
  { apply Forall_app. split; [apply stake_forall; [reflexivity|intros; exact I|intros E; cbn [truthful]; rewrite AG; exact (BAL E)]|]. apply pay_forall. split; [|split; [|repeat split]].
    - apply Forall_map. eapply Forall_impl; [|exact RC]. intros c (X & _). exists (H224 (pub (snd c))). exact X.
    - eapply Forall_impl; [|exact PY]. intros o (_ & X). cbn [truthful]. lia. }
  assert (NDR : forall x, ~ In (AddStakeDereg x) l).
  { intros x J. apply in_app_or in J as [J|J]; [|rewrite Forall_forall in PL; exact (PL _ J)].  assert (X : Forall (fun c => c <> AddStakeDereg x) l1) by (apply stake_forall; discriminate). rewrite Forall_forall in X. exact (X _ J eq_refl). }
  assert (TO : zlen outs <= total (map (fun o : list Z * Z => zlen (fst o) + 19) outs)).
  { clear. induction outs as [|o r IH]; [unfold zlen; cbn; lia|]. rewrite zlen_cons. cbn [map total]. pose proof (zlen_nonneg (fst o)). lia. }
  pose proof (zlen_nonneg chosen) as ZC. pose proof (zlen_nonneg ks) as ZK. pose proof (zlen_nonneg outs) as ZO. pose proof (zlen_nonneg change) as ZH.
  assert (SR : 0 <= stake_room p) by (unfold stake_room; destruct (pl_join p), (pl_pool p), (pl_collect p); lia).
  assert (LEN : zlen chosen + zlen outs + zlen ks <= size) by (unfold size, room; lia).
  assert (LL : zlen l + zlen ks < 2 ^ 59) by (pose proof (@stake_len key n a w p) as SL; fold l1 in SL; unfold l, l2; rewrite zlen_app, pay_len; replace (zlen (map fst chosen)) with (zlen chosen) by (unfold zlen; rewrite map_length; reflexivity); assert ((2:Z) ^ 32 < 2 ^ 58) by reflexivity; assert ((2:Z) ^ 58 + 2 ^ 58 = 2 ^ 59) by reflexivity; lia).
  assert (QI : inputs_in l = map fst chosen) by (unfold inputs_in, l; rewrite in_app_calls; change (inputs_in l1 ++ inputs_in l2 = map fst chosen); unfold l1, l2; rewrite stake_inputs, pay_inputs; reflexivity).
  assert (QO : outputs_in l = map (fun o : list Z * Z => {| to_addr := fst o; to_amount := snd o |}) outs) by (unfold outputs_in, l; rewrite in_app_calls; change (outputs_in l1 ++ outputs_in l2 = map (fun o : list Z * Z => {| to_addr := fst o; to_amount := snd o |}) outs); unfold l1, l2; rewrite stake_outputs, pay_outputs; reflexivity).
  assert (QW : withdrawals_in l = if pl_collect p then [(a, w)] else []) by (unfold withdrawals_in, l; rewrite in_app_calls; change (withdrawals_in l1 ++ withdrawals_in l2 = if pl_collect p then [(a, w)] else []); unfold l1, l2; rewrite stake_withdrawals, pay_withdrawals, app_nil_r; reflexivity).
  assert (QD : deposits_in l = if pl_join p then [n_key_deposit n] else []) by (unfold deposits_in, l; rewrite in_app_calls; change (deposits_in l1 ++ deposits_in l2 = if pl_join p then [n_key_deposit n] else []); unfold l1, l2; rewrite stake_deposits, pay_deposits, app_nil_r; reflexivity).
  assert (QC : certs_in l = certs_in l1) by (unfold certs_in at 1, l; rewrite in_app_calls; change (certs_in l1 ++ certs_in l2 = certs_in l1); unfold l2; rewrite pay_certs, app_nil_r; reflexivity).
  assert (QT : ttls_in l = [ttl]) by (unfold ttls_in, l; rewrite in_app_calls; change (ttls_in l1 ++ ttls_in l2 = [ttl]); unfold l1, l2; rewrite stake_ttl, pay_ttl; reflexivity).
  assert (QM : min_fees_in l = [(n_fee_a n, n_fee_b n)]) by (unfold min_fees_in, l; rewrite in_app_calls; change (min_fees_in l1 ++ min_fees_in l2 = [(n_fee_a n, n_fee_b n)]); unfold l1, l2; rewrite stake_min_fee, pay_min_fee; reflexivity).
  set (pc := plan_certs h p). set (os := map (fun o : list Z * Z => {| to_addr := fst o; to_amount := snd o |}) outs) in *.
  assert (N1 : NoDup (map (fun u => (u_id u, u_index u)) (inputs_in l))) by (rewrite QI, map_map; exact NC).
  assert (N2 : NoDup (map (fun w : rewards_address * Z => RewardsAddress_toBytes (fst w)) (withdrawals_in l))) by (rewrite QW; destruct (pl_collect p); cbn [map]; [constructor; [intros []|constructor]|constructor]).
  pose proof (worth_nonneg _ _ _ _ RC) as WN0.
  destruct (building_runs H256 pub sgn fuel l BU new_builder) as (b0 & R0 & M0). change (b_min_utxo new_builder) with 1000000 in M0.
  pose proof (history_asked _ _ _ _ n l b0 R0 OK T MU ltac:(lia) N1 N2) as AS. assert (BC : b_change b0 = change) by (pose proof R0 as R0c; apply do_calls_app in R0c as (bm & _ & R0c); exact (pay_change _ _ _ _ _ _ _ _ _ _ _ R0c)).
  assert (FA : b_fee_a b0 = n_fee_a n) by (pose proof (as_fees _ _ _ AS) as X; rewrite QM in X; cbn [last] in X; congruence). assert (FB : b_fee_b b0 = n_fee_b n) by (pose proof (as_fees _ _ _ AS) as X; rewrite QM in X; cbn [last] in X; congruence).
  assert (NB : forall d f, ~ In (Balance d f) l) by (intros d' f J; rewrite Forall_forall in BU; exact (BU _ J)).
  destruct (C64_what_was_asked _ _ _ _ _ _ _ R0) as (_ & _ & _ & _ & _ & _ & XO & _). specialize (XO NB). rewrite QO in XO.
  assert (CS : mapM cert_ser (tb_certs (body_of b0)) = Ok pc) by (rewrite (as_certs _ _ _ AS), QC; apply stake_certs).
  assert (MON : total (map u_value (inputs_in l)) + total (map snd (withdrawals_in l)) = worth chosen + collected st h p) by (rewrite QI, QW, worth_total; unfold collected; fold w; destruct (pl_collect p); cbn [map total snd]; lia).
  assert (L1 : lovelace (total (map u_value (inputs_in l)) + total (map snd (withdrawals_in l)))) by (rewrite MON; unfold lovelace; lia).
  assert (PO : 0 <= total (map snd outs)) by (clear -PY MU; induction PY as [|o q [_ X] _ IH]; cbn [map total]; lia).
  assert (FZ : 0 <= n_fee_a n * size) by (apply Z.mul_nonneg_nonneg; [exact A|unfold size, room; lia]).
  assert (TDE : total (deposits_in l) = deposited n p) by (rewrite QD; unfold deposited; destruct (pl_join p); cbn [total]; lia).
  assert (L2 : lovelace (total (deposits_in l))) by (rewrite TDE; unfold lovelace; lia).
  destruct (C39_running_totals _ _ _ _ _ _ _ R0 L1 L2) as [TI TD]. rewrite MON in TI. rewrite TDE in TD.
  set (paid := total (map snd outs)) in *. assert (PD : total (map to_amount os) = paid) by (unfold os, paid; rewrite map_map; reflexivity).
  (* sizes *)
  assert (RM : forall v, sz b0 d pc (os ++ [{| to_addr := change; to_amount := v |}]) <= size).
  { intros v. assert (EL : zlen d = zlen ks) by (unfold zlen; rewrite LD; reflexivity). unfold size. rewrite <- EL. assert (RS : hl (4 + zlen (rest_map (body_of b0) pc)) = 1 /\ zsum (map psz (rest_map (body_of b0) pc)) <= stake_room p).
    { apply (rest_size (body_of b0) h w p (ra_header a)).
      - exact (as_hash _ _ _ AS).
      - pose proof (as_wds _ _ _ AS) as X. rewrite QW in X. destruct (pl_collect p); cbn [map fst snd] in X; apply Permutation_sym in X; [apply Permutation_length_1_inv in X|apply Permutation_nil in X]; exact X.
      - exact (proj2 (proj2 AO)).
      - intros q E. exact (proj2 (proj1 (proj2 (proj2 SE) q E))). }
    apply (tx_room2 (set_vkeys (b_tx b0) d) pc (stake_room p)).
    - exact (proj1 RS).
    - exact (proj2 RS).
    - exact (as_scripts _ _ _ AS).
    - exact (as_boot _ _ _ AS).
    - pose proof (as_ins _ _ _ AS) as X. rewrite QI, map_map in X. apply Forall_forall. intros i J. assert (K : In (ti_id i, ti_index i) (map (fun c : coin => (u_id (fst c), u_index (fst c))) chosen)) by (apply (Permutation_in _ X), in_map_iff; exists i; auto).
      apply in_map_iff in K as (c & E & K). rewrite Forall_forall in RC. destruct (RC c K) as (_ & Y & _). assert (u_id (fst c) = ti_id i) by congruence. rewrite <- H. exact (proj2 Y).
    - pose proof (Permutation_length (as_ins _ _ _ AS)) as X. rewrite QI, !map_length in X. unfold zlen. f_equal. exact X.
    - exact WD. }
  set (n0 := sz b0 d pc os). set (rest0 := worth chosen + collected st h p - paid - deposited n p - (n_fee_a n * n0 + n_fee_b n)). set (n1 := sz b0 d pc (os ++ [to_change b0 rest0])).
  assert (GR : forall v, n0 + zlen change + 3 <= sz b0 d pc (os ++ [to_change b0 v])).
  { intros v. unfold n0, sz, outs_sz. rewrite map_app, zsum_app, zlen_app. cbn [map zsum fold_right]. change (zlen [to_change b0 v]) with 1. pose proof (hl_mono (zlen os) (zlen os + 1) ltac:(lia)). rewrite osz_eq. unfold to_change. cbn [to_addr to_amount]. rewrite BC. pose proof (hl_range (zlen change)). pose proof (hl_range v). lia. }
  assert (N1R : n1 <= size) by (unfold n1, to_change; rewrite BC; apply RM). pose proof (GR rest0) as GR1. fold n1 in GR1. pose proof (sz_pos b0 d pc os) as SP. fold n0 in SP.
  set (v := rest0 - n_fee_a n * (n1 - n0)). set (n2 := sz b0 d pc (os ++ [to_change b0 v])).
  assert (VB : 1000000 < v) by (unfold v, rest0; nia). assert (GP : 0 <= n_fee_a n * (n1 - n0)) by (apply Z.mul_nonneg_nonneg; lia). assert (VR : v <= rest0) by (unfold v; lia).
  assert (LO : left_over b0 n0 = rest0) by (unfold left_over, rest0; rewrite TI, TD, FA, FB; change (tb_outputs (tx_body (b_tx b0))) with (outputs b0) in XO; rewrite XO, PD; lia).
  change (tb_outputs (tx_body (b_tx b0))) with (outputs b0) in XO.
  assert (EB1 : exists b1, balance fuel b0 d true = Some (Ok b1) /\ rebalanced b0 b1 (os ++ [to_change b0 v]) (n_fee_a n * n1 + n_fee_b n)).
  { pose proof (C75_balance_funded fuel b0 d true n0 FU) as X. rewrite XO in X. specialize (X (sized_is b0 d pc os CS)). rewrite FA, FB, M0, BC, LO in X. cbv zeta in X.
    assert (GM : 1000000 + n_fee_a n * (n0 + zlen change + 40) + n_fee_b n < 2 ^ 32) by (assert (n_fee_a n * (n0 + zlen change + 40) <= n_fee_a n * (n_max_size n + 60)) by (apply Z.mul_le_mono_nonneg_l; lia); lia).
    specialize (X A B ltac:(lia) GM OKO ltac:(rewrite TD; lia) ltac:(rewrite TI; lia) ltac:(lia) n1 (sized_is b0 d pc _ CS) n2). fold v in X. specialize (X (sized_is b0 d pc _ CS)).
    destruct X as [X _]. assert (CC : 1000000 < rest0 /\ 1000000 <= v) by lia. exact (proj1 (X CC) (or_introl eq_refl)). }
  destruct EB1 as (b1 & EB1 & RB). set (fee := n_fee_a n * n1 + n_fee_b n) in *.
  assert (C1 : mapM cert_ser (tb_certs (body_of b1)) = Ok pc) by (unfold rebalanced in RB; rewrite RB; exact CS).
  destruct (signing_runs H256 pub sgn fuel ks b1 pc C1) as (b & R2 & BB).
  assert (R : do_calls H256 pub sgn fuel new_builder (l ++ [Balance d true] ++ map Sign ks) = Some (Ok b)).
  { apply (calls_join _ _ _ _ _ _ _ b0); [exact R0|]. cbn [app do_calls do_call]. rewrite EB1. cbn [rbind]. exact R2. }
  assert (OB : outputs b = os ++ [to_change b0 v]) by (unfold outputs; change (tx_body (b_tx b)) with (body_of b); rewrite BB; unfold rebalanced in RB; rewrite RB; reflexivity).
  assert (FO : fee_of b = fee) by (unfold fee_of; change (tx_body (b_tx b)) with (body_of b); rewrite BB; unfold rebalanced in RB; rewrite RB; reflexivity).
  assert (FR : 2 ^ 16 <= fee < 2 ^ 32) by (unfold fee; assert (n_fee_a n * n1 <= n_fee_a n * n_max_size n) by (apply Z.mul_le_mono_nonneg_l; lia); assert (0 <= n_fee_a n * n1) by (apply Z.mul_nonneg_nonneg; lia); lia).
  assert (LF : lovelace (fee_of b)) by (rewrite FO; unfold lovelace; lia).
  assert (MS : forall h, must_sign n l h -> exists k, In k ks /\ H224 (pub k) = h).
  { assert (IN1 : forall c, In c l1 -> match c with AddStakeReg _ _ => True | AddStakeDeleg x q => x = a /\ pl_pool p = Some q | AddWithdrawal x _ => x = a /\ pl_collect p = true | _ => False end) by (apply Forall_forall, stake_forall; auto).
    assert (NO : forall c, In c l2 -> plain c) by (apply Forall_forall; exact PL).
    assert (KA : forall x, x = a -> (pl_pool p <> None \/ pl_collect p = true) -> exists k, In k ks /\ H224 (pub k) = ra_hash x) by (intros x -> E; exists ka; split; [exact (AKS E)|symmetry; exact AK]).
    intros g [(u & x & J & U)|[(x & y & J & ->)|[(x & y & J & ->)|[(x & J & _)|[(x & y & J & _)|(x & y & J & _)]]]]]; [|apply in_app_or in J as [J|J]; [specialize (IN1 _ J); cbv beta iota in IN1|destruct (NO _ J)]..]; try contradiction.
    - apply in_inputs in J. rewrite QI in J. apply in_map_iff in J as (c & <- & J). rewrite Forall_forall in RC. destruct (RC c J) as (X & _). exists (snd c). split; [exact (KS c J)|]. congruence.
    - apply KA; [exact (proj1 IN1)|right; exact (proj2 IN1)].
    - apply KA; [exact (proj1 IN1)|left; destruct IN1 as [_ E]; rewrite E; discriminate]. }
  destruct (C70_accepted key H256 H224 verifies pub sgn fuel l d true ks b n VF PB SG R ltac:(lia) LD WD ND OK T NDR LL) as (s & ES & AC); try assumption.
  { rewrite QI. destruct chosen; [congruence|discriminate]. }
  { rewrite QT. exact TS. }
  { rewrite QM. reflexivity. }
  { lia. }
  destruct (submitted H256 pub sgn fuel n l d true ks b PB SG R OK T LL MU N1 N2 L1 L2 LF) as (b0' & b1' & s' & sb & cs & R0' & RB' & _ & EQ & VW & WN & WI & CU & PI & PW & _ & _ & ES' & EB & ECS & IT & _ & _).
  assert (s' = s) by congruence. subst s'. assert (b0' = b0) by congruence. subst b0'. assert (b1' = b1) by congruence. subst b1'.
  assert (ID : get_id H256 b = Ok (H256 sb)) by (unfold get_id, body_id, body_of; rewrite EB; reflexivity).
  assert (WL : length (witnesses b) = length ks).
  { rewrite <- (map_length fst), <- (map_length pub ks). apply Nat.le_antisymm; apply NoDup_incl_length; try assumption; intros x J; apply WI; exact J. }
  assert (SS : zlen s = n2).
  { assert (X : tx_size (b_tx b) = Ok (zlen s)) by (apply size_of_iff; exists s; auto). rewrite <- EQ in X. rewrite (tx_size_indep _ (witnesses b) d VW WD ltac:(congruence)) in X. rewrite (tx_size_eq (set_vkeys (b_tx b1) d) pc C1) in X.
    unfold rebalanced in RB. rewrite RB in X. change (tx_fee _) with fee in X. rewrite (hl5 fee FR) in X. apply ok_inj in X. rewrite <- X. reflexivity. }
  assert (N12 : n2 <= n1 <= n2 + 4).
  { unfold n1, n2, sz, outs_sz. rewrite !map_app, !zsum_app, !zlen_app. cbn [map zsum fold_right]. change (zlen [to_change b0 rest0]) with 1. change (zlen [to_change b0 v]) with 1. rewrite !osz_eq. unfold to_change. cbn [to_addr to_amount].
    pose proof (hl_mono v rest0 VR). pose proof (hl_range rest0). pose proof (hl_mono (2 ^ 16) v ltac:(lia)) as X. change (hl (2 ^ 16)) with 5 in X. lia. }
  exists b, s, (H256 sb), v, fee. split; [exact R|]. split; [exact ES|]. split; [exact ID|].
  assert (ACC : accepts H256 H224 verifies n s) by (apply AC; [lia|]; assert (n_fee_a n * (n_max_size n + 8) <= n_fee_a n * (n_max_size n + 60)) by (apply Z.mul_le_mono_nonneg_l; lia); lia).
  assert (CF : Forall call_fits l). { apply Forall_app. split; [apply stake_forall; intros; exact I|]. eapply Forall_impl; [|exact PL]. intros c X. destruct c; try contradiction; exact I. }
  destruct (C81_certificates_exact key r (emptied st (map fst (w_wds (wire_of (b_tx b) cs)))) l cs OK CF ECS) as [X1 X2].
  assert (SSS : same_stake (emptied st (map fst (w_wds (wire_of (b_tx b) cs)))) (drawn st l)).
  { apply emptied_perm. intros x. cbn [wire_of w_wds]. pose proof (Permutation_map fst PW) as P0. rewrite map_map in P0. cbn [fst] in P0. split; intros J; [exact (Permutation_in _ P0 J)|exact (Permutation_in _ (Permutation_sym P0) J)]. }
  assert (AD : forall st', admits H256 H224 verifies r n st s st' <-> enact_all r (emptied st (map fst (w_wds (wire_of (b_tx b) cs)))) cs = Some st').
  { intros st'. split.
    - intros (sb' & t & IT' & _ & E). pose proof (is_tx_fun _ _ _ _ _ IT IT') as <-. exact E.
    - intros E. destruct ACC as (sb' & t & IT' & V). pose proof (is_tx_fun _ _ _ _ _ IT IT') as <-. exists sb', (wire_of (b_tx b) cs). auto. }
  split; [|split].
  { assert (F : all_fine r (emptied st (map fst (w_wds (wire_of (b_tx b) cs)))) l) by (apply all_fine_join; [apply plan_fine; exact SE|exact PL]). apply X1 in F. destruct (enact_all r _ cs) as [st'|] eqn:E; [|congruence]. exists st'. apply AD. reflexivity. }
  { intros st' Q. apply AD in Q. apply X2 in Q. apply (same_described _ _ l st' SSS) in Q. apply (plan_done st n a w p l2 st' SE PL); [apply pay_withdrawals|exact Q]. }
  assert (EO : os ++ [to_change b0 v] = map (fun o : list Z * Z => {| to_addr := fst o; to_amount := snd o |}) (outs ++ [(change, v)])) by (unfold os; rewrite map_app; unfold to_change; rewrite BC; reflexivity).
  split; [rewrite OB; exact EO|]. split; [exact FO|]. split; [unfold v, rest0, fee; lia|]. split; [lia|]. split; [rewrite SS; unfold fee; assert (n_fee_a n * n2 <= n_fee_a n * n1) by (apply Z.mul_le_mono_nonneg_l; lia); assert (n_fee_a n * n1 <= n_fee_a n * (n2 + 4)) by (apply Z.mul_le_mono_nonneg_l; lia); lia|].
  intros n' (sb' & t & IT' & AP) FRESH. pose proof (is_tx_body_fun _ _ _ _ _ IT IT') as <-. pose proof (is_tx_fun _ _ _ _ _ IT IT') as <-.
  assert (WO : w_outs (wire_of (b_tx b) cs) = outs ++ [(change, v)]).
  { cbn [wire_of w_outs]. change (tb_outputs (tx_body (b_tx b))) with (outputs b). rewrite OB, EO, map_map. cbn [to_addr to_amount]. rewrite <- (map_id (outs ++ [(change, v)])) at 2. apply map_ext. intros []. reflexivity. }
  assert (INS : forall x, In x (w_ins (wire_of (b_tx b) cs)) <-> In x (map place chosen)).
  { intros x. cbn [wire_of w_ins]. rewrite QI, map_map in PI. split; intros J; [apply (Permutation_in _ PI)|apply (Permutation_in _ (Permutation_sym PI))]; exact J. }
  assert (FR1 : forall c, In c (chosen ++ rest) -> u_id (fst c) <> H256 sb) by (intros c J; apply FRESH, (Permutation_in _ (Permutation_sym PE)), J).
  destruct HC as (RA & NA & WA). apply Forall_app in RA as [_ RR]. rewrite map_app in NA.
  assert (DJ : forall c, In c rest -> ~ In (place c) (map place chosen)).
  { intros c J K. clear -NA J K. induction (map place chosen) as [|x q IH]; [destruct K|]. cbn [app] in NA. inversion NA as [|? ? X Y]; subst. destruct K as [->|K]; [apply X, in_or_app; right; apply in_map; exact J|exact (IH Y K)]. }
  split; [|split; [|split]].
  - split; [|split].
    + constructor.
      * split; [|split; [exact (HB sb)|split; [|cbn [fst u_value]; lia]]].
        -- cbn [fst snd u_id u_index u_value]. rewrite <- CK. apply (proj1 (AP (H256 sb) (zlen outs)) change v eq_refl ZO). rewrite WO. unfold zlen. rewrite Nat2Z.id, nth_error_app2 by lia. rewrite Nat.sub_diag. reflexivity.
        -- cbn [fst u_index]. unfold u64. lia.
      * apply Forall_forall. intros c J. rewrite Forall_forall in RR. destruct (RR c J) as (X & Y). split; [|exact Y]. rewrite <- X. apply (proj2 (proj2 (AP _ _))); [apply FR1, in_or_app; right; exact J|]. intros K. apply (DJ c J), INS, K.
    + cbn [map]. constructor.
      * intros J. apply in_map_iff in J as (c & E & J). apply (FR1 c (in_or_app _ _ _ (or_intror J))). unfold place in E. cbn [fst u_id u_index] in E. congruence.
      * clear -NA. induction (map place chosen) as [|x q IH]; [exact NA|]. cbn [app] in NA. inversion NA; subst. apply IH. assumption.
    + change (worth (({| u_id := H256 sb; u_index := zlen outs; u_value := v |}, kc) :: rest)) with (v + worth rest). rewrite worth_app in WA.
      assert (0 <= paid) by (rewrite <- PD; clear -OKO; induction OKO as [|o r [X _] _ IH]; cbn [map total]; lia). assert (v = worth chosen + collected st h p - paid - deposited n p - fee) by (unfold v, rest0, fee; lia). lia.
  - intros c J. apply (proj1 (proj2 (AP _ _))); [apply FR1, in_or_app; left; exact J|]. apply INS, in_map_iff. exists c. split; [reflexivity|exact J].
  - intros i y x J. apply (proj1 (AP (H256 sb) (Z.of_nat i)) y x eq_refl ltac:(lia)). rewrite WO, Nat2Z.id, nth_error_app1; [exact J|]. apply nth_error_Some. congruence.
  - intros id' i NI NJ. apply (proj2 (proj2 (AP _ _)) NI). intros K. apply NJ, INS, K.
Qed.
Print Assumptions C84_pays.
