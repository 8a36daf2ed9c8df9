(** C82: a purse that pays again and again.  Paying out of any of its coins, to any addresses, with change to a key of its own, keeps the purse real: the node accepts, the coins
    spent are gone, the change is a coin like the others, and the worth of the purse falls by what was paid and the fee, exactly; so in every history of payments, receipts and
    other people's transactions every payment the chosen coins cover succeeds. *)
From Verif Require Import Base BaseLemmas Spec_Cbor Model_Cbor Proof_Cbor Model_Address Spec_Ledger Model_Ledger Proof_Ledger Proof_Ledger2 Model_Tx Spec_Tx Proof_Tx Proof_Tx2 Proof_Tx3 Props_Ledger Props_Tx Props_Wire Props_History Spec_Node Props_Node Props_Fund Props_Fund2 Props_Spend Spec_Purse.
From Coq Require Import Permutation.
Ltac Zify.zify_post_hook ::= idtac.

(** The calls of a payment: the inputs, the outputs, the time to live, the node's fee parameters and the change address. *)
Definition pay_calls {key} (n : node) (ins : list utxo) (outs : list (list Z * Z)) (ttl : Z) (change : list Z) : list (@call key) :=
  map AddInput ins ++ map (fun o => AddOutput (fst o) (snd o)) outs ++ [SetTtl ttl; SetMinFee (n_fee_a n) (n_fee_b n); SetChange change].

(** ** Lemmas *)
Lemma concat_none {A B} (f : A -> list B) l : (forall x, In x l -> f x = []) -> concat (map f l) = [].
Proof. induction l as [|x l IH]; intros E; cbn [map concat]; [reflexivity|]. rewrite (E x (or_introl eq_refl)), IH; [reflexivity|]. intros y I. apply E. right. exact I. Qed.
Lemma concat_one {A B} (f : A -> list B) (g : A -> B) l : (forall x, f x = [g x]) -> concat (map f l) = map g l.
Proof. intros E. induction l as [|x l IH]; cbn [map concat]; [reflexivity|]. rewrite E, IH. reflexivity. Qed.
Section Calls.
Context {key : Type}.
Variables (n : node) (ins : list utxo) (outs : list (list Z * Z)) (ttl : Z) (change : list Z).
Notation l := (@pay_calls key n ins outs ttl change).
Lemma pay_inputs : inputs_in l = ins.
Proof. unfold inputs_in, pay_calls. rewrite !map_app, !concat_app, !map_map. rewrite (concat_one _ (fun u => u)) by reflexivity. rewrite concat_none by reflexivity. cbn [map concat]. rewrite map_id, !app_nil_r. reflexivity. Qed.
Lemma pay_outputs : outputs_in l = map (fun o => {| to_addr := fst o; to_amount := snd o |}) outs.
Proof. unfold outputs_in, pay_calls. rewrite !map_app, !concat_app, !map_map. rewrite concat_none by reflexivity. rewrite (concat_one _ (fun o : list Z * Z => {| to_addr := fst o; to_amount := snd o |})) by reflexivity. cbn [map concat]. rewrite !app_nil_r. reflexivity. Qed.
Lemma pay_withdrawals : withdrawals_in l = [].
Proof. unfold withdrawals_in, pay_calls. rewrite !map_app, !concat_app, !map_map. rewrite !concat_none by reflexivity. reflexivity. Qed.
Lemma pay_deposits : deposits_in l = [].
Proof. unfold deposits_in, pay_calls. rewrite !map_app, !concat_app, !map_map. rewrite !concat_none by reflexivity. reflexivity. Qed.
Lemma pay_certs : certs_in l = [].
Proof. unfold certs_in, pay_calls. rewrite !map_app, !concat_app, !map_map. rewrite !concat_none by reflexivity. reflexivity. Qed.
Lemma pay_ttl : ttls_in l = [ttl].
Proof. unfold ttls_in, pay_calls. rewrite !map_app, !concat_app, !map_map. rewrite !concat_none by reflexivity. reflexivity. Qed.
Lemma pay_min_fee : min_fees_in l = [(n_fee_a n, n_fee_b n)].
Proof. unfold min_fees_in, pay_calls. rewrite !map_app, !concat_app, !map_map. rewrite !concat_none by reflexivity. reflexivity. Qed.
Lemma pay_forall (P : @call key -> Prop) : Forall P l <-> Forall (fun u => P (AddInput u)) ins /\ Forall (fun o => P (AddOutput (fst o) (snd o))) outs /\ P (SetTtl ttl) /\ P (SetMinFee (n_fee_a n) (n_fee_b n)) /\ P (SetChange change).
Proof.
  unfold pay_calls. rewrite !Forall_app, !Forall_map. split.
  - intros (A & B & C). inversion C as [|? ? C1 C']; subst. inversion C' as [|? ? C2 C'']; subst. inversion C'' as [|? ? C3 _]; subst. auto.
  - intros (A & B & C1 & C2 & C3). split; [exact A|]. split; [exact B|]. constructor; [exact C1|]. constructor; [exact C2|]. constructor; [exact C3|constructor].
Qed.
Lemma pay_change H (pub : key -> list Z) sgn fuel b b' : do_calls H pub sgn fuel b l = Some (Ok b') -> b_change b' = change.
Proof.
  unfold pay_calls. rewrite app_assoc. intros R. apply do_calls_app in R as (b1 & _ & R). cbn [do_calls do_call lift rbind] in R. assert (E : forall x y : builder, Some (Ok x) = Some (Ok y) -> x = y) by congruence. apply E in R. subst b'. reflexivity.
Qed.
Lemma pay_len : zlen l = zlen ins + zlen outs + 3.
Proof. unfold pay_calls. rewrite !zlen_app. unfold zlen. rewrite !map_length. cbn [length]. lia. Qed.
End Calls.
(** Sizes. *)
Lemma zsum_le_const {A} (f : A -> Z) k l : (forall x, In x l -> f x <= k) -> zsum (map f l) <= k * zlen l.
Proof.
  induction l as [|x l IH]; intros E; cbn [map zsum fold_right]; [unfold zlen; cbn; lia|]. fold (zsum (map f l)). specialize (IH (fun y I => E y (or_intror I))). specialize (E x (or_introl eq_refl)).
  rewrite zlen_cons. lia.
Qed.
Lemma zsum_le_total {A} (f g : A -> Z) l : (forall x, f x <= g x) -> zsum (map f l) <= total (map g l).
Proof. intros E. induction l as [|x l IH]; cbn [map zsum fold_right total]; [lia|]. fold (zsum (map f l)). specialize (E x). lia. Qed.
Lemma txin_size i : zlen (ti_id i) = 32 -> esz (txin_ser i) <= 44.
Proof. intros E. unfold txin_ser. rewrite esz_array. cbn [map zsum fold_right]. rewrite esz_bytes, esz_uint, E. change (hl 32) with 2. change (hl (zlen [CBytes (ti_id i); CUint (ti_index i)])) with 1. pose proof (hl_range (ti_index i)). lia. Qed.
Lemma vkey_size w : vkey_wf w -> esz (vkey_ser w) <= 101.
Proof. intros [[_ A] [_ B]]. unfold vkey_ser. rewrite esz_array. cbn [map zsum fold_right]. rewrite !esz_bytes, A, B. change (hl 32) with 2. change (hl 64) with 2. change (hl (zlen [CBytes (fst w); CBytes (snd w)])) with 1. lia. Qed.
Lemma wits_size d : Forall vkey_wf d -> esz (witset_ser {| ws_vkeys := d; ws_scripts := []; ws_bootstrap := 0 |}) <= 12 + 101 * zlen d.
Proof.
  intros W.
  assert (E : d = [] \/ witset_ser {| ws_vkeys := d; ws_scripts := []; ws_bootstrap := 0 |} = CMap [(CUint 0, CArray (map vkey_ser d))]) by (destruct d; [left|right]; reflexivity). destruct E as [->|E]; [vm_compute; discriminate|].
  rewrite E, esz_map. change (hl (zlen [(CUint 0, CArray (map vkey_ser d))])) with 1. change (zsum (map psz [(CUint 0, CArray (map vkey_ser d))])) with (esz (CUint 0) + esz (CArray (map vkey_ser d)) + 0). rewrite esz_uint, esz_array, map_map. change (hl 0) with 1.
  pose proof (hl_range (zlen (map vkey_ser d))). pose proof (zsum_le_const (fun w => esz (vkey_ser w)) 101 d) as Q. rewrite Forall_forall in W. specialize (Q (fun w I => vkey_size w (W w I))). lia.
Qed.
Lemma tx_room (t : tx) ins outs change : tb_certs (tx_body t) = [] -> tb_withdrawals (tx_body t) = [] -> tb_metadata_hash (tx_body t) = None -> ws_scripts (tx_wits t) = [] -> ws_bootstrap (tx_wits t) = 0 ->
  Forall (fun i => zlen (ti_id i) = 32) (tb_inputs (tx_body t)) -> zlen (tb_inputs (tx_body t)) = ins -> Forall vkey_wf (ws_vkeys (tx_wits t)) -> forall v,
  base_sz t [] + outs_sz (map (fun o => {| to_addr := fst o; to_amount := snd o |}) outs ++ [{| to_addr := change; to_amount := v |}]) + 5 <= room ins (zlen (ws_vkeys (tx_wits t))) outs change.
Proof.
  intros C W M S B I N V v. unfold base_sz, rest_map. cbv zeta. rewrite W, M. cbn [app]. change (zlen []) with 0. cbn [map zsum fold_right]. change (hl (4 + 0)) with 1.
  destruct t as [x [vk sc bo] m]. cbn [tx_body tx_wits tx_meta ws_vkeys ws_scripts ws_bootstrap] in *. subst sc bo. pose proof (wits_size vk V) as WS. rewrite esz_array, map_map.
  pose proof (zsum_le_const (fun i => esz (txin_ser i)) 44 (tb_inputs x)) as Q. rewrite Forall_forall in I. specialize (Q (fun i J => txin_size i (I i J))). rewrite N in Q.
  pose proof (hl_range (zlen (map txin_ser (tb_inputs x)))). pose proof (hl_range (tb_ttl x)).
  unfold outs_sz. rewrite map_app, zsum_app. cbn [map zsum fold_right]. rewrite map_map.
  match goal with |- context [hl (zlen ?q)] => lazymatch q with _ ++ _ => pose proof (hl_range (zlen q)) end end.
  pose proof (zsum_le_total (fun o : list Z * Z => osz {| to_addr := fst o; to_amount := snd o |}) (fun o => zlen (fst o) + 19) outs) as O.
  assert (OE : forall o : txout, osz o <= zlen (to_addr o) + 19) by (intros o; rewrite osz_eq; pose proof (hl_range (zlen (to_addr o))); pose proof (hl_range (to_amount o)); lia).
  specialize (O (fun o => OE _)). pose proof (OE {| to_addr := change; to_amount := v |}) as OC. cbn [to_addr] in OC. unfold room. destruct m; lia.
Qed.

(** ** One payment *)
Lemma worth_total {key} (cs : list (@coin key)) : worth cs = total (map u_value (map fst cs)).
Proof. unfold worth. rewrite map_map. reflexivity. Qed.
Lemma total_app a b : Spec_Tx.total (a ++ b) = Spec_Tx.total a + Spec_Tx.total b.
Proof. induction a as [|x a IH]; cbn [app Spec_Tx.total]; [reflexivity|]. rewrite IH. lia. Qed.
Lemma worth_app {key} (a b : list (@coin key)) : worth (a ++ b) = worth a + worth b.
Proof. unfold worth. rewrite map_app. apply total_app. Qed.
Lemma worth_perm {key} (a b : list (@coin key)) : Permutation a b -> worth a = worth b.
Proof. unfold worth. induction 1; cbn [map Spec_Tx.total]; lia. Qed.
Lemma worth_nonneg {key} H224 (pub : key -> list Z) n cs : Forall (real H224 pub n) cs -> 0 <= worth cs.
Proof. unfold worth. induction 1 as [|c cs (_ & _ & _ & V) _ IH]; cbn [map Spec_Tx.total]; lia. Qed.
Lemma holds_part {key} H224 (pub : key -> list Z) n a b : holds H224 pub n (a ++ b) -> holds H224 pub n a.
Proof.
  intros (R & N & W). apply Forall_app in R as [R1 R2]. split; [exact R1|]. rewrite worth_app in W. pose proof (worth_nonneg _ _ _ _ R2). split; [|lia].
  rewrite map_app in N. clear -N. induction (map place a) as [|x l IH]; [constructor|]. inversion N as [|? ? I N']; subst. constructor; [intros J; apply I, in_or_app; left; exact J|apply IH; exact N'].
Qed.
Lemma holds_perm {key} H224 (pub : key -> list Z) n a b : Permutation a b -> holds H224 pub n a -> holds H224 pub n b.
Proof. intros P (R & N & W). split; [apply (Permutation_Forall P); exact R|]. split; [apply (Permutation_NoDup (Permutation_map place P)); exact N|rewrite <- (worth_perm _ _ P); exact W]. Qed.

(** C82: a payment out of the coins chosen, signed with their keys: it is built, the node accepts it, and when the node has applied it the purse holds the coins not chosen and
    one coin of change; the coins chosen are gone, the payees have what they were to get, nobody else's outputs change.  The change is what was chosen less what was paid and
    the fee; the fee is the least the node takes, up to 4 bytes' worth. *)
Theorem C82_pays : forall key H256 H224 verifies (pub : key -> list Z) sgn fuel n coins chosen rest outs ttl ks dummies change kc,
  (forall k m, verifies (pub k) m (sgn k m) = true) -> (forall k, bytesN 32 (pub k)) -> (forall k m, bytesN 64 (sgn k m)) -> (forall x, bytesN 32 (H256 x)) -> (7 <= fuel)%nat ->
  usual n -> holds H224 pub n coins ->
  Permutation coins (chosen ++ rest) -> chosen <> [] -> (forall c, In c chosen -> In (snd c) ks) -> NoDup (map pub ks) -> length dummies = length ks -> Forall vkey_wf dummies ->
  Forall (payable n) outs -> n_slot n <= ttl -> u64 ttl -> text_ok change -> payment_part change = H224 (pub kc) ->
  let size := room (zlen chosen) (zlen ks) outs change in size <= n_max_size n ->
  total (map snd outs) + (n_fee_a n * size + n_fee_b n) + 1000000 < worth chosen ->
  exists b s id v fee, do_calls H256 pub sgn fuel new_builder (pay_calls n (map fst chosen) outs ttl change ++ [Balance dummies true] ++ map Sign ks) = Some (Ok b) /\
    serialize (tx_ser (b_tx b)) = Ok s /\ get_id H256 b = Ok id /\ accepts H256 H224 verifies n s /\
    outputs b = map (fun o => {| to_addr := fst o; to_amount := snd o |}) (outs ++ [(change, v)]) /\ fee_of b = fee /\
    v = worth chosen - total (map snd outs) - fee /\ 1000000 <= v /\ n_fee_a n * zlen s + n_fee_b n <= fee <= n_fee_a n * (zlen s + 4) + n_fee_b n /\
    forall n', applied H256 n s n' -> (forall c, In c coins -> u_id (fst c) <> id) ->
      holds H224 pub n' (({| u_id := id; u_index := zlen outs; u_value := v |}, kc) :: rest) /\
      (forall c, In c chosen -> n_utxo n' (u_id (fst c)) (u_index (fst c)) = None) /\
      (forall i a x, nth_error outs i = Some (a, x) -> n_utxo n' id (Z.of_nat i) = Some (x, payment_part a)) /\
      (forall id' i, id' <> id -> ~ In (id', i) (map place chosen) -> n_utxo n' id' i = n_utxo n id' i).
Proof.
  intros key H256 H224 verifies pub sgn fuel n coins chosen rest outs ttl ks d change kc VF PB SG HB FU (A & B & MU & MX & PR) HC0 PE NE KS ND LD WD PY TS TT CT CK size SM CV.
  pose proof (holds_perm _ _ _ _ _ PE HC0) as HC. pose proof (holds_part _ _ _ _ _ HC) as (RC & NC & WC).
  set (l := @pay_calls key n (map fst chosen) outs ttl change).
  assert (BU : Forall building l) by (apply pay_forall; split; [|split; [|repeat split]]; apply Forall_forall; intros; exact I).
  assert (OK : Forall call_ok l).
  { apply pay_forall. split; [|split; [|split; [|split]]].
    - apply Forall_map. eapply Forall_impl; [|exact RC]. intros c (_ & X & Y & _). split; assumption.
    - eapply Forall_impl; [|exact PY]. intros o (X & Y). split; [exact X|]. unfold lovelace. lia.
    - exact TT.
    - exact I.
    - exact CT. }
  assert (OKO : Forall (fun o => lovelace (to_amount o)) (map (fun o : list Z * Z => {| to_addr := fst o; to_amount := snd o |}) outs)) by (apply Forall_map; eapply Forall_impl; [|exact PY]; intros o (_ & X); unfold lovelace; cbn [to_amount]; lia).
  assert (T : Forall (truthful n) l).
  { apply pay_forall. split; [|split; [|repeat split]].
    - apply Forall_map. eapply Forall_impl; [|exact RC]. intros c (X & _). exists (H224 (pub (snd c))). exact X.
    - eapply Forall_impl; [|exact PY]. intros o (_ & X). cbn [truthful]. lia. }
  assert (NDR : forall a, ~ In (AddStakeDereg a) l) by (intros a J; apply (proj1 (Forall_forall (fun c => c <> AddStakeDereg a) l)) in J; [apply J; reflexivity|apply pay_forall; split; [|split; [|repeat split]]; try discriminate; apply Forall_forall; discriminate]).
  assert (TO : zlen outs <= total (map (fun o : list Z * Z => zlen (fst o) + 19) outs)).
  { clear. induction outs as [|o r IH]; [unfold zlen; cbn; lia|]. rewrite zlen_cons. cbn [map total]. pose proof (zlen_nonneg (fst o)). lia. }
  pose proof (zlen_nonneg chosen) as ZC. pose proof (zlen_nonneg ks) as ZK. pose proof (zlen_nonneg outs) as ZO. pose proof (zlen_nonneg change) as ZH.
  assert (LEN : zlen chosen + zlen outs + zlen ks <= size) by (unfold size, room; lia).
  assert (LL : zlen l + zlen ks < 2 ^ 59) by (unfold l; rewrite pay_len; replace (zlen (map fst chosen)) with (zlen chosen) by (unfold zlen; rewrite map_length; reflexivity); assert ((2:Z) ^ 32 < 2 ^ 58) by reflexivity; assert ((2:Z) ^ 58 + 2 ^ 58 = 2 ^ 59) by reflexivity; lia).
  pose proof (@pay_inputs key n (map fst chosen) outs ttl change) as QI. pose proof (@pay_outputs key n (map fst chosen) outs ttl change) as QO. pose proof (@pay_withdrawals key n (map fst chosen) outs ttl change) as QW.
  pose proof (@pay_deposits key n (map fst chosen) outs ttl change) as QD. pose proof (@pay_certs key n (map fst chosen) outs ttl change) as QC. pose proof (@pay_ttl key n (map fst chosen) outs ttl change) as QT. pose proof (@pay_min_fee key n (map fst chosen) outs ttl change) as QM.
  fold l in QI, QO, QW, QD, QC, QT, QM. set (os := map (fun o : list Z * Z => {| to_addr := fst o; to_amount := snd o |}) outs) in *.
  assert (N1 : NoDup (map (fun u => (u_id u, u_index u)) (inputs_in l))) by (rewrite QI, map_map; exact NC).
  assert (N2 : NoDup (map (fun w : rewards_address * Z => RewardsAddress_toBytes (fst w)) (withdrawals_in l))) by (rewrite QW; constructor).
  pose proof (worth_nonneg _ _ _ _ RC) as WN0.
  destruct (building_runs H256 pub sgn fuel l BU new_builder) as (b0 & R0 & M0). change (b_min_utxo new_builder) with 1000000 in M0.
  pose proof (history_asked _ _ _ _ n l b0 R0 OK T MU ltac:(lia) N1 N2) as AS. pose proof (pay_change _ _ _ _ _ _ _ _ _ _ _ R0) as BC.
  assert (FA : b_fee_a b0 = n_fee_a n) by (pose proof (as_fees _ _ _ AS) as X; rewrite QM in X; cbn [last] in X; congruence). assert (FB : b_fee_b b0 = n_fee_b n) by (pose proof (as_fees _ _ _ AS) as X; rewrite QM in X; cbn [last] in X; congruence).
  assert (NB : forall d f, ~ In (Balance d f) l) by (intros d' f J; rewrite Forall_forall in BU; exact (BU _ J)).
  destruct (C64_what_was_asked _ _ _ _ _ _ _ R0) as (_ & _ & _ & _ & _ & _ & XO & _). specialize (XO NB). rewrite QO in XO.
  assert (CS : mapM cert_ser (tb_certs (body_of b0)) = Ok []) by (rewrite (as_certs _ _ _ AS), QC; reflexivity).
  assert (MON : total (map u_value (inputs_in l)) + total (map snd (withdrawals_in l)) = worth chosen) by (rewrite QI, QW, worth_total; cbn [map total]; lia).
  assert (L1 : lovelace (total (map u_value (inputs_in l)) + total (map snd (withdrawals_in l)))) by (rewrite MON; unfold lovelace; lia).
  assert (L2 : lovelace (total (deposits_in l))) by (rewrite QD; unfold lovelace; cbn; lia).
  destruct (C39_running_totals _ _ _ _ _ _ _ R0 L1 L2) as [TI TD]. rewrite MON in TI. rewrite QD in TD. cbn [total] in TD.
  set (paid := total (map snd outs)) in *. assert (PD : total (map to_amount os) = paid) by (unfold os, paid; rewrite map_map; reflexivity).
  (* sizes *)
  assert (RM : forall v, sz b0 d [] (os ++ [{| to_addr := change; to_amount := v |}]) <= size).
  { intros v. assert (EL : zlen d = zlen ks) by (unfold zlen; rewrite LD; reflexivity). unfold size. rewrite <- EL. apply (tx_room (set_vkeys (b_tx b0) d)).
    - change (tb_certs (body_of b0) = []). rewrite (as_certs _ _ _ AS). exact QC.
    - pose proof (as_wds _ _ _ AS) as X. rewrite QW in X. cbn [map] in X. apply Permutation_sym, Permutation_nil in X. exact X.
    - exact (as_hash _ _ _ AS).
    - exact (as_scripts _ _ _ AS).
    - exact (as_boot _ _ _ AS).
    - pose proof (as_ins _ _ _ AS) as X. rewrite QI, map_map in X. apply Forall_forall. intros i J. assert (K : In (ti_id i, ti_index i) (map (fun c : coin => (u_id (fst c), u_index (fst c))) chosen)) by (apply (Permutation_in _ X), in_map_iff; exists i; auto).
      apply in_map_iff in K as (c & E & K). rewrite Forall_forall in RC. destruct (RC c K) as (_ & Y & _). assert (u_id (fst c) = ti_id i) by congruence. rewrite <- H. exact (proj2 Y).
    - pose proof (Permutation_length (as_ins _ _ _ AS)) as X. rewrite QI, !map_length in X. unfold zlen. f_equal. exact X.
    - exact WD. }
  set (n0 := sz b0 d [] os). set (rest0 := worth chosen - paid - (n_fee_a n * n0 + n_fee_b n)). set (n1 := sz b0 d [] (os ++ [to_change b0 rest0])).
  assert (GR : forall v, n0 + zlen change + 3 <= sz b0 d [] (os ++ [to_change b0 v])).
  { intros v. unfold n0, sz, outs_sz. rewrite map_app, zsum_app, zlen_app. cbn [map zsum fold_right]. change (zlen [to_change b0 v]) with 1. pose proof (hl_mono (zlen os) (zlen os + 1) ltac:(lia)). rewrite osz_eq. unfold to_change. cbn [to_addr to_amount]. rewrite BC. pose proof (hl_range (zlen change)). pose proof (hl_range v). lia. }
  assert (N1R : n1 <= size) by (unfold n1, to_change; rewrite BC; apply RM). pose proof (GR rest0) as GR1. fold n1 in GR1. pose proof (sz_pos b0 d [] os) as SP. fold n0 in SP.
  set (v := rest0 - n_fee_a n * (n1 - n0)). set (n2 := sz b0 d [] (os ++ [to_change b0 v])).
  assert (VB : 1000000 < v) by (unfold v, rest0; nia). assert (VR : v <= rest0) by (unfold v; nia).
  assert (LO : left_over b0 n0 = rest0) by (unfold left_over, rest0; rewrite TI, TD, FA, FB; change (tb_outputs (tx_body (b_tx b0))) with (outputs b0) in XO; rewrite XO, PD; lia).
  change (tb_outputs (tx_body (b_tx b0))) with (outputs b0) in XO.
  assert (EB1 : exists b1, balance fuel b0 d true = Some (Ok b1) /\ rebalanced b0 b1 (os ++ [to_change b0 v]) (n_fee_a n * n1 + n_fee_b n)).
  { pose proof (C75_balance_funded fuel b0 d true n0 FU) as X. rewrite XO in X. specialize (X (sized_is b0 d [] os CS)). rewrite FA, FB, M0, BC, LO in X. cbv zeta in X.
    specialize (X A B ltac:(lia) ltac:(nia) OKO ltac:(rewrite TD; lia) ltac:(rewrite TI; lia) ltac:(lia) n1 (sized_is b0 d [] _ CS) n2). fold v in X. specialize (X (sized_is b0 d [] _ CS)).
    destruct X as [X _]. assert (CC : 1000000 < rest0 /\ 1000000 <= v) by lia. exact (proj1 (X CC) (or_introl eq_refl)). }
  destruct EB1 as (b1 & EB1 & RB). set (fee := n_fee_a n * n1 + n_fee_b n) in *.
  assert (C1 : mapM cert_ser (tb_certs (body_of b1)) = Ok []) by (unfold rebalanced in RB; rewrite RB; exact CS).
  destruct (signing_runs H256 pub sgn fuel ks b1 [] C1) as (b & R2 & BB).
  assert (R : do_calls H256 pub sgn fuel new_builder (l ++ [Balance d true] ++ map Sign ks) = Some (Ok b)).
  { apply (calls_join _ _ _ _ _ _ _ b0); [exact R0|]. cbn [app do_calls do_call]. rewrite EB1. cbn [rbind]. exact R2. }
  assert (OB : outputs b = os ++ [to_change b0 v]) by (unfold outputs; change (tx_body (b_tx b)) with (body_of b); rewrite BB; unfold rebalanced in RB; rewrite RB; reflexivity).
  assert (FO : fee_of b = fee) by (unfold fee_of; change (tx_body (b_tx b)) with (body_of b); rewrite BB; unfold rebalanced in RB; rewrite RB; reflexivity).
  assert (FR : 2 ^ 16 <= fee < 2 ^ 32) by (unfold fee; assert (n_fee_a n * n1 <= n_fee_a n * n_max_size n) by (apply Z.mul_le_mono_nonneg_l; lia); assert (0 <= n_fee_a n * n1) by (apply Z.mul_nonneg_nonneg; lia); lia).
  assert (LF : lovelace (fee_of b)) by (rewrite FO; unfold lovelace; lia).
  assert (MS : forall h, must_sign n l h -> exists k, In k ks /\ H224 (pub k) = h).
  { assert (NO : forall c, In c l -> match c with AddInput _ | AddOutput _ _ | SetTtl _ | SetMinFee _ _ | SetChange _ => True | _ => False end) by (apply Forall_forall, pay_forall; split; [|split; [|repeat split]]; apply Forall_forall; intros; exact I).
    intros h [(u & x & J & U)|[(a & x & J & _)|[(a & x & J & _)|[(a & J & _)|[(a & x & J & _)|(a & x & J & _)]]]]]; try (destruct (NO _ J); fail).
    apply in_inputs in J. rewrite QI in J. apply in_map_iff in J as (c & <- & J). rewrite Forall_forall in RC. destruct (RC c J) as (X & _). exists (snd c). split; [exact (KS c J)|]. congruence. }
  destruct (C70_accepted key H256 H224 verifies pub sgn fuel l d true ks b n VF PB SG R ltac:(lia) LD WD ND OK T NDR LL) as (s & ES & AC); try assumption.
  { rewrite QI. destruct chosen; [congruence|discriminate]. }
  { rewrite QT. exact TS. }
  { rewrite QM. reflexivity. }
  { lia. }
  destruct (submitted H256 pub sgn fuel n l d true ks b PB SG R OK T LL MU N1 N2 L1 L2 LF) as (b0' & b1' & s' & sb & cs & R0' & RB' & _ & EQ & VW & WN & WI & CU & PI & _ & _ & _ & ES' & EB & ECS & IT & _ & _).
  assert (s' = s) by congruence. subst s'. assert (b0' = b0) by congruence. subst b0'. assert (b1' = b1) by congruence. subst b1'.
  assert (ID : get_id H256 b = Ok (H256 sb)) by (unfold get_id, body_id, body_of; rewrite EB; reflexivity).
  assert (WL : length (witnesses b) = length ks).
  { rewrite <- (map_length fst), <- (map_length pub ks). apply Nat.le_antisymm; apply NoDup_incl_length; try assumption; intros x J; apply WI; exact J. }
  assert (SS : zlen s = n2).
  { assert (X : tx_size (b_tx b) = Ok (zlen s)) by (apply size_of_iff; exists s; auto). rewrite <- EQ in X. rewrite (tx_size_indep _ (witnesses b) d VW WD ltac:(congruence)) in X. rewrite (tx_size_eq (set_vkeys (b_tx b1) d) [] C1) in X.
    unfold rebalanced in RB. rewrite RB in X. change (tx_fee _) with fee in X. rewrite (hl5 fee FR) in X. apply ok_inj in X. rewrite <- X. reflexivity. }
  assert (N12 : n2 <= n1 <= n2 + 4).
  { unfold n1, n2, sz, outs_sz. rewrite !map_app, !zsum_app, !zlen_app. cbn [map zsum fold_right]. change (zlen [to_change b0 rest0]) with 1. change (zlen [to_change b0 v]) with 1. rewrite !osz_eq. unfold to_change. cbn [to_addr to_amount].
    pose proof (hl_mono v rest0 VR). pose proof (hl_range rest0). pose proof (hl_mono (2 ^ 16) v ltac:(lia)) as X. change (hl (2 ^ 16)) with 5 in X. lia. }
  exists b, s, (H256 sb), v, fee. split; [exact R|]. split; [exact ES|]. split; [exact ID|]. split; [apply AC; [lia|nia]|].
  assert (EO : os ++ [to_change b0 v] = map (fun o : list Z * Z => {| to_addr := fst o; to_amount := snd o |}) (outs ++ [(change, v)])) by (unfold os; rewrite map_app; unfold to_change; rewrite BC; reflexivity).
  split; [rewrite OB; exact EO|]. split; [exact FO|]. split; [unfold v, rest0, fee; lia|]. split; [lia|]. split; [rewrite SS; unfold fee; nia|].
  intros n' (sb' & t & IT' & AP) FRESH. pose proof (is_tx_body_fun _ _ _ _ _ IT IT') as <-. pose proof (is_tx_fun _ _ _ _ _ IT IT') as <-.
  assert (WO : w_outs (wire_of (b_tx b) cs) = outs ++ [(change, v)]).
  { cbn [wire_of w_outs]. change (tb_outputs (tx_body (b_tx b))) with (outputs b). rewrite OB, EO, map_map. cbn [to_addr to_amount]. rewrite <- (map_id (outs ++ [(change, v)])) at 2. apply map_ext. intros []. reflexivity. }
  assert (INS : forall x, In x (w_ins (wire_of (b_tx b) cs)) <-> In x (map place chosen)).
  { intros x. cbn [wire_of w_ins]. rewrite QI, map_map in PI. split; intros J; [apply (Permutation_in _ PI)|apply (Permutation_in _ (Permutation_sym PI))]; exact J. }
  assert (FR1 : forall c, In c (chosen ++ rest) -> u_id (fst c) <> H256 sb) by (intros c J; apply FRESH, (Permutation_in _ (Permutation_sym PE)), J).
  destruct HC as (RA & NA & WA). apply Forall_app in RA as [_ RR]. rewrite map_app in NA.
  assert (DJ : forall c, In c rest -> ~ In (place c) (map place chosen)).
  { intros c J K. clear -NA J K. induction (map place chosen) as [|x q IH]; [destruct K|]. cbn [app] in NA. inversion NA as [|? ? X Y]; subst. destruct K as [->|K]; [apply X, in_or_app; right; apply in_map; exact J|exact (IH Y K)]. }
  split; [|split; [|split]].
  - split; [|split].
    + constructor.
      * split; [|split; [exact (HB sb)|split; [|cbn [fst u_value]; lia]]].
        -- cbn [fst snd u_id u_index u_value]. rewrite <- CK. apply (proj1 (AP (H256 sb) (zlen outs)) change v eq_refl ZO). rewrite WO. unfold zlen. rewrite Nat2Z.id, nth_error_app2 by lia. rewrite Nat.sub_diag. reflexivity.
        -- cbn [fst u_index]. unfold u64. lia.
      * apply Forall_forall. intros c J. rewrite Forall_forall in RR. destruct (RR c J) as (X & Y). split; [|exact Y]. rewrite <- X. apply (proj2 (proj2 (AP _ _))); [apply FR1, in_or_app; right; exact J|]. intros K. apply (DJ c J), INS, K.
    + cbn [map]. constructor.
      * intros J. apply in_map_iff in J as (c & E & J). apply (FR1 c (in_or_app _ _ _ (or_intror J))). unfold place in E. cbn [fst u_id u_index] in E. congruence.
      * clear -NA. induction (map place chosen) as [|x q IH]; [exact NA|]. cbn [app] in NA. inversion NA; subst. apply IH. assumption.
    + change (worth (({| u_id := H256 sb; u_index := zlen outs; u_value := v |}, kc) :: rest)) with (v + worth rest). rewrite worth_app in WA.
      assert (0 <= paid) by (rewrite <- PD; clear -OKO; induction OKO as [|o r [X _] _ IH]; cbn [map total]; lia). assert (v = worth chosen - paid - fee) by (unfold v, rest0, fee; lia). lia.
  - intros c J. apply (proj1 (proj2 (AP _ _))); [apply FR1, in_or_app; left; exact J|]. apply INS, in_map_iff. exists c. split; [reflexivity|exact J].
  - intros i a x J. apply (proj1 (AP (H256 sb) (Z.of_nat i)) a x eq_refl ltac:(lia)). rewrite WO, Nat2Z.id, nth_error_app1; [exact J|]. apply nth_error_Some. congruence.
  - intros id' i NI NJ. apply (proj2 (proj2 (AP _ _)) NI). intros K. apply NJ, INS, K.
Qed.
Print Assumptions C82_pays.
