(** Property C74: signing by passing the bytes of a transaction from one party to the next. *)
From Verif Require Import Base BaseLemmas Spec_Cbor Model_Cbor Proof_Cbor Model_Address Spec_Ledger Model_Ledger Proof_Ledger Proof_Ledger2 Model_Tx Spec_Tx Proof_Tx Proof_Tx2 Proof_Tx3 Props_Ledger Props_Tx Props_Wire Props_History Props_Exact Spec_Node Props_Node.
From Coq Require Import Sorted Permutation.
Ltac Zify.zify_post_hook ::= idtac.

(** ** Specification: what a co-signer does, with the calls of the API *)
Section Cosign.
Context {key : Type} (H256 : list Z -> list Z) (pub : key -> list Z) (sgn : key -> list Z -> list Z).
(** TransactionBuilder::fromCBOR on the bytes received, sign with one's own key, serialize *)
Definition cosign (s : list Z) (k : key) : outcome (list Z) :=
  let* b := builder_fromCBOR s in let* b' := sign H256 pub sgn b k in serialize (tx_ser (b_tx b')).
(** one after another *)
Fixpoint passed_round (s : list Z) (ks : list key) : outcome (list Z) :=
  match ks with [] => Ok s | k :: r => let* s' := cosign s k in passed_round s' r end.
End Cosign.

(** ** Lemmas *)
Lemma take_be_app k s n r x : take_be k s = Some (n, r) -> take_be k (s ++ x) = Some (n, r ++ x).
Proof.
  unfold take_be. rewrite app_length. destruct (Nat.ltb_spec (length s) k) as [|L]; [discriminate|]. intros E. injection E as <- <-. destruct (Nat.ltb_spec (length s + length x) k); [lia|].
  rewrite firstn_app, skipn_app. replace (k - length s)%nat with 0%nat by lia. cbn [firstn skipn]. rewrite app_nil_r. reflexivity.
Qed.
Lemma read_arg_app a s n r x : read_arg a s = Some (n, r) -> read_arg a (s ++ x) = Some (n, r ++ x).
Proof. unfold read_arg. destruct (a <? 24); [intros E; injection E as <- <-; reflexivity|]. repeat (destruct (_ =? _); [apply take_be_app|]). discriminate. Qed.
Lemma take_bytes_ext n s y r x : take_bytes n s = Some (y, r) -> take_bytes n (s ++ x) = Some (y, r ++ x).
Proof.
  unfold take_bytes, zlen. rewrite app_length. destruct (Z.ltb_spec (Z.of_nat (length s)) n) as [|L]; [discriminate|]. intros E. injection E as <- <-. destruct (Z.ltb_spec (Z.of_nat (length s + length x)) n); [lia|].
  rewrite firstn_app, skipn_app. replace (Z.to_nat n - length s)%nat with 0%nat by lia. cbn [firstn skipn]. rewrite app_nil_r. reflexivity.
Qed.
Lemma read_many_ext {A} (rd rd' : list Z -> option (A * list Z)) x : (forall s y r, rd s = Some (y, r) -> rd' (s ++ x) = Some (y, r ++ x)) ->
  forall k k' n s l r, (k <= k')%nat -> read_many rd k n s = Some (l, r) -> read_many rd' k' n (s ++ x) = Some (l, r ++ x).
Proof.
  intros X. induction k as [|k IH]; intros k' n s l r L E; cbn [read_many] in E.
  - destruct (n <=? 0) eqn:N; [|discriminate]. injection E as <- <-. destruct k'; cbn [read_many]; rewrite N; reflexivity.
  - destruct k' as [|k']; [lia|]. cbn [read_many]. destruct (n <=? 0); [injection E as <- <-; reflexivity|]. destruct (rd s) as [[y s']|] eqn:R; [|discriminate]. rewrite (X _ _ _ R).
    destruct (read_many rd k (n - 1) s') as [[l' r']|] eqn:M; [|discriminate]. injection E as <- <-. rewrite (IH k' _ _ _ _ ltac:(lia) M). reflexivity.
Qed.
Lemma read_item_ext x f : forall f' s c r, (f <= f')%nat -> read_item f s = Some (c, r) -> read_item f' (s ++ x) = Some (c, r ++ x).
Proof.
  induction f as [|f IH]; intros f' s c r L E; [discriminate|]. destruct f' as [|f']; [lia|]. destruct s as [|b s]; [discriminate|]. cbn [read_item app] in E |- *.
  destruct (read_arg (b mod 32) s) as [[n s']|] eqn:RA; [|discriminate]. rewrite (read_arg_app _ _ _ _ x RA). assert (L' : (f <= f')%nat) by lia. assert (IH' : forall s y r, read_item f s = Some (y, r) -> read_item f' (s ++ x) = Some (y, r ++ x)) by (intros; apply IH; assumption).
  assert (M : forall A (rd rd' : list Z -> option (A * list Z)) (C : list A -> cbor), (forall s y r, rd s = Some (y, r) -> rd' (s ++ x) = Some (y, r ++ x)) ->
    match read_many rd f n s' with None => None | Some (l, s) => Some (C l, s) end = Some (c, r) -> match read_many rd' f' n (s' ++ x) with None => None | Some (l, s) => Some (C l, s) end = Some (c, r ++ x)).
  { intros A rd rd' C X Q. destruct (read_many rd f n s') as [[l r']|] eqn:R; [|discriminate]. injection Q as <- <-. rewrite (read_many_ext rd rd' x X _ f' _ _ _ _ L' R). reflexivity. }
  assert (T : forall C : list Z -> cbor, match take_bytes n s' with None => None | Some (l, s) => Some (C l, s) end = Some (c, r) -> match take_bytes n (s' ++ x) with None => None | Some (l, s) => Some (C l, s) end = Some (c, r ++ x)).
  { intros C Q. destruct (take_bytes n s') as [[l r']|] eqn:R; [|discriminate]. injection Q as <- <-. rewrite (take_bytes_ext _ _ _ _ x R). reflexivity. }
  destruct (b / 32) as [|p|]; [injection E as <- <-; reflexivity| |discriminate].
  destruct p as [[[p|p|]|[p|p|]|]|[[p|p|]|[p|p|]|]|]; try discriminate E; try (apply T; exact E); try (injection E as <- <-; reflexivity).
  - repeat (destruct (_ =? _); [injection E as <- <-; reflexivity|]). discriminate.
  - refine (M _ _ _ CMap _ E). intros s0 [u v] r0 Q. unfold read_pair in *. destruct (read_item f s0) as [[a s1]|] eqn:Q1; [|discriminate]. rewrite (IH' _ _ _ Q1). destruct (read_item f s1) as [[a' s2]|] eqn:Q2; [|discriminate]. rewrite (IH' _ _ _ Q2). injection Q as <- <- <-. reflexivity.
  - destruct (read_item f s') as [[a s1]|] eqn:Q; [|discriminate]. rewrite (IH' _ _ _ Q). injection E as <- <-. reflexivity.
  - exact (M _ _ _ CArray IH' E).
Qed.
(** an item is followed by what follows it *)
Lemma cbor_read_ext s c r x : cbor_read s = Some (c, r) -> cbor_read (s ++ x) = Some (c, r ++ x).
Proof. unfold cbor_read. apply read_item_ext. rewrite app_length. lia. Qed.
Lemma cbor_prefix s s' x x' c c' : cbor_read s = Some (c, []) -> cbor_read s' = Some (c', []) -> s ++ x = s' ++ x' -> s = s' /\ x = x'.
Proof.
  intros E E' Q. pose proof (cbor_read_ext _ _ _ x E) as R. pose proof (cbor_read_ext _ _ _ x' E') as R'. cbn [app] in R, R'. rewrite Q in R. assert (x = x') by congruence. subst x'. split; [|reflexivity]. exact (app_inv_tail _ _ _ Q).
Qed.

Definition plain (t : tx) : Prop := ws_scripts (tx_wits t) = [] /\ ws_bootstrap (tx_wits t) = 0 /\ tx_meta t = false.
Lemma cosign_read {key} H256 (pub : key -> list Z) sgn t s k : body_wf (tx_body t) -> wits_wf (tx_wits t) -> Forall simple_cert (tb_certs (tx_body t)) -> plain t ->
  serialize (tx_ser t) = Ok s -> cosign H256 pub sgn s k = (let* b' := sign H256 pub sgn (builder_of t) k in serialize (tx_ser (b_tx b'))).
Proof.
  intros W WW S (P1 & P2 & P3) E. destruct (C54_transaction_round_trip t W S WW P1 P2 P3) as (s' & E' & D). rewrite E in E'. apply ok_inj in E'. subst s'. unfold cosign, builder_fromCBOR. rewrite D. reflexivity.
Qed.
Lemma sign_of_tx {key} H256 (pub : key -> list Z) sgn b k : (let* b' := sign H256 pub sgn (builder_of (b_tx b)) k in Ok (b_tx b')) = (let* b' := sign H256 pub sgn b k in Ok (b_tx b')).
Proof. unfold sign, make_witness, get_id, body_of, builder_of. cbn [b_tx]. destruct (body_id H256 (tx_body (b_tx b))); reflexivity. Qed.
Lemma sign_ok {key} H256 (pub : key -> list Z) sgn b k : body_wf (tx_body (b_tx b)) -> Forall simple_cert (tb_certs (tx_body (b_tx b))) -> exists b', sign H256 pub sgn b k = Ok b'.
Proof. intros W S. destruct (C54_body_round_trip _ W S) as (s & E & _). unfold sign, make_witness, get_id, body_id, body_of. rewrite E. cbn [bind]. eexists. reflexivity. Qed.
Lemma filter_len {A} (f : A -> bool) l : (length (filter f l) <= length l)%nat. Proof. induction l as [|x l IH]; [reflexivity|]. cbn [filter]. destruct (f x); cbn [length]; lia. Qed.
Lemma sign_keeps {key} H256 (pub : key -> list Z) sgn b k b' : (forall k, bytesN 32 (pub k)) -> (forall k m, bytesN 64 (sgn k m)) -> sign H256 pub sgn b k = Ok b' ->
  wits_wf (tx_wits (b_tx b)) -> plain (b_tx b) -> zlen (witnesses b) + 1 < 2 ^ 64 ->
  tx_body (b_tx b') = tx_body (b_tx b) /\ plain (b_tx b') /\ wits_wf (tx_wits (b_tx b')) /\ zlen (witnesses b') <= zlen (witnesses b) + 1.
Proof.
  intros PB SG E ([V _] & WS & WB) P L. unfold sign in E. apply bind_ok in E as (w & M & E). apply ok_inj in E. subst b'. unfold make_witness in M. apply bind_ok in M as (id & _ & M). apply ok_inj in M. subst w.
  set (kept := filter _ _). assert (K : zlen (kept ++ [(pub k, sgn k id)]) <= zlen (witnesses b) + 1).
  { unfold zlen, witnesses. rewrite app_length. cbn [length]. pose proof (filter_len (fun e => negb (zlist_eqb (fst e) (pub k))) (ws_vkeys (tx_wits (b_tx b)))). fold kept in H. lia. }
  split; [reflexivity|]. split; [exact P|]. split; [|exact K]. split; [|split; [exact WS|exact WB]]. split; [|cbn [set_tx b_tx set_vkeys tx_wits ws_vkeys]; lia].
  cbn [set_tx b_tx set_vkeys tx_wits ws_vkeys]. apply Forall_app. split; [|constructor; [split; [apply PB|apply SG]|constructor]]. apply Forall_forall. intros x I. apply filter_In in I as [I _]. exact (proj1 (Forall_forall _ _) V x I).
Qed.

(** ** Passing the bytes around is signing *)
(** Every party sees only bytes, yet the result is, byte for byte, that of one builder signing with all the keys. *)
Theorem C74_passing_is_signing : forall key H256 (pub : key -> list Z) sgn fuel ks b s,
  (forall k, bytesN 32 (pub k)) -> (forall k m, bytesN 64 (sgn k m)) ->
  body_wf (tx_body (b_tx b)) -> wits_wf (tx_wits (b_tx b)) -> Forall simple_cert (tb_certs (tx_body (b_tx b))) ->
  ws_scripts (tx_wits (b_tx b)) = [] -> ws_bootstrap (tx_wits (b_tx b)) = 0 -> tx_meta (b_tx b) = false -> zlen (witnesses b) + zlen ks < 2 ^ 64 ->
  serialize (tx_ser (b_tx b)) = Ok s ->
  exists b' s', do_calls H256 pub sgn fuel b (map Sign ks) = Some (Ok b') /\ serialize (tx_ser (b_tx b')) = Ok s' /\ passed_round H256 pub sgn s ks = Ok s'.
Proof.
  intros key H256 pub sgn fuel ks. induction ks as [|k ks IH]; intros b s PB SG W WW S P1 P2 P3 L E; [exists b, s; auto|].
  destruct (sign_ok H256 pub sgn b k W S) as (b1 & B1). rewrite zlen_cons in L. pose proof (zlen_nonneg ks).
  destruct (sign_keeps _ _ _ _ _ _ PB SG B1 WW (conj P1 (conj P2 P3)) ltac:(lia)) as (T1 & (Q1 & Q2 & Q3) & WW1 & L1).
  rewrite <- T1 in W, S. destruct (C54_transaction_round_trip (b_tx b1) W S WW1 Q1 Q2 Q3) as (s1 & E1 & _).
  destruct (IH b1 s1 PB SG W WW1 S Q1 Q2 Q3 ltac:(lia) E1) as (b' & s' & R & E' & PR). exists b', s'.
  split; [cbn [map do_calls do_call]; unfold lift; rewrite B1; exact R|]. split; [exact E'|]. cbn [passed_round]. rewrite T1 in W, S. rewrite (cosign_read _ _ _ _ s k W WW S (conj P1 (conj P2 P3)) E).
  pose proof (sign_of_tx H256 pub sgn b k) as X. rewrite B1 in X. cbn [bind] in X. destruct (sign H256 pub sgn (builder_of (b_tx b)) k) as [b1'| |]; cbn [bind] in X; try discriminate. apply ok_inj in X. cbn [bind]. rewrite X, E1. cbn [bind]. exact PR.
Qed.

(** what a history of building, balancing and signing leaves *)
Lemma built {key} H256 (pub : key -> list Z) sgn fuel n l d force ks b :
  (forall k, bytesN 32 (pub k)) -> (forall k m, bytesN 64 (sgn k m)) ->
  do_calls H256 pub sgn fuel new_builder (l ++ [Balance d force] ++ map Sign ks) = Some (Ok b) ->
  Forall call_ok l -> Forall (truthful n) l -> zlen l + zlen ks < 2 ^ 59 -> 0 <= n_min_utxo n <= 1000000 ->
  NoDup (map (fun u => (u_id u, u_index u)) (inputs_in l)) -> NoDup (map (fun w => RewardsAddress_toBytes (fst w)) (withdrawals_in l)) -> lovelace (fee_of b) ->
  body_wf (tx_body (b_tx b)) /\ wits_wf (tx_wits (b_tx b)) /\ plain (b_tx b) /\ tb_certs (tx_body (b_tx b)) = certs_in l /\ tb_metadata_hash (tx_body (b_tx b)) = None /\
  zlen (witnesses b) <= zlen ks /\ (forall v, In v (map fst (witnesses b)) <-> In v (map pub ks)) /\ current H256 pub sgn b.
Proof.
  intros PB SG R OK T LL MU N1 N2 B3. pose proof R as R0. rewrite app_assoc in R. apply do_calls_app in R as (b1 & R1 & R2). apply do_calls_app in R1 as (b0 & _ & RB). cbn [do_calls] in RB. apply rbind_ok in RB as (b1' & RB & E). assert (b1' = b1) by (unfold lift in E; congruence). subst b1'. clear E. cbn [do_call] in RB.
  destruct (C36_frame _ _ _ _ _ RB) as (_ & _ & _ & _ & _ & _ & _ & W0). destruct (C40_sign_many _ _ _ _ _ _ _ _ W0 R2) as (WN & WI & CU & _).
  set (m := [Balance d force] ++ map Sign ks) in *.
  assert (OKm : Forall call_ok m) by (constructor; [exact I|]; apply Forall_forall; intros c J; apply in_map_iff in J as (k & <- & _); exact I).
  assert (Tm : Forall (truthful n) m) by (constructor; [exact I|]; apply Forall_forall; intros c J; apply in_map_iff in J as (k & <- & _); exact I).
  assert (NIL : forall B (f : @call key -> list B), (forall k, f (Sign k) = []) -> f (Balance d force) = [] -> concat (map f m) = []).
  { intros B f F1 F2. unfold m. cbn [app map concat]. rewrite F2. cbn [app]. clear -F1. induction ks as [|k ks IH]; [reflexivity|]. cbn [map concat]. rewrite F1. exact IH. }
  assert (EI : inputs_in (l ++ m) = inputs_in l) by (unfold inputs_in; rewrite map_app, concat_app, (NIL _ _ (fun _ => eq_refl) eq_refl); apply app_nil_r).
  assert (EW : withdrawals_in (l ++ m) = withdrawals_in l) by (unfold withdrawals_in; rewrite map_app, concat_app, (NIL _ _ (fun _ => eq_refl) eq_refl); apply app_nil_r).
  assert (EC : certs_in (l ++ m) = certs_in l) by (unfold certs_in; rewrite map_app, concat_app, (NIL _ _ (fun _ => eq_refl) eq_refl); apply app_nil_r).
  assert (LM : zlen (l ++ m) < 2 ^ 60). { unfold zlen in *. rewrite app_length. unfold m. cbn [app length]. rewrite map_length. lia. }
  destruct (history_asked H256 pub sgn fuel n (l ++ m) b R0 (proj2 (Forall_app _ _ _) (conj OK OKm)) (proj2 (Forall_app _ _ _) (conj T Tm)) MU LM ltac:(rewrite EI; exact N1) ltac:(rewrite EW; exact N2)) as [_ _ AC _ _ _ AM AS AB AH AWF _]. unfold body_of in *.
  assert (VW : Forall vkey_wf (witnesses b)) by (apply Forall_forall; intros w I; destruct (CU w I) as (k & id & _ & ->); split; [apply PB|apply SG]).
  assert (WL : zlen (witnesses b) <= zlen ks). { unfold zlen. apply inj_le. rewrite <- (map_length fst), <- (map_length pub ks). apply NoDup_incl_length; [exact WN|]. intros x I; apply WI; exact I. }
  split; [apply AWF; destruct B3; unfold u64, fee_of in *; lia|]. split.
  { split; [split; [exact VW|unfold witnesses in *; pose proof (zlen_nonneg l); lia]|]. rewrite AS, AB. split; [split; [constructor|reflexivity]|lia]. }
  split; [split; [exact AS|]; split; [exact AB|exact AM]|]. split; [rewrite AC; exact EC|]. split; [exact AH|]. split; [exact WL|]. split; [exact WI|exact CU].
Qed.
Lemma do_calls_join {key} H (pub : key -> list Z) sgn fuel l1 l2 : forall b b1 b', do_calls H pub sgn fuel b l1 = Some (Ok b1) -> do_calls H pub sgn fuel b1 l2 = Some (Ok b') -> do_calls H pub sgn fuel b (l1 ++ l2) = Some (Ok b').
Proof.
  induction l1 as [|c l1 IH]; intros b b1 b' R1 R2; cbn [app do_calls] in *; [unfold lift in R1; assert (b = b1) by congruence; subst; exact R2|]. apply rbind_ok in R1 as (b2 & S & R1). rewrite S. cbn [rbind]. exact (IH b2 b1 b' R1 R2).
Qed.

(** The node accepts what comes back from the last party, whoever signed in whatever order. *)
Theorem C74_accepted : forall key H256 H224 verifies (pub : key -> list Z) sgn fuel l dummies force ks b n,
  (forall k m, verifies (pub k) m (sgn k m) = true) -> (forall k, bytesN 32 (pub k)) -> (forall k m, bytesN 64 (sgn k m)) ->
  (* built and balanced, for as many signatures as are then made *)
  do_calls H256 pub sgn fuel new_builder (l ++ [Balance dummies force]) = Some (Ok b) -> (6 <= fuel)%nat ->
  length dummies = length ks -> Forall vkey_wf dummies -> NoDup (map pub ks) ->
  (* from sound and truthful arguments; no pool is registered *)
  Forall call_ok l -> Forall (truthful n) l -> (forall a, ~ In (AddStakeDereg a) l) -> (forall p d, ~ In (AddPoolReg p d) l) -> zlen l + zlen ks < 2 ^ 59 ->
  inputs_in l <> [] -> NoDup (map (fun u => (u_id u, u_index u)) (inputs_in l)) -> NoDup (map (fun w => RewardsAddress_toBytes (fst w)) (withdrawals_in l)) ->
  n_slot n <= last (ttls_in l) 0 -> last (min_fees_in l) (44, 155381) = (n_fee_a n, n_fee_b n) -> 0 <= n_fee_a n -> 0 <= n_fee_b n -> 0 <= n_min_utxo n <= 1000000 ->
  lovelace (total (map u_value (inputs_in l)) + total (map snd (withdrawals_in l))) -> lovelace (total (deposits_in l)) -> lovelace (fee_of b) ->
  (* by everyone who must *)
  (forall h, must_sign n l h -> exists k, In k ks /\ H224 (pub k) = h) ->
  exists s0 s, serialize (tx_ser (b_tx b)) = Ok s0 /\ passed_round H256 pub sgn s0 ks = Ok s /\
    (zlen s <= n_max_size n -> n_fee_a n * (n_max_size n + 8) + n_fee_b n < 2 ^ 64 -> accepts H256 H224 verifies n s).
Proof.
  intros key H256 H224 verifies pub sgn fuel l d force ks b n VF PB SG R FU LD WD NK OK T ND NP LL NE N1 N2 TTL MF FA FB MU B1 B2 B3 MS. pose proof (zlen_nonneg ks) as K0.
  assert (LL0 : zlen l + zlen (@nil key) < 2 ^ 59) by (rewrite zlen_nil; lia).
  assert (SC : Forall simple_cert (certs_in l)).
  { apply Forall_forall. intros c I. apply in_certs in I as (x & J & I). destruct x; cbn [certs_in map concat app In] in I; try contradiction; destruct I as [<-|[]]; try exact Logic.I; try (destruct (NP _ _ J)). }
  destruct (built H256 pub sgn fuel n l d force [] b PB SG R OK T LL0 MU N1 N2 B3) as (W & WW & (P1 & P2 & P3) & EC & _ & WL & _ & _). rewrite <- EC in SC.
  destruct (C54_transaction_round_trip (b_tx b) W SC WW P1 P2 P3) as (s0 & E0 & _).
  destruct (C74_passing_is_signing key H256 pub sgn fuel ks b s0 PB SG W WW SC P1 P2 P3 ltac:(change (zlen (@nil key)) with 0 in WL; pose proof (zlen_nonneg l); lia) E0) as (b' & s' & R' & E' & PR).
  exists s0, s'. split; [exact E0|]. split; [exact PR|].
  assert (RR : do_calls H256 pub sgn fuel new_builder (l ++ [Balance d force] ++ map Sign ks) = Some (Ok b')) by (rewrite app_assoc; exact (do_calls_join _ _ _ _ _ _ _ _ _ R R')).
  assert (FE : fee_of b' = fee_of b).
  { clear -R'. revert b R'. induction ks as [|k ks IH]; intros b R; cbn [map do_calls] in R; [unfold lift in R; congruence|]. apply rbind_ok in R as (b1 & S & R). rewrite (IH _ R). cbn [do_call] in S. assert (S' : sign H256 pub sgn b k = Ok b1) by (unfold lift in S; congruence). unfold sign in S'. apply bind_ok in S' as (w & _ & S'). apply ok_inj in S'. subst b1. reflexivity. }
  rewrite <- FE in B3.
  destruct (C70_accepted key H256 H224 verifies pub sgn fuel l d force ks b' n VF PB SG RR FU LD WD NK OK T ND LL NE N1 N2 TTL MF FA FB MU B1 B2 B3 MS) as (s & E & A).
  rewrite E' in E. apply ok_inj in E. subst s. exact A.
Qed.

(** ** A pool registration does not survive the passing *)
Definition stripped (c : cert) : cert := match c with PoolReg p => PoolReg (strip_pool p) | c => c end.
Definition readable (c : cert) : Prop := match c with PoolReg p => pp_owners p <> [] | CertNone | GenesisDeleg _ _ _ => False | _ => True end.
Lemma stripped_simple c : readable c -> simple_cert (stripped c). Proof. destruct c; cbn; auto. Qed.
Lemma stripped_wf c : cert_wf c -> cert_wf (stripped c).
Proof. destruct c; cbn [stripped cert_wf]; auto. intros (A1 & A2 & A3 & A4 & A5 & A6 & A7 & A8 & _). unfold pool_wf, strip_pool. cbn. do 8 (split; [assumption|]). split; [split; [constructor|reflexivity]|exact I]. Qed.
Lemma certs_read l : forall cs, Forall cert_wf l -> Forall readable l -> mapM cert_ser l = Ok cs -> mapM (item_des cert_des) cs = Ok (map stripped l).
Proof.
  induction l as [|c l IH]; intros cs W R E; cbn [mapM] in E; [apply ok_inj in E; subst; reflexivity|]. inversion W as [|? ? WC W']; subst. inversion R as [|? ? RC R']; subst.
  apply bind_ok in E as (x & X & E). apply bind_ok in E as (xs & XS & E). apply ok_inj in E. subst cs. cbn [mapM map]. rewrite (IH xs W' R' XS).
  assert (D : item_des cert_des x = Ok (stripped c)); [|rewrite D; reflexivity].
  assert (Q : exists data, x = CArray data /\ cert_des data = Ok (stripped c)); [|destruct Q as (data & -> & D); exact D].
  destruct c; try (apply cert_rt; [exact WC|first [exact I|destruct RC]|exact X]; fail). exact (pool_rt _ _ WC (or_introl RC) X).
Qed.
Lemma written_of t x : txbody_ser (tx_body t) = Ok x -> tx_meta t = false -> body_wf (tx_body t) -> wits_wf (tx_wits t) ->
  exists rest, serialize (tx_ser t) = Ok (131 :: cbor_encode x ++ rest) /\ cbor_read (131 :: cbor_encode x ++ rest) = Some (CArray [x; CMap (wits_map (tx_wits t)); CNull], []) /\ cbor_read (cbor_encode x) = Some (x, []) /\ serialize (txbody_ser (tx_body t)) = Ok (cbor_encode x).
Proof.
  intros X M W WW. pose proof (body_ok _ _ W X) as O1. pose proof (wits_ok _ WW) as O2. exists (cbor_encode (CMap (wits_map (tx_wits t))) ++ cbor_encode CNull).
  assert (E : 131 :: cbor_encode x ++ cbor_encode (CMap (wits_map (tx_wits t))) ++ cbor_encode CNull = cbor_encode (CArray [x; CMap (wits_map (tx_wits t)); CNull])).
  { change (cbor_encode (CArray [x; CMap (wits_map (tx_wits t)); CNull])) with (cbor_head 4 3 ++ cbor_encode x ++ cbor_encode (CMap (wits_map (tx_wits t))) ++ cbor_encode CNull ++ []). rewrite app_nil_r. reflexivity. }
  rewrite E. split; [unfold serialize, tx_ser; rewrite X; cbn [bind]; rewrite M; reflexivity|]. split; [apply encode_denotes; apply ok_array; split; [reflexivity|]; constructor; [exact O1|]; constructor; [exact O2|]; repeat constructor|].
  split; [apply encode_denotes; exact O1|]. unfold serialize. rewrite X. reflexivity.
Qed.
(** the signatures and the body's bytes the node sees *)
Lemma seen t x s sb w : txbody_ser (tx_body t) = Ok x -> plain t -> body_wf (tx_body t) -> wits_wf (tx_wits t) -> serialize (tx_ser t) = Ok s -> is_tx s sb w -> sb = cbor_encode x /\ w_sigs w = ws_vkeys (tx_wits t).
Proof.
  intros X (P1 & P2 & P3) W WW E (body & wits & rest & D & S & DB & _ & _ & _ & _ & _ & _ & _ & _ & K). destruct (written_of t x X P3 W WW) as (rest' & E' & D' & DB' & _). rewrite E in E'. apply ok_inj in E'. rewrite <- E' in D'. rewrite S in E'. injection E' as E'.
  destruct (cbor_prefix _ _ _ _ _ _ DB DB' E') as [-> <-]. split; [reflexivity|]. rewrite D in D'. assert (wits = CMap (wits_map (tx_wits t))) by congruence. subst wits. unfold wits_map in K. rewrite P1, P2 in K. cbn [app Z.ltb Z.compare] in K.
  destruct (ws_vkeys (tx_wits t)) as [|v vs].
  - destruct K as [[K _]|[_ K]]; [exact K|]. destruct K as [[] _].
  - assert (AK : at_key (CMap ([(CUint 0, CArray (map vkey_ser (v :: vs)))] ++ [])) 0 (CArray (map vkey_ser (v :: vs)))) by (split; [left; reflexivity|repeat constructor; intros []]). cbn [app] in AK.
    destruct K as [[_ K]|[_ K]]; [destruct (K _ AK)|]. pose proof (at_key_fun _ _ _ _ AK K) as Q. assert (Q' : map two_bytes (v :: vs) = map two_bytes (w_sigs w)) by (change (map two_bytes (v :: vs)) with (map vkey_ser (v :: vs)); congruence).
    symmetry. apply (map_inj two_bytes); [|exact Q']. intros [? ?] [? ?] Y; unfold two_bytes in Y; cbn [fst snd] in Y; injection Y as -> ->; reflexivity.
Qed.
(** One party registers a pool and signs, another reads the bytes and signs: no error, but what comes out registers the pool without
    relays and metadata, and the first signature is for another body: a node accepts only if the two bodies' bytes, which differ, have the same hash, or the first signature (for the hash of the first body) verifies
    for that of the second. *)
Theorem C74_pool_registration_refuted : forall key H256 H224 verifies (pub : key -> list Z) sgn fuel l dummies force ks b n p dep k0 k,
  (forall k, bytesN 32 (pub k)) -> (forall k m, bytesN 64 (sgn k m)) ->
  do_calls H256 pub sgn fuel new_builder (l ++ [Balance dummies force] ++ map Sign ks) = Some (Ok b) ->
  Forall call_ok l -> Forall (truthful n) l -> In (AddPoolReg p dep) l -> In k0 ks -> pub k0 <> pub k -> zlen l + zlen ks < 2 ^ 59 -> 0 <= n_min_utxo n <= 1000000 ->
  NoDup (map (fun u => (u_id u, u_index u)) (inputs_in l)) -> NoDup (map (fun w => RewardsAddress_toBytes (fst w)) (withdrawals_in l)) -> lovelace (fee_of b) ->
  exists s s' t', serialize (tx_ser (b_tx b)) = Ok s /\ cosign H256 pub sgn s k = Ok s' /\
    (* what the second party signed *)
    deserialize_array tx_des s' = Ok t' /\
    (exists q, In (PoolReg q) (tb_certs (tx_body t')) /\ pp_operator q = pp_operator p /\ pp_relays q = [] /\ pp_metadata q = None) /\ (pp_relays p <> [] /\ pp_metadata p <> None) /\
    exists m m', serialize (txbody_ser (tx_body (b_tx b))) = Ok m /\ serialize (txbody_ser (tx_body t')) = Ok m' /\ m <> m' /\
    (accepts H256 H224 verifies n s' -> H256 m = H256 m' \/ exists k1, pub k1 = pub k0 /\ verifies (pub k0) (H256 m') (sgn k1 (H256 m)) = true).
Proof.
  intros key H256 H224 verifies pub sgn fuel l d force ks b n p dep k0 k PB SG R OK T IP IK NEQ LL MU N1 N2 B3.
  destruct (built H256 pub sgn fuel n l d force ks b PB SG R OK T LL MU N1 N2 B3) as (W & WW & P & EC & MH & WL & WI & CU).
  pose proof (certs_good n l OK T) as (CW & CC & _).
  assert (RD : Forall readable (certs_in l)).
  { apply Forall_forall. intros c I. pose proof (proj1 (Forall_forall _ _) CC c I) as C. apply in_certs in I as (x & J & I). destruct x; cbn [certs_in map concat app In] in I; try contradiction; destruct I as [<-|[]]; try exact Logic.I. exact (proj1 C). }
  assert (IC : In (PoolReg p) (certs_in l)) by (unfold certs_in; apply in_concat; exists [PoolReg p]; split; [apply in_map_iff; exists (AddPoolReg p dep); split; [reflexivity|exact IP]|left; reflexivity]).
  pose proof (proj1 (Forall_forall _ _) CC _ IC) as (_ & CR & _ & CM).
  assert (SER : exists x, txbody_ser (tx_body (b_tx b)) = Ok x /\ exists cs, mapM cert_ser (certs_in l) = Ok cs /\ x = CMap (body_map (tx_body (b_tx b)) cs)).
  { assert (Q : exists cs, mapM cert_ser (certs_in l) = Ok cs).
    { clear -CC. induction (certs_in l) as [|c cl IH]; [eexists; reflexivity|]. inversion CC as [|? ? C CC']; subst. destruct (IH CC') as (cs & E). destruct (cert_conforms c C) as (x & X & _). cbn [mapM]. rewrite X, E. eexists. reflexivity. }
    destruct Q as (cs & Q). exists (CMap (body_map (tx_body (b_tx b)) cs)). split; [apply body_ser; rewrite EC; exact Q|]. exists cs. auto. }
  destruct SER as (x & X & cs & MC & ->). pose proof P as (P1 & P2 & P3). destruct (written_of _ _ X P3 W WW) as (rest & ES & DS & _ & EB). set (s := 131 :: _ ++ rest) in *.
  (* what is read *)
  set (body' := with_certs (tx_body (b_tx b)) (map stripped (certs_in l))). set (t0 := {| tx_body := body'; tx_wits := tx_wits (b_tx b); tx_meta := false |}).
  assert (RE : deserialize_array tx_des s = Ok t0).
  { assert (O : cbor_ok (CArray [CMap (body_map (tx_body (b_tx b)) cs); CMap (wits_map (tx_wits (b_tx b))); CNull])) by (apply ok_array; split; [reflexivity|]; constructor; [exact (body_ok _ _ W X)|]; constructor; [exact (wits_ok _ WW)|]; repeat constructor).
    assert (Q : s = cbor_encode (CArray [CMap (body_map (tx_body (b_tx b)) cs); CMap (wits_map (tx_wits (b_tx b))); CNull])).
    { unfold serialize, tx_ser in ES. rewrite X in ES. cbn [bind] in ES. rewrite P3 in ES. apply ok_inj in ES. symmetry. exact ES. }
    rewrite Q, deser_array by exact O. unfold tx_des. cbn [nth_error as_map]. rewrite (body_des _ _ W), (certs_read _ _ CW RD MC). cbn [bind]. rewrite (wits_des _ WW). cbn [bind]. unfold t0, body', with_certs. destruct (tx_wits (b_tx b)) as [v sc bt]. cbn [ws_vkeys ws_scripts ws_bootstrap] in *. rewrite P1, P2. reflexivity. }
  assert (W' : body_wf body').
  { destruct W as (A1 & A2 & A3 & A4 & A5 & A6 & A7 & A8 & A9). unfold body', body_wf, with_certs. cbn. do 5 (split; [assumption|]). split; [|auto]. rewrite EC in A6. destruct A6 as [_ A6]. split; [|unfold zlen in *; rewrite map_length; exact A6]. apply Forall_forall. intros c I. apply in_map_iff in I as (c' & <- & I). apply stripped_wf. exact (proj1 (Forall_forall _ _) CW c' I). }
  assert (S' : Forall simple_cert (tb_certs body')) by (apply Forall_forall; intros c I; apply in_map_iff in I as (c' & <- & I); apply stripped_simple; exact (proj1 (Forall_forall _ _) RD c' I)).
  destruct (sign_ok H256 pub sgn (builder_of t0) k W' S') as (b2 & B2).
  destruct (sign_keeps _ _ _ _ _ _ PB SG B2 WW (conj P1 (conj P2 eq_refl)) ltac:(change (witnesses (builder_of t0)) with (witnesses b); pose proof (zlen_nonneg l); lia)) as (T2 & PL2 & WW2 & _). pose proof PL2 as (Q1 & Q2 & Q3). change (tx_body (b_tx (builder_of t0))) with body' in T2.
  assert (W2 : body_wf (tx_body (b_tx b2))) by (rewrite T2; exact W'). assert (S2 : Forall simple_cert (tb_certs (tx_body (b_tx b2)))) by (rewrite T2; exact S').
  destruct (C54_transaction_round_trip (b_tx b2) W2 S2 WW2 Q1 Q2 Q3) as (s' & E' & D').
  exists s, s', (b_tx b2). split; [exact ES|]. split; [unfold cosign, builder_fromCBOR; rewrite RE; cbn [bind]; rewrite B2; exact E'|]. split; [exact D'|].
  split; [exists (strip_pool p); rewrite T2; split; [apply in_map_iff; exists (PoolReg p); auto|repeat split]|]. split; [split; assumption|].
  (* the bodies *)
  assert (XB : exists x2, txbody_ser (tx_body (b_tx b2)) = Ok x2) by (destruct (C54_body_round_trip _ W2 S2) as (z & Z1 & _); unfold serialize in Z1; apply bind_ok in Z1 as (y & Y & _); exists y; exact Y). destruct XB as (x2 & X2).
  set (sb := cbor_encode (CMap (body_map (tx_body (b_tx b)) cs))) in *.
  assert (DIFF : sb <> cbor_encode x2).
  { intros Q. assert (E2 : serialize (txbody_ser (tx_body (b_tx b2))) = Ok sb) by (rewrite Q; unfold serialize; rewrite X2; reflexivity). pose proof (body_bytes_exact _ _ _ W W2 EB E2) as Y. apply (f_equal tb_certs) in Y. unfold body_no_v6 in Y. cbn [tb_certs] in Y. rewrite EC, T2 in Y. unfold body', with_certs in Y. cbn [tb_certs] in Y.
    rewrite map_map in Y. apply (ext_in_map Y) in IC. cbn [cert_no_v6 stripped strip_pool] in IC. apply (f_equal (fun c => match c with PoolReg q => pp_metadata q | _ => None end)) in IC. cbn in IC. congruence. }
  exists sb, (cbor_encode x2). split; [exact EB|]. split; [unfold serialize; rewrite X2; reflexivity|]. split; [exact DIFF|].
  (* a node *)
  intros (sb0 & w & IT & V).
  destruct (seen _ _ _ _ _ X2 PL2 W2 WW2 E' IT) as [-> SE]. destruct V as (_ & _ & _ & _ & _ & _ & _ & _ & _ & _ & VS & _).
  assert (IV : In (pub k0) (map fst (witnesses b))) by (apply WI, in_map, IK). apply in_map_iff in IV as ([v g] & EV & IV). cbn [fst] in EV. subst v. destruct (CU _ IV) as (k1 & id & GI & EQ). assert (EK : pub k1 = pub k0) by congruence. assert (EG : g = sgn k1 id) by congruence. subst g. clear EQ.
  assert (IN : In (pub k0, sgn k1 id) (w_sigs w)).
  { rewrite SE. destruct (C40_sign _ _ _ _ _ _ _ B2) as (_ & _ & _ & id2 & _ & _ & _ & _ & KE). apply KE; [exact NEQ|exact IV]. }
  pose proof (VS _ _ IN) as VV. rewrite <- EK in VV. unfold get_id, body_id, body_of in GI. rewrite EB in GI. cbn [bind] in GI. apply ok_inj in GI. subst id.
  destruct (list_eq_dec Z.eq_dec (H256 sb) (H256 (cbor_encode x2))) as [Q|Q]; [left; exact Q|right; exists k1; split; [exact EK|]; rewrite EK in VV; exact VV].
Qed.

(** ** The hypotheses are met *)
Definition ex_l0 : list (@call Z) := [AddInput (ex_utxo 1 600000000); AddInput (ex_utxo 2 7000000); AddWithdrawal ex_account9 500000; AddStakeReg ex_account9 2000000; AddStakeDeleg ex_account9 (ex_hash 4 28);
   AddOutput ex_addr 3000000; SetTtl 1000000; SetChange ex_addr].
Lemma ex_l0_incl : incl ex_l0 ex_l.
Proof. intros c I. unfold ex_l0, ex_l in *. cbn [In] in *. tauto. Qed.
(** three parties sign in turn, the node accepts *)
Example C74_ex : exists b s0 s, do_calls ex_H ex_pub1 ex_sgn1 10 new_builder (ex_l0 ++ [Balance (ex_dummies 3) false]) = Some (Ok b) /\ serialize (tx_ser (b_tx b)) = Ok s0 /\
  passed_round ex_H ex_pub1 ex_sgn1 s0 [9; 1; 2] = Ok s /\ s <> s0 /\ accepts ex_H ex_H224 ex_verifies ex_node s.
Proof.
  destruct C70_ex_keys as (K1 & K2 & K3). destruct C70_ex_args as [A1 A2]. rewrite Forall_forall in A1, A2.
  destruct (do_calls ex_H ex_pub1 ex_sgn1 10 new_builder (ex_l0 ++ [Balance (ex_dummies 3) false])) as [[b| |]|] eqn:R; try (exfalso; vm_compute in R; discriminate R).
  assert (FB : lovelace (fee_of b)) by (vm_compute in R; injection R as <-; vm_compute; split; [discriminate|reflexivity]).
  destruct (C74_accepted Z ex_H ex_H224 ex_verifies ex_pub1 ex_sgn1 10%nat ex_l0 (ex_dummies 3) false [9; 1; 2] b ex_node K1 K2 K3 R) as (s0 & s & E0 & PR & AC); try exact FB.
  - lia.
  - reflexivity.
  - do 3 (constructor; [split; apply bytesN_b; reflexivity|]). constructor.
  - repeat (constructor; [cbn [In map]; intros Q; repeat (destruct Q as [Q|Q]; [discriminate Q|]); exact Q|]). constructor.
  - apply Forall_forall. intros c I. exact (A1 c (ex_l0_incl c I)).
  - apply Forall_forall. intros c I. exact (A2 c (ex_l0_incl c I)).
  - intros a I. unfold ex_l0 in I. cbn [In] in I. repeat (destruct I as [I|I]; [discriminate I|]); destruct I.
  - intros p d I. unfold ex_l0 in I. cbn [In] in I. repeat (destruct I as [I|I]; [discriminate I|]); destruct I.
  - reflexivity.
  - discriminate.
  - constructor; [|repeat constructor; intros []]. intros [I|[]]. discriminate I.
  - repeat constructor; intros [].
  - vm_compute. discriminate.
  - reflexivity.
  - cbn; lia.
  - cbn; lia.
  - cbn; lia.
  - vm_compute. split; [discriminate|reflexivity].
  - vm_compute. split; [discriminate|reflexivity].
  - intros h M. destruct (C70_ex_signers h) as (k & I & E).
    + unfold must_sign in *. pose proof ex_l0_incl as J. destruct M as [(u & v & I & U)|[(a & v & I & U)|[(a & p & I & U)|[(a & I & U)|[(p & e & I & U)|(p & d & I & U)]]]]].
      * left. exists u, v. auto. * right. left. exists a, v. auto. * do 2 right. left. exists a, p. auto. * do 3 right. left. exists a. auto. * do 4 right. left. exists p, e. auto. * do 5 right. exists p, d. auto.
    + destruct I as [<-|[<-|[<-|[<-|[]]]]]; [exists 1|exists 2|exists 9|]; try (split; [cbn; tauto|exact E]).
      (* nobody has to sign with the fourth key *)
      exfalso. unfold must_sign, ex_l0 in M. cbn [In] in M. destruct M as [(u & v & I & U)|[(a & v & I & U)|[(a & p & I & U)|[(a & I & U)|[(p & e & I & U)|(p & d & I & U)]]]]];
        repeat (destruct I as [I|I]; [first [discriminate I|first [injection I as <-|injection I as <- _]; rewrite <- E in U; vm_compute in U; discriminate U]|]); destruct I.
  - exists b, s0, s. split; [reflexivity|]. split; [exact E0|]. split; [exact PR|].
    assert (Q : zlen s <= n_max_size ex_node /\ zlen s0 < zlen s).
    { vm_compute in R. injection R as <-. vm_compute in E0. injection E0 as <-. vm_compute in PR. injection PR as <-. split; [vm_compute; discriminate|vm_compute; reflexivity]. }
    split; [intros ->; lia|]. apply AC; [exact (proj1 Q)|reflexivity].
Qed.
(** the pool registration: the first three sign, the operator reads the bytes and signs *)
Example C74_ex_pool : exists b s s', do_calls ex_H ex_pub1 ex_sgn1 10 new_builder (ex_l ++ [Balance (ex_dummies 4) false] ++ map Sign [1; 2; 4]) = Some (Ok b) /\ lovelace (fee_of b) /\
  In (AddPoolReg ex_pool 500000000) ex_l /\ In 1 [1; 2; 4] /\ ex_pub1 1 <> ex_pub1 9 /\ serialize (tx_ser (b_tx b)) = Ok s /\ cosign ex_H ex_pub1 ex_sgn1 s 9 = Ok s' /\ zlen s < zlen s' + 60.
Proof.
  destruct (do_calls ex_H ex_pub1 ex_sgn1 10 new_builder (ex_l ++ [Balance (ex_dummies 4) false] ++ map Sign [1; 2; 4])) as [[b| |]|] eqn:R; try (exfalso; vm_compute in R; discriminate R).
  vm_compute in R. injection R as <-. eexists _, _, _. split; [reflexivity|]. split; [vm_compute; split; [discriminate|reflexivity]|]. split; [unfold ex_l; cbn [In]; tauto|]. split; [left; reflexivity|]. split; [discriminate|].
  split; [vm_compute; reflexivity|]. split; [vm_compute; reflexivity|]. vm_compute. reflexivity.
Qed.
Print Assumptions C74_passing_is_signing.
Print Assumptions C74_accepted.
Print Assumptions C74_pool_registration_refuted.
