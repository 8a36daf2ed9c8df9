From Verif Require Import Base BaseLemmas Model_Hex Proof_Hex Spec_Cbor Model_Cbor Proof_Cbor Model_Address Model_Ledger Spec_Ledger Proof_Ledger Proof_Ledger2 Model_Tx.
Ltac Zify.zify_post_hook ::= idtac.

(** ** Sizes *)
Definition hl (n : Z) : Z := if n <? 24 then 1 else if n <? 2 ^ 8 then 2 else if n <? 2 ^ 16 then 3 else if n <? 2 ^ 32 then 5 else 9.
Lemma head_zlen m n : zlen (cbor_head m n) = hl n.
Proof. unfold zlen, hl. rewrite head_len. repeat (destruct (_ <? _); [reflexivity|]). reflexivity. Qed.
Lemma hl_range n : 1 <= hl n <= 9.
Proof. unfold hl. repeat (destruct (_ <? _); [lia|]). lia. Qed.
Lemma hl_mono m n : m <= n -> hl m <= hl n.
Proof.
  intros L. unfold hl.
  destruct (Z.ltb_spec m 24), (Z.ltb_spec m (2 ^ 8)), (Z.ltb_spec m (2 ^ 16)), (Z.ltb_spec m (2 ^ 32)), (Z.ltb_spec n 24), (Z.ltb_spec n (2 ^ 8)), (Z.ltb_spec n (2 ^ 16)), (Z.ltb_spec n (2 ^ 32)); lia.
Qed.
Definition zsum (l : list Z) : Z := fold_right Z.add 0 l.
Lemma zsum_app a b : zsum (a ++ b) = zsum a + zsum b.
Proof. induction a as [|x a IH]; cbn [app zsum fold_right]; [reflexivity|]. unfold zsum in *. rewrite IH. lia. Qed.
Lemma zsum_nonneg l : Forall (fun x => 0 <= x) l -> 0 <= zsum l.
Proof. induction 1 as [|x l H _ IH]; cbn [zsum fold_right]; [lia|]. unfold zsum in IH. lia. Qed.
Definition esz (c : cbor) : Z := zlen (cbor_encode c).
Definition psz (p : cbor * cbor) : Z := esz (fst p) + esz (snd p).
Lemma esz_uint n : esz (CUint n) = hl n. Proof. apply head_zlen. Qed.
Lemma esz_bytes b : esz (CBytes b) = hl (zlen b) + zlen b. Proof. unfold esz. cbn [cbor_encode]. rewrite zlen_app, head_zlen. reflexivity. Qed.
Lemma esz_array l : esz (CArray l) = hl (zlen l) + zsum (map esz l).
Proof.
  unfold esz. cbn [cbor_encode]. rewrite zlen_app, head_zlen. f_equal. induction l as [|x l IH]; cbn [map concat zsum fold_right]; [reflexivity|].
  rewrite zlen_app, IH. reflexivity.
Qed.
Lemma esz_map l : esz (CMap l) = hl (zlen l) + zsum (map psz l).
Proof.
  unfold esz. cbn [cbor_encode]. rewrite zlen_app, head_zlen. f_equal. induction l as [|[a b] l IH]; cbn [map concat zsum fold_right]; [reflexivity|].
  rewrite !zlen_app, IH. reflexivity.
Qed.
Lemma esz_pos c : 1 <= esz c. Proof. unfold esz, zlen. pose proof (encode_length c). lia. Qed.
Definition osz (o : txout) : Z := esz (txout_ser o).
Lemma osz_eq o : osz o = 1 + (hl (zlen (to_addr o)) + zlen (to_addr o)) + hl (to_amount o).
Proof. unfold osz, txout_ser. rewrite esz_array. cbn [map zsum fold_right]. rewrite esz_bytes, esz_uint. change (hl (zlen [CBytes (to_addr o); CUint (to_amount o)])) with 1. lia. Qed.

(** everything but the outputs and the fee *)
Definition rest_map (x : txbody) (cs : list cbor) : list (cbor * cbor) :=
  match cs with [] => [] | cs => [(CUint 4, CArray cs)] end
  ++ match tb_withdrawals x with [] => [] | w => [(CUint 5, CMap (wd_ser w))] end
  ++ match tb_metadata_hash x with None => [] | Some h => [(CUint 7, CBytes h)] end.
Definition base_sz (t : tx) (cs : list cbor) : Z :=
  let x := tx_body t in
  1 + (hl (4 + zlen (rest_map x cs)) + (1 + esz (CArray (map txin_ser (tb_inputs x)))) + 1 + 1 + (1 + hl (tb_ttl x)) + zsum (map psz (rest_map x cs)))
  + esz (witset_ser (tx_wits t)) + (if tx_meta t then 0 else 1).
Definition outs_sz (l : list txout) : Z := hl (zlen l) + zsum (map osz l).
Lemma tx_size_eq t cs : mapM cert_ser (tb_certs (tx_body t)) = Ok cs -> tx_size t = Ok (base_sz t cs + outs_sz (tb_outputs (tx_body t)) + hl (tx_fee t)).
Proof.
  intros E. unfold tx_size, serialize, tx_ser. rewrite (body_ser _ _ E). cbn [bind]. f_equal. change (zlen (cbor_encode ?c)) with (esz c). rewrite esz_array.
  assert (B : esz (CMap (body_map (tx_body t) cs)) = hl (4 + zlen (rest_map (tx_body t) cs)) + (1 + esz (CArray (map txin_ser (tb_inputs (tx_body t))))) + (1 + outs_sz (tb_outputs (tx_body t))) + (1 + hl (tx_fee t)) + (1 + hl (tb_ttl (tx_body t))) + zsum (map psz (rest_map (tx_body t) cs))).
  { rewrite esz_map. unfold body_map. fold (rest_map (tx_body t) cs). rewrite map_app, zsum_app, zlen_app. cbn [map zsum fold_right]. unfold psz at 1 2 3 4. cbn [fst snd]. rewrite !esz_uint.
    change (zlen [(CUint 0, CArray (map txin_ser (tb_inputs (tx_body t)))); (CUint 1, CArray (map txout_ser (tb_outputs (tx_body t)))); (CUint 2, CUint (tb_fee (tx_body t))); (CUint 3, CUint (tb_ttl (tx_body t)))]) with 4.
    rewrite (esz_array (map txout_ser _)), map_map. unfold zlen at 2. rewrite map_length. change (fun x => esz (txout_ser x)) with osz. unfold outs_sz. change (Z.of_nat (length (tb_outputs (tx_body t)))) with (zlen (tb_outputs (tx_body t))).
    change (hl 0) with 1. change (hl 1) with 1. change (hl 2) with 1. change (hl 3) with 1. unfold tx_fee. lia. }
  unfold base_sz. cbv zeta. destruct (tx_meta t); cbn [app map zsum fold_right].
  - rewrite B. change (hl (zlen [CMap (body_map (tx_body t) cs); witset_ser (tx_wits t)])) with 1. lia.
  - rewrite B. change (hl (zlen [CMap (body_map (tx_body t) cs); witset_ser (tx_wits t); CNull])) with 1. change (esz CNull) with 1. lia.
Qed.
Lemma tx_size_inv t n : tx_size t = Ok n -> exists cs, mapM cert_ser (tb_certs (tx_body t)) = Ok cs /\ n = base_sz t cs + outs_sz (tb_outputs (tx_body t)) + hl (tx_fee t).
Proof.
  intros H. assert (X : exists cs, mapM cert_ser (tb_certs (tx_body t)) = Ok cs).
  { unfold tx_size, serialize, tx_ser, txbody_ser in H. destruct (mapM cert_ser (tb_certs (tx_body t))) as [cs| |]; [eexists; reflexivity|discriminate|discriminate]. }
  destruct X as [cs E]. exists cs. split; [exact E|]. rewrite (tx_size_eq t cs E) in H. congruence.
Qed.
(** Witness contents do not matter *)
Lemma vkey_sz v : vkey_wf v -> esz (vkey_ser v) = 101.
Proof.
  intros [[_ K] [_ S]]. unfold vkey_ser. rewrite esz_array. cbn [map zsum fold_right]. rewrite !esz_bytes, K, S. reflexivity.
Qed.
Lemma vkeys_sz d : Forall vkey_wf d -> zsum (map esz (map vkey_ser d)) = 101 * zlen d.
Proof. induction 1 as [|v d W _ IH]; [reflexivity|]. cbn [map zsum fold_right]. unfold zsum in IH. rewrite IH, vkey_sz by exact W. rewrite zlen_cons. lia. Qed.
Lemma wits_sz_indep w d d' : Forall vkey_wf d -> Forall vkey_wf d' -> length d = length d' ->
  esz (witset_ser {| ws_vkeys := d; ws_scripts := ws_scripts w; ws_bootstrap := ws_bootstrap w |}) = esz (witset_ser {| ws_vkeys := d'; ws_scripts := ws_scripts w; ws_bootstrap := ws_bootstrap w |}).
Proof.
  intros W W' L. unfold witset_ser. cbn [ws_vkeys ws_scripts ws_bootstrap]. rewrite !esz_map, !zlen_app, !map_app, !zsum_app.
  destruct d as [|v e], d' as [|v' e']; try discriminate; [reflexivity|].
  assert (X : forall d, Forall vkey_wf d -> zsum (map psz [(CUint 0, CArray (map vkey_ser d))]) = 1 + (hl (zlen d) + 101 * zlen d)).
  { intros d F. change (zsum (map psz [(CUint 0, CArray (map vkey_ser d))])) with (esz (CUint 0) + esz (CArray (map vkey_ser d)) + 0). rewrite esz_uint, esz_array, vkeys_sz by exact F. unfold zlen. rewrite map_length. change (hl 0) with 1. lia. }
  rewrite (X _ W), (X _ W'). assert (LZ : zlen (v :: e) = zlen (v' :: e')) by (unfold zlen; rewrite L; reflexivity). rewrite LZ. reflexivity.
Qed.
Lemma tx_size_indep t d d' : Forall vkey_wf d -> Forall vkey_wf d' -> length d = length d' -> tx_size (set_vkeys t d) = tx_size (set_vkeys t d').
Proof.
  intros W W' L. destruct (mapM cert_ser (tb_certs (tx_body t))) as [cs| |] eqn:E.
  - rewrite (tx_size_eq (set_vkeys t d) cs E), (tx_size_eq (set_vkeys t d') cs E). f_equal. unfold base_sz, set_vkeys. cbn [tx_body tx_wits tx_meta]. rewrite (wits_sz_indep (tx_wits t) d d' W W' L). reflexivity.
  - unfold tx_size, serialize, tx_ser, txbody_ser, set_vkeys. cbn [tx_body]. rewrite E. reflexivity.
  - unfold tx_size, serialize, tx_ser, txbody_ser, set_vkeys. cbn [tx_body]. rewrite E. reflexivity.
Qed.

(** ** The fee loop *)
Lemma set_fee_twice t f g : tx_set_fee (tx_set_fee t f) g = tx_set_fee t g. Proof. reflexivity. Qed.
Lemma set_fee_same t : tx_set_fee t (tx_fee t) = t.
Proof. destruct t as [[] w m]. reflexivity. Qed.
Lemma rbind_ok {A B} (c : run A) (f : A -> run B) y : rbind c f = Some (Ok y) -> exists x, c = Some (Ok x) /\ f x = Some (Ok y).
Proof. destruct c as [[x| |]|]; cbn; intros H; try discriminate. exists x. auto. Qed.
(** Whatever the parameters: the result is the fee of the transaction that carries it *)
Lemma fee_loop_fix fuel : forall a b t calc c, fee_once a b t = Ok calc -> fee_loop fuel a b t calc = Some (Ok c) -> fee_once a b (tx_set_fee t c) = Ok c.
Proof.
  induction fuel as [|k IH]; intros a b t calc c F H; cbn [fee_loop] in H.
  - destruct (Z.eqb_spec calc (tx_fee t)) as [E|]; [|discriminate]. cbn in H. injection H as <-. rewrite E at 1. rewrite set_fee_same. exact F.
  - destruct (Z.eqb_spec calc (tx_fee t)) as [E|]; [cbn in H; injection H as <-; rewrite E at 1; rewrite set_fee_same; exact F|].
    apply rbind_ok in H as (c' & F' & H). cbn in F'. injection F' as F'. rewrite <- (set_fee_twice t calc c). apply (IH a b _ c' c F' H).
Qed.
Lemma calc_fix fuel bl d c : calculate_fee fuel bl d = Some (Ok c) ->
  fee_once (to_u64 (b_fee_a bl)) (to_u64 (b_fee_b bl)) (set_vkeys (tx_set_fee (b_tx bl) c) d) = Ok c.
Proof.
  intros H. unfold calculate_fee in H. apply rbind_ok in H as (c0 & F & H). cbn in F. injection F as F. exact (fee_loop_fix fuel _ _ _ _ _ F H).
Qed.

Section Converge.
Variables (a b : Z) (t : tx) (K : Z).
Hypothesis A0 : 0 <= a.
Hypothesis B0 : 0 <= b.
Hypothesis SZ : forall f, tx_size (tx_set_fee t f) = Ok (K + hl f).
Hypothesis FIT : a * (K + 9) + b < 2 ^ 64.
Hypothesis K0 : 0 <= K.
Definition F (f : Z) : Z := a * (K + hl f) + b.
Lemma F_range f : b <= F f < 2 ^ 64.
Proof. unfold F. pose proof (hl_range f). nia. Qed.
Lemma F_once f : fee_once a b (tx_set_fee t f) = Ok (F f).
Proof. unfold fee_once. rewrite SZ. cbn [bind]. unfold to_u64. rewrite Z.mod_small; [reflexivity|]. pose proof (F_range f). fold (F f). lia. Qed.
Lemma F_mono f g : f <= g -> F f <= F g.
Proof. intros L. unfold F. pose proof (hl_mono f g L). nia. Qed.
Definition rank (f : Z) : nat := if f <? 24 then 0%nat else if f <? 2 ^ 8 then 1%nat else if f <? 2 ^ 16 then 2%nat else if f <? 2 ^ 32 then 3%nat else 4%nat.
Lemma rank_le f : (rank f <= 4)%nat. Proof. unfold rank. repeat (destruct (_ <? _); [lia|]). lia. Qed.
Lemma rank_mono f g : f <= g -> (rank f <= rank g)%nat.
Proof.
  intros L. unfold rank.
  destruct (Z.ltb_spec f 24), (Z.ltb_spec f (2 ^ 8)), (Z.ltb_spec f (2 ^ 16)), (Z.ltb_spec f (2 ^ 32)), (Z.ltb_spec g 24), (Z.ltb_spec g (2 ^ 8)), (Z.ltb_spec g (2 ^ 16)), (Z.ltb_spec g (2 ^ 32)); lia.
Qed.
Lemma rank_hl f g : rank f = rank g -> hl f = hl g.
Proof.
  unfold rank, hl.
  destruct (Z.ltb_spec f 24), (Z.ltb_spec f (2 ^ 8)), (Z.ltb_spec f (2 ^ 16)), (Z.ltb_spec f (2 ^ 32)), (Z.ltb_spec g 24), (Z.ltb_spec g (2 ^ 8)), (Z.ltb_spec g (2 ^ 16)), (Z.ltb_spec g (2 ^ 32)); intros; try discriminate; reflexivity.
Qed.
Lemma loop_step fuel f : fee_loop fuel a b (tx_set_fee t f) (F f) =
  if F f =? f then Some (Ok (F f)) else match fuel with O => None | S k => fee_loop k a b (tx_set_fee t (F f)) (F (F f)) end.
Proof.
  destruct fuel; cbn [fee_loop]; change (tx_fee (tx_set_fee t f)) with f; destruct (F f =? f); try reflexivity.
  cbv zeta. rewrite set_fee_twice. pose proof (F_once (F f)) as E. unfold lift. rewrite E. reflexivity.
Qed.
Lemma loop_up fuel : forall f, f <= F f -> (5 <= rank f + fuel)%nat -> exists c, fee_loop fuel a b (tx_set_fee t f) (F f) = Some (Ok c) /\ c = F c /\ F f <= c.
Proof.
  induction fuel as [|k IH]; intros f L R; rewrite loop_step.
  - pose proof (rank_le f). lia.
  - destruct (Z.eqb_spec (F f) f) as [E|N]; [exists (F f); repeat split; [congruence|lia]|].
    destruct (Nat.eq_dec (rank f) (rank (F f))) as [Q|Q].
    + assert (FF : F (F f) = F f) by (unfold F at 1; rewrite <- (rank_hl f (F f) Q); reflexivity).
      rewrite loop_step, FF, Z.eqb_refl. exists (F f). repeat split; [congruence|lia].
    + pose proof (rank_mono f (F f) L). destruct (IH (F f)) as (c & E & FC & LC); [apply F_mono; exact L|lia|]. exists c. split; [exact E|]. split; [exact FC|]. pose proof (F_mono f (F f) L). lia.
Qed.
Lemma loop_down fuel : forall f, F f <= f -> (rank f + 1 <= fuel)%nat -> exists c, fee_loop fuel a b (tx_set_fee t f) (F f) = Some (Ok c) /\ c = F c /\ c <= F f.
Proof.
  induction fuel as [|k IH]; intros f L R; rewrite loop_step; [lia|].
  destruct (Z.eqb_spec (F f) f) as [E|N]; [exists (F f); repeat split; [congruence|lia]|].
  destruct (Nat.eq_dec (rank f) (rank (F f))) as [Q|Q].
  - assert (FF : F (F f) = F f) by (unfold F at 1; rewrite <- (rank_hl f (F f) Q); reflexivity).
    rewrite loop_step, FF, Z.eqb_refl. exists (F f). repeat split; [congruence|lia].
  - pose proof (rank_mono (F f) f L). destruct (IH (F f)) as (c & E & FC & LC); [apply F_mono; exact L|lia|]. exists c. split; [exact E|]. split; [exact FC|]. pose proof (F_mono (F f) f L). lia.
Qed.
Lemma loop_any fuel f : (6 <= fuel)%nat -> exists c, fee_loop fuel a b (tx_set_fee t f) (F f) = Some (Ok c) /\ c = F c.
Proof.
  intros R. pose proof (rank_le f). destruct (Z.le_ge_cases f (F f)) as [L|L]; [destruct (loop_up fuel f L)|destruct (loop_down fuel f L)]; try lia; destruct H0 as (E & FC & _); eexists; split; eauto.
Qed.
(** A fee no lower than the computed one covers the transaction that carries it *)
Lemma loop_covers fuel f c : fee_loop fuel a b (tx_set_fee t f) (F f) = Some (Ok c) -> (6 <= fuel)%nat -> c <= f -> F f <= f.
Proof.
  intros E R L. destruct (Z.le_gt_cases (F f) f) as [|G]; [assumption|]. destruct (loop_up fuel f) as (c' & E' & _ & LC); [lia|lia|]. rewrite E in E'. injection E' as <-. lia.
Qed.
End Converge.
