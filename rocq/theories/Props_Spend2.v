(** C76, continued: a case that meets all hypotheses of [C76_wallet_pays], over the toy primitives: two wallets; the first holds 10 ada paid to the text it shows for (0, 7) and
    1 ada of rewards, and pays 3 ada to the text the second shows for (1, 0). *)
From Verif Require Import Base BaseLemmas Model_Hex Proof_Hex Spec_Cbor Model_Cbor Proof_Cbor Spec_Ed25519 Model_Bip32 Spec_Bip32 Proof_Bip32 Proof_Bip32b Props_Bip32 Model_Bech32 Spec_Bech32 Proof_Bech32 Props_Bech32 Model_Address Spec_Address Proof_Address Props_Address Props_Wallet.
From Verif Require Import Spec_Ledger Model_Ledger Proof_Ledger Proof_Ledger2 Model_Tx Spec_Tx Proof_Tx Proof_Tx2 Proof_Tx3 Props_Ledger Props_Tx Props_Wire Props_History Spec_Node Props_Node Props_Fund Props_Fund2 Props_Cosign Props_Spend.
Ltac Zify.zify_post_hook ::= idtac.

Notation w1_pub := (wallet_pub toy_hmac toy_pbkdf2 toy_enc (str "entropy") (str "ab") 0).
Notation w1_sgn := (wallet_sgn (toy_h 64) toy_hmac toy_pbkdf2 toy_enc (str "entropy") (str "ab") 0).
Notation w2_pub := (wallet_pub toy_hmac toy_pbkdf2 toy_enc (str "other") (str "pass") 5).
Definition w1_addr (k : Z * Z) : base_address := BaseAddress_fromKeys (toy_h 28) (nid_of Mainnet) (w1_pub k) (w1_pub (2, 0)).
Definition w2_addr (k : Z * Z) : base_address := BaseAddress_fromKeys (toy_h 28) (nid_of Testnet) (w2_pub k) (w2_pub (2, 0)).
Definition w1_account : rewards_address := RewardsAddress_fromKey (toy_h 28) (nid_of Mainnet) (w1_pub (2, 0)).
Definition w_node : node :=
  {| n_slot := 999999; n_fee_a := 44; n_fee_b := 155381; n_min_utxo := 1000000; n_max_size := 16384; n_key_deposit := 2000000; n_pool_deposit := 500000000;
     n_utxo := fun id i => if (zlist_eqb id (repeat 1 32)) && (i =? 3) then Some (10000000, toy_h 28 (w1_pub (0, 7))) else None;
     n_rewards := fun a => if zlist_eqb a (RewardsAddress_toBytes w1_account) then Some 1000000 else None; n_pool := fun _ => false |}.
Definition w_calls : list (@call (Z * Z)) :=
  [AddInput {| u_id := repeat 1 32; u_index := 3; u_value := 10000000 |}; AddWithdrawal w1_account 1000000; AddOutput (BaseAddress_toBytes (w2_addr (1, 0))) 3000000; SetTtl 1000000; SetChange (BaseAddress_toBytes (w1_addr (0, 8)))].
Definition w_keys : list (Z * Z) := [(0, 7); (2, 0)].
(** the watch-only keys, and that the wallets can sign *)
Definition watch_of (e p : list Z) (a : Z) : outcome (xprv * xpub) :=
  let* acct := prv_derivePath toy_hmac toy_enc (root toy_pbkdf2 e p) (account_path a) V2 in let* w := publicKey toy_enc acct in Ok (acct, w).
Definition derives (w : xpub) (k : Z * Z) (expected : list Z) : bool :=
  match pub_derivePath toy_hmac toy_enc toy_padd w [fst k; snd k] V2 with Ok q => zlist_eqb (pbytes q) expected | _ => false end.
Lemma watch_owner e p a acct w : watch_of e p a = Ok (acct, w) -> owner_key toy_hmac toy_pbkdf2 toy_enc e p (account_path a) acct w.
Proof.
  unfold watch_of. intros E. apply bind_ok in E as (x & E1 & E). apply bind_ok in E as (y & E2 & E). assert (x = acct /\ y = w) as [-> ->] by (split; congruence). split; assumption.
Qed.
Lemma w1_watch : match watch_of (str "entropy") (str "ab") 0 with Ok (_, w) => derives w (0, 7) (w1_pub (0, 7)) && derives w (2, 0) (w1_pub (2, 0)) | _ => false end = true.
Proof. vm_compute. reflexivity. Qed.
Lemma w2_watch : match watch_of (str "other") (str "pass") 5 with Ok (_, w) => derives w (1, 0) (w2_pub (1, 0)) && derives w (2, 0) (w2_pub (2, 0)) | _ => false end = true.
Proof. vm_compute. reflexivity. Qed.
Lemma toy_28 x : hash28 (toy_h 28 x). Proof. split; [apply pack_le_ok|apply pack_le_length]. Qed.
Lemma derives_ok w k x : derives w k x = true -> exists q, pub_derivePath toy_hmac toy_enc toy_padd w [fst k; snd k] V2 = Ok q /\ pbytes q = x.
Proof. unfold derives. destruct (pub_derivePath _ _ _ _ _ _) as [q| |]; try discriminate. intros E. exists q. split; [reflexivity|]. apply zlist_eqb_spec. exact E. Qed.
Lemma w_shows w nt k (pub : Z * Z -> list Z) : derives w k (pub k) = true -> derives w (2, 0) (pub (2, 0)) = true ->
  exists text, shows toy_hmac toy_enc toy_padd (toy_h 28) w nt (fst k) (snd k) text /\ is_bech32 (cip5_addr nt) (cip19_header TYPE_BASE nt :: toy_h 28 (pub k) ++ toy_h 28 (pub (2, 0))) text /\
    BaseAddress_fromBech32 text = Ok (BaseAddress_fromKeys (toy_h 28) (nid_of nt) (pub k) (pub (2, 0))).
Proof.
  intros D1 D2. apply derives_ok in D1 as (q & D1 & Q). apply derives_ok in D2 as (s & D2 & S). cbn [fst snd] in D2.
  destruct (C12_base_round_trip nt (toy_h 28 (pub k)) (toy_h 28 (pub (2, 0))) (toy_28 _) (toy_28 _)) as (text & T & B & F). exists text. split; [|split; assumption].
  exists q, s. split; [exact D1|]. split; [exact D2|]. unfold BaseAddress_fromKeys. rewrite Q, S. exact T.
Qed.
Notation w_run := (do_calls (toy_h 32) w1_pub w1_sgn 10 new_builder (w_calls ++ [Balance (ex_dummies 2) true] ++ map Sign w_keys)).
Lemma w_signs : match w_run with Some (Ok b) => match get_id (toy_h 32) b, serialize (tx_ser (b_tx b)) with
  | Ok id, Ok s => forallb (fun k => is_ok (let* x := wallet_key toy_hmac toy_pbkdf2 toy_enc (str "entropy") (str "ab") 0 k in Model_Bip32.sign (toy_h 64) toy_enc x id)) w_keys && (zlen s <=? 16384) | _, _ => false end | _ => false end = true.
Proof. vm_compute. reflexivity. Qed.
Lemma w_differs : match w_run with Some (Ok b) => match get_id (toy_h 32) b with Ok id => negb (zlist_eqb id (repeat 1 32)) | _ => false end | _ => false end = true.
Proof. vm_compute. reflexivity. Qed.
Lemma w_distinct : NoDup (map w1_pub w_keys).
Proof.
  assert (D : zlist_eqb (w1_pub (2, 0)) (w1_pub (0, 7)) = false) by (vm_compute; reflexivity). apply zlist_eqb_false in D.
  unfold w_keys. cbn [map]. constructor; [intros [J|[]]; exact (D J)|]. constructor; [intros []|constructor].
Qed.
Definition w_sized (b : builder) : tx := let x := tx_body (b_tx b) in
  {| tx_body := {| tb_inputs := tb_inputs x; tb_outputs := outputs_in w_calls; tb_fee := 2 ^ 16; tb_ttl := tb_ttl x; tb_certs := tb_certs x; tb_withdrawals := tb_withdrawals x; tb_metadata_hash := tb_metadata_hash x |};
     tx_wits := {| ws_vkeys := ex_dummies 2; ws_scripts := ws_scripts (tx_wits (b_tx b)); ws_bootstrap := ws_bootstrap (tx_wits (b_tx b)) |}; tx_meta := tx_meta (b_tx b) |}.
Lemma w_small : match do_calls (toy_h 32) w1_pub w1_sgn 10 new_builder w_calls with Some (Ok b0) => match serialize (tx_ser (w_sized b0)) with Ok s => (zlen s <=? 2000) && (zlen (b_change b0) =? 57) | _ => false end | _ => false end = true.
Proof. vm_compute. reflexivity. Qed.

Example C76_ex : exists b s id, w_run = Some (Ok b) /\ serialize (tx_ser (b_tx b)) = Ok s /\ get_id (toy_h 32) b = Ok id /\ accepts (toy_h 32) (toy_h 28) toy_verify w_node s /\
  forall n', applied (toy_h 32) w_node s n' -> n_utxo n' (repeat 1 32) 3 = None /\ exists i, n_utxo n' id i = Some (3000000, toy_h 28 (w2_pub (1, 0))).
Proof.
  assert (Y1 : soft 1) by (split; [lia|reflexivity]). assert (Y0 : soft 0) by (split; [lia|reflexivity]). assert (Y5 : 0 <= 5 < 2 ^ 31) by lia.
  pose proof w1_watch as W1. pose proof w2_watch as W2. destruct (watch_of (str "entropy") (str "ab") 0) as [[acct1 watch1]| |] eqn:O1; try discriminate W1. destruct (watch_of (str "other") (str "pass") 5) as [[acct2 watch2]| |] eqn:O2; try discriminate W2.
  apply watch_owner in O1, O2. apply andb_prop in W1 as [W1 W1s]. apply andb_prop in W2 as [W2 W2s].
  destruct (w_shows watch1 Mainnet (0, 7) w1_pub W1 W1s) as (t1 & S1 & B1 & _). destruct (w_shows watch2 Testnet (1, 0) w2_pub W2 W2s) as (t2 & S2 & B2 & F2). cbn [fst snd] in S1, S2.
  destruct (C76_wallet_pays (toy_h 64) (toy_h 32) toy_hmac toy_pbkdf2 toy_enc toy_padd toy_verify (toy_h 32) (toy_h 28) toy_hashes toy_group toy_verifies toy_28
    (str "entropy") (str "ab") 0 Mainnet acct1 watch1 w_node 10%nat w_calls (ex_dummies 2) w_keys ltac:(lia) O1) as (b0 & n0 & R0 & Z0 & G).
  - unfold w_calls. apply Forall_cons; [|apply Forall_cons; [|apply Forall_cons; [exact I|apply Forall_cons; [exact I|apply Forall_cons; [exact I|apply Forall_nil]]]]].
    + exists 0, 7, t1, (cip19_header TYPE_BASE Mainnet :: toy_h 28 (w1_pub (0, 7)) ++ toy_h 28 (w1_pub (2, 0))), 10000000. split; [split; [lia|reflexivity]|]. split; [split; [lia|reflexivity]|]. split; [left; reflexivity|]. split; [exact S1|].
      split; [constructor; [split; vm_compute; congruence|]; apply bytes_ok_app; split; apply toy_28|]. split; [exact B1|]. rewrite part_app by apply toy_28. reflexivity.
    + split; [right; left; reflexivity|]. apply derives_ok in W1s as (q & D & Q). exists q. split; [exact D|]. rewrite Q. reflexivity.
  - lia.
  - reflexivity.
  - do 2 (constructor; [split; apply bytesN_b; reflexivity|]). constructor.
  - exact w_distinct.
  - unfold w_calls. repeat (apply Forall_cons; [exact I|]). apply Forall_nil.
  - unfold w_calls. assert (TA : forall nt x y, text_ok (BaseAddress_toBytes (BaseAddress_fromKeys (toy_h 28) (nid_of nt) x y))).
    { intros nt x y. rewrite C12_base_from_keys. split; [constructor; [destruct nt; split; vm_compute; congruence|apply bytes_ok_app; split; apply toy_28]|]. unfold zlen. cbn [length]. rewrite app_length, !(proj2 (toy_28 _)). reflexivity. }
    apply Forall_cons; [split; [apply (repeat_bytesN 1 32); split; lia|split; cbn; lia]|]. apply Forall_cons; [|apply Forall_cons; [split; [exact (TA Testnet (w2_pub (1, 0)) (w2_pub (2, 0)))|split; [lia|reflexivity]]|apply Forall_cons; [split; [lia|reflexivity]|apply Forall_cons; [exact (TA Mainnet (w1_pub (0, 8)) (w1_pub (2, 0)))|apply Forall_nil]]]].
    split; [|split; lia]. split; [split; vm_compute; congruence|]. change (ra_hash w1_account) with (toy_h 28 (w1_pub (2, 0))). split; [apply toy_28|]. unfold zlen. rewrite (proj2 (toy_28 _)). reflexivity.
  - unfold w_calls. apply Forall_cons; [eexists; cbn [truthful w_node n_utxo u_id u_index u_value]; rewrite zlist_eqb_refl; reflexivity|]. apply Forall_cons; [cbn [truthful w_node n_rewards]; rewrite zlist_eqb_refl; reflexivity|].
    apply Forall_cons; [cbn [truthful w_node n_min_utxo]; lia|]. apply Forall_cons; [exact I|]. apply Forall_cons; [exact I|]. apply Forall_nil.
  - intros a J. unfold w_calls in J. cbn [In] in J. repeat (destruct J as [J|J]; [discriminate J|]). destruct J.
  - reflexivity.
  - discriminate.
  - repeat constructor; intros [].
  - repeat constructor; intros [].
  - vm_compute. discriminate.
  - reflexivity.
  - cbn; lia.
  - cbn; lia.
  - cbn; lia.
  - change (deposits_in w_calls) with (@nil Z). constructor.
  - change (Forall (fun x => 0 <= x) [10000000; 1000000]). constructor; [lia|]. constructor; [lia|]. constructor.
  - reflexivity.
  - pose proof w_small as WS.  rewrite R0 in WS. destruct Z0 as (sz & ES & EZ). change (serialize (tx_ser (w_sized b0)) = Ok sz) in ES. rewrite ES in WS. rewrite EZ in WS. apply andb_prop in WS as [WS1 WS2]. apply Z.leb_le in WS1. apply Z.eqb_eq in WS2.
    destruct G as (b & s & id & R & ES2 & GI & AC & AP).
    + cbn [w_node n_fee_a n_fee_b]. change (total (map to_amount (outputs_in w_calls))) with 3000000. change (total (deposits_in w_calls)) with 0. change (total (map u_value (inputs_in w_calls)) + total (map snd (withdrawals_in w_calls))) with 11000000. lia.
    + cbn [w_node n_fee_a n_fee_b]. rewrite WS2. lia.
    + exists b, s, id. split; [exact R|]. split; [exact ES2|]. split; [exact GI|]. pose proof w_signs as SI.  rewrite R, GI, ES2 in SI. apply andb_prop in SI as [SI SL]. apply Z.leb_le in SL. split.
      * apply AC; [exact SL|reflexivity|]. intros k K. rewrite forallb_forall in SI. specialize (SI k K). cbv beta in SI. unfold wallet_signs.
        destruct (let* x := wallet_key toy_hmac toy_pbkdf2 toy_enc (str "entropy") (str "ab") 0 k in Model_Bip32.sign (toy_h 64) toy_enc x id) as [sig| |]; try discriminate SI. exists sig. reflexivity.
      * intros n' A. destruct (AP n' A) as [A1 A2]. split.
        -- refine (A1 {| u_id := repeat 1 32; u_index := 3; u_value := 10000000 |} (or_introl eq_refl) _). cbn [u_id]. intros Q. rewrite <- Q in GI. clear - GI R. pose proof w_differs as D.  rewrite R, GI in D. discriminate D.
        -- pose proof (A2 (str "other") (str "pass") 5 Testnet acct2 watch2 1 0 t2 (w2_addr (1, 0)) 3000000 Y5 O2) as A3. specialize (A3 Y1 Y0 S2).
           specialize (A3 F2). apply A3. right. right. left. reflexivity.
Qed.
