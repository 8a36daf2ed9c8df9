(** C76: from the written-down phrase to an accepted payment.  A wallet is a phrase, a passphrase and an account; a watch-only wallet holding the account's public key shows
    its addresses; what was paid to the shown text the owner can spend, and what the owner pays to a text shown by another wallet, that wallet's owner holds. *)
From Verif Require Import Base BaseLemmas Model_Hex Proof_Hex Spec_Cbor Model_Cbor Proof_Cbor Spec_Ed25519 Model_Bip32 Spec_Bip32 Proof_Bip32 Proof_Bip32b Props_Bip32 Model_Bech32 Spec_Bech32 Proof_Bech32 Props_Bech32 Model_Address Spec_Address Proof_Address Props_Address Props_Wallet Model_Mnemonic Spec_Mnemonic Proof_Mnemonic Props_Mnemonic.
From Verif Require Import Spec_Ledger Model_Ledger Proof_Ledger Proof_Ledger2 Model_Tx Spec_Tx Proof_Tx Proof_Tx2 Proof_Tx3 Props_Ledger Props_Tx Props_Wire Props_History Spec_Node Props_Node Props_Fund Props_Fund2 Props_Cosign.
From Coq Require Import Permutation.
Ltac Zify.zify_post_hook ::= idtac.

(** ** Specification *)
(** CIP-19: in a base or an enterprise address the hash of the payment key follows the header byte. *)
Definition payment_part (address : list Z) : list Z := firstn 28 (skipn 1 address).
(** The ledger's UTXO transition: the inputs are removed, the outputs added under the hash of the body. *)
Definition applied (hash256 : list Z -> list Z) (n : node) (s : list Z) (n' : node) : Prop :=
  exists sb t, is_tx s sb t /\
  forall id i,
    (forall a v, id = hash256 sb -> 0 <= i -> nth_error (w_outs t) (Z.to_nat i) = Some (a, v) -> n_utxo n' id i = Some (v, payment_part a)) /\
    (id <> hash256 sb -> In (id, i) (w_ins t) -> n_utxo n' id i = None) /\
    (id <> hash256 sb -> ~ In (id, i) (w_ins t) -> n_utxo n' id i = n_utxo n id i).
Section Wallet.
Variables (sha512 : list Z -> list Z) (hmac512 : list Z -> list Z -> list Z) (pbkdf2 : Z -> nat -> list Z -> list Z -> list Z) (enc : Z -> list Z) (padd : list Z -> list Z -> option (list Z)) (H224 : list Z -> list Z).
(** What a watch-only wallet shows: the text of the base address of the payment key (role, index), with stake key (2, 0); and its reward account. *)
Definition shows (watch : xpub) (nt : net) (role index : Z) (text : list Z) : Prop :=
  exists q s, pub_derivePath hmac512 enc padd watch [role; index] V2 = Ok q /\ pub_derivePath hmac512 enc padd watch [2; 0] V2 = Ok s /\
    BaseAddress_toBech32 (BaseAddress_fromKeys H224 (nid_of nt) (pbytes q) (pbytes s)) = Ok text.
Definition shows_account (watch : xpub) (nt : net) (a : rewards_address) : Prop :=
  exists s, pub_derivePath hmac512 enc padd watch [2; 0] V2 = Ok s /\ a = RewardsAddress_fromKey H224 (nid_of nt) (pbytes s).
(** The owner's private keys below the account, named by role and index; a wallet signs with one by deriving it and calling sign, which throws when the nonce is zero. *)
Definition wallet_key (entropy passphrase : list Z) (account : Z) (k : Z * Z) : outcome xprv := prv_derivePath hmac512 enc (root pbkdf2 entropy passphrase) (account_path account ++ [fst k; snd k]) V2.
Definition wallet_pub entropy passphrase account (k : Z * Z) : list Z :=
  match (let* x := wallet_key entropy passphrase account k in publicKey enc x) with Ok p => pbytes p | _ => repeat 0 32 end.
Definition wallet_signs entropy passphrase account (k : Z * Z) (m sig : list Z) : Prop :=
  (let* x := wallet_key entropy passphrase account k in Model_Bip32.sign sha512 enc x m) = Ok sig.
Definition wallet_sgn entropy passphrase account (k : Z * Z) (m : list Z) : list Z :=
  match (let* x := wallet_key entropy passphrase account k in Model_Bip32.sign sha512 enc x m) with Ok s => s | _ => repeat 0 64 end.
(** What the transaction draws on is the wallet's: inputs paid to a shown text (whatever data that text carries), whose keys are among [ks]; the wallet's own reward account. *)
Definition mine (watch : xpub) (nt : net) (n : node) (ks : list (Z * Z)) (c : @call (Z * Z)) : Prop :=
  match c with
  | AddInput u => exists role index text data v, soft role /\ soft index /\ In (role, index) ks /\ shows watch nt role index text /\
      bytes_ok data /\ is_bech32 (cip5_addr nt) data text /\ n_utxo n (u_id u) (u_index u) = Some (v, payment_part data)
  | AddWithdrawal a _ | AddStakeDeleg a _ => In (2, 0) ks /\ shows_account watch nt a
  | AddPoolReg _ _ | AddPoolRetire _ _ => False
  | _ => True
  end.
End Wallet.

(** ** Lemmas *)
Lemma bech32_data_fun hrp d d' t : bytes_ok hrp -> no_upper hrp -> hrp <> [] -> bytes_ok d -> bytes_ok d' -> is_bech32 hrp d t -> is_bech32 hrp d' t -> d = d'.
Proof.
  intros B U N D D' I I'. pose proof (is_bech32_bytes _ _ _ B I) as BT. pose proof (is_bech32_no_upper _ _ _ U I) as UT.
  assert (L : map ascii_lower t = t).
  { clear - UT. induction UT as [|c t C F IH]; [reflexivity|]. cbn [map]. rewrite IH. f_equal. unfold ascii_lower. destruct (Z.leb_spec 65 c); destruct (Z.leb_spec c 90); cbn [andb]; try reflexivity. destruct (C (conj H H0)). }
  pose proof (decode_of_spec t hrp d BT N D ltac:(rewrite L; exact I)) as E. pose proof (decode_of_spec t hrp d' BT N D' ltac:(rewrite L; exact I')) as E'. congruence.
Qed.
Lemma prefix_ok nt : bytes_ok (cip5_addr nt) /\ no_upper (cip5_addr nt) /\ cip5_addr nt <> [].
Proof.
  split; [apply bytes_okb_spec; destruct nt; reflexivity|]. split; [|destruct nt; discriminate].
  apply Forall_forall. intros c I [A B]. destruct nt; vm_compute in I; repeat (destruct I as [I|I]; [subst c; vm_compute in A, B; congruence|]); destruct I.
Qed.
Lemma part_app h (x y : list Z) : length x = 28%nat -> payment_part (h :: x ++ y) = x.
Proof. intros L. unfold payment_part. cbn [skipn]. apply firstn_app_exact. symmetry. exact L. Qed.

Section Proofs.
Variables (sha512 sha256 : list Z -> list Z) (hmac512 : list Z -> list Z -> list Z) (pbkdf2 : Z -> nat -> list Z -> list Z -> list Z) (enc : Z -> list Z) (padd : list Z -> list Z -> option (list Z)) (verify : list Z -> list Z -> list Z -> bool) (H224 : list Z -> list Z).
Hypothesis HO : hashes_ok sha512 sha256 hmac512 pbkdf2.
Hypothesis EG : ed_group enc padd.
Hypothesis EV : ed_verifies enc sha512 verify.
Hypothesis HH : forall x, hash28 (H224 x).

Lemma wallet_total e p a k : exists x pk, wallet_key hmac512 pbkdf2 enc e p a k = Ok x /\ publicKey enc x = Ok pk /\ wallet_pub hmac512 pbkdf2 enc e p a k = pbytes pk /\ bytesN 32 (pbytes pk).
Proof using HO EG.
  clear - HO EG.
  destruct (mnemonic_root _ _ _ _ HO e p) as [W C].
  destruct (v2_total _ _ _ _ _ _ HO EG (account_path a ++ [fst k; snd k]) _ W C) as (x & pk & D & P & Wa & Ca); [apply small_path; cbn; lia|].
  exists x, pk. unfold wallet_pub, wallet_key, root. rewrite D. cbn [bind]. split; [reflexivity|]. split; [exact P|]. rewrite P. split; [reflexivity|].
  apply (publicKey_ok _ _ EG) in P as [_ ->]. cbn [pbytes]. split; [apply (enc_bytes _ _ EG)|]. unfold zlen. rewrite (enc_len _ _ EG). reflexivity.
Qed.
Lemma wallet_verifies e p a k m sig : wallet_signs sha512 hmac512 pbkdf2 enc e p a k m sig ->
  wallet_sgn sha512 hmac512 pbkdf2 enc e p a k m = sig /\ verify (wallet_pub hmac512 pbkdf2 enc e p a k) m sig = true.
Proof using HO EG EV.
  intros S. destruct (wallet_total e p a k) as (x & pk & K & P & E & _). unfold wallet_signs in S. split; [unfold wallet_sgn; rewrite S; reflexivity|].
  rewrite K in S. cbn [bind] in S. rewrite E. exact (proj2 (C35_signature_verifies sha512 enc padd verify EG EV x m sig pk S P)).
Qed.
Lemma wallet_sgn_bytes e p a k m : bytesN 64 (wallet_sgn sha512 hmac512 pbkdf2 enc e p a k m).
Proof using EG.
  unfold wallet_sgn. destruct (wallet_key hmac512 pbkdf2 enc e p a k) as [x| |]; cbn [bind]; try (apply bytesN_b; reflexivity).
  unfold Model_Bip32.sign. destruct (publicKey enc x) as [pk| |] eqn:P; cbn [bind]; try (apply bytesN_b; reflexivity). unfold bip32_sign, mul_base.
  match goal with |- context [if ?c then _ else _] => destruct c end; cbn [bind]; try (apply bytesN_b; reflexivity).
  split; [apply bytes_ok_app; split; [apply (enc_bytes _ _ EG)|apply pack_le_ok]|]. unfold zlen. rewrite app_length, (enc_len _ _ EG), pack_le_length. reflexivity.
Qed.
(** the shown text is that of the owner's address *)
Lemma shown e p a acct watch nt r i text : 0 <= a < 2 ^ 31 -> owner_key hmac512 pbkdf2 enc e p (account_path a) acct watch -> soft r -> soft i -> shows hmac512 enc padd H224 watch nt r i text ->
  exists s, BaseAddress_fromBech32 text = Ok (BaseAddress_fromKeys H224 (nid_of nt) (wallet_pub hmac512 pbkdf2 enc e p a (r, i)) s) /\
    is_bech32 (cip5_addr nt) (cip19_header TYPE_BASE nt :: H224 (wallet_pub hmac512 pbkdf2 enc e p a (r, i)) ++ H224 s) text.
Proof using HO EG HH.
  clear - HO EG HH.
  intros HA [OK OP] HR HI (q & s & Eq & Es & T). destruct (C71_watch_only_keys sha512 sha256 hmac512 pbkdf2 enc padd HO EG e p a HA) as (acct' & watch' & [OK' OP'] & K).
  assert (acct' = acct) by congruence. subst acct'. assert (watch' = watch) by congruence. subst watch'.
  destruct (K r i HR HI) as (k & pk & [OK2 OP2] & _ & [D|[D _]]); [|congruence]. assert (q = pk) by congruence. subst q.
  assert (E : wallet_pub hmac512 pbkdf2 enc e p a (r, i) = pbytes pk) by (unfold wallet_pub, wallet_key; cbn [fst snd]; rewrite OK2; cbn [bind]; rewrite OP2; reflexivity).
  rewrite E. exists (pbytes s). destruct (C12_base_round_trip nt (H224 (pbytes pk)) (H224 (pbytes s)) (HH _) (HH _)) as (t & T' & B & F). unfold BaseAddress_fromKeys in T |- *. assert (t = text) by congruence. subst t. split; assumption.
Qed.
Lemma shown_account e p a acct watch nt x : 0 <= a < 2 ^ 31 -> owner_key hmac512 pbkdf2 enc e p (account_path a) acct watch -> shows_account hmac512 enc padd H224 watch nt x ->
  ra_hash x = H224 (wallet_pub hmac512 pbkdf2 enc e p a (2, 0)).
Proof using HO EG HH.
  clear - HO EG HH.
  intros HA [OK OP] (s & Es & ->). destruct (C71_watch_only_keys sha512 sha256 hmac512 pbkdf2 enc padd HO EG e p a HA) as (acct' & watch' & [OK' OP'] & K).
  assert (acct' = acct) by congruence. subst acct'. assert (watch' = watch) by congruence. subst watch'.
  destruct (K 2 0 ltac:(split; [lia|reflexivity]) ltac:(split; [lia|reflexivity])) as (k & pk & [OK2 OP2] & _ & [D|[D _]]); [|congruence]. assert (s = pk) by congruence. subst s.
  unfold wallet_pub, wallet_key. cbn [fst snd]. rewrite OK2. cbn [bind]. rewrite OP2. reflexivity.
Qed.
(** so the wallet's own keys are the ones that must sign *)
Lemma mine_signs e p a acct watch nt n ks l h : 0 <= a < 2 ^ 31 -> owner_key hmac512 pbkdf2 enc e p (account_path a) acct watch -> Forall (mine hmac512 enc padd H224 watch nt n ks) l ->
  (forall x, ~ In (AddStakeDereg x) l) -> must_sign n l h -> exists k, In k ks /\ H224 (wallet_pub hmac512 pbkdf2 enc e p a k) = h.
Proof using HO EG HH.
  clear - HO EG HH.
  intros HA OA F ND M. rewrite Forall_forall in F. destruct M as [(u & v & I & U)|[(x & v & I & ->)|[(x & q & I & ->)|[(x & I & _)|[(q & ep & I & _)|(q & d & I & _)]]]]].
  - destruct (F _ I) as (r & i & text & data & w & HR & HI & K & S & BD & B & U'). destruct (shown _ _ _ _ _ _ _ _ _ HA OA HR HI S) as (s & _ & B').
    exists (r, i). split; [exact K|]. destruct (prefix_ok nt) as (P1 & P2 & P3). destruct (HH (wallet_pub hmac512 pbkdf2 enc e p a (r, i))) as [Y1 Y2]. destruct (HH s) as [Y3 _].
    assert (Q : data = cip19_header TYPE_BASE nt :: H224 (wallet_pub hmac512 pbkdf2 enc e p a (r, i)) ++ H224 s).
    { apply (bech32_data_fun _ _ _ _ P1 P2 P3 BD) in B'; [exact B'| |exact B]. constructor; [destruct nt; split; vm_compute; congruence|]. apply bytes_ok_app. split; assumption. }
    rewrite Q, part_app in U' by exact Y2. congruence.
  - destruct (F _ I) as [K S]. exists (2, 0). split; [exact K|]. symmetry. exact (shown_account _ _ _ _ _ _ _ HA OA S).
  - destruct (F _ I) as [K S]. exists (2, 0). split; [exact K|]. symmetry. exact (shown_account _ _ _ _ _ _ _ HA OA S).
  - destruct (ND _ I).
  - destruct (F _ I).
  - destruct (F _ I).
Qed.
End Proofs.
Lemma is_tx_body_fun s sb sb' t t' : is_tx s sb t -> is_tx s sb' t' -> sb = sb'.
Proof.
  intros (c & w & r & _ & E & R & _) (c' & w' & r' & _ & E' & R' & _). rewrite E in E'. injection E' as E'. exact (proj1 (cbor_prefix _ _ _ _ _ _ R R' E')).
Qed.

(** each witness was made by one of the keys signed with *)
Lemma signed_by {key} H (pub : key -> list Z) sgn fuel id ks : forall b b', get_id H b = Ok id -> do_calls H pub sgn fuel b (map Sign ks) = Some (Ok b') ->
  get_id H b' = Ok id /\ forall w, In w (witnesses b') -> In w (witnesses b) \/ exists k, In k ks /\ w = (pub k, sgn k id).
Proof.
  induction ks as [|k ks IH]; intros b b' G R; cbn [map do_calls] in R.
  - unfold lift in R. assert (b = b') by congruence. subst. split; [exact G|]. auto.
  - apply rbind_ok in R as (b1 & S & R). cbn [do_call] in S. unfold lift in S. assert (S' : Model_Tx.sign H pub sgn b k = Ok b1) by congruence. clear S.
    unfold Model_Tx.sign, make_witness in S'. rewrite G in S'. cbn [bind] in S'. apply ok_inj in S'. subst b1.
    match type of R with do_calls _ _ _ _ ?x _ = _ => assert (GX : get_id H x = Ok id) by exact G end. destruct (IH _ b' GX R) as [G' W]. split; [exact G'|]. intros w I. destruct (W w I) as [J|(k' & J & E)]; [|right; exists k'; split; [right; exact J|exact E]].
    unfold witnesses in J. cbn [set_tx b_tx set_vkeys tx_wits ws_vkeys] in J. apply in_app_iff in J as [J|[<-|[]]]; [left; apply filter_In in J as [J _]; exact J|]. right. exists k. split; [left; reflexivity|reflexivity].
Qed.

(** ** Theorems *)
(** C76: the phrase is the wallet: whatever was drawn, the phrase can be written down and reads back, and among the valid phrases of the language it is the only one that
    gives the entropy the keys are derived from. *)
Theorem C76_phrase_restores : forall sha256, sha256_shape sha256 -> forall size lang ent, bip39_size size -> bytes_ok ent -> length ent = (4 * (size / 3))%nat ->
  exists m, generate sha256 size lang ent = Ok m /\ length (m_words m) = size /\
  forall text m' ent', Mnemonic_of_text text lang = Ok m' -> verify_checksum sha256 m' = Ok true -> toSeed m' = Ok ent' ->
  (text = join_spaces (m_words m) <-> ent' = ent).
Proof.
  intros sha SH size lang ent B BO L. destruct (C16_generate_round_trip sha SH size lang ent B BO L) as (m & G & LI & DI & W & V & T & TE).
  exists m. split; [exact G|]. split; [rewrite W, map_length; exact LI|]. intros text m' ent' T' V' S'.
  destruct (C18_text_accepts lang text m' T') as (B' & D' & W' & J'). rewrite W. split; intros E.
  - rewrite E in T'. rewrite (C18_text_round_trip lang (m_idx m)) in T' by (rewrite ?LI; assumption). apply ok_inj in T'. subst m'. unfold toSeed, toEntropy in *. cbn [m_idx] in *. congruence.
  - subst ent'. destruct (C17_entropy_positional m' B' D') as (e' & c' & TE' & _). assert (e' = ent) by (unfold toSeed in S'; rewrite TE' in S'; cbn in S'; congruence). subst e'.
    assert (I : m_idx m' = m_idx m) by (apply (C17_valid_phrases_injective sha SH m' m ent c' (leading_bits (size / 3) (sha ent))); rewrite ?LI; assumption).
    rewrite J', W', I. reflexivity.
Qed.
Print Assumptions C76_phrase_restores.

(** C76: a wallet that states what is the case and has enough money in outputs paid to texts its watch-only wallet shows pays: the transaction is built and signed with the
    derived keys; unless a nonce is zero, the node accepts it; afterwards the inputs are gone, and what was paid to the text shown by any other wallet is, under the
    transaction's id, locked by the hash of that wallet owner's key. *)
Theorem C76_wallet_pays : forall sha512 sha256 hmac512 pbkdf2 enc padd verify H256 H224,
  hashes_ok sha512 sha256 hmac512 pbkdf2 -> ed_group enc padd -> ed_verifies enc sha512 verify -> (forall x, hash28 (H224 x)) ->
  forall ent pass account nt acct watch n fuel l dummies ks, 0 <= account < 2 ^ 31 -> owner_key hmac512 pbkdf2 enc ent pass (account_path account) acct watch ->
  let pub := wallet_pub hmac512 pbkdf2 enc ent pass account in let sgn := wallet_sgn sha512 hmac512 pbkdf2 enc ent pass account in
  (* what it spends is its own *)
  Forall (mine hmac512 enc padd H224 watch nt n ks) l ->
  (* it signs with that many different keys *)
  (7 <= fuel)%nat -> length dummies = length ks -> Forall vkey_wf dummies -> NoDup (map pub ks) ->
  (* its calls are sound and truthful *)
  Forall building l -> Forall call_ok l -> Forall (truthful n) l -> (forall a, ~ In (AddStakeDereg a) l) -> zlen l + zlen ks < 2 ^ 59 ->
  inputs_in l <> [] -> NoDup (map (fun u => (u_id u, u_index u)) (inputs_in l)) -> NoDup (map (fun w => RewardsAddress_toBytes (fst w)) (withdrawals_in l)) ->
  n_slot n <= last (ttls_in l) 0 -> last (min_fees_in l) (44, 155381) = (n_fee_a n, n_fee_b n) -> 0 <= n_fee_a n -> 2 ^ 16 <= n_fee_b n -> 0 <= n_min_utxo n <= 1000000 ->
  Forall (fun x => 0 <= x) (deposits_in l) -> Forall (fun x => 0 <= x) (map u_value (inputs_in l) ++ map snd (withdrawals_in l)) ->
  let money := total (map u_value (inputs_in l)) + total (map snd (withdrawals_in l)) in money < 2 ^ 62 ->
  exists b0 n0, do_calls H256 pub sgn fuel new_builder l = Some (Ok b0) /\ sized b0 dummies (outputs_in l) n0 /\
  (* it can pay *)
  (total (map to_amount (outputs_in l)) + total (deposits_in l) + (n_fee_a n * n0 + n_fee_b n) <= money ->
   1000000 + n_fee_a n * (n0 + zlen (b_change b0) + 40) + n_fee_b n < 2 ^ 32 ->
   exists b s id, do_calls H256 pub sgn fuel new_builder (l ++ [Balance dummies true] ++ map Sign ks) = Some (Ok b) /\ serialize (tx_ser (b_tx b)) = Ok s /\ get_id H256 b = Ok id /\
     (zlen s <= n_max_size n -> n_fee_a n * (n_max_size n + 8) + n_fee_b n < 2 ^ 64 ->
      (forall k, In k ks -> exists sig, wallet_signs sha512 hmac512 pbkdf2 enc ent pass account k id sig) -> accepts H256 H224 verify n s) /\
     (forall n', applied H256 n s n' ->
        (forall u, In (AddInput u) l -> u_id u <> id -> n_utxo n' (u_id u) (u_index u) = None) /\
        (forall ent' pass' account' nt' acct' watch' role index text a v, 0 <= account' < 2 ^ 31 -> owner_key hmac512 pbkdf2 enc ent' pass' (account_path account') acct' watch' ->
           soft role -> soft index -> shows hmac512 enc padd H224 watch' nt' role index text -> BaseAddress_fromBech32 text = Ok a -> In (AddOutput (BaseAddress_toBytes a) v) l ->
           exists i, n_utxo n' id i = Some (v, H224 (wallet_pub hmac512 pbkdf2 enc ent' pass' account' (role, index)))))).
Proof.
  intros s5 s2 hm pb enc padd verify H256 H224 HO EG EV HH e p a nt acct watch n fuel l d ks HA OA pub sgn MI FU LD WD ND BU OK T NDR LL NI N1 N2 TTL FE A B MU DP IP money MO.
  assert (PB : forall k, bytesN 32 (pub k)) by (intros k; destruct (wallet_total _ _ _ _ _ _ HO EG e p a k) as (x & pk & _ & _ & E & BB); unfold pub; rewrite E; exact BB).
  assert (SG : forall k m, bytesN 64 (sgn k m)) by (intros k m; apply (wallet_sgn_bytes _ _ _ _ _ EG)).
  destruct (C75_funded_accepted (Z * Z) H256 H224 (fun _ _ _ => true) pub sgn fuel l d ks n ltac:(reflexivity) PB SG FU LD WD ND BU OK T NDR LL NI N1 N2 TTL FE A B MU
    (fun h M => mine_signs _ _ _ _ _ _ _ HO EG HH e p a acct watch nt n ks l h HA OA MI NDR M) DP IP MO) as (b0 & n0 & R0 & Z0 & G).
  exists b0, n0. split; [exact R0|]. split; [exact Z0|]. intros PAY SM. destruct (G PAY SM) as (b & s & R & ES & LF & (change & OO & _) & AC). clear G.
  assert (nn : forall q, Forall (fun x => 0 <= x) q -> 0 <= total q) by (induction 1; cbn [total]; lia).
  pose proof (nn _ DP) as DN. apply Forall_app in IP as [IP1 IP2]. pose proof (nn _ IP1) as IN1. pose proof (nn _ IP2) as IN2.
  assert (LV : forall o, In o (outputs_in l) -> 0 <= to_amount o).
  { intros o I. unfold outputs_in in I. apply in_concat in I as (q & I & J). apply in_map_iff in I as (c & <- & I). rewrite Forall_forall in OK. specialize (OK _ I).
    destruct c; cbn [In] in J; try contradiction. destruct J as [<-|[]]. exact (proj1 (proj2 OK)). }
  assert (OS : 0 <= total (map to_amount (outputs_in l))) by (apply nn, Forall_map, Forall_forall; exact LV).
  assert (NN : 0 <= n0) by (destruct Z0 as (x & _ & <-); apply zlen_nonneg).
  assert (L1 : lovelace money) by (unfold lovelace, money in *; lia). assert (L2 : lovelace (total (deposits_in l))) by (unfold lovelace; nia).
  destruct (submitted H256 pub sgn fuel n l d true ks b PB SG R OK T LL MU N1 N2 L1 L2 LF) as (b0' & b1 & s' & sb & cs & _ & _ & _ & _ & _ & WN & WI & CU & PI & _ & _ & _ & ES' & EB & _ & IT & _ & _).
  assert (s' = s) by congruence. subst s'.
  assert (ID : get_id H256 b = Ok (H256 sb)) by (unfold get_id, body_id, body_of; rewrite EB; reflexivity).
  exists b, s, (H256 sb). split; [exact R|]. split; [exact ES|]. split; [exact ID|]. split.
  - intros SZ MX CS. destruct (AC SZ MX) as (sb' & t & IT' & V). pose proof (is_tx_body_fun _ _ _ _ _ IT IT') as <-. pose proof (is_tx_fun _ _ _ _ _ IT IT') as <-.
    exists sb, (wire_of (b_tx b) cs). split; [exact IT|]. destruct V as (V1 & V2 & V3 & V4 & V5 & V6 & V7 & V8 & V9 & V10 & _ & V12).
    split; [exact V1|]. split; [exact V2|]. split; [exact V3|]. split; [exact V4|]. split; [exact V5|]. split; [exact V6|]. split; [exact V7|]. split; [exact V8|]. split; [exact V9|]. split; [exact V10|]. split; [|exact V12].
    intros k g I. cbn [wire_of w_sigs] in I.
    assert (X : exists k0, In k0 ks /\ k = pub k0 /\ g = sgn k0 (H256 sb)).
    { pose proof R as R'. rewrite app_assoc in R'. apply do_calls_app in R' as (b2 & R1 & R2). apply do_calls_app in R1 as (b3 & _ & RB). cbn [do_calls do_call] in RB. apply rbind_ok in RB as (b2' & RB & E). assert (b2' = b2) by (unfold lift in E; congruence). subst b2'.
      destruct (C36_frame _ _ _ _ _ RB) as (_ & _ & _ & _ & _ & _ & _ & W0). destruct (C40_sign_many _ _ _ _ _ _ _ _ W0 R2) as (_ & _ & _ & BB).
      assert (G2 : get_id H256 b2 = Ok (H256 sb)) by (unfold get_id, body_id, body_of; rewrite <- BB, EB; reflexivity).
      destruct (proj2 (signed_by _ _ _ _ _ _ _ _ G2 R2) _ I) as [J|(k0 & J & Q)]; [rewrite W0 in J; destruct J|]. injection Q as -> ->. exists k0. auto. }
    destruct X as (k0 & J & -> & ->). destruct (CS k0 J) as (sig & S). destruct (wallet_verifies _ _ _ _ _ _ _ HO EG EV e p a k0 (H256 sb) sig S) as [E V]. unfold sgn, pub. rewrite E. exact V.
  - intros n' (sb' & t & IT' & AP). pose proof (is_tx_body_fun _ _ _ _ _ IT IT') as <-. pose proof (is_tx_fun _ _ _ _ _ IT IT') as <-. split.
    + intros u I NE. destruct (AP (u_id u) (u_index u)) as (_ & AP2 & _). apply (AP2 NE). cbn [wire_of w_ins]. apply (Permutation_in _ (Permutation_sym PI)). apply in_map_iff. exists u. split; [reflexivity|]. apply in_inputs. exact I.
    + intros e' p' a' nt' acct' watch' r i text x v HA' OA' HR HI S F I.
      destruct (shown _ _ _ _ _ _ _ HO EG HH _ _ _ _ _ _ _ _ _ HA' OA' HR HI S) as (st & F' & _). assert (E : x = BaseAddress_fromKeys H224 (nid_of nt') (wallet_pub hm pb enc e' p' a' (r, i)) st) by congruence. subst x.
      assert (J : In (BaseAddress_toBytes (BaseAddress_fromKeys H224 (nid_of nt') (wallet_pub hm pb enc e' p' a' (r, i)) st), v) (w_outs (wire_of (b_tx b) cs))).
      { cbn [wire_of w_outs]. apply in_map_iff. exists {| to_addr := BaseAddress_toBytes (BaseAddress_fromKeys H224 (nid_of nt') (wallet_pub hm pb enc e' p' a' (r, i)) st); to_amount := v |}. split; [reflexivity|].
        change (tb_outputs (tx_body (b_tx b))) with (outputs b). rewrite OO. apply in_or_app. left. unfold outputs_in. apply in_concat. exact (ex_intro _ _ (conj (in_map _ _ _ I) (or_introl eq_refl))). }
      apply In_nth_error in J as (k & J). exists (Z.of_nat k). rewrite C12_base_from_keys in J. rewrite <- (Nat2Z.id k) in J.
      rewrite (proj1 (AP (H256 sb) (Z.of_nat k)) _ _ eq_refl ltac:(lia) J), part_app by apply HH. reflexivity.
Qed.
Print Assumptions C76_wallet_pays.

(** C76: and what a node holds for a key of the wallet under any id is again the wallet's to spend: the receiver can go on as the payer did. *)
Theorem C76_received_is_mine : forall sha512 sha256 hmac512 pbkdf2 enc padd H224, hashes_ok sha512 sha256 hmac512 pbkdf2 -> ed_group enc padd -> (forall x, hash28 (H224 x)) ->
  forall ent pass account nt acct watch n ks role index text id i v, 0 <= account < 2 ^ 31 -> owner_key hmac512 pbkdf2 enc ent pass (account_path account) acct watch ->
  soft role -> soft index -> In (role, index) ks -> shows hmac512 enc padd H224 watch nt role index text ->
  n_utxo n id i = Some (v, H224 (wallet_pub hmac512 pbkdf2 enc ent pass account (role, index))) ->
  mine hmac512 enc padd H224 watch nt n ks (AddInput {| u_id := id; u_index := i; u_value := v |}) /\ truthful n (AddInput (key := Z * Z) {| u_id := id; u_index := i; u_value := v |}).
Proof.
  intros s5 s2 hm pb enc padd H224 HO EG HH e p a nt acct watch n ks r x text id i v HA OA HR HI K S U.
  destruct (shown _ _ _ _ _ _ _ HO EG HH _ _ _ _ _ _ _ _ _ HA OA HR HI S) as (st & _ & B). split; [|eexists; exact U].
  exists r, x, text, (cip19_header TYPE_BASE nt :: H224 (wallet_pub hm pb enc e p a (r, x)) ++ H224 st), v. split; [exact HR|]. split; [exact HI|]. split; [exact K|]. split; [exact S|].
  split; [constructor; [destruct nt; split; vm_compute; congruence|apply bytes_ok_app; split; apply HH]|]. split; [exact B|]. rewrite part_app by apply HH. exact U.
Qed.
Print Assumptions C76_received_is_mine.
