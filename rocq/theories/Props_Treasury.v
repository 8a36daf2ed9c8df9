(** C80: coins that belong to a threshold group.  A transaction is built and balanced, its id is the message of a signing session (C79), and the group's signature is put into
    the transaction as its witness. *)
From Verif Require Import Base BaseLemmas Model_Hex Proof_Hex Spec_Cbor Model_Cbor Proof_Cbor Spec_Ed25519 Model_Bip32 Spec_Bip32 Proof_Bip32 Proof_Bip32b Props_Bip32.
From Verif Require Import Spec_Ledger Model_Ledger Proof_Ledger Proof_Ledger2 Model_Tx Spec_Tx Proof_Tx Proof_Tx2 Proof_Tx3 Props_Ledger Props_Tx Props_Wire Props_History Spec_Node Props_Node Props_Fund Props_Fund2 Props_Cosign.
From Verif Require Import Model_Address Props_Spend.
From Verif Require Model_Tss Spec_Tss Proof_Tss Proof_Tss2 Props_Tss Model_TssNet Props_TssNet.
From Coq Require Import Permutation.
Ltac Zify.zify_post_hook ::= idtac.

(** ** The builder without keys *)
Definition no_sign {key} (c : @call key) : Prop := match c with Sign _ => False | _ => True end.
Lemma keyless {key} H (pub pub' : key -> list Z) sgn sgn' fuel l : Forall no_sign l -> forall b, do_calls H pub sgn fuel b l = do_calls H pub' sgn' fuel b l.
Proof.
  induction 1 as [|c l C F IH]; intros b; [reflexivity|]. cbn [do_calls].
  assert (E : do_call H pub sgn fuel b c = do_call H pub' sgn' fuel b c) by (destruct c; try reflexivity; destruct C). rewrite E.
  destruct (do_call H pub' sgn' fuel b c) as [[b1| |]|]; cbn [rbind]; auto.
Qed.
Lemma building_no_sign {key} (l : list (@call key)) : Forall building l -> Forall no_sign l.
Proof. apply Forall_impl. intros c B. destruct c; try exact I; destruct B. Qed.

Lemma one_of {A} (a : A) l : NoDup l -> (forall x, In x l <-> In x [a]) -> l = [a].
Proof.
  intros N E. destruct l as [|x l]; [exfalso; apply (E a); left; reflexivity|]. assert (x = a) as -> by (destruct (proj1 (E x) (or_introl eq_refl)) as [<-|[]]; reflexivity).
  destruct l as [|y l]; [reflexivity|]. exfalso. inversion N as [|? ? NI _]; subst. assert (y = a) as -> by (destruct (proj1 (E y) (or_intror (or_introl eq_refl))) as [<-|[]]; reflexivity). apply NI. left. reflexivity.
Qed.

(** A transaction whose only witness is one signature: a node takes it exactly if that signature is good, all else being as it should. *)
Lemma one_witness H256 H224 verify pk sig (pub : xprv -> list Z) sgn fuel (l : list (@call xprv)) dummy n : bytesN 32 pk -> bytesN 64 sig ->
  (7 <= fuel)%nat -> vkey_wf dummy ->
  Forall building l -> Forall call_ok l -> Forall (truthful n) l -> (forall a, ~ In (AddStakeDereg a) l) -> zlen l + 1 < 2 ^ 59 ->
  inputs_in l <> [] -> NoDup (map (fun u => (u_id u, u_index u)) (inputs_in l)) -> NoDup (map (fun w => RewardsAddress_toBytes (fst w)) (withdrawals_in l)) ->
  n_slot n <= last (ttls_in l) 0 -> last (min_fees_in l) (44, 155381) = (n_fee_a n, n_fee_b n) -> 0 <= n_fee_a n -> 2 ^ 16 <= n_fee_b n -> 0 <= n_min_utxo n <= 1000000 ->
  (forall h, must_sign n l h -> h = H224 pk) ->
  Forall (fun x => 0 <= x) (deposits_in l) -> Forall (fun x => 0 <= x) (map u_value (inputs_in l) ++ map snd (withdrawals_in l)) ->
  let money := total (map u_value (inputs_in l)) + total (map snd (withdrawals_in l)) in money < 2 ^ 62 ->
  exists b0 n0, do_calls H256 pub sgn fuel new_builder l = Some (Ok b0) /\ sized b0 [dummy] (outputs_in l) n0 /\
  (total (map to_amount (outputs_in l)) + total (deposits_in l) + (n_fee_a n * n0 + n_fee_b n) <= money ->
   1000000 + n_fee_a n * (n0 + zlen (b_change b0) + 40) + n_fee_b n < 2 ^ 32 ->
   exists b id s, do_calls H256 pub sgn fuel new_builder (l ++ [Balance [dummy] true]) = Some (Ok b) /\ get_id H256 b = Ok id /\
     serialize (tx_ser (set_vkeys (b_tx b) [(pk, sig)])) = Ok s /\
     (zlen s <= n_max_size n -> n_fee_a n * (n_max_size n + 8) + n_fee_b n < 2 ^ 64 -> (accepts H256 H224 verify n s <-> verify pk id sig = true))).
Proof.
  intros BK BS FU DW BU OK T NDR LL NI N1 N2 TTL FE A B MU MS DP IP money MO.
  set (k0 := {| kbytes := []; kcc := [] |} : xprv).
  assert (PB : forall k : xprv, bytesN 32 ((fun _ : xprv => pk) k)) by (intros k; exact BK).
  assert (SG : forall (k : xprv) (m : list Z), bytesN 64 ((fun _ _ => sig) k m)) by (intros k m; exact BS).
  destruct (C75_funded_accepted xprv H256 H224 (fun _ _ _ => true) (fun _ => pk) (fun _ _ => sig) fuel l [dummy] [k0] n ltac:(reflexivity) PB SG FU eq_refl ltac:(repeat constructor; apply DW)
    ltac:(constructor; [intros []|constructor]) BU OK T NDR LL NI N1 N2 TTL FE A B MU ltac:(intros h M; exists k0; split; [left; reflexivity|symmetry; exact (MS h M)]) DP IP MO) as (b0 & n0 & R0 & Z0 & G).
  rewrite (keyless H256 _ pub _ sgn fuel l (building_no_sign l BU)) in R0.
  exists b0, n0. split; [exact R0|]. split; [exact Z0|]. intros PAY SM. destruct (G PAY SM) as (b' & s & R & ES & LF & _ & AC). clear G.
  assert (nn : forall q, Forall (fun x => 0 <= x) q -> 0 <= total q) by (induction 1; cbn [total]; lia).
  pose proof (nn _ DP) as DN. apply Forall_app in IP as [IP1 IP2]. pose proof (nn _ IP1) as IN1. pose proof (nn _ IP2) as IN2.
  assert (LV : forall o, In o (outputs_in l) -> 0 <= to_amount o).
  { intros o I. unfold outputs_in in I. apply in_concat in I as (q & I & J). apply in_map_iff in I as (c & <- & I). rewrite Forall_forall in OK. specialize (OK _ I).
    destruct c; cbn [In] in J; try contradiction. destruct J as [<-|[]]. exact (proj1 (proj2 OK)). }
  assert (OS : 0 <= total (map to_amount (outputs_in l))) by (apply nn, Forall_map, Forall_forall; exact LV).
  assert (NN : 0 <= n0) by (destruct Z0 as (x & _ & <-); apply zlen_nonneg).
  assert (L1 : lovelace money) by (unfold lovelace, money in *; lia). assert (L2 : lovelace (total (deposits_in l))) by (unfold lovelace; nia).
  destruct (submitted H256 _ _ fuel n l [dummy] true [k0] b' PB SG R OK T LL MU N1 N2 L1 L2 LF) as (b0' & b1 & s' & sb & cs & R0' & RB & _ & EQ & _ & WN & WI & CU & PI & _ & _ & _ & ES' & EB & _ & IT & _ & _).
  assert (s' = s) by congruence. subst s'.
  assert (b0' = b0) by (rewrite (keyless H256 _ pub _ sgn fuel l (building_no_sign l BU)) in R0'; congruence). subst b0'.
  assert (EW : witnesses b' = [(pk, sig)]).
  { pose proof (one_of pk (map fst (witnesses b')) WN WI) as E. destruct (witnesses b') as [|[a g] [|w ws]] eqn:EWb; try discriminate. cbn [map fst] in E. assert (a = pk) as -> by congruence.
    unfold current in CU. rewrite EWb in CU. destruct (CU (pk, g) (or_introl eq_refl)) as (k & id & _ & Q). f_equal. exact Q. }
  rewrite EW in EQ.
  assert (BD : tx_body (b_tx b') = tx_body (b_tx b1)) by (rewrite <- EQ; reflexivity).
  assert (ID : get_id H256 b1 = Ok (H256 sb)) by (unfold get_id, body_id, body_of; rewrite <- BD, EB; reflexivity).
  exists b1, (H256 sb), s. split.
  { apply (calls_join _ _ _ _ _ _ _ _ _ R0). cbn [do_calls do_call]. rewrite RB. reflexivity. }
  split; [exact ID|]. split; [rewrite EQ; exact ES|]. intros SZ MX.
  destruct (AC SZ MX) as (sb' & t & IT' & V). pose proof (is_tx_body_fun _ _ _ _ _ IT IT') as <-. pose proof (is_tx_fun _ _ _ _ _ IT IT') as <-.
  assert (WS : w_sigs (wire_of (b_tx b') cs) = [(pk, sig)]) by (cbn [wire_of w_sigs]; exact EW).
  split.
  - intros (sb' & t & IT2 & V2). pose proof (is_tx_body_fun _ _ _ _ _ IT IT2) as <-. pose proof (is_tx_fun _ _ _ _ _ IT IT2) as <-.
    destruct V2 as (_ & _ & _ & _ & _ & _ & _ & _ & _ & _ & V11 & _). apply V11. rewrite WS. left. reflexivity.
  - intros VF. exists sb, (wire_of (b_tx b') cs). split; [exact IT|]. destruct V as (V1 & V2 & V3 & V4 & V5 & V6 & V7 & V8 & V9 & V10 & _ & V12).
    split; [exact V1|]. split; [exact V2|]. split; [exact V3|]. split; [exact V4|]. split; [exact V5|]. split; [exact V6|]. split; [exact V7|]. split; [exact V8|]. split; [exact V9|]. split; [exact V10|]. split; [|exact V12].
    intros k g I. rewrite WS in I. destruct I as [I|[]]. injection I as <- <-. exact VF.
Qed.

(** A key nobody holds: the transaction is built and balanced without it, and with a good signature of its id by that key it is taken, whoever made the signature. *)
Lemma signed_by_others H256 H224 verify pk (pub : xprv -> list Z) sgn fuel (l : list (@call xprv)) dummy n : bytesN 32 pk ->
  (7 <= fuel)%nat -> vkey_wf dummy ->
  Forall building l -> Forall call_ok l -> Forall (truthful n) l -> (forall a, ~ In (AddStakeDereg a) l) -> zlen l + 1 < 2 ^ 59 ->
  inputs_in l <> [] -> NoDup (map (fun u => (u_id u, u_index u)) (inputs_in l)) -> NoDup (map (fun w => RewardsAddress_toBytes (fst w)) (withdrawals_in l)) ->
  n_slot n <= last (ttls_in l) 0 -> last (min_fees_in l) (44, 155381) = (n_fee_a n, n_fee_b n) -> 0 <= n_fee_a n -> 2 ^ 16 <= n_fee_b n -> 0 <= n_min_utxo n <= 1000000 ->
  (forall h, must_sign n l h -> h = H224 pk) ->
  Forall (fun x => 0 <= x) (deposits_in l) -> Forall (fun x => 0 <= x) (map u_value (inputs_in l) ++ map snd (withdrawals_in l)) ->
  let money := total (map u_value (inputs_in l)) + total (map snd (withdrawals_in l)) in money < 2 ^ 62 ->
  exists b0 n0, do_calls H256 pub sgn fuel new_builder l = Some (Ok b0) /\ sized b0 [dummy] (outputs_in l) n0 /\
  (total (map to_amount (outputs_in l)) + total (deposits_in l) + (n_fee_a n * n0 + n_fee_b n) <= money ->
   1000000 + n_fee_a n * (n0 + zlen (b_change b0) + 40) + n_fee_b n < 2 ^ 32 ->
   exists b id, do_calls H256 pub sgn fuel new_builder (l ++ [Balance [dummy] true]) = Some (Ok b) /\ get_id H256 b = Ok id /\
   forall sig, bytesN 64 sig -> exists s, serialize (tx_ser (set_vkeys (b_tx b) [(pk, sig)])) = Ok s /\
     (zlen s <= n_max_size n -> n_fee_a n * (n_max_size n + 8) + n_fee_b n < 2 ^ 64 -> (accepts H256 H224 verify n s <-> verify pk id sig = true))).
Proof.
  intros BK FU DW BU OK T NDR LL NI N1 N2 TTL FE A B MU MS DP IP money MO.
  destruct (one_witness H256 H224 verify pk (repeat 0 64) pub sgn fuel l dummy n BK ltac:(apply bytesN_b; reflexivity) FU DW BU OK T NDR LL NI N1 N2 TTL FE A B MU MS DP IP MO) as (b0 & n0 & R0 & Z0 & G0).
  exists b0, n0. split; [exact R0|]. split; [exact Z0|]. intros PAY SM. destruct (G0 PAY SM) as (b & id & s0 & RB & ID & _). clear G0.
  exists b, id. split; [exact RB|]. split; [exact ID|]. intros sig BS.
  destruct (one_witness H256 H224 verify pk sig pub sgn fuel l dummy n BK BS FU DW BU OK T NDR LL NI N1 N2 TTL FE A B MU MS DP IP MO) as (b0' & n0' & R0' & Z0' & G).
  assert (b0' = b0) by congruence. subst b0'.
  assert (n0' = n0). { destruct Z0 as (x & X & <-). destruct Z0' as (y & Y & <-). congruence. } subst n0'.
  destruct (G PAY SM) as (b' & id' & s & RB' & ID' & ES & AA). assert (b' = b) by congruence. subst b'. assert (id' = id) by congruence. subst id'.
  exists s. split; [exact ES|exact AA].
Qed.

(** ** C80: a group of n key shares, t of which sign *)
(** The coins, reward accounts and certificates of the transaction are all under the hash of the group's key, the caller states what is the case and there is enough money.  Then the
    transaction is built without any key, and for every history of calls on signers in which a quorum commits to nonces and signs the transaction's id: the shares aggregate, the
    transaction with the group's key and that signature as its witness serialises, and a node takes it exactly if the nonces held when signing add up to those committed to. *)
Theorem C80_treasury_pays : forall sha512 sha256 enc padd verify H256 H224, (forall x, length (sha512 x) = 64%nat) -> ed_group enc padd -> ed_verifies enc sha512 verify ->
  forall root nk t gen coefs pk keys, 1 <= t <= nk -> nk < 2 ^ 32 - 1 -> length coefs = Z.to_nat (t - 1) ->
  Model_Tss.splitRootKey sha512 sha256 enc padd (Props_Tss.shamir_dealer nk t) root gen coefs = Ok (pk, keys) ->
  forall (pub : xprv -> list Z) sgn fuel (l : list (@call xprv)) dummy n, (7 <= fuel)%nat -> vkey_wf dummy ->
  Forall building l -> Forall call_ok l -> Forall (truthful n) l -> (forall a, ~ In (AddStakeDereg a) l) -> zlen l + 1 < 2 ^ 59 ->
  inputs_in l <> [] -> NoDup (map (fun u => (u_id u, u_index u)) (inputs_in l)) -> NoDup (map (fun w => RewardsAddress_toBytes (fst w)) (withdrawals_in l)) ->
  n_slot n <= last (ttls_in l) 0 -> last (min_fees_in l) (44, 155381) = (n_fee_a n, n_fee_b n) -> 0 <= n_fee_a n -> 2 ^ 16 <= n_fee_b n -> 0 <= n_min_utxo n <= 1000000 ->
  (forall h, must_sign n l h -> h = H224 (pbytes pk)) ->
  Forall (fun x => 0 <= x) (deposits_in l) -> Forall (fun x => 0 <= x) (map u_value (inputs_in l) ++ map snd (withdrawals_in l)) ->
  let money := total (map u_value (inputs_in l)) + total (map snd (withdrawals_in l)) in money < 2 ^ 62 ->
  exists b0 n0, do_calls H256 pub sgn fuel new_builder l = Some (Ok b0) /\ sized b0 [dummy] (outputs_in l) n0 /\
  (total (map to_amount (outputs_in l)) + total (deposits_in l) + (n_fee_a n * n0 + n_fee_b n) <= money ->
   1000000 + n_fee_a n * (n0 + zlen (b_change b0) + 40) + n_fee_b n < 2 ^ 32 ->
   exists b id, do_calls H256 pub sgn fuel new_builder (l ++ [Balance [dummy] true]) = Some (Ok b) /\ get_id H256 b = Ok id /\
   forall net tr net' outs seats lcs R, Model_TssNet.net_run sha512 enc net tr = Ok (net', outs) ->
     incl (map Props_TssNet.st_key seats) keys -> NoDup (map (fun st => Model_Tss.ks_id (Props_TssNet.st_key st)) seats) -> t <= zlen seats ->
     Model_Tss.computeLagrangeCoefficients (map (fun st => Model_Tss.ks_id (Props_TssNet.st_key st)) seats) = Ok lcs ->
     Model_Tss.aggregateCommitmentShares padd (Props_TssNet.commitments outs seats) = Ok R ->
     Forall2 (Props_TssNet.takes_part net tr id pk R) seats lcs ->
     exists sig s, Model_Tss.aggregateSignatureShares (Props_TssNet.shares outs seats) = Ok sig /\
       serialize (tx_ser (set_vkeys (b_tx b) [(pbytes pk, sig)])) = Ok s /\
       (zlen s <= n_max_size n -> n_fee_a n * (n_max_size n + 8) + n_fee_b n < 2 ^ 64 ->
        (accepts H256 H224 verify n s <-> R <> enc 0 /\
           Spec_Tss.total (map (fun st => Props_TssNet.held sha512 id tr st (Props_TssNet.st_sign st)) seats) mod ell =
           Spec_Tss.total (map (fun st => Props_TssNet.held sha512 id tr st (S (Props_TssNet.st_commit st))) seats) mod ell) /\
        ((forall st, In st seats -> Props_TssNet.steady tr st) -> R <> enc 0 -> accepts H256 H224 verify n s))).
Proof.
  intros sha512 sha256 enc padd verify H256 H224 HL EG EV root nk t gen coefs pk keys Ht Hn Lc SP pub sgn fuel l dummy n FU DW BU OK T NDR LL NI N1 N2 TTL FE A B MU MS DP IP money MO.
  assert (BK : bytesN 32 (pbytes pk)).
  { destruct (Props_Tss.C26_reconstruct sha512 sha256 enc padd EG root nk t gen coefs pk keys Ht Hn Lc SP) as (_ & P & _). apply (publicKey_ok enc padd EG) in P as [_ ->]. cbn [pbytes].
    split; [apply (enc_bytes _ _ EG)|unfold zlen; rewrite (enc_len _ _ EG); reflexivity]. }
  destruct (signed_by_others H256 H224 verify (pbytes pk) pub sgn fuel l dummy n BK FU DW BU OK T NDR LL NI N1 N2 TTL FE A B MU MS DP IP MO) as (b0 & n0 & R0 & Z0 & G).
  exists b0, n0. split; [exact R0|]. split; [exact Z0|]. intros PAY SM. destruct (G PAY SM) as (b & id & RB & ID & W).
  exists b, id. split; [exact RB|]. split; [exact ID|]. intros net tr net' outs seats lcs R RUN I ND LG EC AC F.
  destruct (Props_TssNet.C79_shamir_exact sha512 sha256 enc padd verify HL EG EV root nk t gen coefs pk keys Ht Hn Lc SP net tr net' outs RUN id seats lcs R I ND LG EC AC F) as (sig & SG & L64 & BS & V).
  assert (L64' : zlen sig = 64) by (unfold zlen; rewrite L64; reflexivity).
  destruct (W sig (conj BS L64')) as (s & ES & AA).
  exists sig, s. split; [exact SG|]. split; [exact ES|]. intros SZ MX. specialize (AA SZ MX). split; [rewrite AA; exact V|]. intros ST NR. apply AA, V. split; [exact NR|].
  rewrite (Props_TssNet.steady_totals sha512 net tr id pk R seats lcs F ST). reflexivity.
Qed.
(** The same for a direct group, whose key is the sum of its members' keys and whose members all sign. *)
Theorem C80_direct_treasury_pays : forall sha512 sha256 enc padd verify H256 H224, (forall x, length (sha512 x) = 64%nat) -> ed_group enc padd -> ed_verifies enc sha512 verify ->
  forall nk members pk, 1 <= nk -> Model_Tss.compositeKey sha512 sha256 enc padd (Props_Tss.direct_dealer nk) members = Ok pk -> pbytes pk <> enc 0 ->
  forall (pub : xprv -> list Z) sgn fuel (l : list (@call xprv)) dummy n, (7 <= fuel)%nat -> vkey_wf dummy ->
  Forall building l -> Forall call_ok l -> Forall (truthful n) l -> (forall a, ~ In (AddStakeDereg a) l) -> zlen l + 1 < 2 ^ 59 ->
  inputs_in l <> [] -> NoDup (map (fun u => (u_id u, u_index u)) (inputs_in l)) -> NoDup (map (fun w => RewardsAddress_toBytes (fst w)) (withdrawals_in l)) ->
  n_slot n <= last (ttls_in l) 0 -> last (min_fees_in l) (44, 155381) = (n_fee_a n, n_fee_b n) -> 0 <= n_fee_a n -> 2 ^ 16 <= n_fee_b n -> 0 <= n_min_utxo n <= 1000000 ->
  (forall h, must_sign n l h -> h = H224 (pbytes pk)) ->
  Forall (fun x => 0 <= x) (deposits_in l) -> Forall (fun x => 0 <= x) (map u_value (inputs_in l) ++ map snd (withdrawals_in l)) ->
  let money := total (map u_value (inputs_in l)) + total (map snd (withdrawals_in l)) in money < 2 ^ 62 ->
  exists b0 n0, do_calls H256 pub sgn fuel new_builder l = Some (Ok b0) /\ sized b0 [dummy] (outputs_in l) n0 /\
  (total (map to_amount (outputs_in l)) + total (deposits_in l) + (n_fee_a n * n0 + n_fee_b n) <= money ->
   1000000 + n_fee_a n * (n0 + zlen (b_change b0) + 40) + n_fee_b n < 2 ^ 32 ->
   exists b id, do_calls H256 pub sgn fuel new_builder (l ++ [Balance [dummy] true]) = Some (Ok b) /\ get_id H256 b = Ok id /\
   forall net tr net' outs seats R, Model_TssNet.net_run sha512 enc net tr = Ok (net', outs) ->
     map Props_TssNet.st_key seats = members ->
     Model_Tss.aggregateCommitmentShares padd (Props_TssNet.commitments outs seats) = Ok R ->
     Forall2 (Props_TssNet.takes_part net tr id pk R) seats (map (fun _ => Props_TssNet.one_coef) seats) ->
     exists sig s, Model_Tss.aggregateSignatureShares (Props_TssNet.shares outs seats) = Ok sig /\
       serialize (tx_ser (set_vkeys (b_tx b) [(pbytes pk, sig)])) = Ok s /\
       (zlen s <= n_max_size n -> n_fee_a n * (n_max_size n + 8) + n_fee_b n < 2 ^ 64 ->
        (accepts H256 H224 verify n s <-> R <> enc 0 /\
           Spec_Tss.total (map (fun st => Props_TssNet.held sha512 id tr st (Props_TssNet.st_sign st)) seats) mod ell =
           Spec_Tss.total (map (fun st => Props_TssNet.held sha512 id tr st (S (Props_TssNet.st_commit st))) seats) mod ell) /\
        ((forall st, In st seats -> Props_TssNet.steady tr st) -> R <> enc 0 -> accepts H256 H224 verify n s))).
Proof.
  intros sha512 sha256 enc padd verify H256 H224 HL EG EV nk members pk Hn CK NP pub sgn fuel l dummy n FU DW BU OK T NDR LL NI N1 N2 TTL FE A B MU MS DP IP money MO.
  assert (BK : bytesN 32 (pbytes pk)).
  { assert (TT : Model_Tss.threshold (Props_Tss.direct_dealer nk) <= zlen members /\ forall k, In k members -> usable (Proof_Tss2.kl k)).
    { unfold Model_Tss.compositeKey in CK. unfold zlen. destruct (Z.ltb_spec (Z.of_nat (length members)) (Model_Tss.threshold (Props_Tss.direct_dealer nk))); [discriminate|]. split; [lia|].
      cbn [Model_Tss.algorithm Props_Tss.direct_dealer] in CK. apply bind_ok in CK as (q & Hq & _). eapply (Proof_Tss2.pubs_inv enc padd EG); exact Hq. }
    assert (NE : members <> []) by (intros ->; destruct TT as [TT _]; unfold zlen in TT; cbn in TT; lia).
    rewrite (Proof_Tss2.direct_compositeKey sha512 sha256 enc padd EG (Props_Tss.direct_dealer nk) members eq_refl (proj2 TT)) in CK; [|exact NE|apply TT]. assert (X : pbytes pk = enc (Proof_Tss2.sumz (map Proof_Tss2.kl members))) by (injection CK as <-; reflexivity). rewrite X.
    split; [apply (enc_bytes _ _ EG)|unfold zlen; rewrite (enc_len _ _ EG); reflexivity]. }
  destruct (signed_by_others H256 H224 verify (pbytes pk) pub sgn fuel l dummy n BK FU DW BU OK T NDR LL NI N1 N2 TTL FE A B MU MS DP IP MO) as (b0 & n0 & R0 & Z0 & G).
  exists b0, n0. split; [exact R0|]. split; [exact Z0|]. intros PAY SM. destruct (G PAY SM) as (b & id & RB & ID & W).
  exists b, id. split; [exact RB|]. split; [exact ID|]. intros net tr net' outs seats R RUN I AC F. rewrite <- I in CK.
  destruct (Props_TssNet.C79_direct sha512 sha256 enc padd verify HL EG EV nk net tr net' outs Hn RUN id pk seats R CK NP AC F) as (sig & SG & L64 & BS & V & ST).
  assert (L64' : zlen sig = 64) by (unfold zlen; rewrite L64; reflexivity).
  destruct (W sig (conj BS L64')) as (s & ES & AA).
  exists sig, s. split; [exact SG|]. split; [exact ES|]. intros SZ MX. specialize (AA SZ MX). split; [rewrite AA; exact V|]. intros STD NR. apply AA, ST; assumption.
Qed.

(** ** Example: ten ada under the key of a group of four, three of which sign; the session is the one of C79, on the id of the transaction *)
Definition ex80_pub (k : xprv) : list Z := [].
Definition ex80_sgn (k : xprv) (m : list Z) : list Z := [].
Definition ex80_pk : xpub := Props_TssNet.ex79_pk.
Definition ex80_node : node :=
  {| n_slot := 999999; n_fee_a := 44; n_fee_b := 155381; n_min_utxo := 1000000; n_max_size := 16384; n_key_deposit := 2000000; n_pool_deposit := 500000000;
     n_utxo := fun id i => if (zlist_eqb id (repeat 1 32)) && (i =? 3) then Some (10000000, toy_h 28 (pbytes ex80_pk)) else None;
     n_rewards := fun a => None; n_pool := fun _ => false |}.
Definition ex80_l : list (@call xprv) :=
  [AddInput {| u_id := repeat 1 32; u_index := 3; u_value := 10000000 |}; AddOutput (repeat 65 57) 3000000; SetTtl 1000000; SetChange (repeat 66 57)].
Definition ex80_dummy : list Z * list Z := (repeat 0 32, repeat 0 64).
Notation ex80_run := (do_calls (toy_h 32) ex80_pub ex80_sgn 10 new_builder (ex80_l ++ [Balance [ex80_dummy] true])).
Definition ex80_id : list Z := Eval vm_compute in match ex80_run with Some (Ok b) => match get_id (toy_h 32) b with Ok id => id | _ => [] end | _ => [] end.
Definition ex80_net : list Model_Tss.signer := Eval vm_compute in
  map (fun i => Model_Tss.signer_new_coef ex80_id ex80_pk (Props_TssNet.ex79_key i) (nth i Props_TssNet.ex79_lcs [])) [0; 1; 2]%nat.
Definition ex80_tr0 : list (nat * Spec_Tss.signer_call) := [(0%nat, Spec_Tss.Commit [1]); (2%nat, Spec_Tss.Commit [2]); (0%nat, Spec_Tss.Commit [3]); (1%nat, Spec_Tss.Commit [4])].
Definition ex80_seats : list Props_TssNet.seat :=
  [{| Props_TssNet.st_who := 0%nat; Props_TssNet.st_key := Props_TssNet.ex79_key 0; Props_TssNet.st_commit := 2%nat; Props_TssNet.st_sign := 5%nat |};
   {| Props_TssNet.st_who := 1%nat; Props_TssNet.st_key := Props_TssNet.ex79_key 1; Props_TssNet.st_commit := 3%nat; Props_TssNet.st_sign := 7%nat |};
   {| Props_TssNet.st_who := 2%nat; Props_TssNet.st_key := Props_TssNet.ex79_key 2; Props_TssNet.st_commit := 1%nat; Props_TssNet.st_sign := 4%nat |}].
Definition ex80_R : list Z := Eval vm_compute in match Model_TssNet.net_run (toy_h 64) toy_enc ex80_net ex80_tr0 with
  | Ok r => match Model_Tss.aggregateCommitmentShares toy_padd (Props_TssNet.commitments (snd r) ex80_seats) with Ok x => x | _ => [] end | _ => [] end.
Definition ex80_tr : list (nat * Spec_Tss.signer_call) := ex80_tr0 ++ [(2%nat, Spec_Tss.Sign ex80_R); (0%nat, Spec_Tss.Sign ex80_R); (2%nat, Spec_Tss.Commit [8]); (1%nat, Spec_Tss.Sign ex80_R)].
(** the same, where member 2 commits again before it signs *)
Definition ex80_bad : list (nat * Spec_Tss.signer_call) := ex80_tr0 ++ [(2%nat, Spec_Tss.Commit [8]); (0%nat, Spec_Tss.Sign ex80_R); (2%nat, Spec_Tss.Sign ex80_R); (1%nat, Spec_Tss.Sign ex80_R)].
Definition ex80_bad_seats : list Props_TssNet.seat :=
  [{| Props_TssNet.st_who := 0%nat; Props_TssNet.st_key := Props_TssNet.ex79_key 0; Props_TssNet.st_commit := 2%nat; Props_TssNet.st_sign := 5%nat |};
   {| Props_TssNet.st_who := 1%nat; Props_TssNet.st_key := Props_TssNet.ex79_key 1; Props_TssNet.st_commit := 3%nat; Props_TssNet.st_sign := 7%nat |};
   {| Props_TssNet.st_who := 2%nat; Props_TssNet.st_key := Props_TssNet.ex79_key 2; Props_TssNet.st_commit := 1%nat; Props_TssNet.st_sign := 6%nat |}].
Definition ex80_outs : list (list Z) := Eval vm_compute in match Model_TssNet.net_run (toy_h 64) toy_enc ex80_net ex80_tr with Ok r => snd r | _ => [] end.
Definition ex80_bad_outs : list (list Z) := Eval vm_compute in match Model_TssNet.net_run (toy_h 64) toy_enc ex80_net ex80_bad with Ok r => snd r | _ => [] end.
Definition ex80_sized (b : builder) : tx := let x := tx_body (b_tx b) in
  {| tx_body := {| tb_inputs := tb_inputs x; tb_outputs := outputs_in ex80_l; tb_fee := 2 ^ 16; tb_ttl := tb_ttl x; tb_certs := tb_certs x; tb_withdrawals := tb_withdrawals x; tb_metadata_hash := tb_metadata_hash x |};
     tx_wits := {| ws_vkeys := [ex80_dummy]; ws_scripts := ws_scripts (tx_wits (b_tx b)); ws_bootstrap := ws_bootstrap (tx_wits (b_tx b)) |}; tx_meta := tx_meta (b_tx b) |}.
Lemma ex80_small : match do_calls (toy_h 32) ex80_pub ex80_sgn 10 new_builder ex80_l with Some (Ok b0) => match serialize (tx_ser (ex80_sized b0)) with Ok s => (zlen s <=? 2000) && (zlen (b_change b0) =? 57) | _ => false end | _ => false end = true.
Proof. vm_compute. reflexivity. Qed.
Lemma ex80_gid : match ex80_run with Some (Ok b) => match get_id (toy_h 32) b with Ok id => zlist_eqb id ex80_id | _ => false end | _ => false end = true.
Proof. vm_compute. reflexivity. Qed.
Lemma ex80_session : (exists net', Model_TssNet.net_run (toy_h 64) toy_enc ex80_net ex80_tr = Ok (net', ex80_outs)) /\ (exists net', Model_TssNet.net_run (toy_h 64) toy_enc ex80_net ex80_bad = Ok (net', ex80_bad_outs)) /\
  Model_Tss.computeLagrangeCoefficients (map (fun st => Model_Tss.ks_id (Props_TssNet.st_key st)) ex80_seats) = Ok Props_TssNet.ex79_lcs /\
  Model_Tss.aggregateCommitmentShares toy_padd (Props_TssNet.commitments ex80_outs ex80_seats) = Ok ex80_R /\
  Model_Tss.aggregateCommitmentShares toy_padd (Props_TssNet.commitments ex80_bad_outs ex80_bad_seats) = Ok ex80_R /\ ex80_R <> toy_enc 0 /\
  Forall2 (Props_TssNet.takes_part ex80_net ex80_tr ex80_id ex80_pk ex80_R) ex80_seats Props_TssNet.ex79_lcs /\
  Forall2 (Props_TssNet.takes_part ex80_net ex80_bad ex80_id ex80_pk ex80_R) ex80_bad_seats Props_TssNet.ex79_lcs /\
  (forall st, In st ex80_seats -> Props_TssNet.steady ex80_tr st) /\
  Spec_Tss.total (map (fun st => Props_TssNet.held (toy_h 64) ex80_id ex80_bad st (Props_TssNet.st_sign st)) ex80_bad_seats) mod ell <>
  Spec_Tss.total (map (fun st => Props_TssNet.held (toy_h 64) ex80_id ex80_bad st (S (Props_TssNet.st_commit st))) ex80_bad_seats) mod ell.
Proof.
  split; [eexists; vm_compute; reflexivity|]. split; [eexists; vm_compute; reflexivity|]. split; [vm_compute; reflexivity|]. split; [vm_compute; reflexivity|]. split; [vm_compute; reflexivity|]. split; [vm_compute; discriminate|].
  split; [|split; [|split]].
  - repeat (apply Forall2_cons; [split; [eexists; reflexivity|eexists; split; [reflexivity|right; split; reflexivity]]|]). apply Forall2_nil.
  - repeat (apply Forall2_cons; [split; [eexists; reflexivity|eexists; split; [reflexivity|right; split; reflexivity]]|]). apply Forall2_nil.
  - intros st [<-|[<-|[<-|[]]]]; (split; [cbn [Props_TssNet.st_commit Props_TssNet.st_sign]; lia|]); intros k seed B; cbn [Props_TssNet.st_commit Props_TssNet.st_sign Props_TssNet.st_who] in *;
      (do 10 (destruct k as [|k]; [try lia; cbn; discriminate|])); lia.
  - vm_compute. discriminate.
Qed.
Lemma ex80_shared : exists keys, Props_Tss.ex_shamir = Ok (ex80_pk, keys) /\ incl (map Props_TssNet.st_key ex80_seats) keys.
Proof. destruct Props_TssNet.C79_nontrivial as (_ & Q & _). exact Q. Qed.
Lemma ex80_max : match ex80_run with Some (Ok b) => match Model_Tss.aggregateSignatureShares (Props_TssNet.shares ex80_outs ex80_seats), Model_Tss.aggregateSignatureShares (Props_TssNet.shares ex80_bad_outs ex80_bad_seats) with
  | Ok g, Ok g' => match serialize (tx_ser (set_vkeys (b_tx b) [(pbytes ex80_pk, g)])), serialize (tx_ser (set_vkeys (b_tx b) [(pbytes ex80_pk, g')])) with Ok s, Ok s' => (zlen s <=? 16384) && (zlen s' <=? 16384) | _, _ => false end | _, _ => false end | _ => false end = true.
Proof. vm_compute. reflexivity. Qed.
Lemma ex80_signers : forall h, must_sign ex80_node ex80_l h -> h = toy_h 28 (pbytes ex80_pk).
Proof.
  intros h M. unfold must_sign, ex80_l in M. cbn [In] in M.
  destruct M as [(u & v & J & U)|[(a & v & J & ->)|[(a & p & J & ->)|[(a & J & _)|[(p & e & J & _)|(p & d & J & _)]]]]]; [|exfalso; do 4 (destruct J as [J|J]; [discriminate J|]); destruct J..].
  destruct J as [J|J]; [|exfalso; repeat (destruct J as [J|J]; [discriminate J|]); destruct J]. assert (u = {| u_id := repeat 1 32; u_index := 3; u_value := 10000000 |}) as -> by congruence.
  cbn [ex80_node n_utxo u_id u_index] in U. rewrite zlist_eqb_refl in U. cbn [andb] in U. change (3 =? 3) with true in U. cbv iota in U. congruence.
Qed.
Example C80_ex : exists b sig s sig' s', ex80_run = Some (Ok b) /\
  Model_Tss.aggregateSignatureShares (Props_TssNet.shares ex80_outs ex80_seats) = Ok sig /\ serialize (tx_ser (set_vkeys (b_tx b) [(pbytes ex80_pk, sig)])) = Ok s /\ accepts (toy_h 32) (toy_h 28) toy_verify ex80_node s /\
  Model_Tss.aggregateSignatureShares (Props_TssNet.shares ex80_bad_outs ex80_bad_seats) = Ok sig' /\ serialize (tx_ser (set_vkeys (b_tx b) [(pbytes ex80_pk, sig')])) = Ok s' /\ ~ accepts (toy_h 32) (toy_h 28) toy_verify ex80_node s'.
Proof.
  assert (Y1 : 1 <= 3 <= 4) by lia. assert (Y2 : 4 < 2 ^ 32 - 1) by lia. assert (Y3 : n_fee_a ex80_node * (n_max_size ex80_node + 8) + n_fee_b ex80_node < 2 ^ 64) by reflexivity.
  assert (Y4 : forall z, z <= 2000 -> 3000000 + 0 + (44 * z + 155381) <= 10000000 /\ 1000000 + 44 * (z + 57 + 40) + 155381 < 2 ^ 32) by (intros z B; split; lia).
  assert (Y5 : 3 <= zlen ex80_seats /\ 3 <= zlen ex80_bad_seats) by (split; vm_compute; discriminate).
  destruct ex80_shared as (keys & SP & IN). destruct ex80_session as ((net1 & R1) & (net2 & R2) & LC & AC1 & AC2 & NR & F1 & F2 & ST & NE).
  destruct (C80_treasury_pays (toy_h 64) (toy_h 32) toy_enc toy_padd toy_verify (toy_h 32) (toy_h 28) (fun x => proj1 (sha512_ok _ _ _ _ toy_hashes x)) toy_group toy_verifies
    toy_root 4 3 Props_Tss.ex_gen [12345; 67890] ex80_pk keys Y1 Y2 eq_refl SP ex80_pub ex80_sgn 10%nat ex80_l ex80_dummy ex80_node) as (b0 & n0 & B0 & Z0 & G).
  - lia.
  - split; apply bytesN_b; reflexivity.
  - unfold ex80_l. repeat (apply Forall_cons; [exact I|]). apply Forall_nil.
  - unfold ex80_l. apply Forall_cons; [split; [apply (repeat_bytesN 1 32); split; lia|split; cbn; lia]|]. apply Forall_cons; [split; [split; [apply (repeat_bytesN 65 57); split; lia|reflexivity]|split; [lia|reflexivity]]|].
    apply Forall_cons; [split; [lia|reflexivity]|]. apply Forall_cons; [split; [apply (repeat_bytesN 66 57); split; lia|reflexivity]|]. apply Forall_nil.
  - unfold ex80_l. apply Forall_cons; [eexists; cbn [truthful ex80_node n_utxo u_id u_index u_value]; rewrite zlist_eqb_refl; reflexivity|].
    apply Forall_cons; [cbn [truthful ex80_node n_min_utxo]; lia|]. apply Forall_cons; [exact I|]. apply Forall_cons; [exact I|]. apply Forall_nil.
  - intros a J. unfold ex80_l in J. cbn [In] in J. repeat (destruct J as [J|J]; [discriminate J|]). destruct J.
  - reflexivity.
  - discriminate.
  - repeat constructor; intros [].
  - constructor.
  - vm_compute. discriminate.
  - reflexivity.
  - cbn; lia.
  - cbn; lia.
  - cbn; lia.
  - exact ex80_signers.
  - change (deposits_in ex80_l) with (@nil Z). constructor.
  - change (Forall (fun x => 0 <= x) [10000000]). constructor; [lia|]. constructor.
  - reflexivity.
  - pose proof ex80_small as WS. rewrite B0 in WS. destruct Z0 as (sz & ES & EZ). change (serialize (tx_ser (ex80_sized b0)) = Ok sz) in ES. rewrite ES in WS. rewrite EZ in WS. apply andb_prop in WS as [WS1 WS2]. apply Z.leb_le in WS1. apply Z.eqb_eq in WS2.
    destruct (Y4 n0 WS1) as [P1 P2]. rewrite <- WS2 in P2. destruct (G P1 P2) as (b & id & RB & GI & SES).
    assert (id = ex80_id). { pose proof ex80_gid as Q. rewrite RB, GI in Q. apply zlist_eqb_spec. exact Q. } subst id.
    destruct (SES ex80_net ex80_tr net1 ex80_outs ex80_seats Props_TssNet.ex79_lcs ex80_R R1 IN) as (sig & s & A1 & S1 & V1); [| |exact LC|exact AC1|exact F1|].
    { destruct Props_TssNet.C79_nontrivial as (_ & _ & Q & _). exact Q. } { exact (proj1 Y5). }
    destruct (SES ex80_net ex80_bad net2 ex80_bad_outs ex80_bad_seats Props_TssNet.ex79_lcs ex80_R R2 IN) as (sig' & s' & A2 & S2 & V2); [| |exact LC|exact AC2|exact F2|].
    { destruct Props_TssNet.C79_nontrivial as (_ & _ & Q & _). exact Q. } { exact (proj2 Y5). }
    pose proof ex80_max as MX. rewrite RB, A1, A2, S1, S2 in MX. apply andb_prop in MX as [M1 M2]. apply Z.leb_le in M1, M2.
    exists b, sig, s, sig', s'. split; [exact RB|]. split; [exact A1|]. split; [exact S1|]. split; [exact (proj2 (V1 M1 Y3) ST NR)|]. split; [exact A2|]. split; [exact S2|].
    intros AC. apply (proj1 (V2 M2 Y3)) in AC as [_ AC]. exact (NE AC).
Qed.
Print Assumptions C80_treasury_pays.
Print Assumptions C80_direct_treasury_pays.
