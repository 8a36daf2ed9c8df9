(** Property C48 (Byron addresses). *)
From Verif Require Import Base BaseLemmas Model_Hex Spec_Cbor Model_Cbor Proof_Cbor Model_Ledger Spec_Base58 Model_Base58 Proof_Base58 Props_Base58 Model_Bip32 Proof_Hex Spec_Ed25519 Props_Bip32 Spec_Byron Model_Byron Proof_Byron Proof_Crc.
Ltac Zify.zify_post_hook ::= idtac.

(** The library's address object and the specification's description of an address. *)
Definition kind_of (t : byron_type) : addr_kind := match t with Pubkey => KPubkey | Script => KScript | Redeem => KRedeem end.
Definition type_of (k : addr_kind) : byron_type := match k with KPubkey => Pubkey | KScript => Script | KRedeem => Redeem end.
Definition data_of (a : byron) : address_data :=
  {| ad_root := by_root a; ad_cipher := ba_cipher (by_attrs a); ad_magic := ba_magic (by_attrs a); ad_kind := kind_of (by_type a) |}.
Definition object_of (d : address_data) : byron :=
  {| by_root := ad_root d; by_attrs := {| ba_cipher := ad_cipher d; ba_magic := ad_magic d |}; by_type := type_of (ad_kind d) |}.
Lemma object_data a : object_of (data_of a) = a. Proof. destruct a as [r [c m] t]. destruct t; reflexivity. Qed.

(** ** CRC-32 *)
Theorem C48_crc_is_the_standard_one : forall l, bytes_ok l -> crc32 l = crc32_spec l.
Proof. exact crc32_correct. Qed.
Example C48_ex_crc : crc32_spec (str "123456789") = 0xCBF43926. Proof. vm_compute. reflexivity. Qed.
Print Assumptions C48_crc_is_the_standard_one.

(** ** Lemmas *)
Lemma head_le9 m n : zlen (cbor_head m n) <= 9.
Proof. unfold zlen. rewrite head_len. repeat destruct (_ <? _); lia. Qed.
Lemma cipher_ok c : bytes_ok c -> zlen c < 2 ^ 32 -> cbor_ok (CBytes c) /\ cbor_ok (CBytes (cbor_encode (CBytes c))) /\ zlen (cbor_encode (CBytes c)) < 2 ^ 33.
Proof.
  intros B L. assert (O : cbor_ok (CBytes c)) by (cbn; split; [exact B|lia]). split; [exact O|]. pose proof (head_le9 2 (zlen c)) as H.
  assert (Z1 : zlen (cbor_encode (CBytes c)) < 2 ^ 33) by (cbn [cbor_encode]; rewrite zlen_app; lia). split; [|exact Z1]. split; [apply encode_bytes, O|lia].
Qed.
Lemma magic_ok m : 0 <= m < 2 ^ 32 -> cbor_ok (CUint m) /\ cbor_ok (CBytes (cbor_encode (CUint m))) /\ zlen (cbor_encode (CUint m)) <= 9.
Proof.
  intros B. assert (O : cbor_ok (CUint m)) by (cbn; lia). split; [exact O|]. pose proof (head_le9 0 m) as H. split; [|exact H]. split; [apply encode_bytes, O|]. cbn [cbor_encode]. lia.
Qed.
Lemma ok_inj_b {A} (x y : A) : Ok x = Ok y -> x = y. Proof. congruence. Qed.
Ltac heads := repeat match goal with |- context [zlen (cbor_head ?m ?n)] => let v := fresh "hv" in pose proof (head_le9 m n); set (v := zlen (cbor_head m n)) in *; clearbody v end.
Lemma attrs_ok a : bytes_ok (ba_cipher a) -> zlen (ba_cipher a) < 2 ^ 32 -> 0 <= ba_magic a < 2 ^ 32 -> cbor_ok (attrs_item a) /\ zlen (cbor_encode (attrs_item a)) < 2 ^ 34.
Proof.
  intros B L M. destruct (cipher_ok _ B L) as (_ & O1 & L1). destruct (magic_ok _ M) as (_ & O2 & L2). unfold attrs_item.
  pose proof (zlen_nonneg (cbor_encode (CUint (ba_magic a)))) as N2. pose proof (zlen_nonneg (cbor_encode (CBytes (ba_cipher a)))) as N1.
  set (e1 := cbor_encode (CBytes (ba_cipher a))) in *. set (e2 := cbor_encode (CUint (ba_magic a))) in *. clearbody e1 e2.
  destruct (0 <? zlen (ba_cipher a)), (negb (ba_magic a =? 0)); cbn [app]; split;
    try (cbn [cbor_ok fold_right]; repeat split; try (unfold zlen; cbn [length]; lia); try apply O1; try apply O2; lia);
    cbn [cbor_encode map concat]; rewrite ?app_nil_r, ?zlen_app; heads; lia.
Qed.
Definition byron_wf (a : byron) : Prop := address_data_ok (data_of a).
Lemma payload_ok a : byron_wf a -> cbor_ok (payload_item a) /\ zlen (cbor_encode (payload_item a)) < 2 ^ 35.
Proof.
  intros (B & L & C & LC & M). destruct (attrs_ok (by_attrs a) C LC M) as [OA LA]. cbn [data_of ad_root] in *. unfold payload_item. set (at_ := attrs_item (by_attrs a)) in *. clearbody at_. split.
  - cbn [cbor_ok fold_right]. repeat split; try assumption; try (unfold zlen; cbn [length]; lia); try (destruct (by_type a); cbn; lia).
  - cbn [cbor_encode map concat]. rewrite app_nil_r, !zlen_app. heads. unfold zlen in *. lia.
Qed.
Lemma addr_ok p : bytes_ok p -> zlen p < 2 ^ 35 -> cbor_ok (addr_item p).
Proof. intros B L. pose proof (crc32_w p B) as W. unfold w32 in W. unfold addr_item. cbn [cbor_ok fold_right]. repeat split; try exact B; try lia; unfold zlen; cbn [length]; lia. Qed.
Lemma cbor_of_encode c : cbor_ok c -> cbor_of (cbor_encode c) c.
Proof. intros O. unfold cbor_of. pose proof (cbor_round_trip c [] O) as E. rewrite app_nil_r in E. exact E. Qed.
Lemma cbor_of_parse s c : cbor_of s c -> cbor_parse s = Ok c. Proof. intros H. unfold cbor_parse. rewrite H. reflexivity. Qed.
Lemma cbor_of_ok s c : bytes_ok s -> cbor_of s c -> cbor_ok c.
Proof. intros B H. destruct (encode_shortest s c [] B H) as [O _]. exact O. Qed.

(** ** Writing: the bytes are the ones the Byron CDDL describes.  Missing: redeem addresses (see C48_redeem_refuted). *)
Theorem C48_layout : forall a, byron_wf a -> by_type a <> Redeem -> cddl_address (data_of a) (byron_toCBOR a).
Proof.
  intros a W T. destruct (payload_ok a W) as [OP LP]. destruct W as (B & L & C & LC & M). cbn [data_of ad_root ad_cipher ad_magic] in *.
  exists (cbor_encode (payload_item a)). split.
  - exists (if 0 <? zlen (ba_cipher (by_attrs a)) then [(CUint 1, CBytes (cbor_encode (CBytes (ba_cipher (by_attrs a)))))] else []).
    exists (if negb (ba_magic (by_attrs a) =? 0) then [(CUint 2, CBytes (cbor_encode (CUint (ba_magic (by_attrs a)))))] else []).
    cbn [data_of ad_root ad_cipher ad_magic ad_kind]. split; [|split].
    + destruct (Z.ltb_spec 0 (zlen (ba_cipher (by_attrs a)))) as [P|P]; [right|left].
      * split; [intros E; rewrite E in P; cbn in P; lia|]. eexists. split; [apply cbor_of_encode; apply cipher_ok; assumption|reflexivity].
      * split; [|reflexivity]. destruct (ba_cipher (by_attrs a)) as [|x l]; [reflexivity|]. rewrite zlen_cons in P. pose proof (zlen_nonneg l). lia.
    + destruct (Z.eqb_spec (ba_magic (by_attrs a)) 0) as [P|P]; cbn [negb]; [left; auto|right]. split; [exact P|]. eexists. split; [apply cbor_of_encode; apply magic_ok; assumption|reflexivity].
    + replace (kind_number (kind_of (by_type a))) with (type_to_uint (by_type a)) by (destruct (by_type a); [reflexivity|reflexivity|congruence]). apply cbor_of_encode. exact OP.
  - pose proof (encode_bytes _ OP) as BP. rewrite <- (crc32_correct _ BP). apply cbor_of_encode. apply addr_ok; assumption.
Qed.
Print Assumptions C48_layout.

(** ** Reading: every address the CDDL describes, however its CBOR is written, is read correctly (trailing bytes are ignored). *)
Theorem C48_reads_every_address : forall d s, address_data_ok d -> bytes_ok s -> cddl_address d s -> byron_fromCBOR s = Ok (object_of d).
Proof.
  intros d s (B & L & C & LC & M) BS (p & (e1 & e2 & A1 & A2 & CP) & CA).
  pose proof (cbor_of_ok _ _ BS CA) as OA. cbn [cbor_ok fold_right] in OA. destruct OA as (_ & ((_ & BP & _) & _)).
  unfold byron_fromCBOR. rewrite (cbor_of_parse _ _ CA). cbn [bind as_array deref get_ub nth_error as_bytes as_uint].
  rewrite <- (crc32_correct p BP). pose proof (crc32_w p BP) as W. unfold w32 in W. rewrite Z.mod_small by lia. rewrite Z.eqb_refl. cbn [negb].
  unfold byron_payload. rewrite (cbor_of_parse _ _ CP). cbn [bind as_array deref get_ub nth_error as_bytes as_uint as_map].
  destruct (Z.ltb_spec 28 (zlen (ad_root d))) as [X|X]; [unfold zlen in X; lia|].
  assert (M1 : match map_get (e1 ++ e2) 1 with None => Ok [] | Some c => let* b := deref (as_bytes c) in let* d := cbor_parse b in deref (as_bytes d) end = Ok (ad_cipher d)).
  { destruct A1 as [[-> ->]|(N & s1 & S1 & ->)].
    - destruct A2 as [[_ ->]|(_ & s2 & _ & ->)]; reflexivity.
    - unfold map_get. cbn [app find fst snd Z.eqb Pos.eqb bind as_bytes deref]. rewrite (cbor_of_parse _ _ S1). reflexivity. }
  assert (M2 : match map_get (e1 ++ e2) 2 with None => Ok 0 | Some c => let* b := deref (as_bytes c) in let* d := cbor_parse b in let* v := deref (as_uint d) in Ok (v mod 2 ^ 32) end = Ok (ad_magic d)).
  { destruct A2 as [[-> ->]|(N & s2 & S2 & ->)].
    - destruct A1 as [[_ ->]|(_ & s1 & _ & ->)]; reflexivity.
    - assert (E : map_get (e1 ++ [(CUint 2, CBytes s2)]) 2 = Some (CBytes s2)) by (destruct A1 as [[_ ->]|(_ & s1 & _ & ->)]; reflexivity). rewrite E. cbn [bind as_bytes deref]. rewrite (cbor_of_parse _ _ S2). cbn [bind as_uint deref]. rewrite Z.mod_small by exact M. reflexivity. }
  rewrite M1. cbn [bind]. rewrite M2. cbn [bind]. rewrite L, Nat.sub_diag. cbn [repeat]. rewrite app_nil_r. unfold object_of. destruct (ad_kind d); reflexivity.
Qed.
Print Assumptions C48_reads_every_address.

(** ** Round trips *)
Theorem C48_cbor_round_trip : forall a, byron_wf a -> by_type a <> Redeem -> byron_fromCBOR (byron_toCBOR a) = Ok a.
Proof.
  intros a W T. rewrite <- (object_data a) at 2. apply C48_reads_every_address; [exact W| |apply C48_layout; assumption].
  destruct (payload_ok a W) as [OP LP]. apply encode_bytes, addr_ok; [apply encode_bytes, OP|exact LP].
Qed.
Theorem C48_base58_round_trip : forall a, byron_wf a -> by_type a <> Redeem ->
  exists text, byron_toBase58 a = Ok text /\ is_base58 (byron_toCBOR a) text /\ byron_fromBase58 text = Ok a.
Proof.
  intros a W T. destruct (payload_ok a W) as [OP LP].
  assert (BA : bytes_ok (byron_toCBOR a)) by (apply encode_bytes, addr_ok; [apply encode_bytes, OP|exact LP]).
  destruct (C07_base58_round_trip _ BA) as (t & E & I & D). { left. discriminate. }
  exists t. split; [exact E|]. split; [exact I|]. unfold byron_fromBase58. rewrite D. cbn [bind]. apply C48_cbor_round_trip; assumption.
Qed.
Print Assumptions C48_cbor_round_trip.
Print Assumptions C48_base58_round_trip.
Definition ex_byron (t : byron_type) : byron := {| by_root := map Z.of_nat (seq 100 28); by_attrs := {| ba_cipher := map Z.of_nat (seq 7 28); ba_magic := 1097911063 |}; by_type := t |}.
Lemma ex_byron_wf t : byron_wf (ex_byron t).
Proof.
  assert (K : forall k n, (k + n <= 256)%nat -> bytes_ok (map Z.of_nat (seq k n))). { intros k n H. apply Forall_forall. intros x X. apply in_map_iff in X as (y & <- & Y). apply in_seq in Y. unfold byte_ok. lia. }
  repeat split; cbn [ex_byron data_of ad_root ad_cipher ad_magic by_root by_attrs ba_cipher ba_magic]; try (apply K; lia); try reflexivity; lia.
Qed.
Example C48_ex_round_trip : byron_wf (ex_byron Script) /\ by_type (ex_byron Script) <> Redeem /\ byron_fromCBOR (byron_toCBOR (ex_byron Script)) = Ok (ex_byron Script).
Proof. split; [apply ex_byron_wf|]. split; [discriminate|]. vm_compute. reflexivity. Qed.

(** Redeem addresses are written as script addresses: the bytes say type 1, and reading them back gives a script address. *)
Theorem C48_redeem_refuted : forall a, byron_wf a -> by_type a = Redeem ->
  let as_script := {| by_root := by_root a; by_attrs := by_attrs a; by_type := Script |} in
  byron_toCBOR a = byron_toCBOR as_script /\ byron_fromCBOR (byron_toCBOR a) = Ok as_script /\ as_script <> a /\ ~ cddl_address (data_of a) (byron_toCBOR a).
Proof.
  intros a W T s. assert (E : byron_toCBOR a = byron_toCBOR s) by (unfold byron_toCBOR, payload_item; rewrite T; reflexivity).
  assert (WS : byron_wf s) by exact W. assert (R : byron_fromCBOR (byron_toCBOR a) = Ok s) by (rewrite E; apply C48_cbor_round_trip; [exact WS|discriminate]).
  assert (N : s <> a) by (intros X; rewrite <- X in T; discriminate). repeat split; try assumption. intros C.
  assert (BS : bytes_ok (byron_toCBOR a)) by (destruct (payload_ok a W) as [OP LP]; apply encode_bytes, addr_ok; [apply encode_bytes, OP|exact LP]).
  pose proof (C48_reads_every_address _ _ W BS C) as R2. rewrite R, object_data in R2. injection R2 as R2. exact (N R2).
Qed.
Example C48_ex_redeem : byron_wf (ex_byron Redeem) /\ by_type (ex_byron Redeem) = Redeem. Proof. split; [apply ex_byron_wf|reflexivity]. Qed.
Print Assumptions C48_redeem_refuted.

(** ** Corruption *)
(** What is accepted: the CRC of the payload is the one in the address, and the object is well formed. *)
Theorem C48_accepted : forall s a, bytes_ok s -> byron_fromCBOR s = Ok a ->
  length (by_root a) = 28%nat /\ 0 <= ba_magic (by_attrs a) < 2 ^ 32 /\
  exists item payload i1 crc t, cbor_read s = Some (item, t) /\ as_array item = Some (payload :: i1) /\ (exists p, as_bytes payload = Some p /\ as_uint (hd CNull i1) = Some crc /\ crc32_spec p = crc mod 2 ^ 32).
Proof.
  intros s a BS E. unfold byron_fromCBOR in E. apply bind_ok in E as (item & PI & E). apply bind_ok in E as (arr & AI & E). apply bind_ok in E as (i0 & G0 & E). apply bind_ok in E as (p & AP & E). apply bind_ok in E as (i1 & G1 & E). apply bind_ok in E as (crc & AC & E).
  destruct (Z.eqb_spec (crc32 p) (crc mod 2 ^ 32)) as [EC|]; [|discriminate]. cbn [negb] in E.
  assert (DE : forall A (o : option A) x, deref o = Ok x -> o = Some x) by (intros A [y|] x H; cbn in H; congruence).
  unfold cbor_parse in PI. destruct (cbor_read s) as [[c t]|] eqn:CR; [|discriminate]. injection PI as ->.
  apply DE in AI, AP, AC. unfold get_ub in G0, G1. destruct arr as [|x0 [|x1 arr]]; try discriminate. cbn in G0, G1. injection G0 as ->. injection G1 as ->.
  assert (BP : bytes_ok p).
  { destruct (encode_shortest s item t BS CR) as [OI _]. assert (K : forall c l, cbor_ok c -> as_array c = Some l -> Forall cbor_ok l).
    { induction c using cbor_nested_ind; intros l0 O H1; try discriminate; cbn [as_array] in H1; [injection H1 as <-; apply ok_list; apply O|apply IHc; [apply O|exact H1]]. }
    assert (K2 : forall c l, cbor_ok c -> as_bytes c = Some l -> bytes_ok l).
    { induction c using cbor_nested_ind; intros l0 O H1; try discriminate; cbn [as_bytes] in H1; [injection H1 as <-; apply O|apply IHc; [apply O|exact H1]]. }
    pose proof (K _ _ OI AI) as F. inversion F; subst. eapply K2; eassumption. }
  split; [|split].
  - unfold byron_payload in E. repeat (let v := fresh "v" in let H := fresh "H" in apply bind_ok in E as (v & H & E)). destruct (28 <? zlen v4) eqn:LR; [discriminate|]. repeat (let v := fresh "v" in let H := fresh "H" in apply bind_ok in E as (v & H & E)). apply ok_inj_b in E. subst a. cbn [by_root]. rewrite app_length, repeat_length. unfold zlen in LR. apply Z.ltb_ge in LR. lia.
  - unfold byron_payload in E. repeat (let v := fresh "v" in let H := fresh "H" in apply bind_ok in E as (v & H & E)). destruct (28 <? zlen v4) eqn:LR; [discriminate|]. repeat (let v := fresh "v" in let H := fresh "H" in apply bind_ok in E as (v & H & E)). injection E as <-. cbn [by_attrs ba_magic].
    match goal with H : match map_get _ 2 with _ => _ end = Ok ?m |- 0 <= ?m < _ => destruct (map_get _ 2); [|injection H as <-; lia]; repeat (let v := fresh "v" in let G := fresh "H" in apply bind_ok in H as (v & G & H)); injection H as <-; apply Z.mod_pos_bound; lia end.
  - exists item, i0, (i1 :: arr), crc, t. split; [reflexivity|]. split; [exact AI|]. exists p. split; [exact AP|]. split; [exact AC|]. rewrite <- crc32_correct by exact BP. exact EC.
Qed.
Print Assumptions C48_accepted.

(** An address whose payload was changed in at most four consecutive bytes (anywhere) is never accepted, whatever CBOR encodes it. *)
Theorem C48_payload_burst_rejected : forall s t item pre w w' post,
  bytes_ok pre -> bytes_ok w -> bytes_ok w' -> bytes_ok post -> length w = length w' -> (length w <= 4)%nat -> w <> w' ->
  cbor_read s = Some (item, t) -> as_array item = Some [CTag 24 (CBytes (pre ++ w' ++ post)); CUint (crc32_spec (pre ++ w ++ post))] ->
  byron_fromCBOR s = Throw.
Proof.
  intros s t item pre w w' post B1 B2 B3 B4 L L4 N R A. unfold byron_fromCBOR, cbor_parse. rewrite R. cbn [bind]. rewrite A. cbn [bind deref get_ub nth_error as_bytes as_uint].
  assert (BO : bytes_ok (pre ++ w ++ post)) by (apply bytes_ok_app; split; [exact B1|apply bytes_ok_app; split; assumption]).
  rewrite <- (crc32_correct _ BO). pose proof (crc32_w _ BO) as W. unfold w32 in W. rewrite Z.mod_small by lia.
  pose proof (crc32_burst pre w w' post B1 B2 B3 B4 L L4 N) as D. destruct (Z.eqb_spec (crc32 (pre ++ w' ++ post)) (crc32 (pre ++ w ++ post))); [congruence|reflexivity].
Qed.
(** The same said of the bytes of an address the library wrote: change at most four consecutive payload bytes and reading throws. *)
Lemma addr_bytes p : exists h t, cbor_encode (addr_item p) = h ++ p ++ t /\ forall p', length p' = length p -> exists crc, cbor_encode (CArray [CTag 24 (CBytes p'); CUint crc]) = h ++ p' ++ t /\ crc = crc32 p.
Proof.
  exists (cbor_head 4 2 ++ cbor_head 6 24 ++ cbor_head 2 (zlen p)), (cbor_head 0 (crc32 p)). split.
  - cbn [addr_item cbor_encode map concat]. rewrite app_nil_r, <- !app_assoc. reflexivity.
  - intros p' L. exists (crc32 p). split; [|reflexivity]. cbn [cbor_encode map concat]. unfold zlen at 2. rewrite L. rewrite app_nil_r, <- !app_assoc. reflexivity.
Qed.
Theorem C48_burst_rejected : forall a pre w post, byron_wf a -> cbor_encode (payload_item a) = pre ++ w ++ post -> (length w <= 4)%nat ->
  exists h t, byron_toCBOR a = h ++ (pre ++ w ++ post) ++ t /\
    forall w', bytes_ok w' -> length w' = length w -> w' <> w -> byron_fromCBOR (h ++ (pre ++ w' ++ post) ++ t) = Throw.
Proof.
  intros a pre w post W E L4. destruct (payload_ok a W) as [OP LP]. pose proof (encode_bytes _ OP) as BP. destruct (addr_bytes (cbor_encode (payload_item a))) as (h & t & EA & K).
  exists h, t. split; [unfold byron_toCBOR; rewrite EA, E; reflexivity|]. intros w' BW L N. rewrite E in BP. apply bytes_ok_app in BP as [B1 BP]. apply bytes_ok_app in BP as [B2 B3].
  destruct (K (pre ++ w' ++ post)) as (crc & EC & ->). { rewrite E, !app_length. lia. }
  rewrite <- EC. assert (BO : bytes_ok (pre ++ w ++ post)) by (apply bytes_ok_app; split; [exact B1|apply bytes_ok_app; split; assumption]).
  eapply (C48_payload_burst_rejected _ [] (CArray [CTag 24 (CBytes (pre ++ w' ++ post)); CUint (crc32 (cbor_encode (payload_item a)))]) pre w w' post); try assumption; try lia; try congruence.
  - pose proof (crc32_w _ BO) as WC. unfold w32 in WC. pose proof (cbor_round_trip (CArray [CTag 24 (CBytes (pre ++ w' ++ post)); CUint (crc32 (cbor_encode (payload_item a)))]) []) as R. rewrite app_nil_r in R. apply R.
    cbn [cbor_ok fold_right]. rewrite E in *. repeat split; try (unfold zlen; cbn [length]; lia); try lia.
    + apply bytes_ok_app; split; [exact B1|apply bytes_ok_app; split; assumption].
    + unfold zlen in *. rewrite !app_length in *. lia.
  - cbn [as_array]. rewrite E, (crc32_correct _ BO). reflexivity.
Qed.
(** Any other checksum is rejected too (values above 32 bits are reduced first). *)
Theorem C48_wrong_crc_rejected : forall s t item p crc, bytes_ok p -> cbor_read s = Some (item, t) -> as_array item = Some [CTag 24 (CBytes p); CUint crc] ->
  crc mod 2 ^ 32 <> crc32_spec p -> byron_fromCBOR s = Throw.
Proof.
  intros s t item p crc B R A N. unfold byron_fromCBOR, cbor_parse. rewrite R. cbn [bind]. rewrite A. cbn [bind deref get_ub nth_error as_bytes as_uint]. rewrite <- crc32_correct in N by exact B.
  destruct (Z.eqb_spec (crc32 p) (crc mod 2 ^ 32)); [congruence|reflexivity].
Qed.
Example C48_ex_burst : cbor_encode (payload_item (ex_byron Script)) = firstn 10 (cbor_encode (payload_item (ex_byron Script))) ++ firstn 4 (skipn 10 (cbor_encode (payload_item (ex_byron Script)))) ++ skipn 14 (cbor_encode (payload_item (ex_byron Script))) /\
  (length (firstn 4 (skipn 10 (cbor_encode (payload_item (ex_byron Script))))) <= 4)%nat.
Proof. vm_compute. split; [reflexivity|lia]. Qed.
(** Five bytes are too many: there are two addresses, four root bytes and a bit apart, with the same checksum. *)
Theorem C48_longer_burst_refuted : exists a b : byron, byron_wf a /\ byron_wf b /\ a <> b /\
  crc32_spec (cbor_encode (payload_item a)) = crc32_spec (cbor_encode (payload_item b)) /\
  exists pre w w' post, by_root a = pre ++ w ++ post /\ by_root b = pre ++ w' ++ post /\ length w = 5%nat /\ length w' = 5%nat.
Proof.
  set (mk := fun w => {| by_root := repeat 0 10 ++ w ++ repeat 0 13; by_attrs := {| ba_cipher := []; ba_magic := 0 |}; by_type := Pubkey |}).
  exists (mk [0; 0; 0; 0; 0]), (mk [65; 6; 113; 219; 1]).
  assert (K : forall w, length w = 5%nat -> bytes_ok w -> byron_wf (mk w)).
  { intros w L B. assert (RZ : forall n, bytes_ok (repeat 0 n)) by (intros n; apply Forall_forall; intros x X; apply repeat_spec in X; subst x; unfold byte_ok; lia).
    unfold byron_wf, address_data_ok, mk, data_of; cbn [ad_root ad_cipher ad_magic by_root by_attrs ba_cipher ba_magic].
    split; [apply bytes_ok_app; split; [apply RZ|apply bytes_ok_app; split; [exact B|apply RZ]]|]. split; [rewrite !app_length, !repeat_length, L; reflexivity|]. split; [constructor|]. split; [cbn; lia|lia]. }
  split; [apply K; [reflexivity|repeat constructor; lia]|]. split; [apply K; [reflexivity|repeat constructor; lia]|]. split; [discriminate|]. split; [vm_compute; reflexivity|].
  exists (repeat 0 10), [0; 0; 0; 0; 0], [65; 6; 113; 219; 1], (repeat 0 13). repeat split.
Qed.
Print Assumptions C48_payload_burst_rejected.
Print Assumptions C48_burst_rejected.
Print Assumptions C48_wrong_crc_rejected.
Print Assumptions C48_longer_burst_refuted.

(** ** Memory safety of the reader: refuted.  Items of the wrong shape are dereferenced through null, and a root longer than 28 bytes is copied past the end
    of the 28-byte array. *)
Theorem C48_long_root_refuted : forall root extra, bytes_ok root -> (28 < length root)%nat -> zlen root < 2 ^ 32 -> bytes_ok extra ->
  exists s, bytes_ok s /\ byron_fromCBOR (s ++ extra) = UB.
Proof.
  intros root extra B L LB _. set (c := CArray [CBytes root; CMap []; CUint 0]). assert (OC : cbor_ok c) by (cbn [c cbor_ok fold_right]; repeat split; try exact B; try (unfold zlen; cbn [length]; lia); lia).
  assert (LP : zlen (cbor_encode c) < 2 ^ 35). { cbn [c cbor_encode map concat]. rewrite !zlen_app, ?zlen_nil. heads. unfold zlen in *. cbn [length]. lia. }
  pose proof (addr_ok _ (encode_bytes _ OC) LP) as OA. exists (cbor_encode (addr_item (cbor_encode c))). split; [apply encode_bytes, OA|].
  unfold byron_fromCBOR, cbor_parse. rewrite (cbor_round_trip _ extra OA). cbn [bind addr_item as_array deref get_ub nth_error as_bytes as_uint].
  pose proof (crc32_w _ (encode_bytes _ OC)) as W. unfold w32 in W. rewrite Z.mod_small, Z.eqb_refl by lia. cbn [negb]. unfold byron_payload. rewrite (parse_encode _ OC). unfold c. cbn [bind as_array deref get_ub nth_error as_bytes].
  destruct (Z.ltb_spec 28 (zlen root)); [reflexivity|unfold zlen in *; lia].
Qed.
Theorem C48_shape_refuted :
  byron_fromCBOR [0x80] = UB /\                             (* [] *)
  byron_fromCBOR [0x00] = UB /\                             (* 0 *)
  byron_fromCBOR [0x82; 0x40; 0x60] = UB /\                 (* [h'', ""] *)
  (exists s, bytes_ok s /\ byron_fromBase58 s = UB) /\
  byron_fromCBOR [] = Throw.
Proof.
  split; [vm_compute; reflexivity|]. split; [vm_compute; reflexivity|]. split; [vm_compute; reflexivity|]. split; [|vm_compute; reflexivity].
  exists [51; 68]. split; [repeat (apply bytes_ok_cons; split; [unfold byte_ok; lia|]); constructor|vm_compute; reflexivity].
Qed.
(** A root shorter than 28 bytes is accepted and padded with zeros: the address object is not one the bytes describe. *)
Theorem C48_short_root_refuted : forall root, bytes_ok root -> (length root < 28)%nat ->
  exists s a, bytes_ok s /\ byron_fromCBOR s = Ok a /\ by_root a = root ++ repeat 0 (28 - length root) /\ byron_toCBOR a <> s.
Proof.
  intros root B L. set (c := CArray [CBytes root; CMap []; CUint 0]). assert (OC : cbor_ok c) by (cbn [c cbor_ok fold_right]; repeat split; try exact B; try (unfold zlen; cbn [length]; lia); lia).
  assert (LP : zlen (cbor_encode c) < 2 ^ 35). { cbn [c cbor_encode map concat]. rewrite !zlen_app, ?zlen_nil. heads. unfold zlen in *. cbn [length]. lia. }
  pose proof (addr_ok _ (encode_bytes _ OC) LP) as OA. exists (cbor_encode (addr_item (cbor_encode c))). eexists. split; [apply encode_bytes, OA|]. split.
  - unfold byron_fromCBOR. rewrite (parse_encode _ OA). cbn [bind addr_item as_array deref get_ub nth_error as_bytes as_uint].
    pose proof (crc32_w _ (encode_bytes _ OC)) as W. unfold w32 in W. rewrite Z.mod_small, Z.eqb_refl by lia. cbn [negb]. unfold byron_payload. rewrite (parse_encode _ OC). unfold c. cbn [bind as_array deref get_ub nth_error as_bytes as_map as_uint map_get find uint_to_type Z.eqb].
    destruct (Z.ltb_spec 28 (zlen root)); [unfold zlen in *; lia|reflexivity].
  - split; [reflexivity|]. intros E. set (a := {| by_root := root ++ repeat 0 (28 - length root); by_attrs := {| ba_cipher := []; ba_magic := 0 |}; by_type := Pubkey |}) in E.
    assert (WA : byron_wf a).
    { assert (RZ : forall n, bytes_ok (repeat 0 n)) by (intros n; apply Forall_forall; intros x X; apply repeat_spec in X; subst x; unfold byte_ok; lia).
      unfold byron_wf, address_data_ok, a, data_of; cbn [ad_root ad_cipher ad_magic by_root by_attrs ba_cipher ba_magic].
      split; [apply bytes_ok_app; split; [exact B|apply RZ]|]. split; [rewrite app_length, repeat_length; lia|]. split; [constructor|]. split; [cbn; lia|lia]. }
    destruct (payload_ok a WA) as [OP LPP]. pose proof (addr_ok _ (encode_bytes _ OP) LPP) as OA2. unfold byron_toCBOR in E. rewrite <- (app_nil_r (cbor_encode (addr_item (cbor_encode (payload_item a))))), <- (app_nil_r (cbor_encode (addr_item (cbor_encode c)))) in E.
    apply prefix_free in E as [E _]; try assumption. apply (f_equal (fun c => match c with CArray (CTag _ (CBytes b) :: _) => b | _ => [] end)) in E. change (cbor_encode (payload_item a) = cbor_encode c) in E. rewrite <- (app_nil_r (cbor_encode (payload_item a))), <- (app_nil_r (cbor_encode c)) in E. apply prefix_free in E as [E _]; try assumption. apply (f_equal (fun c => match c with CArray (CBytes b :: _) => b | _ => [] end)) in E. cbn [payload_item c a by_root] in E. apply (f_equal (@length Z)) in E. rewrite app_length, repeat_length in E. lia.
Qed.
Print Assumptions C48_long_root_refuted.
Print Assumptions C48_shape_refuted.
Print Assumptions C48_short_root_refuted.

(** ** Addresses made from a root key *)
Lemma indef_ok path : (length path < 24)%nat -> Forall (fun i => 0 <= i < 2 ^ 64) path -> indefinite_uints path (path_plaintext path).
Proof.
  intros L B. exists (map (fun i => cbor_encode (CUint i)) path). split.
  - clear L. induction B as [|i path Bi B IH]; [constructor|]. constructor; [apply cbor_of_encode; exact Bi|exact IH].
  - unfold path_plaintext. cbn [cbor_encode]. unfold cbor_head at 1. unfold zlen. rewrite map_length. destruct (Z.ltb_spec (Z.of_nat (length path)) 24); [|lia]. cbn [app]. rewrite map_map. reflexivity.
Qed.
(** The encrypted path is the array of the indices.  Missing: paths of 24 or more indices. *)
Theorem C48_path_plaintext : forall path, (length path < 24)%nat -> Forall (fun i => 0 <= i < 2 ^ 32) path -> indefinite_uints path (path_plaintext path).
Proof. intros path L B. apply indef_ok; [exact L|]. eapply Forall_impl; [|exact B]. cbn. intros; lia. Qed.
(** From 28 to 255 indices the array's length byte is left in the text, and it is not the array of the indices. *)
Theorem C48_long_path_refuted : forall path, (28 <= length path < 256)%nat -> ~ indefinite_uints path (path_plaintext path).
Proof.
  intros path L (parts & F & E). unfold path_plaintext in E. cbn [cbor_encode] in E. unfold cbor_head in E at 1. unfold zlen in E. rewrite map_length in E.
  destruct (Z.ltb_spec (Z.of_nat (length path)) 24); [lia|]. destruct (Z.ltb_spec (Z.of_nat (length path)) (2 ^ 8)) as [X|X]; [|change (2 ^ 8) with 256 in X; lia].
  assert (PB : forall n, 0 <= n < 256 -> pack_be 1 n = [n]). { intros n N. pose proof (pack_be_length 1 n) as LP. destruct (pack_be 1 n) as [|x [|y l]] eqn:EP; try discriminate. f_equal. pose proof (pack_be_value 1 n) as V. rewrite EP in V. change (256 ^ Z.of_nat 1) with 256 in V. rewrite Z.mod_small in V by lia. cbn in V. lia. }
  rewrite PB in E by lia. cbn [app] in E. injection E as E.
  destruct F as [|i p path' parts Ci F]; [cbn in L; lia|]. unfold cbor_of, cbor_read in Ci. destruct p as [|b p]; [discriminate|]. cbn [concat app] in E. assert (EB : b = Z.of_nat (length (i :: path'))) by (apply (f_equal (fun l => hd 0 l)) in E; symmetry; exact E). clear E.
  assert (NB : 28 <= b < 256) by lia. clear EB. rename b into n. cbn [length read_item] in Ci. destruct (read_arg (n mod 32) p) as [[v r]|] eqn:RA; [|discriminate].
  destruct (Z.eq_dec (n / 32) 0) as [Z0|NZ].
  - assert (n < 32) by (apply Z.div_small_iff in Z0; lia). rewrite Z.mod_small in RA by lia. unfold read_arg in RA. destruct (Z.ltb_spec n 24); [lia|]. destruct (Z.eqb_spec n 24), (Z.eqb_spec n 25), (Z.eqb_spec n 26), (Z.eqb_spec n 27); try lia. discriminate.
  - assert (D : 1 <= n / 32 <= 7). { split; [pose proof (Z.div_pos n 32 ltac:(lia) ltac:(lia)); lia|]. assert (n / 32 < 8); [apply Z.div_lt_upper_bound; lia|lia]. }
    assert (C : n / 32 = 1 \/ n / 32 = 2 \/ n / 32 = 3 \/ n / 32 = 4 \/ n / 32 = 5 \/ n / 32 = 6 \/ n / 32 = 7) by lia.
    destruct C as [C|[C|[C|[C|[C|[C|C]]]]]]; rewrite C in Ci; try discriminate;
      repeat match type of Ci with match ?x with _ => _ end = _ => destruct x as [[? ?]|]; try discriminate | (if ?x then _ else _) = _ => destruct x; try discriminate end.
Qed.
Example C48_ex_paths : indefinite_uints [2147483648; 2147483650] [159; 26; 128; 0; 0; 0; 26; 128; 0; 0; 2; 255] /\ path_plaintext [2147483648; 2147483650] = [159; 26; 128; 0; 0; 0; 26; 128; 0; 0; 2; 255] /\
  ~ indefinite_uints (repeat 0 30) (path_plaintext (repeat 0 30)).
Proof.
  split; [|split]; [|vm_compute; reflexivity|apply C48_long_path_refuted; rewrite repeat_length; lia].
  replace [159; 26; 128; 0; 0; 0; 26; 128; 0; 0; 2; 255] with (path_plaintext [2147483648; 2147483650]) by (vm_compute; reflexivity). apply C48_path_plaintext; [cbn; lia|repeat constructor; lia].
Qed.
Print Assumptions C48_path_plaintext.
Print Assumptions C48_long_path_refuted.

(** An address made from a root key: it is well formed, so it survives CBOR and Base58; its root is the hash of the spending data for the key at the path;
    and whoever holds the root public key can decrypt the path from it.  Only paths of two indices are accepted. *)
Lemma derived_pub hmac512 enc : (forall k, bytes_ok (enc k) /\ length (enc k) = 32%nat) -> (forall k x, bytes_ok (hmac512 k x)) ->
  forall k i m c p, prv_deriveChild hmac512 enc k i m = Ok c -> publicKey enc c = Ok p -> bytes_ok (pbytes p) /\ bytes_ok (pcc p) /\ zlen (pbytes p ++ pcc p) < 2 ^ 32.
Proof.
  intros EB HM k i m c p D P. unfold prv_deriveChild in D. apply bind_ok in D as (pk & _ & D). apply ok_inj_b in D. unfold publicKey in P. apply bind_ok in P as (q & Q & P). apply ok_inj_b in P. subst p c. cbn [pbytes pcc kcc].
  assert (Q' : exists z, q = enc z). { unfold bip32_publickey, mul_base in Q. match type of Q with (if ?b then _ else Ok ?e) = _ => destruct b; [congruence|]; apply ok_inj_b in Q; rewrite <- Q; eexists; reflexivity end. }
  destruct Q' as (z & ->). destruct (EB z) as [B1 L1]. split; [exact B1|]. set (h := hmac512 _ _). assert (BH : bytes_ok (firstn 32 (skipn 32 h))) by (apply bytes_ok_firstn, bytes_ok_skipn, HM). split; [exact BH|].
  rewrite zlen_app. pose proof (firstn_le_length 32 (skipn 32 h)). unfold zlen. lia.
Qed.
Theorem C48_from_root_key : forall hmac512 enc pbkdf2 seal open sha3_256 blake2b_224,
  aead seal open -> (forall x, bytes_ok (blake2b_224 x) /\ length (blake2b_224 x) = 28%nat) -> (forall k, bytes_ok (enc k) /\ length (enc k) = 32%nat) -> (forall k x, bytes_ok (hmac512 k x)) ->
  forall k i j magic a, 0 <= i < 2 ^ 32 -> 0 <= j < 2 ^ 32 -> 0 <= magic < 2 ^ 32 ->
  byron_fromRootKey hmac512 enc pbkdf2 seal sha3_256 blake2b_224 k [i; j] magic = Ok a ->
  byron_wf a /\ by_type a = Pubkey /\ ba_magic (by_attrs a) = magic /\ byron_fromCBOR (byron_toCBOR a) = Ok a /\
  (exists root_pub s, publicKey enc k = Ok root_pub /\ indefinite_uints [i; j] s /\
     open (pbkdf2 500 32%nat (pbytes root_pub ++ pcc root_pub) (str "address-hashing")) (str "serokellfore") (ba_cipher (by_attrs a)) = Some s) /\
  (exists key pub s, prv_derivePath hmac512 enc k [i; j] V1 = Ok key /\ publicKey enc key = Ok pub /\ by_root a = blake2b_224 (sha3_256 s) /\
     root_preimage (pbytes pub ++ pcc pub) (ba_cipher (by_attrs a)) magic s).
Proof.
  intros hmac512 enc pbkdf2 seal open sha3 blake AE HB EB HM k i j magic a Bi Bj Bm H. unfold byron_fromRootKey in H.
  apply bind_ok in H as (rp & PK & H). apply bind_ok in H as (c1 & D1 & H). apply bind_ok in H as (c2 & D2 & H). apply bind_ok in H as (ap & PA & H). apply ok_inj_b in H. subst a. cbn [by_root by_attrs by_type ba_cipher ba_magic attributes_fromKey].
  set (ct := seal (pbkdf2 500 32%nat (pub_xbytes rp) dp_salt) dp_nonce (path_plaintext [i; j])). set (at_ := {| ba_cipher := ct; ba_magic := magic |}). set (s := cbor_encode (CArray [CUint (type_to_uint Pubkey); CArray [CUint (type_to_uint Pubkey); CBytes (pub_xbytes ap)]; attrs_item at_])).
  assert (PT : indefinite_uints [i; j] (path_plaintext [i; j])) by (apply indef_ok; [cbn; lia|repeat constructor; lia]).
  assert (LP : (length (path_plaintext [i; j]) < 100)%nat).
  { unfold path_plaintext. cbn [cbor_encode map concat]. change (cbor_head 4 (zlen [CUint i; CUint j])) with [130]. cbn [app]. cbn [length]. rewrite !app_length. pose proof (head_le9 0 i). pose proof (head_le9 0 j). unfold zlen in *. cbn [length]. lia. }
  assert (BPT : bytes_ok (path_plaintext [i; j])).
  { unfold path_plaintext. cbn [cbor_encode map concat]. change (cbor_head 4 (zlen [CUint i; CUint j])) with [130]. cbn [app]. apply bytes_ok_cons. split; [unfold byte_ok; lia|]. repeat (apply bytes_ok_app; split); try (apply head_bytes; lia); try constructor; [unfold byte_ok; lia|constructor]. }
  assert (CO : bytes_ok ct /\ zlen ct < 2 ^ 32) by (split; [apply (aead_bytes _ _ AE), BPT|unfold zlen, ct; rewrite (aead_len _ _ AE); lia]). destruct CO as [CB CL].
  assert (W : byron_wf {| by_root := byron_hash sha3 blake s; by_attrs := at_; by_type := Pubkey |}). { destruct (HB (sha3 s)) as [B1 B2]. repeat split; try assumption; try apply Bm. }
  split; [exact W|]. split; [reflexivity|]. split; [reflexivity|]. split; [apply C48_cbor_round_trip; [exact W|discriminate]|]. split.
  - exists rp, (path_plaintext [i; j]). split; [exact PK|]. split; [exact PT|]. apply (aead_open _ _ AE), BPT.
  - exists c2, ap, s. split; [cbn [prv_derivePath]; rewrite D1; cbn [bind]; rewrite D2; reflexivity|]. split; [exact PA|]. split; [reflexivity|].
    destruct (derived_pub hmac512 enc EB HM _ _ _ _ _ D2 PA) as (B2 & B1 & L1).
    destruct (C48_layout _ W) as (p & (e1 & e2 & A1 & A2 & _) & _); [discriminate|]. destruct (attrs_ok at_ CB CL Bm) as [OA LA].
    exists (if 0 <? zlen ct then [(CUint 1, CBytes (cbor_encode (CBytes ct)))] else []), (if negb (magic =? 0) then [(CUint 2, CBytes (cbor_encode (CUint magic)))] else []). split; [|split].
    + destruct (Z.ltb_spec 0 (zlen ct)) as [P|P]; [right|left].
      * split; [intros E; rewrite E in P; cbn in P; lia|]. eexists. split; [apply cbor_of_encode; apply cipher_ok; assumption|reflexivity].
      * split; [|reflexivity]. destruct ct as [|x l]; [reflexivity|]. rewrite zlen_cons in P. pose proof (zlen_nonneg l). lia.
    + destruct (Z.eqb_spec magic 0) as [P|P]; cbn [negb]; [left; auto|right]. split; [exact P|]. eexists. split; [apply cbor_of_encode; apply magic_ok; assumption|reflexivity].
    + apply cbor_of_encode. change (CMap ((if 0 <? zlen ct then [(CUint 1, CBytes (cbor_encode (CBytes ct)))] else []) ++ (if negb (magic =? 0) then [(CUint 2, CBytes (cbor_encode (CUint magic)))] else []))) with (attrs_item at_).
      assert (BX : bytes_ok (pub_xbytes ap)) by (apply bytes_ok_app; split; assumption). assert (LX : zlen (pub_xbytes ap) < 2 ^ 64) by (unfold pub_xbytes; lia).
      assert (Z3 : forall x y z : cbor, zlen [x; y; z] < 2 ^ 64) by (intros; unfold zlen; cbn [length]; lia). assert (Z2 : forall x y : cbor, zlen [x; y] < 2 ^ 64) by (intros; unfold zlen; cbn [length]; lia).
      cbn [cbor_ok fold_right type_to_uint]. split; [apply Z3|]. split; [lia|]. split; [|split; [exact OA|exact I]]. split; [apply Z2|]. split; [lia|]. split; [split; assumption|exact I].
Qed.
Theorem C48_path_length_checked : forall hmac512 enc pbkdf2 seal sha3_256 blake2b_224 k path magic, length path <> 2%nat ->
  is_ok (byron_fromRootKey hmac512 enc pbkdf2 seal sha3_256 blake2b_224 k path magic) = false.
Proof. intros. unfold byron_fromRootKey. destruct (publicKey enc k) as [pk| |]; try reflexivity. cbn [bind]. destruct path as [|i [|j [|x path]]]; try reflexivity. cbn in H. congruence. Qed.
Print Assumptions C48_from_root_key.
Print Assumptions C48_path_length_checked.

(** The hypotheses are met by toy primitives, and the toy address is a real one. *)
Definition toy_seal (k n m : list Z) : list Z := m ++ repeat 7 16.
Definition toy_open (k n c : list Z) : option (list Z) := Some (firstn (length c - 16) c).
Definition toy_blake (x : list Z) : list Z := toy_h 28 x.
Example C48_ex_aead : aead toy_seal toy_open /\ (forall x, bytes_ok (toy_blake x) /\ length (toy_blake x) = 28%nat) /\ (forall k, bytes_ok (toy_enc k) /\ length (toy_enc k) = 32%nat) /\ (forall k x, bytes_ok (toy_hmac k x)).
Proof.
  split; [constructor; intros; unfold toy_seal, toy_open|split; [|split]; intros].
  - f_equal. rewrite app_length, repeat_length. replace (length m + 16 - 16)%nat with (length m) by lia. rewrite firstn_app_exact by reflexivity. reflexivity.
  - rewrite app_length, repeat_length. reflexivity.
  - apply bytes_ok_app. split; [assumption|]. apply Forall_forall. intros x X. apply repeat_spec in X. subst x. unfold byte_ok. lia.
  - split; [apply pack_le_ok|apply pack_le_length].
  - split; [apply (enc_bytes _ _ toy_group)|apply (enc_len _ _ toy_group)].
  - apply pack_le_ok.
Qed.
Example C48_ex_root_key : exists a, byron_fromRootKey toy_hmac toy_enc toy_pbkdf2 toy_seal (toy_h 32) toy_blake toy_root [2147483648; 2147483650] 1097911063 = Ok a /\
  byron_fromCBOR (byron_toCBOR a) = Ok a /\ firstn 12 (ba_cipher (by_attrs a)) = [159; 26; 128; 0; 0; 0; 26; 128; 0; 0; 2; 255].
Proof. eexists. split; [vm_compute; reflexivity|]. split; vm_compute; reflexivity. Qed.
