(** C48: exactly which bytes make the Byron address parser misbehave. *)
From Coq Require Import ZArith List Lia Bool.
From Verif Require Import Base BaseLemmas Model_Hex Spec_Cbor Model_Cbor Proof_Cbor Model_Ledger Spec_Base58 Model_Base58 Spec_Byron Model_Byron Proof_Byron Proof_Crc Props_Byron.
Import ListNotations.
Open Scope Z_scope.
Ltac Zify.zify_post_hook ::= idtac.

(** [payload, crc, ...]: what the parser needs of the outer item *)
Definition outer_shaped (item : cbor) (p : list Z) (crc : Z) : Prop := exists i0 i1 rest, as_array item = Some (i0 :: i1 :: rest) /\ as_bytes i0 = Some p /\ as_uint i1 = Some crc.
(** An attribute is absent, or a byte string holding, if it is CBOR at all, an item of the right kind *)
Definition attr_shaped {A} (m : list (cbor * cbor)) (k : Z) (view : cbor -> option A) : Prop := forall c, map_get m k = Some c -> exists b, as_bytes c = Some b /\ forall d t, cbor_read b = Some (d, t) -> view d <> None.
Definition attr_not_cbor (m : list (cbor * cbor)) (k : Z) : Prop := exists c b, map_get m k = Some c /\ as_bytes c = Some b /\ cbor_read b = None.
(** [root of at most 28 bytes, attributes, type, ...]; the parser stops at the first attribute that is not CBOR *)
Definition payload_shaped (item : cbor) : Prop := exists i0 i1 i2 rest root m, as_array item = Some (i0 :: i1 :: i2 :: rest) /\ as_bytes i0 = Some root /\ zlen root <= 28 /\ as_map i1 = Some m /\
  attr_shaped m 1 as_bytes /\ (attr_not_cbor m 1 \/ (attr_shaped m 2 as_uint /\ (attr_not_cbor m 2 \/ as_uint i2 <> None))).
Definition shaped (s : list Z) : Prop := forall item t, cbor_read s = Some (item, t) ->
  exists p crc, outer_shaped item p crc /\ (crc32_spec p = crc mod 2 ^ 32 -> forall inner t', cbor_read p = Some (inner, t') -> payload_shaped inner).

Lemma bind_ub' A B (o : outcome A) (f : A -> outcome B) : bind o f <> UB <-> (o <> UB /\ forall a, o = Ok a -> f a <> UB).
Proof. destruct o as [a| |]; cbn [bind]; split; try (intros H; split; [discriminate|intros a' E; try discriminate; assert (a = a') by congruence; subst; exact H]); try (intros [H1 H2]; auto); try discriminate; try (intros H; contradiction H; reflexivity). Qed.
Lemma deref_ub A (o : option A) : deref o <> UB <-> o <> None.
Proof. destruct o; cbn; split; congruence. Qed.
Lemma parse_ub b : cbor_parse b <> UB.
Proof. unfold cbor_parse. destruct (cbor_read b) as [[? ?]|]; discriminate. Qed.
Lemma parse_ok' b c : cbor_parse b = Ok c <-> exists t, cbor_read b = Some (c, t).
Proof. unfold cbor_parse. destruct (cbor_read b) as [[x t]|]; split; [intros E; exists t; congruence|intros (t' & E); congruence|discriminate|intros (t' & E); discriminate]. Qed.
(** an attribute's reader: absent, or bytes, then CBOR, then the view *)
Definition read_attr {A} (m : list (cbor * cbor)) (k : Z) (dflt : A) (f : cbor -> outcome A) : outcome A :=
  match map_get m k with None => Ok dflt | Some c => let* b := deref (as_bytes c) in let* d := cbor_parse b in f d end.
Lemma read_attr_ub A B m k (dflt : A) (f : cbor -> outcome A) (view : cbor -> option B) : (forall d, f d <> UB <-> view d <> None) -> (read_attr m k dflt f <> UB <-> attr_shaped m k view).
Proof.
  intros V. unfold read_attr, attr_shaped. destruct (map_get m k) as [c|]; [|split; [intros _ c E; discriminate|discriminate]]. rewrite bind_ub'. split.
  - intros [H1 H2] c' E. assert (c = c') by congruence. subst c'. apply deref_ub in H1. destruct (as_bytes c) as [b|]; [|contradiction H1; reflexivity]. exists b. split; [reflexivity|]. intros d t R.
    specialize (H2 b eq_refl). rewrite bind_ub' in H2. destruct H2 as [_ H2]. apply V, H2. apply parse_ok'. eauto.
  - intros H. destruct (H c eq_refl) as (b & AB & R). rewrite AB. split; [discriminate|]. intros b' E. assert (b = b') by (cbn in E; congruence). subst b'. rewrite bind_ub'. split; [apply parse_ub|]. intros d P. apply parse_ok' in P as (t & P). apply V, (R d t P).
Qed.
Lemma read_attr_throw A B m k (dflt : A) (f : cbor -> outcome A) (view : cbor -> option B) : (forall d, f d <> UB <-> view d <> None) -> (forall d, f d <> Throw) -> attr_shaped m k view -> (read_attr m k dflt f = Throw <-> attr_not_cbor m k).
Proof.
  intros V NT S. unfold read_attr, attr_not_cbor. unfold attr_shaped in S. destruct (map_get m k) as [c|]; [|split; [discriminate|intros (c & b & E & _); discriminate]].
  destruct (S c eq_refl) as (b & AB & R). rewrite AB. cbn [deref bind]. unfold cbor_parse. destruct (cbor_read b) as [[d t]|] eqn:RB; cbn [bind].
  - split; [intros E; exfalso; exact (NT d E)|]. intros (c' & b' & E & AB' & N). assert (c = c') by congruence. subst c'. assert (b = b') by congruence. subst b'. congruence.
  - split; [intros _; exists c, b; auto|reflexivity].
Qed.
Lemma payload_safe p : byron_payload p <> UB <-> forall inner t, cbor_read p = Some (inner, t) -> payload_shaped inner.
Proof.
  set (fc := fun d => deref (as_bytes d)). set (fm := fun d => let* v := deref (as_uint d) in Ok (v mod 2 ^ 32)).
  assert (VC : forall d, fc d <> UB <-> as_bytes d <> None) by (intros d; apply deref_ub). assert (TC : forall d, fc d <> Throw) by (intros d; unfold fc; destruct (as_bytes d); discriminate).
  assert (VM : forall d, fm d <> UB <-> as_uint d <> None) by (intros d; unfold fm; destruct (as_uint d); cbn; split; congruence). assert (TM : forall d, fm d <> Throw) by (intros d; unfold fm; destruct (as_uint d); discriminate).
  unfold byron_payload. rewrite bind_ub'. split.
  - intros [_ H] inner t R. specialize (H inner (proj2 (parse_ok' _ _) (ex_intro _ t R))). rewrite bind_ub' in H. destruct H as [HA H]. apply deref_ub in HA. destruct (as_array inner) as [arr|] eqn:EA; [|contradiction HA; reflexivity]. specialize (H arr eq_refl).
    destruct arr as [|i0 [|i1 [|i2 rest]]]; cbn in H; try (exfalso; apply H; reflexivity). rewrite bind_ub' in H. destruct H as [HB H]. apply deref_ub in HB. destruct (as_bytes i0) as [root|] eqn:EB; [|contradiction HB; reflexivity]. specialize (H root eq_refl).
    destruct (Z.ltb_spec 28 (zlen root)); [contradiction H; reflexivity|]. rewrite bind_ub' in H. destruct H as [HM H]. apply deref_ub in HM. destruct (as_map i1) as [m|] eqn:EM; [|contradiction HM; reflexivity]. specialize (H m eq_refl).
    change (bind (read_attr m 1 [] fc) (fun cipher => bind (read_attr m 2 0 fm) (fun magic => let* v := deref (as_uint i2) in let* t0 := uint_to_type v in Ok {| by_root := root ++ repeat 0 (28 - length root); by_attrs := {| ba_cipher := cipher; ba_magic := magic |}; by_type := t0 |})) <> UB) in H.
    rewrite bind_ub' in H. destruct H as [H1 H]. pose proof (proj1 (read_attr_ub _ _ m 1 [] fc as_bytes VC) H1) as S1.
    exists i0, i1, i2, rest, root, m. split; [exact EA|]. split; [exact EB|]. split; [lia|]. split; [exact EM|]. split; [exact S1|].
    destruct (read_attr m 1 [] fc) as [cipher| |] eqn:R1; [|left; apply (read_attr_throw _ _ m 1 [] fc as_bytes VC TC S1); exact R1|contradiction H1; reflexivity]. right. specialize (H cipher eq_refl).
    rewrite bind_ub' in H. destruct H as [H2 H]. pose proof (proj1 (read_attr_ub _ _ m 2 0 fm as_uint VM) H2) as S2. split; [exact S2|].
    destruct (read_attr m 2 0 fm) as [magic| |] eqn:R2; [|left; apply (read_attr_throw _ _ m 2 0 fm as_uint VM TM S2); exact R2|contradiction H2; reflexivity]. right. specialize (H magic eq_refl). destruct (as_uint i2); [discriminate|contradiction H; reflexivity].
  - intros H. split; [apply parse_ub|]. intros inner P. apply parse_ok' in P as (t & P). destruct (H inner t P) as (i0 & i1 & i2 & rest & root & m & EA & EB & LR & EM & S1 & S2).
    rewrite EA. cbn. rewrite EB. cbn. destruct (Z.ltb_spec 28 (zlen root)); [lia|]. rewrite EM. cbn [deref bind].
    change (bind (read_attr m 1 [] fc) (fun cipher => bind (read_attr m 2 0 fm) (fun magic => let* v := deref (as_uint i2) in let* t0 := uint_to_type v in Ok {| by_root := root ++ repeat 0 (28 - length root); by_attrs := {| ba_cipher := cipher; ba_magic := magic |}; by_type := t0 |})) <> UB).
    rewrite bind_ub'. split; [apply (read_attr_ub _ _ m 1 [] fc as_bytes VC), S1|]. intros cipher R1. destruct S2 as [N|[S2 S3]]; [apply (read_attr_throw _ _ m 1 [] fc as_bytes VC TC S1) in N; congruence|].
    rewrite bind_ub'. split; [apply (read_attr_ub _ _ m 2 0 fm as_uint VM), S2|]. intros magic R2. destruct S3 as [N|S3]; [apply (read_attr_throw _ _ m 2 0 fm as_uint VM TM S2) in N; congruence|].
    destruct (as_uint i2) as [v|]; [|contradiction S3; reflexivity]. cbn. unfold uint_to_type. destruct (v =? 0), (v =? 1), (v =? 2); discriminate.
Qed.
Lemma payload_bytes s item t arr i0 p : bytes_ok s -> cbor_read s = Some (item, t) -> as_array item = Some arr -> In i0 arr -> as_bytes i0 = Some p -> bytes_ok p.
Proof.
  intros BS CR AI IN AP. destruct (encode_shortest s item t BS CR) as [OI _]. assert (K : forall c l, cbor_ok c -> as_array c = Some l -> Forall cbor_ok l).
  { induction c using cbor_nested_ind; intros l0 O H1; try discriminate; cbn [as_array] in H1; [injection H1 as <-; apply ok_list; apply O|apply IHc; [apply O|exact H1]]. }
  assert (K2 : forall c l, cbor_ok c -> as_bytes c = Some l -> bytes_ok l).
  { induction c using cbor_nested_ind; intros l0 O H1; try discriminate; cbn [as_bytes] in H1; [injection H1 as <-; apply O|apply IHc; [apply O|exact H1]]. }
  pose proof (K _ _ OI AI) as F. rewrite Forall_forall in F. exact (K2 _ _ (F _ IN) AP).
Qed.
(** The parser returns or throws exactly on the bytes of the right shape; on all others it dereferences null or writes past the 28-byte root. *)
Theorem C48_safe_exactly : forall s, bytes_ok s -> (byron_fromCBOR s <> UB <-> shaped s).
Proof.
  intros s BS. unfold byron_fromCBOR. rewrite bind_ub'. unfold shaped. split.
  - intros [_ H] item t R. specialize (H item (proj2 (parse_ok' _ _) (ex_intro _ t R))). rewrite bind_ub' in H. destruct H as [HA H]. apply deref_ub in HA. destruct (as_array item) as [arr|] eqn:EA; [|contradiction HA; reflexivity]. specialize (H arr eq_refl).
    destruct arr as [|i0 arr]; [contradiction H; reflexivity|]. cbn [get_ub nth_error bind] in H. rewrite bind_ub' in H. destruct H as [HB H]. apply deref_ub in HB. destruct (as_bytes i0) as [p|] eqn:EB; [|contradiction HB; reflexivity]. specialize (H p eq_refl).
    destruct arr as [|i1 rest]; [contradiction H; reflexivity|]. cbn [get_ub nth_error bind] in H. rewrite bind_ub' in H. destruct H as [HU H]. apply deref_ub in HU. destruct (as_uint i1) as [crc|] eqn:EU; [|contradiction HU; reflexivity]. specialize (H crc eq_refl).
    exists p, crc. split; [exists i0, i1, rest; auto|]. intros CRC. assert (BP : bytes_ok p) by (apply (payload_bytes s item t _ i0 p BS R EA); [left; reflexivity|exact EB]).
    rewrite <- crc32_correct in CRC by exact BP. rewrite CRC, Z.eqb_refl in H. cbn [negb] in H. exact (proj1 (payload_safe p) H).
  - intros H. split; [apply parse_ub|]. intros item P. apply parse_ok' in P as (t & P). destruct (H item t P) as (p & crc & (i0 & i1 & rest & EA & EB & EU) & HP).
    rewrite EA. cbn [deref bind get_ub nth_error]. rewrite EB. cbn [deref bind]. rewrite EU. cbn [deref bind]. assert (BP : bytes_ok p) by (apply (payload_bytes s item t _ i0 p BS P EA); [left; reflexivity|exact EB]).
    destruct (Z.eqb_spec (crc32 p) (crc mod 2 ^ 32)) as [CRC|CRC]; cbn [negb]; [|discriminate]. apply payload_safe. apply HP. rewrite <- crc32_correct by exact BP. exact CRC.
Qed.
Print Assumptions C48_safe_exactly.
(** ... and so for texts: the Base58 decoder is safe on its own (C09). *)
Theorem C48_base58_safe_exactly : forall s b, bytes_ok b -> base58_decode s = Ok b -> (byron_fromBase58 s <> UB <-> shaped b).
Proof. intros s b BB D. unfold byron_fromBase58. rewrite D. cbn [bind]. exact (C48_safe_exactly b BB). Qed.
(** Every address the parser accepts: the fields are what the bytes say, the root padded with zeros to 28 bytes, the magic cut to 32 bits. *)
Theorem C48_accepted_exact : forall s a, bytes_ok s -> byron_fromCBOR s = Ok a -> exists item t p crc inner t' i0 i1 i2 rest root m v,
  cbor_read s = Some (item, t) /\ outer_shaped item p crc /\ crc32_spec p = crc mod 2 ^ 32 /\ cbor_read p = Some (inner, t') /\
  as_array inner = Some (i0 :: i1 :: i2 :: rest) /\ as_bytes i0 = Some root /\ (length root <= 28)%nat /\ by_root a = root ++ repeat 0 (28 - length root) /\
  as_map i1 = Some m /\ as_uint i2 = Some v /\ (v = 0 /\ by_type a = Pubkey \/ v = 1 /\ by_type a = Script \/ v = 2 /\ by_type a = Redeem) /\
  (match map_get m 1 with None => ba_cipher (by_attrs a) = [] | Some c => exists b d td, as_bytes c = Some b /\ cbor_read b = Some (d, td) /\ as_bytes d = Some (ba_cipher (by_attrs a)) end) /\
  (match map_get m 2 with None => ba_magic (by_attrs a) = 0 | Some c => exists b d td n, as_bytes c = Some b /\ cbor_read b = Some (d, td) /\ as_uint d = Some n /\ ba_magic (by_attrs a) = n mod 2 ^ 32 end).
Proof.
  intros s a BS E. assert (DE : forall A (o : option A) x, deref o = Ok x -> o = Some x) by (intros A [y|] x H; cbn in H; congruence).
  unfold byron_fromCBOR in E. apply bind_ok in E as (item & PI & E). apply parse_ok' in PI as (t & PI). apply bind_ok in E as (arr & AI & E). apply DE in AI.
  destruct arr as [|j0 arr]; [discriminate|]. cbn [get_ub nth_error bind] in E. apply bind_ok in E as (p & AP & E). apply DE in AP. destruct arr as [|j1 arr]; [discriminate|]. cbn [get_ub nth_error bind] in E. apply bind_ok in E as (crc & AC & E). apply DE in AC.
  assert (BP : bytes_ok p) by (apply (payload_bytes s item t _ j0 p BS PI AI); [left; reflexivity|exact AP]).
  destruct (Z.eqb_spec (crc32 p) (crc mod 2 ^ 32)) as [EC|]; [|discriminate]. cbn [negb] in E. rewrite crc32_correct in EC by exact BP.
  unfold byron_payload in E. apply bind_ok in E as (inner & QI & E). apply parse_ok' in QI as (t' & QI). apply bind_ok in E as (brr & BI & E). apply DE in BI.
  destruct brr as [|i0 [|i1 [|i2 rest]]]; try discriminate. cbn [get_ub nth_error bind] in E. apply bind_ok in E as (root & AR & E). apply DE in AR. destruct (Z.ltb_spec 28 (zlen root)); [discriminate|].
  apply bind_ok in E as (m & AM & E). apply DE in AM. apply bind_ok in E as (cipher & EC1 & E). apply bind_ok in E as (magic & EM1 & E). apply bind_ok in E as (v & AV & E). apply DE in AV. apply bind_ok in E as (ty & ET & E).
  exists item, t, p, crc, inner, t', i0, i1, i2, rest, root, m, v. assert (A : a = {| by_root := root ++ repeat 0 (28 - length root); by_attrs := {| ba_cipher := cipher; ba_magic := magic |}; by_type := ty |}) by congruence. subst a. cbn [by_root by_attrs by_type ba_cipher ba_magic].
  split; [exact PI|]. split; [exists j0, j1, arr; auto|]. split; [exact EC|]. split; [exact QI|]. split; [exact BI|]. split; [exact AR|]. split; [unfold zlen in *; lia|]. split; [reflexivity|]. split; [exact AM|]. split; [exact AV|].
  split. { unfold uint_to_type in ET. destruct (Z.eqb_spec v 0); [left; split; congruence|]. destruct (Z.eqb_spec v 1); [right; left; split; congruence|]. destruct (Z.eqb_spec v 2); [right; right; split; congruence|discriminate]. }
  split.
  - destruct (map_get m 1) as [c|]; [|congruence]. apply bind_ok in EC1 as (b & B1 & EC1). apply bind_ok in EC1 as (d & D1 & EC1). apply DE in B1, EC1. apply parse_ok' in D1 as (td & D1). exists b, d, td. auto.
  - destruct (map_get m 2) as [c|]; [|congruence]. apply bind_ok in EM1 as (b & B1 & EM1). apply bind_ok in EM1 as (d & D1 & EM1). apply bind_ok in EM1 as (n & N1 & EM1). apply DE in B1, N1. apply parse_ok' in D1 as (td & D1). exists b, d, td, n. split; [exact B1|]. split; [exact D1|]. split; [exact N1|]. congruence.
Qed.
Print Assumptions C48_accepted_exact.
(** Bytes that are not CBOR at all, and an address with extra elements, are of the shape; an empty array is not. *)
Example C48_shaped_cases : shaped [] /\ ~ shaped [0x80] /\ byron_fromCBOR [0x82; 0xD8; 0x18; 0x40; 0x00] = Throw /\ shaped [0x82; 0xD8; 0x18; 0x40; 0x00].
Proof.
  split; [intros item t R; discriminate|]. split; [intros H; apply (C48_safe_exactly [0x80]) in H; [apply H; vm_compute; reflexivity|repeat (constructor; [unfold byte_ok; lia|]); constructor]|]. split; [vm_compute; reflexivity|].
  apply C48_safe_exactly; [repeat (constructor; [unfold byte_ok; lia|]); constructor|]. assert (E : byron_fromCBOR [0x82; 0xD8; 0x18; 0x40; 0x00] = Throw) by (vm_compute; reflexivity). rewrite E. discriminate.
Qed.
