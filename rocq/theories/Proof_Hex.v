From Verif Require Import BaseLemmas Model_Hex.
Ltac Zify.zify_post_hook ::= Z.div_mod_to_equations.

(** ASCII lower-casing, used by the specification of the hex decoder. *)
Definition lower (c : Z) : Z := if (65 <=? c) && (c <=? 90) then c + 32 else c.

Lemma from_hex_char_spec c :
  from_hex_char c =
  (if (48 <=? c) && (c <=? 57) then Some (c - 48)
  else if (97 <=? c) && (c <=? 102) then Some (c - 87)
  else if (65 <=? c) && (c <=? 70) then Some (c - 55) else None).
Proof. reflexivity. Qed.

Lemma is_hex_char_iff c :
  is_hex_char c = ((48 <=? c) && (c <=? 57)) || ((97 <=? c) && (c <=? 102)) || ((65 <=? c) && (c <=? 70)).
Proof.
  assert (0 <= c < Z.of_nat 256 \/ ~ 0 <= c < Z.of_nat 256) as [H|H] by lia.
  - apply eqb_true_iff. revert c H. apply (forallb_range (fun c => Bool.eqb _ _) 256).
    vm_compute. reflexivity.
  - transitivity false; [|lia]. destruct (is_hex_char c) eqn:E; [|reflexivity]. exfalso.
    unfold is_hex_char in E. apply existsb_exists in E as (x & Hin & Hx).
    apply Z.eqb_eq in Hx; subst x. cbn in Hin.
    repeat (destruct Hin as [<-|Hin]; [lia|]). contradiction.
Qed.

Lemma from_hex_char_some c : is_hex_char c = true ->
  exists d, from_hex_char c = Some d /\ 0 <= d < 16 /\ hex_digit d = lower c.
Proof.
  rewrite is_hex_char_iff, from_hex_char_spec. unfold hex_digit, lower. intros H.
  destruct ((48 <=? c) && (c <=? 57)) eqn:E1.
  { eexists; split; [reflexivity|]. split; [lia|].
    destruct (c - 48 <? 10) eqn:?; destruct ((65 <=? c) && (c <=? 90)) eqn:?; lia. }
  destruct ((97 <=? c) && (c <=? 102)) eqn:E2.
  { eexists; split; [reflexivity|]. split; [lia|].
    destruct (c - 87 <? 10) eqn:?; destruct ((65 <=? c) && (c <=? 90)) eqn:?; lia. }
  destruct ((65 <=? c) && (c <=? 70)) eqn:E3.
  { eexists; split; [reflexivity|]. split; [lia|].
    destruct (c - 55 <? 10) eqn:?; destruct ((65 <=? c) && (c <=? 90)) eqn:?; lia. }
  cbn in H; discriminate.
Qed.

Lemma from_hex_digit d : 0 <= d < 16 ->
  from_hex_char (hex_digit d) = Some d /\ is_hex_char (hex_digit d) = true.
Proof.
  intros H. rewrite is_hex_char_iff, from_hex_char_spec. unfold hex_digit.
  destruct (d <? 10) eqn:E.
  - split; [|lia]. destruct ((48 <=? 48 + d) && (48 + d <=? 57)) eqn:E1; [f_equal; lia|lia].
  - split; [|lia]. destruct ((48 <=? 87 + d) && (87 + d <=? 57)) eqn:E1; [lia|].
    destruct ((97 <=? 87 + d) && (87 + d <=? 102)) eqn:E2; [f_equal; lia|lia].
Qed.

Lemma hex_of_byte_eq b : 0 <= b < 256 -> hex_of_byte b = [hex_digit (b / 16); hex_digit (b mod 16)].
Proof.
  intros H. unfold hex_of_byte. destruct (b <? 16) eqn:E; [|reflexivity].
  replace (b / 16) with 0 by lia. replace (b mod 16) with b by lia. reflexivity.
Qed.

Lemma hex_encode_length b : length (hex_encode b) = (2 * length b)%nat.
Proof.
  induction b as [|x b IH]; [reflexivity|]. cbn [hex_encode flat_map].
  rewrite app_length. fold (hex_encode b). rewrite IH.
  unfold hex_of_byte; destruct (x <? 16); cbn [List.length]; lia.
Qed.

Lemma hex_pairs_encode b : bytes_ok b -> hex_pairs (hex_encode b) = Ok b.
Proof.
  induction b as [|x b IH]; intros H; [reflexivity|].
  apply bytes_ok_cons in H as [Hx Hb]. unfold byte_ok in Hx.
  cbn [hex_encode flat_map]. fold (hex_encode b).
  rewrite hex_of_byte_eq by lia. cbn [app hex_pairs].
  rewrite (proj1 (from_hex_digit (x / 16) ltac:(lia))), (proj1 (from_hex_digit (x mod 16) ltac:(lia))).
  rewrite IH by auto. cbn [bind]. repeat f_equal. lia.
Qed.

Lemma hex_encode_chars b : bytes_ok b -> forallb is_hex_char (hex_encode b) = true.
Proof.
  induction b as [|x b IH]; intros H; [reflexivity|].
  apply bytes_ok_cons in H as [Hx Hb]. unfold byte_ok in Hx.
  cbn [hex_encode flat_map]. fold (hex_encode b).
  rewrite hex_of_byte_eq by lia. cbn [app forallb].
  rewrite (proj2 (from_hex_digit (x / 16) ltac:(lia))), (proj2 (from_hex_digit (x mod 16) ltac:(lia))).
  rewrite IH by auto. reflexivity.
Qed.

Lemma even_2n n : Nat.even (2 * n) = true.
Proof. apply Nat.even_spec. exists n; lia. Qed.

Lemma hex_round_trip_l b : bytes_ok b -> hex_decode (hex_encode b) = Ok b.
Proof.
  intros H. unfold hex_decode. rewrite hex_encode_length, even_2n, hex_encode_chars by auto.
  cbn [negb]. apply hex_pairs_encode; auto.
Qed.

Lemma list_pair_ind {A} (P : list A -> Prop) :
  P [] -> (forall a, P [a]) -> (forall a b l, P l -> P (a :: b :: l)) -> forall l, P l.
Proof.
  intros H0 H1 H2. assert (forall l, P l /\ forall a, P (a :: l)) as H.
  { induction l as [|x l [IH1 IH2]]; split; auto. }
  intros l; apply H.
Qed.

Lemma hex_pairs_ok hex : Nat.even (length hex) = true -> forallb is_hex_char hex = true ->
  exists b, hex_pairs hex = Ok b /\ bytes_ok b /\ hex_encode b = map lower hex.
Proof.
  induction hex as [|a|a1 a2 r IH] using list_pair_ind; intros He Hc.
  - exists []. repeat split. constructor.
  - discriminate.
  - cbn [forallb] in Hc. apply andb_true_iff in Hc as [H1 Hc]. apply andb_true_iff in Hc as [H2 Hc].
    destruct (IH He Hc) as (b & Hb & Hok & Hr).
    destruct (from_hex_char_some a1 H1) as (d1 & E1 & R1 & L1).
    destruct (from_hex_char_some a2 H2) as (d2 & E2 & R2 & L2).
    exists (d1 * 16 + d2 :: b). cbn [hex_pairs]. rewrite E1, E2, Hb. cbn [bind].
    split; [reflexivity|]. split; [apply bytes_ok_cons; split; [unfold byte_ok; lia|auto]|].
    cbn [hex_encode flat_map map]. fold (hex_encode b). rewrite hex_of_byte_eq by lia.
    cbn [app]. replace ((d1 * 16 + d2) / 16) with d1 by lia.
    replace ((d1 * 16 + d2) mod 16) with d2 by lia. congruence.
Qed.

Lemma hex_decode_ok_iff hex :
  (exists b, hex_decode hex = Ok b) <->
  (Nat.even (length hex) = true /\ forallb is_hex_char hex = true).
Proof.
  unfold hex_decode. destruct (Nat.even (length hex)) eqn:E; cbn [negb].
  - destruct (forallb is_hex_char hex) eqn:F; cbn [negb].
    + destruct (hex_pairs_ok hex E F) as (b & Hb & _). split; eauto.
    + split; [intros [b H]; discriminate|intros [_ H]; discriminate].
  - split; [intros [b H]; discriminate|intros [H _]; discriminate].
Qed.

Lemma hex_decode_not_ub hex : hex_decode hex <> UB.
Proof.
  unfold hex_decode. destruct (Nat.even (length hex)) eqn:E; cbn [negb]; [|discriminate].
  destruct (forallb is_hex_char hex) eqn:F; cbn [negb]; [|discriminate].
  destruct (hex_pairs_ok hex E F) as (b & Hb & _). rewrite Hb; discriminate.
Qed.

Lemma hex_decode_inv hex b : hex_decode hex = Ok b ->
  bytes_ok b /\ hex_encode b = map lower hex /\ length hex = (2 * length b)%nat.
Proof.
  intros H. destruct (proj1 (hex_decode_ok_iff hex)) as [E F]; [eauto|].
  unfold hex_decode in H. rewrite E, F in H. cbn [negb] in H.
  destruct (hex_pairs_ok hex E F) as (b' & Hb & Hok & Hr).
  rewrite Hb in H; injection H as <-. repeat split; auto.
  rewrite <- hex_encode_length, Hr, map_length. reflexivity.
Qed.

(** ** BytePacker *)
Lemma pack_le_S w v : pack_le (S w) v = v mod 256 :: pack_le w (v / 256).
Proof.
  unfold pack_le. cbn [seq map]. rewrite land_255. f_equal.
  rewrite <- seq_shift, map_map. apply map_ext. intros i.
  rewrite !land_255, !shiftr_div by lia. rewrite Z.div_div by lia.
  f_equal. f_equal. replace (8 * Z.of_nat (S i)) with (8 + 8 * Z.of_nat i) by lia.
  rewrite Z.pow_add_r by lia. reflexivity.
Qed.

Lemma pack_be_rev w v : pack_be w v = rev (pack_le w v).
Proof.
  unfold pack_be, pack_le. rewrite <- map_rev.
  assert (map (fun i => (w - 1 - i)%nat) (seq 0 w) = rev (seq 0 w)) as <-.
  { induction w as [|w IH]; [reflexivity|].
    assert (rev (seq 0 (S w)) = w :: rev (seq 0 w)) as ->
      by (rewrite seq_S, rev_app_distr; reflexivity).
    cbn [seq map]. rewrite <- seq_shift, map_map, <- IH.
    f_equal; [lia|]. apply map_ext. intros; lia. }
  rewrite map_map. apply map_ext. reflexivity.
Qed.

Lemma pack_le_length w v : length (pack_le w v) = w.
Proof. unfold pack_le. rewrite map_length, seq_length; reflexivity. Qed.
Lemma pack_be_length w v : length (pack_be w v) = w.
Proof. unfold pack_be. rewrite map_length, seq_length; reflexivity. Qed.

Lemma pack_le_ok w v : bytes_ok (pack_le w v).
Proof.
  revert v; induction w as [|w IH]; intros v; [constructor|].
  rewrite pack_le_S. apply bytes_ok_cons. split; [unfold byte_ok; lia|apply IH].
Qed.
Lemma pack_be_ok w v : bytes_ok (pack_be w v).
Proof. rewrite pack_be_rev. apply bytes_ok_rev, pack_le_ok. Qed.

Lemma pack_le_value w v : lev 256 (pack_le w v) = v mod 256 ^ Z.of_nat w.
Proof.
  revert v; induction w as [|w IH]; intros v; [cbn [pack_le seq map lev Z.of_nat]; rewrite Z.mod_1_r; reflexivity|].
  rewrite pack_le_S. cbn [lev]. rewrite IH, Nat2Z.inj_succ, Z.pow_succ_r by lia.
  rewrite Z.rem_mul_r by lia. reflexivity.
Qed.
Lemma pack_be_value w v : bev 256 (pack_be w v) = v mod 256 ^ Z.of_nat w.
Proof. rewrite pack_be_rev, <- lev_rev. apply pack_le_value. Qed.

Lemma pow8 w : 2 ^ (8 * Z.of_nat w) = 256 ^ Z.of_nat w.
Proof. rewrite Z.pow_mul_r by lia. reflexivity. Qed.

Lemma unpack_le_aux w bytes : bytes_ok bytes -> forall i value,
  (i + length bytes = w)%nat -> 0 <= value < 256 ^ Z.of_nat i ->
  unpack_from w false i bytes value = value + 256 ^ Z.of_nat i * lev 256 bytes.
Proof.
  induction bytes as [|b r IH]; intros Hok i value Hi Hv; cbn [unpack_from lev]; [lia|].
  apply bytes_ok_cons in Hok as [Hb Hr]. unfold byte_ok in Hb. cbn [List.length] in Hi.
  rewrite shiftl_mul by lia. rewrite !pow8.
  assert (0 < 256 ^ Z.of_nat i) by (apply Z.pow_pos_nonneg; lia).
  assert (256 ^ Z.of_nat w = 256 ^ Z.of_nat (S i) * 256 ^ (Z.of_nat w - Z.of_nat (S i))) as Hw.
  { rewrite <- Z.pow_add_r by lia. f_equal; lia. }
  assert (0 < 256 ^ (Z.of_nat w - Z.of_nat (S i))) by (apply Z.pow_pos_nonneg; lia).
  assert (256 ^ Z.of_nat (S i) = 256 * 256 ^ Z.of_nat i) as HS.
  { rewrite Nat2Z.inj_succ, Z.pow_succ_r by lia. reflexivity. }
  rewrite Z.mod_small by nia.
  rewrite Z.lor_comm, <- pow8, lor_shift_add by (rewrite ?pow8; lia). rewrite pow8.
  rewrite IH by (auto; try lia; nia). rewrite HS. ring.
Qed.

Lemma unpack_be_aux w bytes : bytes_ok bytes -> forall i value hi,
  (i + length bytes = w)%nat -> value = hi * 256 ^ zlen bytes -> 0 <= hi < 256 ^ Z.of_nat i ->
  unpack_from w true i bytes value = value + bev 256 bytes.
Proof.
  induction bytes as [|b r IH]; intros Hok i value hi Hi Hv Hh; cbn [unpack_from];
    [rewrite bev_nil; lia|].
  apply bytes_ok_cons in Hok as [Hb Hr]. unfold byte_ok in Hb. cbn [List.length] in Hi.
  rewrite shiftl_mul by lia. rewrite bev_cons. rewrite zlen_cons in Hv.
  replace (w - 1 - i)%nat with (length r) by lia. rewrite !pow8.
  change (Z.of_nat (length r)) with (zlen r).
  pose proof (zlen_nonneg r).
  assert (0 < 256 ^ zlen r) by (apply Z.pow_pos_nonneg; lia).
  rewrite Z.pow_add_r in Hv by lia. change (256 ^ 1) with 256 in Hv.
  assert (256 ^ Z.of_nat w = 256 ^ Z.of_nat (S i) * 256 ^ zlen r) as Hw.
  { rewrite <- Z.pow_add_r by lia. f_equal. unfold zlen. lia. }
  assert (0 < 256 ^ Z.of_nat i) by (apply Z.pow_pos_nonneg; lia).
  assert (256 ^ Z.of_nat (S i) = 256 * 256 ^ Z.of_nat i) as HS.
  { rewrite Nat2Z.inj_succ, Z.pow_succ_r by lia. reflexivity. }
  rewrite Z.mod_small by nia.
  assert (Z.lor value (b * 256 ^ zlen r) = value + b * 256 ^ zlen r) as ->.
  { subst value. replace (hi * (256 ^ zlen r * 256)) with (256 ^ zlen r * (hi * 2 ^ 8)) by ring.
    rewrite (Z.mul_comm b). unfold zlen. rewrite <- pow8.
    rewrite !(Z.mul_comm (2 ^ _)), <- !(Z.shiftl_mul_pow2 _ (8 * _)) by lia.
    rewrite <- Z.shiftl_lor, lor_shift_add by lia. rewrite !Z.shiftl_mul_pow2 by lia. ring. }
  rewrite (IH Hr (S i) _ (hi * 256 + b)).
  - ring.
  - lia.
  - subst value. ring.
  - rewrite HS. nia.
Qed.

Lemma unpack_le_value w bytes : bytes_ok bytes -> length bytes = w -> unpack_le w bytes = lev 256 bytes.
Proof.
  intros H Hl. unfold unpack_le. rewrite unpack_le_aux by (auto; cbn; lia). cbn [Z.of_nat].
  change (256 ^ 0) with 1. lia.
Qed.
Lemma unpack_be_value w bytes : bytes_ok bytes -> length bytes = w -> unpack_be w bytes = bev 256 bytes.
Proof.
  intros H Hl. unfold unpack_be. rewrite (unpack_be_aux w bytes H 0%nat 0 0); auto.
  change (256 ^ Z.of_nat 0) with 1. lia.
Qed.

Lemma pack_unpack_be w v : 0 <= v < 256 ^ Z.of_nat w -> unpack_be w (pack_be w v) = v.
Proof.
  intros H. rewrite unpack_be_value by (auto using pack_be_ok, pack_be_length).
  rewrite pack_be_value. apply Z.mod_small; auto.
Qed.
Lemma pack_unpack_le w v : 0 <= v < 256 ^ Z.of_nat w -> unpack_le w (pack_le w v) = v.
Proof.
  intros H. rewrite unpack_le_value by (auto using pack_le_ok, pack_le_length).
  rewrite pack_le_value. apply Z.mod_small; auto.
Qed.
Lemma unpack_pack_be w b : bytes_ok b -> length b = w -> pack_be w (unpack_be w b) = b.
Proof.
  intros H Hl. apply (bev_inj 256); auto using pack_be_ok; try lia.
  - apply pack_be_ok.
  - rewrite pack_be_length; auto.
  - rewrite pack_be_value, unpack_be_value by auto. apply Z.mod_small.
    rewrite <- Hl. apply bev_bound; [lia|auto].
Qed.
Lemma unpack_pack_le w b : bytes_ok b -> length b = w -> pack_le w (unpack_le w b) = b.
Proof.
  intros H Hl. apply (lev_inj 256); auto using pack_le_ok; try lia.
  - apply pack_le_ok.
  - rewrite pack_le_length; auto.
  - rewrite pack_le_value, unpack_le_value by auto. apply Z.mod_small.
    rewrite <- Hl. apply lev_bound; [lia|auto].
Qed.

Lemma pack_be_inj w u v : 0 <= u < 256 ^ Z.of_nat w -> 0 <= v < 256 ^ Z.of_nat w ->
  pack_be w u = pack_be w v -> u = v.
Proof. intros Hu Hv H. rewrite <- (pack_unpack_be w u), <- (pack_unpack_be w v), H; auto. Qed.
Lemma pack_le_inj w u v : 0 <= u < 256 ^ Z.of_nat w -> 0 <= v < 256 ^ Z.of_nat w ->
  pack_le w u = pack_le w v -> u = v.
Proof. intros Hu Hv H. rewrite <- (pack_unpack_le w u), <- (pack_unpack_le w v), H; auto. Qed.

(** ** Link to the specification *)
From Verif Require Import Spec_Hex.
Lemma spec_hex_digit_eq d : 0 <= d < 16 -> spec_hex_digit d = hex_digit d.
Proof.
  intros H. apply Z.eqb_eq. change 16 with (Z.of_nat 16) in H. revert d H.
  apply (forallb_range (fun d => Z.eqb _ _) 16). vm_compute; reflexivity.
Qed.
Lemma hex_encode_spec b : bytes_ok b -> hex_encode b = spec_hex_text b.
Proof.
  unfold spec_hex_text. rewrite <- flat_map_concat_map.
  induction b as [|x b IH]; intros H; [reflexivity|].
  apply bytes_ok_cons in H as [Hx Hb]. unfold byte_ok in Hx.
  cbn [hex_encode flat_map]. fold (hex_encode b). rewrite IH by auto.
  rewrite hex_of_byte_eq, !spec_hex_digit_eq by lia. reflexivity.
Qed.
Lemma spec_hex_char_iff c : spec_hex_char c <-> is_hex_char c = true.
Proof.
  unfold spec_hex_char, is_hex_char. rewrite existsb_exists. split.
  - intros H; exists c; split; auto. apply Z.eqb_refl.
  - intros (x & H & E). apply Z.eqb_eq in E; subst; auto.
Qed.

Lemma hex_text_round_trip b : bytes_ok b ->
  hex_encode b = spec_hex_text b /\ hex_decode (hex_encode b) = Ok b.
Proof. intros H; split; [apply hex_encode_spec|apply hex_round_trip_l]; auto. Qed.

Lemma hex_decode_then_encode hex b : hex_decode hex = Ok b ->
  bytes_ok b /\ hex_encode b = map spec_lower hex.
Proof. intros H. apply hex_decode_inv in H as (H1 & H2 & _). split; auto. Qed.

Lemma hex_decode_accepts hex :
  (Nat.even (length hex) = true /\ Forall spec_hex_char hex ->
     exists b, hex_decode hex = Ok b /\ length hex = (2 * length b)%nat) /\
  (~ (Nat.even (length hex) = true /\ Forall spec_hex_char hex) -> hex_decode hex = Throw).
Proof.
  assert (Forall spec_hex_char hex <-> forallb is_hex_char hex = true) as HF.
  { rewrite forallb_forall, Forall_forall. split; intros H x Hx; apply spec_hex_char_iff; auto. }
  rewrite HF, <- hex_decode_ok_iff. split.
  - intros [b Hb]. exists b; split; auto. apply hex_decode_inv in Hb; tauto.
  - intros H. destruct (hex_decode hex) eqn:E; auto.
    + exfalso; apply H; eauto.
    + exfalso; exact (hex_decode_not_ub hex E).
Qed.
