From Verif Require Import BaseLemmas Model_Hex Model_Base58 Spec_Base58.
Ltac Zify.zify_post_hook ::= idtac.

(** ** Canonical digit lists, little endian *)
Definition canon (l : list Z) : Prop := l = [0] \/ (l <> [] /\ last l 0 <> 0).

Lemma lev_pos B l : 1 < B -> digits_ok B l -> l <> [] -> last l 0 <> 0 ->
  B ^ (zlen l - 1) <= lev B l.
Proof.
  intros HB. induction l as [|d l IH]; intros Hd Hne Hl; [congruence|].
  apply digits_ok_cons in Hd as [Hd Hr]. destruct l as [|e l].
  - cbn [last] in Hl. rewrite zlen_cons. change (zlen (@nil Z)) with 0. cbn [lev]. change (0 + 1 - 1) with 0. rewrite Z.pow_0_r. lia.
  - assert (IH' : B ^ (zlen (e :: l) - 1) <= lev B (e :: l)) by (apply IH; auto; discriminate).
    rewrite zlen_cons. replace (zlen (e :: l) + 1 - 1) with (zlen (e :: l) - 1 + 1) by lia.
    rewrite Z.pow_add_r, Z.pow_1_r by (rewrite ?zlen_cons; pose proof (zlen_nonneg l); lia).
    change (lev B (d :: e :: l)) with (d + B * lev B (e :: l)). nia.
Qed.

Lemma canon_len_le B a b : 1 < B -> digits_ok B a -> digits_ok B b ->
  a <> [] -> last a 0 <> 0 -> lev B a = lev B b -> zlen a <= zlen b.
Proof.
  intros HB Ha Hb Hne Hl E. pose proof (lev_pos B a HB Ha Hne Hl).
  pose proof (lev_bound B b ltac:(lia) Hb).
  assert (B ^ (zlen a - 1) < B ^ zlen b) by lia.
  apply Z.pow_lt_mono_r_iff in H1; try lia. apply zlen_nonneg.
Qed.

Lemma canon_inj B a b : 1 < B -> digits_ok B a -> digits_ok B b ->
  a <> [] -> last a 0 <> 0 -> b <> [] -> last b 0 <> 0 -> lev B a = lev B b -> a = b.
Proof.
  intros HB Ha Hb A1 A2 B1 B2 E.
  apply (lev_inj B); auto; [lia|].
  pose proof (canon_len_le B a b HB Ha Hb A1 A2 E).
  pose proof (canon_len_le B b a HB Hb Ha B1 B2 (eq_sym E)). unfold zlen in *. lia.
Qed.

Lemma canon_value_zero B l : 1 < B -> digits_ok B l -> canon l -> lev B l = 0 -> l = [0].
Proof.
  intros HB Hd [->|[Hne Hl]] E; [reflexivity|].
  pose proof (lev_pos B l HB Hd Hne Hl).
  assert (0 < B ^ (zlen l - 1)); [|lia]. apply Z.pow_pos_nonneg; [lia|].
  destruct l; [congruence|]. rewrite zlen_cons. pose proof (zlen_nonneg l). lia.
Qed.

Lemma last_app {A} (a b : list A) d : b <> [] -> last (a ++ b) d = last b d.
Proof.
  intros Hb. induction a as [|x a IH]; [reflexivity|]. cbn [app].
  destruct (a ++ b) eqn:E; [destruct a; [cbn in E; congruence|discriminate]|].
  rewrite <- IH. reflexivity.
Qed.

Lemma last_rev_hd {A} (l : list A) d : last (rev l) d = hd d l.
Proof. destruct l as [|x l]; [reflexivity|]. cbn [rev]. rewrite last_app by discriminate. reflexivity. Qed.

(** ** Encoder digits *)
Lemma mul_add_spec ds : digits_ok 58 ds -> forall carry, 0 <= carry < 256 ->
  let '(ds', c) := b58_mul_add ds carry in
  digits_ok 58 ds' /\ length ds' = length ds /\ 0 <= c < 257 /\
  lev 58 ds' + 58 ^ zlen ds * c = 256 * lev 58 ds + carry.
Proof.
  induction ds as [|d ds IH]; intros Hd carry Hc; cbn [b58_mul_add].
  - change (zlen (@nil Z)) with 0. cbn [lev]. repeat split; auto; lia.
  - apply digits_ok_cons in Hd as [Hd Hr]. rewrite shiftl_mul by lia. change (2 ^ 8) with 256.
    rewrite (Z.mod_small (carry + d * 256)) by lia.
    set (t := carry + d * 256).
    assert (Ht : 0 <= t / 58 < 256) by (unfold t; dlia).
    specialize (IH Hr (t / 58) Ht). destruct (b58_mul_add ds (t / 58)) as [ds' c].
    destruct IH as (I1 & I2 & I3 & I4).
    assert (Hm : 0 <= t mod 58 < 58) by (apply Z.mod_pos_bound; lia).
    rewrite (Z.mod_small (t mod 58) 256) by lia.
    split; [apply digits_ok_cons; auto|]. split; [cbn [List.length]; lia|]. split; [lia|].
    cbn [lev]. rewrite zlen_cons, Z.pow_add_r, Z.pow_1_r by (pose proof (zlen_nonneg ds); lia).
    pose proof (Z.div_mod t 58 ltac:(lia)). unfold t in *. nia.
Qed.

Lemma emit_spec fuel : forall c, 0 <= c < 58 ^ Z.of_nat fuel ->
  exists e, b58_emit fuel c = Some e /\ digits_ok 58 e /\ lev 58 e = c /\ (c <> 0 -> e <> [] /\ last e 0 <> 0) /\ (c = 0 -> e = []).
Proof.
  induction fuel as [|fuel IH]; intros c Hc.
  - change (58 ^ Z.of_nat 0) with 1 in Hc. assert (c = 0) as -> by lia. exists []. cbn. repeat split; try constructor; congruence.
  - cbn [b58_emit]. destruct (c =? 0) eqn:E.
    + assert (c = 0) as -> by lia. exists []. cbn. repeat split; try constructor; congruence.
    + rewrite Nat2Z.inj_succ, Z.pow_succ_r in Hc by lia.
      destruct (IH (c / 58)) as (e & E1 & E2 & E3 & E4 & E5).
      { split; [apply Z.div_pos; lia|apply Z.div_lt_upper_bound; lia]. }
      rewrite E1. assert (Hm : 0 <= c mod 58 < 58) by (apply Z.mod_pos_bound; lia).
      rewrite (Z.mod_small (c mod 58) 256) by lia.
      eexists. split; [reflexivity|]. split; [apply digits_ok_cons; auto|].
      split; [cbn [lev]; rewrite E3; pose proof (Z.div_mod c 58 ltac:(lia)); lia|].
      split; [|lia]. intros _. split; [discriminate|].
      destruct (Z.eq_dec (c / 58) 0) as [Hz|Hz].
      * rewrite (E5 Hz). cbn [last]. pose proof (Z.div_mod c 58 ltac:(lia)). lia.
      * destruct (E4 Hz) as [F1 F2]. destruct e as [|x e]; [congruence|]. exact F2.
Qed.

Lemma mul_add_last ds : ds <> [] -> digits_ok 58 ds -> forall carry, 0 <= carry < 256 ->
  last ds 0 <> 0 -> let '(ds', c) := b58_mul_add ds carry in c <> 0 \/ last ds' 0 <> 0.
Proof.
  intros Hne Hd carry Hc Hl. pose proof (mul_add_spec ds Hd carry Hc) as H.
  destruct (b58_mul_add ds carry) as [ds' c]. destruct H as (H1 & H2 & H3 & H4).
  destruct (Z.eq_dec c 0) as [->|]; [right|left; auto]. intros Hz.
  pose proof (lev_pos 58 ds ltac:(lia) Hd Hne Hl) as HP.
  (* ds' has top digit 0, so its value is below 58^(len-1) *)
  destruct ds' as [|x r] using rev_ind.
  - destruct ds; [congruence|discriminate].
  - clear IHr. rewrite last_app in Hz by discriminate. cbn [last] in Hz. subst x.
    rewrite lev_app in H4. apply digits_ok_app in H1 as [H1 _].
    pose proof (lev_bound 58 r ltac:(lia) H1) as Hb.
    rewrite app_length in H2. cbn [List.length] in H2.
    assert (zlen r = zlen ds - 1) as Hzl by (unfold zlen; lia). rewrite Hzl in *. cbn [lev] in H4. nia.
Qed.

Lemma enc_loop_spec cap vs : bytes_ok vs -> forall ds n,
  digits_ok 58 ds -> canon ds -> zlen ds <= cap -> 0 <= n ->
  lev 58 ds < 256 ^ n -> cap = (n + zlen vs) * 138 / 100 + 1 ->
  exists out, b58_enc_loop cap vs ds = Ok out /\ digits_ok 58 out /\ canon out /\
    lev 58 out = lev 58 ds * 256 ^ zlen vs + bev 256 vs.
Proof.
  induction 1 as [|b vs Hb Hvs IH]; intros ds n Hd Hc Hcap Hn HV Hcc; cbn [b58_enc_loop].
  - exists ds. change (zlen (@nil Z)) with 0. rewrite bev_nil, Z.pow_0_r. repeat split; auto; lia.
  - unfold byte_ok in Hb. pose proof (mul_add_spec ds Hd b Hb) as HM.
    assert (Hds : ds <> []) by (destruct Hc as [->|[? _]]; auto; discriminate).
    pose proof (fun H => mul_add_last ds Hds Hd b Hb H) as HL.
    destruct (b58_mul_add ds b) as [ds' c]. destruct HM as (M1 & M2 & M3 & M4).
    destruct (emit_spec 6 c) as (e & E1 & E2 & E3 & E4 & E5).
    { change (58 ^ Z.of_nat 6) with 38068692544. lia. }
    rewrite E1.
    assert (Hval : lev 58 (ds' ++ e) = 256 * lev 58 ds + b).
    { rewrite lev_app, E3. assert (zlen ds' = zlen ds) as -> by (unfold zlen; lia). lia. }
    assert (Hok : digits_ok 58 (ds' ++ e)) by (apply digits_ok_app; auto).
    assert (Hcan : canon (ds' ++ e)).
    { destruct (Z.eq_dec c 0) as [Hz|Hz].
      - rewrite (E5 Hz), app_nil_r in *. destruct Hc as [->|[H1 H2]].
        + destruct ds' as [|x [|? ?]]; try discriminate. destruct (Z.eq_dec x 0) as [->|]; [left; auto|right; split; [discriminate|auto]].
        + right. split; [destruct ds'; [destruct ds; [congruence|discriminate]|discriminate]|].
          destruct (HL H2) as [H|H]; congruence.
      - destruct (E4 Hz) as [F1 F2]. right. split; [destruct ds'; [exact F1|discriminate]|].
        rewrite last_app by auto. exact F2. }
    assert (Hn1 : lev 58 (ds' ++ e) < 256 ^ (n + 1)).
    { rewrite Hval, Z.pow_add_r, Z.pow_1_r by lia. lia. }
    assert (Hlen : zlen (ds' ++ e) <= (n + 1) * 138 / 100 + 1).
    { destruct Hcan as [->|[C1 C2]].
      - change (zlen [0]) with 1. assert (0 <= (n + 1) * 138 / 100) by (apply Z.div_pos; lia). lia.
      - pose proof (lev_pos 58 _ ltac:(lia) Hok C1 C2) as HP.
        destruct (Z.le_gt_cases (zlen (ds' ++ e)) ((n + 1) * 138 / 100 + 1)) as [|Hgt]; auto. exfalso.
        set (L := zlen (ds' ++ e) - 1) in *.
        assert (HL1 : 138 * (n + 1) < 100 * L).
        { assert ((n + 1) * 138 / 100 < L) by (unfold L; lia). dlia. }
        assert (HL0 : 0 <= L) by lia.
        assert (H1 : 58 ^ L < 256 ^ (n + 1)) by lia.
        assert (H2 : (58 ^ L) ^ 100 < (256 ^ (n + 1)) ^ 100).
        { apply Z.pow_lt_mono_l; [lia|]. split; [apply Z.pow_nonneg; lia|auto]. }
        rewrite <- !Z.pow_mul_r in H2 by lia.
        assert (H3 : 58 ^ (138 * (n + 1)) <= 58 ^ (L * 100)) by (apply Z.pow_le_mono_r; lia).
        assert (H4 : 256 ^ ((n + 1) * 100) <= 58 ^ (138 * (n + 1))).
        { rewrite (Z.mul_comm (n + 1) 100), (Z.pow_mul_r 256), (Z.pow_mul_r 58) by lia.
          apply Z.pow_le_mono_l. split; [apply Z.pow_nonneg; lia|]. vm_compute. discriminate. }
        lia. }
    assert (Hcap2 : zlen (ds' ++ e) <= cap).
    { eapply Z.le_trans; [exact Hlen|]. rewrite Hcc, zlen_cons.
      assert ((n + 1) * 138 / 100 <= (n + (zlen vs + 1)) * 138 / 100); [|lia].
      apply Z.div_le_mono; [lia|]. pose proof (zlen_nonneg vs). lia. }
    destruct (zlen (ds' ++ e) >? cap) eqn:Eg; [lia|].
    destruct (IH (ds' ++ e) (n + 1)) as (out & O1 & O2 & O3 & O4); auto; try lia.
    { rewrite Hcc, zlen_cons. f_equal. f_equal. f_equal. lia. }
    exists out. repeat split; auto. rewrite O4, Hval, bev_cons, zlen_cons, Z.pow_add_r, Z.pow_1_r by (pose proof (zlen_nonneg vs); lia).
    ring.
Qed.

(** ** Characters *)
Lemma d58_sweep (P : Z -> bool) : forallb P (map Z.of_nat (seq 0 58)) = true -> forall d, 0 <= d < 58 -> P d = true.
Proof. intros H d Hd. apply (forallb_range P 58 H). lia. Qed.

Lemma b58_char_ok d : 0 <= d < 58 ->
  exists c, get_ub B58_CHARSET (Z.to_nat d) = Ok c /\ c = nth (Z.to_nat d) b58_alphabet 0 /\
    0 <= c < 128 /\ get_ub B58_CHARSET_REV (Z.to_nat c) = Ok d /\ (c = 49 <-> d = 0).
Proof.
  intros H.
  assert (E : match get_ub B58_CHARSET (Z.to_nat d) with
              | Ok c => (c =? nth (Z.to_nat d) b58_alphabet 0) && (0 <=? c) && (c <? 128) &&
                  match get_ub B58_CHARSET_REV (Z.to_nat c) with Ok r => r =? d | _ => false end && Bool.eqb (c =? 49) (d =? 0)
              | _ => false end = true).
  { revert d H. apply (d58_sweep (fun d => match _ with Ok _ => _ | _ => _ end)). vm_compute. reflexivity. }
  destruct (get_ub B58_CHARSET (Z.to_nat d)) as [c| |]; try discriminate. exists c.
  rewrite !andb_true_iff in E. destruct E as [[[[E1 E2] E3] E4] E5].
  destruct (get_ub B58_CHARSET_REV (Z.to_nat c)) as [r| |] eqn:Er; try discriminate.
  apply eqb_prop in E5. split; [reflexivity|]. split; [lia|]. split; [lia|]. split; [f_equal; lia|].
  destruct (c =? 49) eqn:?, (d =? 0) eqn:?; try discriminate; split; lia.
Qed.

Lemma b58_rev_total c : 0 <= c < 128 -> exists r, get_ub B58_CHARSET_REV (Z.to_nat c) = Ok r /\ -1 <= r < 58 /\
  (r <> -1 -> nth (Z.to_nat r) b58_alphabet 0 = c) /\ (r = -1 -> ~ In c b58_alphabet).
Proof.
  intros H.
  assert (E : match get_ub B58_CHARSET_REV (Z.to_nat c) with
              | Ok r => (-1 <=? r) && (r <? 58) && ((r =? -1) || (nth (Z.to_nat r) b58_alphabet 0 =? c)) &&
                 (negb (r =? -1) || negb (existsb (Z.eqb c) b58_alphabet))
              | _ => false end = true).
  { assert (Hr : 0 <= c < Z.of_nat 128) by lia. clear H. revert c Hr.
    apply (forallb_range (fun c => match _ with Ok _ => _ | _ => _ end) 128). vm_compute. reflexivity. }
  destruct (get_ub B58_CHARSET_REV (Z.to_nat c)) as [r| |]; try discriminate. exists r.
  rewrite !andb_true_iff in E. destruct E as [[[E1 E2] E3] E4].
  split; [reflexivity|]. split; [lia|]. split; [lia|]. intros -> Hin.
  cbn [Z.eqb Pos.eqb negb orb] in E4. apply negb_true_iff in E4.
  assert (existsb (Z.eqb c) b58_alphabet = true); [|congruence].
  apply existsb_exists. exists c. split; auto. apply Z.eqb_refl.
Qed.

Lemma mapM_b58 ds : digits_ok 58 ds ->
  mapM (fun d => get_ub B58_CHARSET (Z.to_nat d)) ds = Ok (map (fun d => nth (Z.to_nat d) b58_alphabet 0) ds).
Proof.
  intros H. apply mapM_ok_map. intros x Hx. eapply Forall_forall in H; [|exact Hx].
  destruct (b58_char_ok x H) as (c & E1 & E2 & _). congruence.
Qed.

(** ** Leading zeros *)
Fixpoint zeros_of (b : list Z) : nat := match b with x :: r => if x =? 0 then S (zeros_of r) else O | [] => O end.

Lemma zeros_split b : exists body, b = repeat 0 (zeros_of b) ++ body /\ (forall x r, body = x :: r -> x <> 0).
Proof.
  induction b as [|x b (body & E & H)]; cbn [zeros_of].
  - exists []. split; [reflexivity|discriminate].
  - destruct (x =? 0) eqn:Ex.
    + exists body. assert (x = 0) as -> by lia. cbn [repeat app]. rewrite <- E. auto.
    + exists (x :: b). split; [reflexivity|]. intros y r [= <- <-]. lia.
Qed.

Lemma ones_spec b : Exists (fun x => x <> 0) b -> forall n, (n = length b - 1)%nat ->
  b58_ones n b = repeat 49 (zeros_of b).
Proof.
  induction b as [|x b IH]; intros HE n Hn; [inversion HE|].
  cbn [List.length] in Hn. cbn [zeros_of].
  destruct (x =? 0) eqn:Ex.
  - assert (Exists (fun x => x <> 0) b) as HE' by (inversion HE; subst; auto; lia).
    destruct b as [|y b]; [inversion HE'|]. destruct n as [|n]; [cbn in Hn; lia|].
    cbn [b58_ones repeat]. rewrite Ex. f_equal. apply IH; auto. cbn [List.length] in *. lia.
  - destruct n; cbn [b58_ones]; [reflexivity|]. rewrite Ex. reflexivity.
Qed.

Lemma bev_repeat0 B k l : bev B (repeat 0 k ++ l) = bev B l.
Proof.
  rewrite bev_app. assert (bev B (repeat 0 k) = 0) as ->; [|lia].
  induction k as [|k IH]; [reflexivity|]. cbn [repeat]. rewrite bev_cons. lia.
Qed.

Lemma bev_nonzero b : bytes_ok b -> Exists (fun x => x <> 0) b -> bev 256 b <> 0.
Proof.
  intros Hb HE. destruct (zeros_split b) as (body & E & Hh).
  destruct body as [|x body].
  - exfalso. rewrite app_nil_r in E. rewrite E in HE. apply Exists_exists in HE as (x & Hx & Hn).
    apply repeat_spec in Hx. congruence.
  - specialize (Hh x body eq_refl). rewrite E, bev_repeat0, bev_cons.
    rewrite E in Hb. apply bytes_ok_app in Hb as [_ Hb]. apply bytes_ok_cons in Hb as [Hx Hb].
    pose proof (bev_bound 256 body ltac:(lia) Hb). unfold byte_ok in Hx.
    assert (0 < 256 ^ zlen body) by (apply Z.pow_pos_nonneg; [lia|apply zlen_nonneg]). nia.
Qed.

(** ** The encoder *)
Lemma base58_encode_spec b : bytes_ok b -> Exists (fun x => x <> 0) b ->
  exists text, base58_encode b = Ok text /\ is_base58 b text.
Proof.
  intros Hb HE. unfold base58_encode, b58_cap.
  destruct (enc_loop_spec (zlen b * 138 / 100 + 1) b Hb [0] 0) as (out & O1 & O2 & O3 & O4); try lia.
  - repeat constructor; lia.
  - left; reflexivity.
  - change (zlen [0]) with 1. assert (0 <= zlen b * 138 / 100) by (apply Z.div_pos; pose proof (zlen_nonneg b); lia). lia.
  - reflexivity.
  - rewrite O1. cbn [bind]. destruct b as [|b0 b']; [inversion HE|]. set (b := b0 :: b') in *.
    rewrite mapM_b58 by (apply digits_ok_rev; auto). cbn [bind].
    eexists. split; [reflexivity|]. destruct (zeros_split b) as (body & Eb & Hh).
    exists (zeros_of b), body, (rev out). split; [exact Eb|]. split; [exact Hh|].
    split; [apply digits_ok_rev; auto|].
    change (lev 58 [0]) with 0 in O4. rewrite Z.mul_0_l, Z.add_0_l in O4.
    split.
    + intros d r Er. destruct O3 as [->|[C1 C2]].
      * cbn [lev] in O4. exfalso. apply (bev_nonzero b Hb HE). lia.
      * intros ->. apply C2. rewrite <- (rev_involutive out), last_rev_hd, Er. reflexivity.
    + split.
      * rewrite <- lev_rev, O4, Eb. rewrite bev_repeat0. reflexivity.
      * rewrite (ones_spec b HE) by reflexivity. reflexivity.
Qed.

(** Memory safety of the encoder on every non-empty input. *)
Lemma base58_encode_safe b : bytes_ok b -> b <> [] -> exists text, base58_encode b = Ok text.
Proof.
  intros Hb Hne. unfold base58_encode, b58_cap.
  destruct (enc_loop_spec (zlen b * 138 / 100 + 1) b Hb [0] 0) as (out & O1 & O2 & O3 & O4); try lia.
  - repeat constructor; lia.
  - left; reflexivity.
  - change (zlen [0]) with 1. assert (0 <= zlen b * 138 / 100) by (apply Z.div_pos; pose proof (zlen_nonneg b); lia). lia.
  - reflexivity.
  - rewrite O1. cbn [bind]. destruct b as [|b0 b']; [congruence|].
    rewrite mapM_b58 by (apply digits_ok_rev; auto). cbn [bind]. eauto.
Qed.

Lemma enc_buffer b : bytes_ok b -> b <> [] ->
  exists out, b58_enc_loop (b58_cap b) b [0] = Ok out /\ digits_ok 58 out.
Proof.
  intros Hb Hne.
  destruct (enc_loop_spec (zlen b * 138 / 100 + 1) b Hb [0] 0) as (out & O1 & O2 & _); try lia; eauto.
  - repeat constructor; lia.
  - left; reflexivity.
  - change (zlen [0]) with 1. assert (0 <= zlen b * 138 / 100) by (apply Z.div_pos; pose proof (zlen_nonneg b); lia). lia.
  - reflexivity.
Qed.

(** ** The final loop reverses the bytes *)
Lemma set_at_length i x : forall l, length (set_at i x l) = length l.
Proof. induction i; intros [|y l]; cbn [set_at List.length]; auto. Qed.
Lemma set_at_nth i x : forall l k, nth k (set_at i x l) 0 = if ((k =? i) && (i <? length l))%nat then x else nth k l 0.
Proof.
  induction i as [|i IH]; intros [|y l] [|k]; cbn [set_at nth List.length Nat.eqb Nat.ltb Nat.leb andb]; auto.
  - rewrite andb_false_r. reflexivity.
  - rewrite IH. reflexivity.
Qed.
Lemma swap_length l i j : length (b58_swap l i j) = length l.
Proof. unfold b58_swap. rewrite !set_at_length. reflexivity. Qed.
Lemma swap_loop_spec l z : (1 <= z)%nat -> (length l <= 2 * z <= length l + 1)%nat -> forall i l',
  length l' = length l -> (z - 1 <= i < length l)%nat ->
  (forall k, (k < length l)%nat -> nth k l' 0 = if ((i <? k) || (k + i + 1 <? length l))%nat then nth (length l - 1 - k) l 0 else nth k l 0) ->
  b58_swap_loop l' z i = rev l.
Proof.
  intros Hz1 Hz. 
  assert (Done : forall i l', length l' = length l -> i = (z - 1)%nat ->
    (forall k, (k < length l)%nat -> nth k l' 0 = if ((i <? k) || (k + i + 1 <? length l))%nat then nth (length l - 1 - k) l 0 else nth k l 0) -> l' = rev l).
  { intros i l' Hl Hi H. apply (nth_ext _ _ 0 0); [rewrite rev_length; auto|]. intros k Hk. rewrite Hl in Hk.
    rewrite H, rev_nth by auto. replace (length l - S k)%nat with (length l - 1 - k)%nat by lia.
    destruct (_ || _) eqn:E; [reflexivity|]. f_equal.
    apply orb_false_iff in E as [E1 E2]. apply Nat.ltb_ge in E1, E2. lia. }
  induction i as [|i IH]; intros l' Hl Hi H.
  - cbn [b58_swap_loop]. destruct (z <=? 0)%nat eqn:E; [apply Nat.leb_le in E; lia|]. apply (Done 0%nat); auto. lia.
  - cbn [b58_swap_loop]. destruct (z <=? S i)%nat eqn:E.
    + apply Nat.leb_le in E. apply IH; [rewrite swap_length; auto|lia|].
      intros k Hk. unfold b58_swap. rewrite !set_at_nth, set_at_length, Hl.
      rewrite !H by lia.
      destruct (Nat.eqb_spec k (length l - S i - 1)) as [->|N1]; cbn [andb].
      * destruct (Nat.ltb_spec (length l - S i - 1) (length l)); [|lia].
        destruct (Nat.ltb_spec (S i) (S i)); [lia|].
        destruct (Nat.ltb_spec (S i + S i + 1) (length l)); [lia|]. cbn [orb].
        destruct (Nat.ltb_spec (length l - S i - 1 + i + 1) (length l)); [|lia].
        rewrite orb_true_r. f_equal. lia.
      * destruct (Nat.eqb_spec k (S i)) as [->|N2]; cbn [andb].
        -- destruct (Nat.ltb_spec (S i) (length l)); [|lia].
           destruct (Nat.ltb_spec (S i) (length l - S i - 1)); [lia|].
           destruct (Nat.ltb_spec (length l - S i - 1 + S i + 1) (length l)); [lia|]. cbn [orb].
           destruct (Nat.ltb_spec i (S i)); [|lia]. cbn [orb]. f_equal. lia.
        -- destruct (Nat.ltb_spec (S i) k), (Nat.ltb_spec i k), (Nat.ltb_spec (k + S i + 1) (length l)), (Nat.ltb_spec (k + i + 1) (length l)); cbn [orb]; try reflexivity; lia.
    + apply Nat.leb_gt in E. apply (Done (S i)); auto. lia.
Qed.
Lemma swap_loop_rev l : l <> [] -> b58_swap_loop l (length l / 2 + length l mod 2) (length l - 1) = rev l.
Proof.
  intros Hl. pose proof (Nat.div_mod (length l) 2 ltac:(discriminate)). pose proof (Nat.mod_upper_bound (length l) 2 ltac:(discriminate)).
  assert (length l <> 0)%nat by (destruct l; [congruence|discriminate]).
  apply swap_loop_spec; auto; try lia.
  intros k Hk. destruct (Nat.ltb_spec (length l - 1) k); [lia|].
  destruct (Nat.ltb_spec (k + (length l - 1) + 1) (length l)); [lia|]. reflexivity.
Qed.
Lemma dec_loop_nonempty s : forall res out, res <> [] -> b58_dec_loop s res = Ok out -> out <> [].
Proof.
  induction s as [|c s IH]; intros res out Hr H; cbn [b58_dec_loop] in H; [congruence|].
  destruct (c >=? 128); [discriminate|]. destruct (get_ub _ _) as [r| |]; try discriminate. cbn [bind] in H.
  destruct res as [|d res]; [congruence|]. cbn [b58_dec_mul] in H. destruct (b58_dec_mul res _) as [r' c'].
  refine (IH _ _ _ H). discriminate.
Qed.
Lemma base58_decode_rev s : base58_decode s = (let* result := b58_dec_loop s [0] in Ok (rev (result ++ b58_leading_ones s))).
Proof.
  unfold base58_decode. destruct (b58_dec_loop s [0]) as [r| |] eqn:E; cbn [bind]; auto.
  rewrite swap_loop_rev; [reflexivity|]. pose proof (dec_loop_nonempty s [0] r ltac:(discriminate) E). destruct r; [congruence|discriminate].
Qed.

(** ** The decoder on alphabet characters *)
Lemma dec_mul_spec ds : bytes_ok ds -> forall carry, 0 <= carry < 58 ->
  let '(ds', c) := b58_dec_mul ds carry in
  bytes_ok ds' /\ length ds' = length ds /\ 0 <= c < 58 /\
  lev 256 ds' + 256 ^ zlen ds * c = 58 * lev 256 ds + carry.
Proof.
  induction ds as [|d ds IH]; intros Hd carry Hc; cbn [b58_dec_mul].
  - change (zlen (@nil Z)) with 0. cbn [lev]. repeat split; auto; lia.
  - apply bytes_ok_cons in Hd as [Hd Hr]. unfold byte_ok in Hd.
    rewrite (Z.mod_small (carry + d * 58)) by lia.
    set (t := carry + d * 58).
    rewrite shiftr_div, land_255 by lia. change (2 ^ 8) with 256.
    assert (Ht : 0 <= t / 256 < 58) by (unfold t; dlia).
    specialize (IH Hr (t / 256) Ht). destruct (b58_dec_mul ds (t / 256)) as [ds' c].
    destruct IH as (I1 & I2 & I3 & I4).
    assert (Hm : 0 <= t mod 256 < 256) by (apply Z.mod_pos_bound; lia).
    split; [apply bytes_ok_cons; auto|]. split; [cbn [List.length]; lia|]. split; [lia|].
    cbn [lev]. rewrite zlen_cons, Z.pow_add_r, Z.pow_1_r by (pose proof (zlen_nonneg ds); lia).
    pose proof (Z.div_mod t 256 ltac:(lia)). unfold t in *. nia.
Qed.

Lemma dec_mul_last ds : ds <> [] -> bytes_ok ds -> forall carry, 0 <= carry < 58 ->
  last ds 0 <> 0 -> let '(ds', c) := b58_dec_mul ds carry in c <> 0 \/ last ds' 0 <> 0.
Proof.
  intros Hne Hd carry Hc Hl. pose proof (dec_mul_spec ds Hd carry Hc) as H.
  destruct (b58_dec_mul ds carry) as [ds' c]. destruct H as (H1 & H2 & H3 & H4).
  destruct (Z.eq_dec c 0) as [->|]; [right|left; auto]. intros Hz.
  pose proof (lev_pos 256 ds ltac:(lia) Hd Hne Hl) as HP.
  destruct ds' as [|x r] using rev_ind.
  - destruct ds; [congruence|discriminate].
  - clear IHr. rewrite last_app in Hz by discriminate. cbn [last] in Hz. subst x.
    rewrite lev_app in H4. apply bytes_ok_app in H1 as [H1 _].
    pose proof (lev_bound 256 r ltac:(lia) H1) as Hb.
    rewrite app_length in H2. cbn [List.length] in H2.
    assert (zlen r = zlen ds - 1) as Hzl by (unfold zlen; lia). rewrite Hzl in *. cbn [lev] in H4. nia.
Qed.

Lemma dec_emit_small c : 0 <= c < 58 -> b58_dec_emit 4 c = if c =? 0 then [] else [c].
Proof.
  intros H. cbn [b58_dec_emit]. destruct (c >? 0) eqn:E.
  - destruct (c =? 0) eqn:E0; [lia|]. rewrite shiftr_div by lia. change (2 ^ 8) with 256.
    rewrite Z.div_small by lia. cbn [Z.gtb Z.compare]. rewrite land_255, Z.mod_small by lia. reflexivity.
  - destruct (c =? 0) eqn:E0; [reflexivity|lia].
Qed.

Lemma dec_loop_spec ds : digits_ok 58 ds -> forall res, bytes_ok res -> canon res ->
  exists out, b58_dec_loop (map (fun d => nth (Z.to_nat d) b58_alphabet 0) ds) res = Ok out /\
    bytes_ok out /\ canon out /\ lev 256 out = lev 256 res * 58 ^ zlen ds + bev 58 ds.
Proof.
  induction 1 as [|d ds Hd Hds IH]; intros res Hr Hc; cbn [map b58_dec_loop].
  - exists res. change (zlen (@nil Z)) with 0. rewrite bev_nil, Z.pow_0_r. repeat split; auto; lia.
  - destruct (b58_char_ok d Hd) as (c & E1 & E2 & E3 & E4 & _). rewrite <- E2.
    destruct (c >=? 128) eqn:Eg; [lia|]. rewrite E4. cbn [bind].
    rewrite (Z.mod_small d) by (change (2 ^ 32) with 4294967296; lia).
    pose proof (dec_mul_spec res Hr d Hd) as HM.
    assert (Hres : res <> []) by (destruct Hc as [->|[? _]]; auto; discriminate).
    pose proof (fun H => dec_mul_last res Hres Hr d Hd H) as HL.
    destruct (b58_dec_mul res d) as [res' k]. destruct HM as (M1 & M2 & M3 & M4).
    rewrite dec_emit_small by auto.
    set (ext := if k =? 0 then [] else [k]).
    assert (Hext : bytes_ok ext /\ lev 256 ext = k).
    { unfold ext. destruct (k =? 0) eqn:Ek; cbn [lev]; split; try lia; repeat constructor; unfold byte_ok; lia. }
    destruct Hext as [X1 X2].
    assert (Hval : lev 256 (res' ++ ext) = 58 * lev 256 res + d).
    { rewrite lev_app, X2. assert (zlen res' = zlen res) as -> by (unfold zlen; lia). lia. }
    destruct (IH (res' ++ ext)) as (out & O1 & O2 & O3 & O4).
    { apply bytes_ok_app; auto. }
    { unfold ext. destruct (k =? 0) eqn:Ek.
      - rewrite app_nil_r. destruct Hc as [->|[H1 H2]].
        + destruct res' as [|x [|? ?]]; try discriminate. destruct (Z.eq_dec x 0) as [->|]; [left; auto|right; split; [discriminate|auto]].
        + right. split; [destruct res'; [destruct res; [congruence|discriminate]|discriminate]|].
          destruct (HL H2) as [H|H]; [lia|auto].
      - right. split; [destruct res'; discriminate|]. rewrite last_app by discriminate. cbn [last]. lia. }
    exists out. repeat split; auto.
    rewrite O4, Hval, bev_cons, zlen_cons, Z.pow_add_r, Z.pow_1_r by (pose proof (zlen_nonneg ds); lia). ring.
Qed.

Lemma b58_alpha_49 : nth (Z.to_nat 0) b58_alphabet 0 = 49. Proof. reflexivity. Qed.

Lemma ones_are_digits k : repeat 49 k = map (fun d => nth (Z.to_nat d) b58_alphabet 0) (repeat 0 k).
Proof. induction k as [|k IH]; [reflexivity|]. cbn [repeat map]. rewrite b58_alpha_49, <- IH. reflexivity. Qed.

Lemma leading_ones_spec k ds : digits_ok 58 ds -> (forall d r, ds = d :: r -> d <> 0) ->
  b58_leading_ones (repeat 49 k ++ map (fun d => nth (Z.to_nat d) b58_alphabet 0) ds) = repeat 0 k.
Proof.
  intros Hd Hh. induction k as [|k IH]; cbn [repeat app].
  - destruct ds as [|d r]; [reflexivity|]. cbn [map b58_leading_ones].
    apply digits_ok_cons in Hd as [Hd _]. destruct (b58_char_ok d Hd) as (c & _ & E2 & _ & _ & E5).
    rewrite <- E2. specialize (Hh d r eq_refl). destruct (c =? 49) eqn:E; [|reflexivity]. exfalso. apply Hh. apply E5. lia.
  - cbn [b58_leading_ones]. change (49 =? 49) with true. cbv iota. f_equal. exact IH.
Qed.

Lemma rev_repeat {A} (x : A) k : rev (repeat x k) = repeat x k.
Proof.
  induction k as [|k IH]; [reflexivity|]. cbn [repeat rev]. rewrite IH.
  clear. induction k as [|k IH]; [reflexivity|]. cbn [repeat app]. rewrite IH. reflexivity.
Qed.

Lemma base58_decode_spec b text : bytes_ok b -> Exists (fun x => x <> 0) b -> is_base58 b text ->
  base58_decode text = Ok b.
Proof.
  intros Hb HE (k & body & ds & Eb & Hh & Hd & Hdh & Hv & ->).
  rewrite base58_decode_rev.
  assert (HD0 : digits_ok 58 (repeat 0 k ++ ds)).
  { apply digits_ok_app. split; auto. apply Forall_forall. intros x Hx. apply repeat_spec in Hx. lia. }
  rewrite ones_are_digits, <- map_app.
  destruct (dec_loop_spec _ HD0 [0]) as (out & O1 & O2 & O3 & O4).
  { repeat constructor; unfold byte_ok; lia. }
  { left; reflexivity. }
  rewrite O1. cbn [bind]. f_equal.
  rewrite map_app, <- ones_are_digits, leading_ones_spec by auto.
  rewrite rev_app_distr, rev_repeat, Eb. f_equal.
  change (lev 256 [0]) with 0 in O4. rewrite Z.mul_0_l, Z.add_0_l, bev_repeat0, Hv in O4.
  assert (Hbody : bytes_ok body) by (rewrite Eb in Hb; apply bytes_ok_app in Hb; apply Hb).
  assert (HV : bev 256 body <> 0).
  { pose proof (bev_nonzero b Hb HE) as H. rewrite Eb, bev_repeat0 in H. exact H. }
  destruct O3 as [->|[C1 C2]]; [cbn [lev] in O4; lia|].
  destruct body as [|x body]; [exfalso; apply HV; reflexivity|].
  rewrite <- (rev_involutive (x :: body)). f_equal.
  apply (canon_inj 256); auto; try lia.
  - apply bytes_ok_rev; auto.
  - cbn [rev]. destruct (rev body); discriminate.
  - rewrite last_rev_hd. cbn [hd]. exact (Hh x body eq_refl).
  - rewrite O4, lev_rev, rev_involutive. reflexivity.
Qed.

Lemma base58_round_trip b : bytes_ok b -> Exists (fun x => x <> 0) b ->
  exists text, base58_encode b = Ok text /\ is_base58 b text /\ base58_decode text = Ok b.
Proof.
  intros Hb HE. destruct (base58_encode_spec b Hb HE) as (t & E1 & E2). exists t.
  repeat split; auto. apply base58_decode_spec; auto.
Qed.

(** ** All-zero inputs *)
Lemma all_zero_encode n : base58_encode (repeat 0 (S n)) = Ok (repeat 49 (S n)).
Proof.
  unfold base58_encode, b58_cap.
  assert (H : forall cap m, 1 <= cap -> b58_enc_loop cap (repeat 0 m) [0] = Ok [0]).
  { intros cap m Hcap. induction m as [|m IH]; [reflexivity|]. cbn [repeat b58_enc_loop].
    change (b58_mul_add [0] 0) with ([0], 0). cbn [b58_emit]. change (0 =? 0) with true. cbv iota.
    cbn [app]. change (zlen [0]) with 1. destruct (1 >? cap) eqn:E; [lia|]. exact IH. }
  rewrite H by (assert (0 <= zlen (repeat 0 (S n)) * 138 / 100) by (apply Z.div_pos; pose proof (zlen_nonneg (repeat 0 (S n))); lia); lia).
  cbn [bind repeat].
  change (mapM (fun d => get_ub B58_CHARSET (Z.to_nat d)) (rev [0])) with (Ok [49]). cbn [bind]. f_equal.
  cbn [List.length]. rewrite repeat_length, Nat.sub_succ, Nat.sub_0_r.
  change (0 :: repeat 0 n) with (repeat 0 (S n)). change (49 :: repeat 49 n) with (repeat 49 (S n)).
  induction n as [|n IH]; [reflexivity|]. change (49 :: (b58_ones n (repeat 0 (S n)) ++ [49]) = 49 :: repeat 49 (S n)).
  f_equal. exact IH.
Qed.

Lemma all_zero_decode n : base58_decode (repeat 49 n) = Ok (repeat 0 (S n)).
Proof.
  rewrite base58_decode_rev.
  assert (H : forall m, b58_dec_loop (repeat 49 m) [0] = Ok [0]).
  { induction m as [|m IH]; [reflexivity|]. cbn [repeat b58_dec_loop]. exact IH. }
  rewrite H. cbn [bind]. f_equal.
  replace (b58_leading_ones (repeat 49 n)) with (repeat 0 n).
  - change ([0] ++ repeat 0 n) with (repeat 0 (S n)). apply rev_repeat.
  - induction n as [|n IH]; [reflexivity|]. cbn [repeat b58_leading_ones]. rewrite IH at 1. reflexivity.
Qed.

(** ** What the decoder accepts *)
Lemma dec_loop_total s : Forall (fun c => 0 <= c < 128) s -> forall res, exists out, b58_dec_loop s res = Ok out.
Proof.
  induction 1 as [|c s Hc Hs IH]; intros res; cbn [b58_dec_loop]; [eauto|].
  destruct (c >=? 128) eqn:E; [lia|].
  destruct (b58_rev_total c Hc) as (r & Er & _). rewrite Er. cbn [bind].
  destruct (b58_dec_mul res (r mod 2 ^ 32)). apply IH.
Qed.

Lemma dec_loop_not_ub s : bytes_ok s -> forall res, b58_dec_loop s res <> UB.
Proof.
  induction 1 as [|c s Hc Hs IH]; intros res; cbn [b58_dec_loop]; [discriminate|].
  destruct (c >=? 128) eqn:E; [discriminate|]. unfold byte_ok in Hc.
  destruct (b58_rev_total c ltac:(lia)) as (r & Er & _). rewrite Er. cbn [bind].
  destruct (b58_dec_mul res (r mod 2 ^ 32)). apply IH.
Qed.

Lemma dec_loop_throws s : bytes_ok s -> Exists (fun c => 128 <= c) s -> forall res, b58_dec_loop s res = Throw.
Proof.
  induction 1 as [|c s Hc Hs IH]; intros HE res; [inversion HE|]. cbn [b58_dec_loop].
  destruct (c >=? 128) eqn:E; [reflexivity|]. unfold byte_ok in Hc.
  destruct (b58_rev_total c ltac:(lia)) as (r & Er & _). rewrite Er. cbn [bind].
  destruct (b58_dec_mul res (r mod 2 ^ 32)). apply IH. inversion HE; subst; auto. lia.
Qed.

Lemma base58_decode_accepts s : bytes_ok s ->
  (Forall (fun c => c < 128) s -> exists b, base58_decode s = Ok b) /\
  (Exists (fun c => 128 <= c) s -> base58_decode s = Throw).
Proof.
  intros Hs. rewrite base58_decode_rev. split.
  - intros H. destruct (dec_loop_total s) with (res := [0]) as (out & E).
    + unfold bytes_ok in Hs. rewrite Forall_forall in *. intros c Hc. specialize (Hs c Hc). specialize (H c Hc). unfold byte_ok in Hs. lia.
    + rewrite E. cbn [bind]. eauto.
  - intros H. rewrite dec_loop_throws; auto.
Qed.

(** ** Exactly what the decoder returns *)
Lemma dec_mul_gen ds : bytes_ok ds -> forall carry, 0 <= carry < 2 ^ 24 ->
  let '(ds', c) := b58_dec_mul ds carry in
  bytes_ok ds' /\ length ds' = length ds /\ 0 <= c < 2 ^ 24 /\
  lev 256 ds' + 256 ^ zlen ds * c = 58 * lev 256 ds + carry.
Proof.
  induction ds as [|d ds IH]; intros Hd carry Hc; cbn [b58_dec_mul].
  - change (zlen (@nil Z)) with 0. cbn [lev]. repeat split; auto; lia.
  - apply bytes_ok_cons in Hd as [Hd Hr]. unfold byte_ok in Hd.
    change (2 ^ 24) with 16777216 in *.
    rewrite (Z.mod_small (carry + d * 58)) by (change (2 ^ 32) with 4294967296; lia).
    set (t := carry + d * 58).
    rewrite shiftr_div, land_255 by lia. change (2 ^ 8) with 256.
    assert (Ht : 0 <= t / 256 < 16777216) by (unfold t; split; [apply Z.div_pos; lia|apply Z.div_lt_upper_bound; lia]).
    specialize (IH Hr (t / 256) Ht). destruct (b58_dec_mul ds (t / 256)) as [ds' c].
    destruct IH as (I1 & I2 & I3 & I4).
    assert (Hm : 0 <= t mod 256 < 256) by (apply Z.mod_pos_bound; lia).
    split; [apply bytes_ok_cons; auto|]. split; [cbn [List.length]; lia|]. split; [lia|].
    cbn [lev]. rewrite zlen_cons, Z.pow_add_r, Z.pow_1_r by (pose proof (zlen_nonneg ds); lia).
    pose proof (Z.div_mod t 256 ltac:(lia)). unfold t in *. nia.
Qed.
Lemma dec_emit_gen fuel : forall c, 0 <= c < 256 ^ Z.of_nat fuel ->
  bytes_ok (b58_dec_emit fuel c) /\ lev 256 (b58_dec_emit fuel c) = c /\
  (b58_dec_emit fuel c = [] \/ last (b58_dec_emit fuel c) 0 <> 0).
Proof.
  induction fuel as [|f IH]; intros c Hc; cbn [b58_dec_emit].
  - cbn [lev]. change (256 ^ Z.of_nat 0) with 1 in Hc. repeat split; [constructor|lia|auto].
  - destruct (c >? 0) eqn:E.
    + rewrite shiftr_div, land_255 by lia. change (2 ^ 8) with 256.
      rewrite Nat2Z.inj_succ, Z.pow_succ_r in Hc by lia.
      assert (Hq : 0 <= c / 256 < 256 ^ Z.of_nat f) by (split; [apply Z.div_pos; lia|apply Z.div_lt_upper_bound; lia]).
      destruct (IH _ Hq) as (I1 & I2 & I3).
      pose proof (Z.mod_pos_bound c 256 ltac:(lia)).
      split; [apply bytes_ok_cons; auto|]. split; [cbn [lev]; rewrite I2; pose proof (Z.div_mod c 256 ltac:(lia)); lia|].
      right. destruct (b58_dec_emit f (c / 256)) as [|x r] eqn:Er.
      * cbn [last]. cbn [lev] in I2. pose proof (Z.div_mod c 256 ltac:(lia)). lia.
      * destruct I3 as [I3|I3]; [discriminate|]. exact I3.
    + cbn [lev]. repeat split; [constructor|lia|auto].
Qed.
Lemma b58_digit_none c : ~ In c b58_alphabet -> b58_digit c = None.
Proof.
  intros H. unfold b58_digit. destruct (find _ _) as [d|] eqn:E; [|reflexivity]. exfalso.
  apply find_some in E as [E1 E2]. apply Z.eqb_eq in E2. apply H. rewrite <- E2. apply nth_In.
  apply in_map_iff in E1 as (k & <- & Hk). apply in_seq in Hk. rewrite Nat2Z.id. change (length b58_alphabet) with 58%nat. lia.
Qed.
Lemma b58_digit_some d : 0 <= d < 58 -> b58_digit (nth (Z.to_nat d) b58_alphabet 0) = Some d.
Proof.
  intros H.
  assert (E : match b58_digit (nth (Z.to_nat d) b58_alphabet 0) with Some e => e =? d | None => false end = true).
  { assert (Hr : 0 <= d < Z.of_nat 58) by lia. clear H. revert d Hr.
    apply (forallb_range (fun d => match _ with Some e => e =? d | None => false end) 58). vm_compute. reflexivity. }
  destruct (b58_digit _); [f_equal; lia|discriminate].
Qed.
Lemma canon_lev_pos l : bytes_ok l -> canon l -> l <> [0] -> 256 ^ (zlen l - 1) <= lev 256 l.
Proof. intros Hb [->|[H1 H2]] Hn; [congruence|]. apply lev_pos; auto; lia. Qed.
(** A list whose value needs all its places is canonical. *)
Lemma canon_of_value l : bytes_ok l -> l <> [] -> 256 ^ (zlen l - 1) <= lev 256 l -> canon l.
Proof.
  intros Hb Hne Hv. right. split; auto. intros Hz. destruct l as [|x r _] using rev_ind; [congruence|].
  rewrite last_app in Hz by discriminate. cbn [last] in Hz. subst x. rewrite lev_app in Hv. apply bytes_ok_app in Hb as [Hb _].
  pose proof (lev_bound 256 r ltac:(lia) Hb) as Hbd. rewrite zlen_app in Hv. change (zlen [0]) with 1 in Hv.
  cbn [lev] in Hv. replace (zlen r + 1 - 1) with (zlen r) in Hv by lia. lia.
Qed.
Lemma dec_step_exact c res : 0 <= c < 128 -> bytes_ok res -> canon res ->
  exists r, get_ub B58_CHARSET_REV (Z.to_nat c) = Ok r /\
  let '(res', carry) := b58_dec_mul res (r mod 2 ^ 32) in
  let out := res' ++ b58_dec_emit 4 carry in
  bytes_ok out /\ canon out /\ lev 256 out = b58_continue (lev 256 res) c.
Proof.
  intros Hc Hb Hcan. destruct (b58_rev_total c Hc) as (r & Er & Hr & H1 & H2). exists r. split; [exact Er|].
  assert (Hne : res <> []) by (destruct Hcan as [->|[? _]]; auto; discriminate).
  assert (HM : let '(res', k) := b58_dec_mul res (r mod 2 ^ 32) in
    bytes_ok res' /\ length res' = length res /\ 0 <= k < 2 ^ 24 /\
    lev 256 res' + 256 ^ zlen res * k = b58_continue (lev 256 res) c).
  { unfold b58_continue. destruct (Z.eq_dec r (-1)) as [Em|Hm].
    - rewrite (b58_digit_none c (H2 Em)). subst r.
      change (-1 mod 2 ^ 32) with 4294967295. destruct res as [|d rest]; [congruence|].
      apply bytes_ok_cons in Hb as [Hd Hrest]. unfold byte_ok in Hd.
      cbn [b58_dec_mul lev].
      assert (Hmod : (d + 256 * lev 256 rest) mod 256 = d).
      { replace (d + 256 * lev 256 rest) with (d + lev 256 rest * 256) by ring. rewrite Z.mod_add, Z.mod_small by lia. reflexivity. }
      rewrite Hmod. set (t := (4294967295 + d * 58) mod 2 ^ 32).
      assert (Ht : t = if d =? 0 then 4294967295 else 58 * d - 1).
      { unfold t. destruct (d =? 0) eqn:E0.
        - assert (d = 0) as -> by lia. reflexivity.
        - replace (4294967295 + d * 58) with (58 * d - 1 + 1 * 2 ^ 32) by (change (2 ^ 32) with 4294967296; lia).
          rewrite Z.mod_add by (change (2 ^ 32) with 4294967296; lia). apply Z.mod_small. change (2 ^ 32) with 4294967296. lia. }
      assert (Htr : 0 <= t < 4294967296) by (rewrite Ht; destruct (d =? 0) eqn:E0; lia).
      rewrite shiftr_div, land_255 by lia. change (2 ^ 8) with 256.
      assert (Hq : 0 <= t / 256 < 2 ^ 24) by (change (2 ^ 24) with 16777216; split; [apply Z.div_pos; lia|apply Z.div_lt_upper_bound; lia]).
      pose proof (dec_mul_gen rest Hrest _ Hq) as G. destruct (b58_dec_mul rest (t / 256)) as [rest' k]. destruct G as (G1 & G2 & G3 & G4).
      pose proof (Z.mod_pos_bound t 256 ltac:(lia)). pose proof (Z.div_mod t 256 ltac:(lia)).
      split; [apply bytes_ok_cons; auto|]. split; [cbn [List.length]; lia|]. split; [lia|].
      cbn [lev]. rewrite zlen_cons, Z.pow_add_r, Z.pow_1_r by (pose proof (zlen_nonneg rest); lia).
      change (2 ^ 32) with 4294967296. destruct (d =? 0) eqn:E0; nia.
    - rewrite Z.mod_small by (change (2 ^ 32) with 4294967296; lia).
      pose proof (H1 Hm) as Hn. rewrite <- Hn, b58_digit_some by lia.
      pose proof (dec_mul_gen res Hb r ltac:(change (2 ^ 24) with 16777216; lia)) as G. exact G. }
  destruct (b58_dec_mul res (r mod 2 ^ 32)) as [res' k]. destruct HM as (M1 & M2 & M3 & M4).
  assert (Hk : 0 <= k < 256 ^ Z.of_nat 4) by (change (256 ^ Z.of_nat 4) with 4294967296; change (2 ^ 24) with 16777216 in M3; lia).
  destruct (dec_emit_gen 4 k Hk) as (X1 & X2 & X3).
  assert (Hz : zlen res' = zlen res) by (unfold zlen; lia).
  assert (HV : lev 256 (res' ++ b58_dec_emit 4 k) = b58_continue (lev 256 res) c) by (rewrite lev_app, X2, Hz; exact M4).
  split; [apply bytes_ok_app; auto|]. split; [|exact HV].
  destruct (b58_dec_emit 4 k) as [|x e] eqn:Ee.
  - rewrite app_nil_r in *. cbn [lev] in X2. assert (k = 0) by lia. subst k.
    destruct res' as [|y [|y2 res2]] eqn:Eres; [destruct res; [congruence|discriminate]| |].
    + destruct (Z.eq_dec y 0) as [->|]; [left; auto|right; split; [discriminate|auto]].
    + apply canon_of_value; auto; [discriminate|]. rewrite HV, Hz.
      assert (Hn0 : res <> [0]) by (intros ->; discriminate).
      pose proof (canon_lev_pos res Hb Hcan Hn0) as Hlow.
      assert (0 < 256 ^ (zlen res - 1)) by (apply Z.pow_pos_nonneg; [lia|]; rewrite <- Hz; unfold zlen; cbn [List.length]; lia).
      unfold b58_continue. destruct (b58_digit c) as [d|] eqn:Ed.
      * unfold b58_digit in Ed. apply find_some in Ed as [Ed _]. apply in_map_iff in Ed as (q & <- & _). lia.
      * destruct (_ =? 0); lia.
  - right. split; [destruct res'; discriminate|]. rewrite last_app by discriminate. destruct X3 as [X3|X3]; [discriminate|exact X3].
Qed.
Lemma dec_loop_exact s : Forall (fun c => 0 <= c < 128) s -> forall res, bytes_ok res -> canon res ->
  exists out, b58_dec_loop s res = Ok out /\ bytes_ok out /\ canon out /\ lev 256 out = fold_left b58_continue s (lev 256 res).
Proof.
  induction 1 as [|c s Hc Hs IH]; intros res Hb Hcan; cbn [b58_dec_loop fold_left].
  - exists res. auto.
  - destruct (c >=? 128) eqn:E; [lia|]. destruct (dec_step_exact c res Hc Hb Hcan) as (r & -> & G). cbn [bind].
    destruct (b58_dec_mul res (r mod 2 ^ 32)) as [res' k]. destruct G as (G1 & G2 & G3). rewrite <- G3. apply IH; auto.
Qed.
Lemma leading_ones_count s : b58_leading_ones s = repeat 0 (ones_of s).
Proof. induction s as [|c s IH]; [reflexivity|]. cbn [b58_leading_ones ones_of]. destruct (c =? 49); [cbn [repeat]; rewrite IH|]; reflexivity. Qed.
Lemma base58_decode_exact s : Forall (fun c => 0 <= c < 128) s ->
  exists body, base58_decode s = Ok (repeat 0 (ones_of s) ++ body) /\ bytes_ok body /\
    (body = [0] \/ hd 0 body <> 0) /\ bev 256 body = b58_number s.
Proof.
  intros Hs. destruct (dec_loop_exact s Hs [0]) as (out & E & Ho & Hc & Hv); [repeat constructor; unfold byte_ok; lia|left; auto|].
  exists (rev out). rewrite base58_decode_rev, E. cbn [bind]. rewrite leading_ones_count, rev_app_distr, rev_repeat.
  split; [reflexivity|]. split; [apply bytes_ok_rev; auto|]. split.
  - destruct Hc as [->|[C1 C2]]; [left; reflexivity|right]. rewrite <- (rev_involutive out), last_rev_hd in C2. exact C2.
  - rewrite lev_rev in Hv. exact Hv.
Qed.
