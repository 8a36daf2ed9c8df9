(** [convertbits] regroups the bits of its input: proofs by positional values. *)
From Verif Require Import BaseLemmas Model_Bech32.
Ltac Zify.zify_post_hook ::= idtac.

Section CB.
Context (f t : Z) (Hf : 1 <= f <= 8) (Ht : 1 <= t <= 8).

Let m := f + t - 1.

Lemma land_mask a n : 0 <= n -> Z.land a (2 ^ n - 1) = a mod 2 ^ n.
Proof. intros. replace (2 ^ n - 1) with (Z.ones n) by (rewrite Z.ones_equiv; lia). apply Z.land_ones; lia. Qed.

Lemma shr_mod_mod V k : 0 <= k -> k + t <= m ->
  ((V mod 2 ^ m) / 2 ^ k) mod 2 ^ t = (V / 2 ^ k) mod 2 ^ t.
Proof.
  intros Hk Hm.
  apply Z.bits_inj'. intros i Hi.
  destruct (Z.lt_ge_cases i t) as [H|H].
  - rewrite !Z.mod_pow2_bits_low by lia. rewrite !Z.div_pow2_bits by lia.
    rewrite Z.mod_pow2_bits_low by lia. reflexivity.
  - rewrite !Z.mod_pow2_bits_high by lia. reflexivity.
Qed.

Lemma cb_emit_spec fuel V : forall bits ret,
  0 <= V -> (Z.to_nat bits <= fuel)%nat -> 0 <= bits <= m ->
  digits_ok (2 ^ t) ret -> bev (2 ^ t) ret = V / 2 ^ bits ->
  exists ret', cb_emit fuel (V mod 2 ^ m) bits t ret = (bits mod t, ret') /\
    digits_ok (2 ^ t) ret' /\ bev (2 ^ t) ret' = V / 2 ^ (bits mod t) /\
    t * zlen ret' + bits mod t = t * zlen ret + bits.
Proof.
  induction fuel as [|fuel IH]; intros bits ret HV Hfu Hb Hd Hv; cbn [cb_emit].
  - assert (bits = 0) as -> by lia. rewrite Z.mod_0_l by lia.
    exists ret. auto.
  - destruct (bits >=? t) eqn:E.
    + set (d := Z.land (Z.shiftr (V mod 2 ^ m) (bits - t)) (2 ^ t - 1) mod 256).
      assert (Hdd : d = (V / 2 ^ (bits - t)) mod 2 ^ t).
      { unfold d. rewrite land_mask, shiftr_div by lia. rewrite shr_mod_mod by lia.
        apply Z.mod_small. assert (2 ^ t <= 2 ^ 8) by (apply Z.pow_le_mono_r; lia).
        assert (0 < 2 ^ t) by (apply Z.pow_pos_nonneg; lia).
        pose proof (Z.mod_pos_bound (V / 2 ^ (bits - t)) (2 ^ t)). lia. }
      assert (Hpt : 0 < 2 ^ t) by (apply Z.pow_pos_nonneg; lia).
      clearbody d.
      assert (Hbt : 0 <= bits - t <= m) by lia.
      destruct (IH (bits - t) (ret ++ [d])) as (ret' & E1 & E2 & E3 & E4); [exact HV|clear - Hfu E Ht; lia|exact Hbt| | |].
      * apply digits_ok_app; split; auto. apply digits_ok_cons; split; [|constructor].
        rewrite Hdd. apply Z.mod_pos_bound; lia.
      * rewrite bev_snoc, Hdd, Hv.
        replace (2 ^ bits) with (2 ^ (bits - t) * 2 ^ t)
          by (rewrite <- Z.pow_add_r by lia; f_equal; lia).
        rewrite <- Z.div_div by (try apply Z.pow_nonzero; try apply Z.pow_pos_nonneg; lia).
        rewrite (Z.div_mod (V / 2 ^ (bits - t)) (2 ^ t)) at 3 by lia. ring.
      * assert (Hmm : (bits - t) mod t = bits mod t).
        { replace (bits - t) with (bits + (-1) * t) by lia. apply Z_mod_plus_full. }
        rewrite Hmm in *. exists ret'. repeat split; auto.
        rewrite E4, zlen_app, zlen_cons, zlen_nil. lia.
    + assert (bits mod t = bits) as -> by (apply Z.mod_small; lia). exists ret. auto.
Qed.

Lemma shiftr_small_iff v : 0 <= v -> (Z.shiftr v f =? 0) = (v <? 2 ^ f).
Proof.
  intros Hv. rewrite shiftr_div by lia.
  assert (0 < 2 ^ f) by (apply Z.pow_pos_nonneg; lia).
  destruct (v <? 2 ^ f) eqn:E.
  - apply Z.eqb_eq. apply Z.div_small. lia.
  - apply Z.eqb_neq. assert (1 <= v / 2 ^ f) by (apply Z.div_le_lower_bound; lia). lia.
Qed.

Lemma cb_loop_spec data : forall V bits ret,
  Forall (fun x => 0 <= x) data ->
  0 <= V -> 0 <= bits < t -> digits_ok (2 ^ t) ret -> bev (2 ^ t) ret = V / 2 ^ bits ->
  (digits_ok (2 ^ f) data ->
    let V' := V * (2 ^ f) ^ zlen data + bev (2 ^ f) data in
    let total := t * zlen ret + bits + f * zlen data in
    exists ret', cb_loop data f t (V mod 2 ^ m) bits ret = Ok (V' mod 2 ^ m, total mod t, ret') /\
      digits_ok (2 ^ t) ret' /\ bev (2 ^ t) ret' = V' / 2 ^ (total mod t) /\
      t * zlen ret' + total mod t = total) /\
  (~ digits_ok (2 ^ f) data -> cb_loop data f t (V mod 2 ^ m) bits ret = Throw).
Proof.
  assert (Hpf : 0 < 2 ^ f) by (apply Z.pow_pos_nonneg; lia).
  assert (Hpm : 0 < 2 ^ m) by (apply Z.pow_pos_nonneg; unfold m; lia).
  induction data as [|x data IH]; intros V bits ret Hnn HV Hb Hd Hv.
  - split; [|intros H; destruct H; constructor]. intros _. cbv zeta.
    rewrite zlen_nil, Z.pow_0_r, bev_nil, !Z.mul_0_r, !Z.add_0_r, Z.mul_1_r.
    rewrite (Z.mul_comm t), Z.add_comm, Z_mod_plus_full, (Z.mod_small bits) by lia.
    exists ret. cbn [cb_loop]. repeat split; auto; lia.
  - inversion Hnn as [|? ? Hx Hnn']; subst.
    cbn [cb_loop]. rewrite shiftr_small_iff by auto.
    destruct (x <? 2 ^ f) eqn:Ex; cbn [negb].
    2:{ split; [|auto]. intros H. apply digits_ok_cons in H as [H _]. lia. }
    set (V1 := V * 2 ^ f + x).
    assert (HV1 : 0 <= V1) by (unfold V1; clear - HV Hpf Hx; nia).
    assert (Hacc : Z.land (Z.lor (Z.shiftl (V mod 2 ^ m) f) x) (2 ^ (f + t - 1) - 1) = V1 mod 2 ^ m).
    { rewrite land_mask, shiftl_mul, lor_shift_add by lia. fold m. unfold V1.
      rewrite Z.add_mod, Z.mul_mod, Z.mod_mod by lia.
      rewrite <- Z.mul_mod, <- Z.add_mod by lia. reflexivity. }
    rewrite Hacc.
    destruct (cb_emit_spec (Z.to_nat (bits + f)) V1 (bits + f) ret) as (ret1 & E1 & E2 & E3 & E4); auto.
    + unfold m; lia.
    + rewrite Hv. unfold V1. rewrite (Z.add_comm bits f), Z.pow_add_r by lia.
      rewrite <- Z.div_div by (try apply Z.pow_nonzero; try apply Z.pow_pos_nonneg; lia).
      rewrite (Z.div_add_l V (2 ^ f) x), (Z.div_small x) by lia. rewrite Z.add_0_r. reflexivity.
    + rewrite E1.
      assert (Hm1 : 0 <= (bits + f) mod t < t) by (apply Z.mod_pos_bound; lia).
      destruct (IH V1 ((bits + f) mod t) ret1) as [IH1 IH2]; auto.
      split.
      * intros H. apply digits_ok_cons in H as [_ H]. cbv zeta.
        destruct (IH1 H) as (ret' & F1 & F2 & F3 & F4). cbv zeta in *.
        assert (HT : t * zlen ret1 + (bits + f) mod t + f * zlen data =
                     t * zlen ret + bits + f * zlen (x :: data)) by (clear - E4; rewrite zlen_cons; generalize dependent ((bits + f) mod t); intros; lia).
        assert (HVV : V1 * (2 ^ f) ^ zlen data + bev (2 ^ f) data =
                      V * (2 ^ f) ^ zlen (x :: data) + bev (2 ^ f) (x :: data)).
        { rewrite bev_cons, zlen_cons, (Z.pow_add_r (2 ^ f)), Z.pow_1_r by (pose proof (zlen_nonneg data); lia).
          unfold V1. ring. }
        rewrite HT, HVV in *. exists ret'. auto.
      * intros H. apply IH2. intros H'. apply H. apply digits_ok_cons. split; auto. lia.
Qed.

(** With padding: the output is the input followed by [p < t] zero bits. *)
Lemma convertbits_pad data : digits_ok (2 ^ f) data ->
  exists ret p, convertbits data f t true = Ok ret /\ digits_ok (2 ^ t) ret /\
    0 <= p < t /\ t * zlen ret = f * zlen data + p /\ bev (2 ^ t) ret = bev (2 ^ f) data * 2 ^ p.
Proof.
  intros Hd. unfold convertbits.
  assert (Hpt : 0 < 2 ^ t) by (apply Z.pow_pos_nonneg; lia).
  destruct (cb_loop_spec data 0 0 []) as [H _];
    [eapply Forall_impl; [|exact Hd]; cbv beta; intros; lia|lia|lia|constructor|reflexivity|].
  { cbv zeta in H. destruct (H Hd) as (ret & E1 & E2 & E3 & E4). clear H.
    rewrite Z.mod_0_l in E1 by (apply Z.pow_nonzero; unfold m; lia).
    rewrite E1. cbn [bind].
    rewrite !zlen_nil, Z.mul_0_r, !Z.mul_0_l, !Z.add_0_l in *.
    set (bits := (f * zlen data) mod t) in *. set (V := bev (2 ^ f) data) in *.
    assert (Hb : 0 <= bits < t) by (apply Z.mod_pos_bound; lia).
    assert (HV : 0 <= V) by (apply bev_bound; [apply Z.pow_pos_nonneg; lia|auto]).
    destruct (bits =? 0) eqn:Eb; cbn [negb].
    - exists ret, 0. repeat split; auto; try lia. assert (bits = 0) as Hb0 by lia.
      rewrite E3, Hb0. change (2^0) with 1. rewrite Z.div_1_r. lia.
    - assert (Hrest : Z.land (Z.shiftl (V mod 2 ^ m) (t - bits)) (2 ^ t - 1) mod 256 =
                      (V mod 2 ^ bits) * 2 ^ (t - bits)).
      { assert (Hin : Z.land (Z.shiftl (V mod 2 ^ m) (t - bits)) (2 ^ t - 1) = (V mod 2 ^ bits) * 2 ^ (t - bits)).
        { rewrite land_mask, shiftl_mul by lia.
          replace (2 ^ t) with (2 ^ bits * 2 ^ (t - bits)) by (rewrite <- Z.pow_add_r by lia; f_equal; lia).
          rewrite Z.mul_mod_distr_r by (apply Z.pow_nonzero; lia). f_equal.
          replace (2 ^ m) with (2 ^ bits * 2 ^ (m - bits)) by (rewrite <- Z.pow_add_r by (unfold m; lia); f_equal; lia).
          rewrite Z.rem_mul_r by (try apply Z.pow_nonzero; try apply Z.pow_pos_nonneg; unfold m; lia).
          rewrite Z.mul_comm, Z_mod_plus_full. apply Z.mod_mod. apply Z.pow_nonzero; lia. }
        rewrite Hin. apply Z.mod_small.
        assert (0 < 2 ^ bits) by (apply Z.pow_pos_nonneg; lia).
        assert (0 < 2 ^ (t - bits)) by (apply Z.pow_pos_nonneg; lia).
        assert (2 ^ bits * 2 ^ (t - bits) <= 256).
        { rewrite <- Z.pow_add_r by lia. change 256 with (2 ^ 8). apply Z.pow_le_mono_r; lia. }
        pose proof (Z.mod_pos_bound V (2 ^ bits)). nia. }
      rewrite Hrest. eexists; exists (t - bits). split; [reflexivity|].
      assert (0 < 2 ^ bits) by (apply Z.pow_pos_nonneg; lia).
      assert (0 < 2 ^ (t - bits)) by (apply Z.pow_pos_nonneg; lia).
      assert (2 ^ bits * 2 ^ (t - bits) = 2 ^ t) as Hs by (rewrite <- Z.pow_add_r by lia; f_equal; lia).
      pose proof (Z.mod_pos_bound V (2 ^ bits)).
      split; [apply digits_ok_app; split; auto; apply digits_ok_cons; split; [nia|constructor]|].
      split; [lia|]. split; [rewrite zlen_app, zlen_cons, zlen_nil; lia|].
      rewrite bev_snoc, E3. rewrite (Z.div_mod V (2 ^ bits)) at 3 by lia. nia. }
Qed.

(** Without padding: accepted iff fewer than [f] bits are left over and they are all zero. *)
Lemma convertbits_nopad data : digits_ok (2 ^ f) data ->
  let b := (f * zlen data) mod t in
  (b < f /\ bev (2 ^ f) data mod 2 ^ b = 0 ->
    exists ret, convertbits data f t false = Ok ret /\ digits_ok (2 ^ t) ret /\
      t * zlen ret + b = f * zlen data /\ bev (2 ^ t) ret * 2 ^ b = bev (2 ^ f) data) /\
  (~ (b < f /\ bev (2 ^ f) data mod 2 ^ b = 0) -> convertbits data f t false = Throw).
Proof.
  intros Hd. cbv zeta. unfold convertbits.
  assert (Hpt : 0 < 2 ^ t) by (apply Z.pow_pos_nonneg; lia).
  destruct (cb_loop_spec data 0 0 []) as [H _];
    [eapply Forall_impl; [|exact Hd]; cbv beta; intros; lia|lia|lia|constructor|reflexivity|].
  { cbv zeta in H. destruct (H Hd) as (ret & E1 & E2 & E3 & E4). clear H.
    rewrite Z.mod_0_l in E1 by (apply Z.pow_nonzero; unfold m; lia).
    rewrite E1. cbn [bind].
    rewrite !zlen_nil, Z.mul_0_r, !Z.mul_0_l, !Z.add_0_l in *.
    set (bits := (f * zlen data) mod t) in *. set (V := bev (2 ^ f) data) in *.
    assert (Hb : 0 <= bits < t) by (apply Z.mod_pos_bound; lia).
    assert (Hin : Z.land (Z.shiftl (V mod 2 ^ m) (t - bits)) (2 ^ t - 1) = (V mod 2 ^ bits) * 2 ^ (t - bits)).
    { rewrite land_mask, shiftl_mul by lia.
      replace (2 ^ t) with (2 ^ bits * 2 ^ (t - bits)) by (rewrite <- Z.pow_add_r by lia; f_equal; lia).
      rewrite Z.mul_mod_distr_r by (apply Z.pow_nonzero; lia). f_equal.
      replace (2 ^ m) with (2 ^ bits * 2 ^ (m - bits)) by (rewrite <- Z.pow_add_r by (unfold m; lia); f_equal; lia).
      rewrite Z.rem_mul_r by (try apply Z.pow_nonzero; try apply Z.pow_pos_nonneg; unfold m; lia).
      rewrite Z.mul_comm, Z_mod_plus_full. apply Z.mod_mod. apply Z.pow_nonzero; lia. }
    rewrite Hin. clear Hin.
    assert (0 < 2 ^ bits) by (apply Z.pow_pos_nonneg; lia).
    assert (0 < 2 ^ (t - bits)) by (apply Z.pow_pos_nonneg; lia).
    pose proof (Z.mod_pos_bound V (2 ^ bits)).
    split.
    - intros [Hlt Hz]. rewrite Hz, Z.mul_0_l. cbn [Z.eqb negb].
      destruct (bits >=? f) eqn:E; [lia|]. cbn [orb]. exists ret. repeat split; auto.
      rewrite E3. rewrite (Z.div_mod V (2 ^ bits)) at 2 by lia. lia.
    - intros Hn. destruct (bits >=? f) eqn:E; cbn [orb]; [reflexivity|].
      destruct ((V mod 2 ^ bits * 2 ^ (t - bits)) =? 0) eqn:E0; cbn [negb]; [|reflexivity].
      exfalso. apply Hn. split; [lia|]. nia. }
Qed.
End CB.

(** The two uses, and that they invert each other. *)
Lemma cb_8_5_8 data : bytes_ok data ->
  exists u, convertbits data 8 5 true = Ok u /\ digits_ok 32 u /\ convertbits u 5 8 false = Ok data.
Proof.
  intros Hd.
  destruct (convertbits_pad 8 5 ltac:(lia) ltac:(lia) data Hd) as (u & p & E1 & E2 & E3 & E4 & E5).
  exists u. split; [exact E1|]. split; [exact E2|].
  destruct (convertbits_nopad 5 8 ltac:(lia) ltac:(lia) u E2) as [H _]. cbv zeta in H.
  change (2 ^ 5) with 32 in *. change (2 ^ 8) with 256 in *.
  assert (Hp : (5 * zlen u) mod 8 = p) by lia. rewrite Hp in H.
  destruct H as (ret & F1 & F2 & F3 & F4).
  { split; [lia|]. rewrite E5. apply Z.mod_mul. apply Z.pow_nonzero; lia. }
  rewrite F1. f_equal. apply (bev_inj 256); auto; try lia.
  - unfold zlen in *. lia.
  - assert (0 < 2 ^ p) by (apply Z.pow_pos_nonneg; lia). rewrite E5 in F4. nia.
Qed.

Lemma cb_5_8_5 u data : digits_ok 32 u -> convertbits u 5 8 false = Ok data ->
  bytes_ok data /\ convertbits data 8 5 true = Ok u.
Proof.
  intros Hu Hc.
  destruct (convertbits_nopad 5 8 ltac:(lia) ltac:(lia) u Hu) as [H H']. cbv zeta in H, H'.
  change (2 ^ 5) with 32 in *. change (2 ^ 8) with 256 in *.
  set (b := (5 * zlen u) mod 8) in *.
  assert (0 <= b < 8) by (unfold b; lia).
  assert (b < 5 /\ bev 32 u mod 2 ^ b = 0 \/ ~ (b < 5 /\ bev 32 u mod 2 ^ b = 0)) as [Hok|Hbad] by lia.
  - destruct (H Hok) as (ret & F1 & F2 & F3 & F4). rewrite F1 in Hc. injection Hc as ->.
    split; [exact F2|].
    destruct (convertbits_pad 8 5 ltac:(lia) ltac:(lia) data F2) as (u' & p & E1 & E2 & E3 & E4 & E5).
    change (2 ^ 5) with 32 in *. change (2 ^ 8) with 256 in *.
    rewrite E1. f_equal. assert (p = b) as -> by lia.
    apply (bev_inj 32); auto; try lia.
    unfold zlen in *. lia.
  - rewrite (H' Hbad) in Hc. discriminate.
Qed.

Lemma cb_5_8_not_ub u : digits_ok 32 u -> convertbits u 5 8 false <> UB.
Proof.
  intros Hu.
  destruct (convertbits_nopad 5 8 ltac:(lia) ltac:(lia) u Hu) as [H H']. cbv zeta in H, H'.
  set (b := (5 * zlen u) mod 8) in *.
  assert (b < 5 /\ bev (2^5) u mod 2 ^ b = 0 \/ ~ (b < 5 /\ bev (2^5) u mod 2 ^ b = 0)) as [Hok|Hbad] by lia.
  - destruct (H Hok) as (ret & F1 & _). rewrite F1; discriminate.
  - rewrite (H' Hbad); discriminate.
Qed.
