From Verif Require Import BaseLemmas Model_Hex Proof_Hex Data_Bip39 Model_Mnemonic Spec_Mnemonic.
Ltac Zify.zify_post_hook ::= idtac.

(** ** Small facts *)
Lemma size_cases n : bip39_size n <-> IsValidMnemonicSize n = true.
Proof.
  split.
  - cbn [In bip39_size]. intros H. repeat (destruct H as [<-|H]; [reflexivity|]). destruct H.
  - intros H. unfold bip39_size. cbn [In].
    do 25 (destruct n as [|n]; [first [discriminate|tauto]|]). discriminate.
Qed.
Lemma size_facts n : bip39_size n -> (3 <= n / 3 <= 8)%nat /\ n = (3 * (n / 3))%nat.
Proof.
  cbn [In bip39_size]. intros H. repeat (destruct H as [<-|H]; [cbn; lia|]). destruct H.
Qed.

Lemma set_ub_ok l i x : (i < length l)%nat -> set_ub l i x = Ok (firstn i l ++ x :: skipn (S i) l).
Proof.
  revert i; induction l as [|y l IH]; intros [|i] H; cbn [length] in H; try lia; [reflexivity|].
  cbn [set_ub]. rewrite IH by lia. reflexivity.
Qed.

Lemma lor_add a b n : 0 <= n -> 0 <= b < 2 ^ n -> Z.lor (a * 2 ^ n) b = a * 2 ^ n + b.
Proof. apply lor_shift_add. Qed.

Ltac concrete_pow :=
  repeat match goal with
  | |- context [2 ^ ?e] => let v := eval vm_compute in (2 ^ e) in
      lazymatch v with Zpos _ => change (2 ^ e) with v | Z0 => change (2 ^ e) with v end
  | H : context [2 ^ ?e] |- _ => let v := eval vm_compute in (2 ^ e) in
      lazymatch v with Zpos _ => change (2 ^ e) with v in H | Z0 => change (2 ^ e) with v in H end
  end.

Lemma land_2047 a : Z.land a 2047 = a mod 2048.
Proof. change 2047 with (Z.ones 11). rewrite land_ones_mod by lia. reflexivity. Qed.
Lemma land_mask8 b n : 0 <= n <= 8 -> Z.land b (Z.shiftr 255 (8 - n)) = b mod 2 ^ n.
Proof.
  intros H. rewrite <- land_ones_mod by lia. f_equal.
  assert (n = 0 \/ n = 1 \/ n = 2 \/ n = 3 \/ n = 4 \/ n = 5 \/ n = 6 \/ n = 7 \/ n = 8) as C by lia.
  repeat (destruct C as [->|C]; [reflexivity|]). subst; reflexivity.
Qed.
Lemma land_mask16 b n : 0 <= n <= 16 -> Z.land b (Z.shiftr 65535 (16 - n)) = b mod 2 ^ n.
Proof.
  intros H. rewrite <- land_ones_mod by lia. f_equal.
  assert (E : Z.shiftr 65535 (16 - n) = Z.ones n); [|exact E].
  change 65535 with (Z.ones 16). rewrite shiftr_div, !Z.ones_equiv by lia.
  replace 16 with (n + (16 - n)) at 1 by lia. rewrite Z.pow_add_r by lia.
  assert (0 < 2 ^ (16 - n)) by (apply Z.pow_pos_nonneg; lia).
  replace (Z.pred (2 ^ n * 2 ^ (16 - n))) with ((2 ^ (16 - n) - 1) + (2 ^ n - 1) * 2 ^ (16 - n)) by lia.
  rewrite Z.div_add by lia. rewrite Z.div_small by lia. lia.
Qed.

(** ** generate: one word *)
Ltac finish_word :=
  match goal with |- Ok (?a, _, _) = Ok (?b, _, _) /\ _ =>
    let E := fresh in assert (E : a = b) by dlia; rewrite <- E; split; [reflexivity|dlia] end.
Lemma get_ub_skipn {A} (l : list A) i x r : skipn i l = x :: r -> get_ub l i = Ok x.
Proof.
  intros H. unfold get_ub. revert l H; induction i as [|i IH]; intros [|y l] H; cbn in H; try discriminate.
  - injection H as -> ->. reflexivity.
  - cbn. auto.
Qed.
Lemma skipn_S {A} (l : list A) i x r : skipn i l = x :: r -> skipn (S i) l = r.
Proof.
  revert l; induction i as [|i IH]; intros [|y l] H; cbn in H; try discriminate.
  - injection H as -> ->. reflexivity.
  - cbn. apply IH. exact H.
Qed.

Lemma gen_step k ent carry nc ei : bytes_ok ent -> 0 <= nc <= 7 -> 0 <= carry < 2 ^ nc ->
  11 <= nc + 8 * zlen (skipn ei ent) ->
  exists bs rest nc' C,
    skipn ei ent = bs ++ rest /\ 0 <= nc' <= 7 /\ nc' + 11 = nc + 8 * zlen bs /\
    C = carry * 256 ^ zlen bs + bev 256 bs /\ 0 <= C / 2 ^ nc' < 2048 /\
    skipn (ei + length bs) ent = rest /\
    gen_loop (S k) ent carry nc ei =
      (let* r := gen_loop k ent (C mod 2 ^ nc') nc' (ei + length bs) in Ok (C / 2 ^ nc' :: r)).
Proof.
  intros Hb Hn Hc Hl.
  destruct (skipn ei ent) as [|b1 r1] eqn:E1; [change (zlen (@nil Z)) with 0 in Hl; lia|].
  assert (B1 : bytes_ok (b1 :: r1)) by (rewrite <- E1; apply bytes_ok_skipn, Hb).
  apply bytes_ok_cons in B1 as [B1 Br1]. unfold byte_ok in B1.
  pose proof (get_ub_skipn _ _ _ _ E1) as G1. pose proof (skipn_S _ _ _ _ E1) as S1.
  destruct (Z_lt_ge_dec nc 3) as [N|N].
  - (* two bytes *)
    destruct r1 as [|b2 r2]; [rewrite zlen_cons in Hl; change (zlen (@nil Z)) with 0 in Hl; lia|].
    apply bytes_ok_cons in Br1 as [B2 Br2]. unfold byte_ok in B2.
    pose proof (get_ub_skipn _ _ _ _ S1) as G2. pose proof (skipn_S _ _ _ _ S1) as S2.
    exists [b1; b2], r2, (nc + 5), (carry * 65536 + b1 * 256 + b2).
    split; [reflexivity|]. split; [lia|]. split; [cbn; lia|].
    split; [cbn; lia|].
    assert (nc = 0 \/ nc = 1 \/ nc = 2) as Cs by lia.
    assert (K : gen_inner 4 ent (Z.shiftl carry (11 - nc) mod 65536) nc ei =
      Ok ((carry * 65536 + b1 * 256 + b2) / 2 ^ (nc + 5), nc + 16, S (S ei)) /\
      0 <= (carry * 65536 + b1 * 256 + b2) / 2 ^ (nc + 5) < 2048).
    { clear -Hc B1 B2 G1 G2 Cs.
      cbn [gen_inner]. rewrite G1. cbn [bind]. rewrite G2. cbn [bind].
      destruct Cs as [->|[->| ->]]; cbn -[Z.shiftl Z.shiftr Z.lor Z.modulo Z.mul Z.div gen_inner Z.pow]; rewrite ?Z.shiftl_mul_pow2, ?Z.shiftr_div_pow2 by lia; concrete_pow.
      - assert (carry = 0) as -> by lia. cbn [Z.mul]. rewrite Z.mod_0_l, Z.lor_0_l by lia.
        rewrite Z.mod_small by lia. change 8 with (2 ^ 3) at 1.
        rewrite lor_add; [|lia|concrete_pow; dlia]. concrete_pow. finish_word.
      - rewrite !Z.mod_small by lia. replace (carry * 1024) with ((carry * 4) * 2 ^ 8) by lia.
        replace (b1 * 4) with (b1 * 2 ^ 2) by lia.
        replace (Z.lor (carry * 4 * 2 ^ 8) (b1 * 2 ^ 2)) with ((carry * 256 + b1) * 2 ^ 2).
        2:{ replace (carry * 4 * 2 ^ 8) with (carry * 2 ^ 10) by lia. rewrite lor_add; [lia|lia|concrete_pow; lia]. }
        rewrite lor_add; [|lia|concrete_pow; dlia]. concrete_pow. finish_word.
      - rewrite !Z.mod_small by lia.
        replace (Z.lor (carry * 512) (b1 * 2)) with ((carry * 256 + b1) * 2 ^ 1).
        2:{ replace (carry * 512) with (carry * 2 ^ 9) by lia. rewrite lor_add; [lia|lia|concrete_pow; lia]. }
        rewrite lor_add; [|lia|concrete_pow; dlia]. concrete_pow. finish_word. }
    destruct K as [K1 K2]. split; [exact K2|]. split; [cbn [length]; replace (ei + 2)%nat with (S (S ei)) by lia; exact S2|].
    cbn [gen_loop]. rewrite K1. cbn [bind].
    replace (S (S ei) - 1)%nat with (S ei) by lia. rewrite G2. cbn [bind].
    replace (nc + 16 - 11) with (nc + 5) by lia. rewrite land_mask8 by lia. rewrite land_2047, (Z.mod_small _ 2048) by exact K2.
    cbn [length]. replace (ei + 2)%nat with (S (S ei)) by lia.
    replace ((carry * 65536 + b1 * 256 + b2) mod 2 ^ (nc + 5)) with (b2 mod 2 ^ (nc + 5)); [reflexivity|].
    destruct Cs as [->|[->| ->]]; concrete_pow; dlia.
  - (* one byte *)
    exists [b1], r1, (nc - 3), (carry * 256 + b1).
    split; [reflexivity|]. split; [lia|]. split; [cbn; lia|].
    split; [cbn; lia|].
    assert (nc = 3 \/ nc = 4 \/ nc = 5 \/ nc = 6 \/ nc = 7) as Cs by lia.
    assert (K : gen_inner 4 ent (Z.shiftl carry (11 - nc) mod 65536) nc ei =
      Ok ((carry * 256 + b1) / 2 ^ (nc - 3), nc + 8, S ei) /\
      0 <= (carry * 256 + b1) / 2 ^ (nc - 3) < 2048).
    { clear -Hc B1 G1 Cs.
      cbn [gen_inner]. rewrite G1. cbn [bind].
      destruct Cs as [->|[->|[->|[->| ->]]]]; cbn -[Z.shiftl Z.shiftr Z.lor Z.modulo Z.mul Z.div Z.pow];
        rewrite ?Z.shiftl_mul_pow2, ?Z.shiftr_div_pow2 by lia; rewrite ?Z.mod_small by (concrete_pow; lia);
        (rewrite lor_add; [|lia|concrete_pow; dlia]); concrete_pow; finish_word. }
    destruct K as [K1 K2]. split; [exact K2|]. split; [cbn [length]; replace (ei + 1)%nat with (S ei) by lia; exact S1|].
    cbn [gen_loop]. rewrite K1. cbn [bind].
    replace (S ei - 1)%nat with ei by lia. rewrite G1. cbn [bind].
    replace (nc + 8 - 11) with (nc - 3) by lia. rewrite land_mask8 by lia. rewrite land_2047, (Z.mod_small _ 2048) by exact K2.
    cbn [length]. replace (ei + 1)%nat with (S ei) by lia.
    replace ((carry * 256 + b1) mod 2 ^ (nc - 3)) with (b1 mod 2 ^ (nc - 3)); [reflexivity|].
    destruct Cs as [->|[->|[->|[->| ->]]]]; concrete_pow; dlia.
Qed.

Lemma pow256 n : 0 <= n -> 256 ^ n = 2 ^ (8 * n).
Proof. intros H. rewrite Z.pow_mul_r by lia. reflexivity. Qed.
Lemma pow2048 n : 0 <= n -> 2048 ^ n = 2 ^ (11 * n).
Proof. intros H. rewrite Z.pow_mul_r by lia. reflexivity. Qed.

Lemma gen_loop_spec k : forall ent carry nc ei, bytes_ok ent -> 0 <= nc <= 7 -> 0 <= carry < 2 ^ nc ->
  11 * Z.of_nat k <= nc + 8 * zlen (skipn ei ent) ->
  exists idx, gen_loop k ent carry nc ei = Ok idx /\ length idx = k /\ digits_ok 2048 idx /\
    bev 2048 idx = (carry * 256 ^ zlen (skipn ei ent) + bev 256 (skipn ei ent))
                   / 2 ^ (nc + 8 * zlen (skipn ei ent) - 11 * Z.of_nat k).
Proof.
  induction k as [|k IH]; intros ent carry nc ei Hb Hn Hc Hl.
  - exists []. split; [reflexivity|]. split; [reflexivity|]. split; [constructor|].
    change (bev 2048 []) with 0. symmetry. apply Z.div_small.
    pose proof (zlen_nonneg (skipn ei ent)).
    pose proof (bev_bound 256 (skipn ei ent) ltac:(lia) (bytes_ok_skipn ei ent Hb)) as Bd.
    rewrite pow256 in * by lia. replace (nc + 8 * zlen (skipn ei ent) - 11 * Z.of_nat 0) with (nc + 8 * zlen (skipn ei ent)) by lia.
    rewrite Z.pow_add_r by lia. nia.
  - destruct (gen_step k ent carry nc ei Hb Hn Hc) as (bs & rest & nc' & C & E & Hn' & Eq & EC & K & S & G); [lia|].
    destruct (IH ent (C mod 2 ^ nc') nc' (ei + length bs)%nat) as (idx & G' & L & D & V); auto.
    { apply Z.mod_pos_bound. apply Z.pow_pos_nonneg; lia. }
    { rewrite S. rewrite E, zlen_app in Hl. lia. }
    rewrite G, G'. cbn [bind]. exists (C / 2 ^ nc' :: idx). split; [reflexivity|].
    split; [cbn [length]; lia|]. split; [apply digits_ok_cons; auto|].
    rewrite bev_cons, V, S. assert (zlen idx = Z.of_nat k) as -> by (unfold zlen; lia).
    rewrite E, zlen_app. rewrite E, zlen_app in Hl. rewrite bev_app. clear V G G' IH D.
    set (M := zlen rest) in *. assert (0 <= M) by apply zlen_nonneg.
    set (e := nc' + 8 * M - 11 * Z.of_nat k).
    replace (nc + 8 * (zlen bs + M) - 11 * Z.of_nat (Datatypes.S k)) with e by lia.
    rewrite Z.pow_add_r by (try apply zlen_nonneg; lia).
    replace (carry * (256 ^ zlen bs * 256 ^ M) + (bev 256 bs * 256 ^ M + bev 256 rest))
      with (C * 256 ^ M + bev 256 rest) by (rewrite EC; ring).
    rewrite (Z.div_mod C (2 ^ nc')) at 3 by (apply Z.pow_nonzero; lia).
    replace ((2 ^ nc' * (C / 2 ^ nc') + C mod 2 ^ nc') * 256 ^ M + bev 256 rest)
      with (C mod 2 ^ nc' * 256 ^ M + bev 256 rest + (C / 2 ^ nc' * 2048 ^ Z.of_nat k) * 2 ^ e).
    + rewrite Z.div_add by (apply Z.pow_nonzero; lia). lia.
    + rewrite pow256, pow2048 by lia.
      assert (2 ^ nc' * 2 ^ (8 * M) = 2 ^ (11 * Z.of_nat k) * 2 ^ e) as P.
      { rewrite <- !Z.pow_add_r by lia. f_equal. lia. }
      nia.
Qed.

(** ** toEntropy *)
Lemma ent_loop_spec cs size : 1 <= cs <= 8 -> forall ws buf ei carry nc,
  digits_ok 2048 ws -> length buf = size -> (ei <= size)%nat ->
  0 <= nc <= 8 -> (nc = 8 -> ws = []) -> 0 <= carry < 2 ^ nc ->
  nc + 11 * zlen ws = 8 * (Z.of_nat size - Z.of_nat ei) + cs ->
  exists new c, ent_loop ws size buf ei carry nc = Ok (firstn ei buf ++ new, c) /\
    bytes_ok new /\ length new = (size - ei)%nat /\ 0 <= c < 2 ^ cs /\
    bev 256 new * 2 ^ cs + c = carry * 2048 ^ zlen ws + bev 2048 ws.
Proof.
  intros Hcs. induction ws as [|w ws IH]; intros buf ei carry nc D Lb Hei Hn H8 Hc Eq.
  - change (zlen (@nil Z)) with 0 in *. assert (ei = size) as -> by lia. assert (nc = cs) as -> by lia.
    exists [], carry. cbn [ent_loop]. rewrite firstn_all2, app_nil_r by lia.
    split; [reflexivity|]. split; [constructor|]. split; [cbn; lia|]. split; [exact Hc|].
    change (bev 256 []) with 0. change (bev 2048 []) with 0. rewrite Z.pow_0_r. lia.
  - apply digits_ok_cons in D as [Hw D]. rewrite zlen_cons in Eq. pose proof (zlen_nonneg ws).
    assert (nc <= 7) by (destruct (Z.eq_dec nc 8) as [E8|]; [specialize (H8 E8); discriminate|lia]).
    assert (Hlt : (ei < size)%nat) by lia.
    cbn [ent_loop]. rewrite set_ub_ok by lia. cbn [bind].
    rewrite land_2047, (Z.mod_small w) by lia.
    set (x := Z.lor _ _).
    assert (X : x = (carry * 2048 + w) / 2 ^ (3 + nc) /\ 0 <= x < 256 /\
      carry * 2048 + w = x * 2 ^ (3 + nc) + w mod 2 ^ (3 + nc)).
    { subst x. clear -Hw Hc Hn H0.
      assert (nc = 0 \/ nc = 1 \/ nc = 2 \/ nc = 3 \/ nc = 4 \/ nc = 5 \/ nc = 6 \/ nc = 7) as Cs by lia.
      rewrite Z.shiftl_mul_pow2, Z.shiftr_div_pow2 by lia.
      destruct Cs as [->|Cs].
      { concrete_pow. assert (carry = 0) as -> by lia. change (0 * _ mod 256) with 0. rewrite Z.lor_0_l.
        cbn [Z.add Z.sub Z.mul]. concrete_pow. rewrite (Z.mod_small (w / 8)) by dlia. repeat split; dlia. }
      repeat (destruct Cs as [->|Cs]); [..|subst nc];
        rewrite ?(Z.mod_small (carry * _)) by (concrete_pow; lia);
        rewrite ?(Z.mod_small (w / _)) by (concrete_pow; dlia);
        (rewrite lor_add; [|lia|concrete_pow; dlia]); concrete_pow; repeat split; dlia. }
    destruct X as (X1 & X2 & X3). clearbody x.
    set (buf1 := firstn ei buf ++ x :: skipn (S ei) buf).
    assert (L1 : length buf1 = size).
    { subst buf1. rewrite app_length, firstn_length. cbn [length]. rewrite skipn_length. lia. }
    assert (F1 : firstn (S ei) buf1 = firstn ei buf ++ [x]).
    { subst buf1. rewrite firstn_app, firstn_length.
      replace (S ei - Nat.min ei (length buf))%nat with 1%nat by lia.
      rewrite (firstn_all2 (n := S ei) (firstn ei buf)) by (rewrite firstn_length; lia). reflexivity. }
    clearbody buf1.
    replace (11 - (8 - nc)) with (3 + nc) by lia.
    assert (0 < 2 ^ (3 + nc)) by (apply Z.pow_pos_nonneg; lia).
    destruct (Nat.ltb_spec (S ei) size) as [Lt|Lt]; destruct (Z.leb_spec 8 (3 + nc)) as [Le|Le]; cbn [andb].
    + (* a second byte *)
      rewrite set_ub_ok by lia. cbn [bind].
      set (y := Z.shiftr w (3 + nc - 8) mod 256).
      assert (Y : w mod 2 ^ (3 + nc) = y * 2 ^ (nc - 5) + w mod 2 ^ (nc - 5) /\ 0 <= y < 256).
      { subst y. clear -Hw Le H0. rewrite shiftr_div by lia.
        assert (nc = 5 \/ nc = 6 \/ nc = 7) as Cs by lia.
        destruct Cs as [->|[->| ->]]; concrete_pow; dlia. }
      destruct Y as [Y1 Y2]. clearbody y.
      replace (3 + nc - 8) with (nc - 5) by lia. rewrite land_mask16 by lia.
      assert (Cb : 0 <= w mod 2 ^ (nc - 5) < 2 ^ (nc - 5)) by (apply Z.mod_pos_bound, Z.pow_pos_nonneg; lia).
      assert (2 ^ (nc - 5) <= 2 ^ 2) by (apply Z.pow_le_mono_r; lia). change (2 ^ 2) with 4 in *.
      rewrite (Z.mod_small (w mod _) 256) by lia.
      set (buf2 := firstn (S ei) buf1 ++ y :: skipn (S (S ei)) buf1).
      destruct (IH buf2 (S (S ei)) (w mod 2 ^ (nc - 5)) (nc - 5)) as (new & c & G & Bn & Ln & Hcc & V); auto; try lia.
      { subst buf2. rewrite app_length, firstn_length. cbn [length]. rewrite skipn_length. lia. }
      rewrite G. exists (x :: y :: new), c.
      assert (F2 : firstn (S (S ei)) buf2 = firstn ei buf ++ [x; y]).
      { subst buf2. rewrite firstn_app, firstn_length.
        replace (S (S ei) - Nat.min (S ei) (length buf1))%nat with 1%nat by lia.
        rewrite (firstn_all2 (n := S (S ei)) (firstn (S ei) buf1)) by (rewrite firstn_length; lia). rewrite F1, <- app_assoc. reflexivity. }
      rewrite F2, <- app_assoc. split; [reflexivity|].
      split; [repeat (apply bytes_ok_cons; split; [unfold byte_ok; lia|]); exact Bn|].
      split; [cbn [length]; lia|]. split; [exact Hcc|].
      rewrite !bev_cons, zlen_cons. rewrite Z.pow_add_r, Z.pow_1_r by (apply zlen_nonneg || lia).
      assert (Pn : 256 ^ zlen new * 2 ^ cs = 2 ^ (nc - 5) * 2048 ^ zlen ws).
      { rewrite pow256, pow2048 by (apply zlen_nonneg). rewrite <- !Z.pow_add_r by (try lia; pose proof (zlen_nonneg new); lia).
        f_equal. unfold zlen in *. lia. }
      assert (Pq : 2 ^ (3 + nc) = 256 * 2 ^ (nc - 5)) by (replace (3 + nc) with (8 + (nc - 5)) by lia; rewrite Z.pow_add_r by lia; reflexivity).
      replace ((x * (256 ^ zlen new * 256) + (y * 256 ^ zlen new + bev 256 new)) * 2 ^ cs + c)
        with ((x * 256 + y) * (256 ^ zlen new * 2 ^ cs) + (bev 256 new * 2 ^ cs + c)) by ring.
      rewrite V, Pn. rewrite ?(zlen_cons w ws), (Z.pow_add_r 2048), Z.pow_1_r by lia.
      replace (carry * (2048 ^ zlen ws * 2048) + (w * 2048 ^ zlen ws + bev 2048 ws))
        with ((carry * 2048 + w) * 2048 ^ zlen ws + bev 2048 ws) by ring.
      rewrite X3, Y1, Pq. ring.
    + (* one byte, more to come *)
      cbn [bind]. rewrite land_mask16 by lia.
      assert (Cb : 0 <= w mod 2 ^ (3 + nc) < 2 ^ (3 + nc)) by (apply Z.mod_pos_bound; lia).
      assert (2 ^ (3 + nc) <= 2 ^ 7) by (apply Z.pow_le_mono_r; lia). change (2 ^ 7) with 128 in *.
      rewrite (Z.mod_small (w mod _) 256) by lia.
      destruct (IH buf1 (S ei) (w mod 2 ^ (3 + nc)) (3 + nc)) as (new & c & G & Bn & Ln & Hcc & V); auto; try lia.
      rewrite G. exists (x :: new), c. rewrite F1, <- app_assoc. split; [reflexivity|].
      split; [apply bytes_ok_cons; split; [unfold byte_ok; lia|exact Bn]|].
      split; [cbn [length]; lia|]. split; [exact Hcc|].
      rewrite !bev_cons.
      assert (Pn : 256 ^ zlen new * 2 ^ cs = 2 ^ (3 + nc) * 2048 ^ zlen ws).
      { rewrite pow256, pow2048 by (apply zlen_nonneg). rewrite <- !Z.pow_add_r by (try lia; pose proof (zlen_nonneg new); lia).
        f_equal. unfold zlen in *. lia. }
      replace ((x * 256 ^ zlen new + bev 256 new) * 2 ^ cs + c)
        with (x * (256 ^ zlen new * 2 ^ cs) + (bev 256 new * 2 ^ cs + c)) by ring.
      rewrite V, Pn. rewrite ?(zlen_cons w ws), (Z.pow_add_r 2048), Z.pow_1_r by lia.
      replace (carry * (2048 ^ zlen ws * 2048) + (w * 2048 ^ zlen ws + bev 2048 ws))
        with ((carry * 2048 + w) * 2048 ^ zlen ws + bev 2048 ws) by ring.
      rewrite X3. ring.
    + (* last byte; the rest is the checksum *)
      cbn [bind]. assert (ws = []) as -> by (destruct ws; [reflexivity|rewrite zlen_cons in *; pose proof (zlen_nonneg ws); lia]).
      change (zlen (@nil Z)) with 0 in *. assert (cs = 3 + nc) as -> by lia.
      rewrite land_mask16 by lia.
      assert (Cb : 0 <= w mod 2 ^ (3 + nc) < 2 ^ (3 + nc)) by (apply Z.mod_pos_bound; lia).
      assert (2 ^ (3 + nc) <= 2 ^ 8) by (apply Z.pow_le_mono_r; lia). change (2 ^ 8) with 256 in *.
      rewrite (Z.mod_small (w mod _) 256) by lia.
      exists [x], (w mod 2 ^ (3 + nc)). cbn [ent_loop].
      replace buf1 with (firstn (S ei) buf1) by (apply firstn_all2; lia). rewrite F1.
      split; [reflexivity|]. split; [apply bytes_ok_cons; split; [unfold byte_ok; lia|constructor]|].
      split; [cbn [length]; lia|]. split; [exact Cb|].
      cbn [bev fold_left]. rewrite zlen_cons. change (zlen (@nil Z)) with 0. change (2048 ^ (0 + 1)) with 2048.
      cbn -[Z.pow Z.mul Z.modulo Z.add]. lia.
    + cbn [bind]. assert (ws = []) as -> by (destruct ws; [reflexivity|rewrite zlen_cons in *; pose proof (zlen_nonneg ws); lia]).
      change (zlen (@nil Z)) with 0 in *. assert (cs = 3 + nc) as -> by lia.
      rewrite land_mask16 by lia.
      assert (Cb : 0 <= w mod 2 ^ (3 + nc) < 2 ^ (3 + nc)) by (apply Z.mod_pos_bound; lia).
      assert (2 ^ (3 + nc) <= 2 ^ 8) by (apply Z.pow_le_mono_r; lia). change (2 ^ 8) with 256 in *.
      rewrite (Z.mod_small (w mod _) 256) by lia.
      exists [x], (w mod 2 ^ (3 + nc)). cbn [ent_loop].
      replace buf1 with (firstn (S ei) buf1) by (apply firstn_all2; lia). rewrite F1.
      split; [reflexivity|]. split; [apply bytes_ok_cons; split; [unfold byte_ok; lia|constructor]|].
      split; [cbn [length]; lia|]. split; [exact Cb|].
      cbn [bev fold_left]. rewrite zlen_cons. change (zlen (@nil Z)) with 0. change (2048 ^ (0 + 1)) with 2048.
      cbn -[Z.pow Z.mul Z.modulo Z.add]. lia.
Qed.

Lemma toEntropy_spec m : bip39_size (length (m_idx m)) -> digits_ok 2048 (m_idx m) ->
  exists ent cs, toEntropy m = Ok (ent, cs) /\ is_bip39_split ent cs (m_idx m).
Proof.
  intros Hs D. unfold toEntropy. rewrite (proj1 (size_cases _) Hs). cbn [negb].
  destruct (size_facts _ Hs) as [F1 F2]. set (n := (length (m_idx m) / 3)%nat) in *.
  destruct (ent_loop_spec (Z.of_nat n) (n * 4) ltac:(lia) (m_idx m) (repeat 0 (n * 4)) 0 0 0)
    as (new & c & G & B & L & Hc & V); auto; try lia.
  - apply repeat_length.
  - unfold zlen. lia.
  - exists new, c. rewrite G. split; [reflexivity|].
    unfold is_bip39_split. fold n. repeat split; auto; try lia.
Qed.

(** the split is unique *)
Lemma split_unique ent cs ent' cs' idx : is_bip39_split ent cs idx -> is_bip39_split ent' cs' idx ->
  ent = ent' /\ cs = cs'.
Proof.
  intros (B & L & _ & C & V) (B' & L' & _ & C' & V').
  set (n := Z.of_nat (length idx / 3)) in *.
  assert (P : 0 < 2 ^ n) by lia.
  assert (bev 256 ent = bev 256 ent' /\ cs = cs') as [E1 E2].
  { rewrite V in V'. apply (Z.div_mod_unique (2 ^ n)); lia. }
  split; [|exact E2]. apply (bev_inj 256); auto; try lia.
Qed.
Lemma split_inj ent cs idx idx' : bip39_size (length idx) -> bip39_size (length idx') ->
  is_bip39_split ent cs idx -> is_bip39_split ent cs idx' -> idx = idx'.
Proof.
  intros S S' (B & L & D & C & V) (B' & L' & D' & C' & V').
  destruct (size_facts _ S) as [_ F], (size_facts _ S') as [_ F'].
  assert (EL : (length idx / 3 = length idx' / 3)%nat) by lia.
  rewrite EL in *. apply (bev_inj 2048); auto; try lia. 
Qed.

Section Sha.
Variable sha256 : list Z -> list Z.
Hypothesis sha_ok : sha256_shape sha256.

Lemma sha_head x : exists h, get_ub (sha256 x) 0 = Ok h /\ hd 0 (sha256 x) = h /\ 0 <= h < 256.
Proof.
  destruct (sha_ok x) as [B L]. destruct (sha256 x) as [|h r]; [discriminate|].
  exists h. apply bytes_ok_cons in B as [B _]. repeat split; try apply B.
Qed.

Lemma verify_spec m ent cs : bip39_size (length (m_idx m)) -> toEntropy m = Ok (ent, cs) ->
  verify_checksum sha256 m = Ok (leading_bits (length (m_idx m) / 3) (sha256 ent) =? cs).
Proof.
  intros Hs E. unfold verify_checksum. rewrite (proj1 (size_cases _) Hs). cbn [negb]. rewrite E. cbn [bind].
  destruct (sha_head ent) as (h & -> & Hh & Hb). cbn [bind]. unfold leading_bits. rewrite Hh.
  destruct (size_facts _ Hs) as [F _]. set (k := 8 - Z.of_nat (length (m_idx m) / 3)).
  assert (0 <= k <= 5) by lia. do 2 f_equal.
  rewrite Z.shiftr_land, Z.shiftr_shiftl_l by lia. rewrite Z.sub_diag, Z.shiftl_0_r, shiftr_div by lia.
  rewrite land_255. apply Z.mod_small. split; [apply Z.div_pos; [lia|apply Z.pow_pos_nonneg; lia]|].
  apply Z.div_lt_upper_bound; [apply Z.pow_pos_nonneg; lia|].
  assert (1 <= 2 ^ k) by (change 1 with (2 ^ 0); apply Z.pow_le_mono_r; lia). nia.
Qed.

(** ** generate *)
Lemma words_length lang : length (words_of lang) = 2048%nat.
Proof. destruct lang; vm_compute; reflexivity. Qed.

Definition word_at (lang : language) (i : Z) : list Z := nth (Z.to_nat i) (words_of lang) [].

Lemma words_at_ok lang idx : digits_ok 2048 idx ->
  mapM (fun i => get_ub (words_of lang) (Z.to_nat i)) idx = Ok (map (word_at lang) idx).
Proof.
  intros D. apply mapM_ok_map. intros i Hi.
  unfold digits_ok in D. rewrite Forall_forall in D. specialize (D i Hi). cbv beta in D. unfold get_ub, word_at.
  rewrite (nth_error_nth' (words_of lang) []) by (rewrite words_length; lia). reflexivity.
Qed.

Lemma generate_spec n lang ent : bip39_size n -> bytes_ok ent -> length ent = (4 * (n / 3))%nat ->
  exists idx, generate sha256 n lang ent = Ok {| m_words := map (word_at lang) idx; m_idx := idx |} /\
    length idx = n /\ is_bip39_split ent (leading_bits (n / 3) (sha256 ent)) idx.
Proof.
  intros Hs Be Le. unfold generate. rewrite (proj1 (size_cases _) Hs). cbn [negb].
  destruct (size_facts _ Hs) as [F1 F2].
  assert (Hc : ((n / 3 + 7) / 8 = 1)%nat).
  { clear -F1. symmetry. apply (Nat.div_unique _ _ _ (n / 3 - 1)); lia. }
  rewrite Hc. cbn [seq mapM]. destruct (sha_head ent) as (h & -> & Hh & Hb). cbn [bind].
  destruct (gen_loop_spec n (ent ++ [h]) 0 0 0) as (idx & G & L & D & V).
  - apply bytes_ok_app; split; auto. apply bytes_ok_cons; split; [exact Hb|constructor].
  - lia.
  - change (2 ^ 0) with 1. lia.
  - cbn [skipn]. rewrite zlen_app, zlen_cons. change (zlen (@nil Z)) with 0. unfold zlen. lia.
  - rewrite G. cbn [bind]. rewrite words_at_ok by exact D. cbn [bind].
    exists idx. unfold Mnemonic_of_indexes. rewrite map_length, Nat.eqb_refl. cbn [negb].
    rewrite L, (proj1 (size_cases _) Hs). cbn [negb]. split; [reflexivity|]. split; [reflexivity|].
    unfold is_bip39_split, leading_bits. rewrite L, Hh. cbn [skipn] in V.
    set (c := Z.of_nat (n / 3)) in *. assert (3 <= c <= 8) by lia.
    assert (Pk : 0 < 2 ^ (8 - c)) by (apply Z.pow_pos_nonneg; lia).
    assert (P8 : 2 ^ (8 - c) * 2 ^ c = 256) by (rewrite <- Z.pow_add_r by lia; replace (8 - c + c) with 8 by lia; reflexivity).
    split; [exact Be|]. split; [exact Le|]. split; [exact D|].
    split; [split; [apply Z.div_pos; lia|apply Z.div_lt_upper_bound; lia]|].
    rewrite V. rewrite bev_snoc, zlen_app, zlen_cons. change (zlen (@nil Z)) with 0.
    assert (zlen ent = 4 * c) as -> by (unfold zlen; lia).
    replace (0 + 8 * (4 * c + (0 + 1)) - 11 * Z.of_nat n) with (8 - c) by lia.
    rewrite Z.mul_0_l, Z.add_0_l.
    replace (bev 256 ent * 256 + h) with (h + (bev 256 ent * 2 ^ c) * 2 ^ (8 - c)).
    2:{ transitivity (bev 256 ent * (2 ^ (8 - c) * 2 ^ c) + h); [ring|]. rewrite P8. ring. }
    rewrite Z.div_add by lia. lia.
Qed.

Lemma generate_round_trip n lang ent : bip39_size n -> bytes_ok ent -> length ent = (4 * (n / 3))%nat ->
  exists m, generate sha256 n lang ent = Ok m /\
    length (m_idx m) = n /\ digits_ok 2048 (m_idx m) /\ m_words m = map (word_at lang) (m_idx m) /\
    verify_checksum sha256 m = Ok true /\ toSeed m = Ok ent /\
    toEntropy m = Ok (ent, leading_bits (n / 3) (sha256 ent)).
Proof.
  intros Hs Be Le. destruct (generate_spec n lang ent Hs Be Le) as (idx & G & L & Sp).
  set (m := {| m_words := map (word_at lang) idx; m_idx := idx |}) in *.
  assert (Lm : bip39_size (length (m_idx m))) by (cbn [m m_idx]; rewrite L; exact Hs).
  destruct (toEntropy_spec m Lm) as (e & c & T & Sp'); [apply Sp|].
  destruct (split_unique _ _ _ _ _ Sp' Sp) as [-> ->].
  exists m. split; [exact G|]. split; [exact L|]. split; [apply Sp|]. split; [reflexivity|].
  split; [rewrite (verify_spec m _ _ Lm T); cbn [m m_idx]; rewrite L, Z.eqb_refl; reflexivity|].
  split; [unfold toSeed; rewrite T; reflexivity|exact T].
Qed.

Lemma generate_rejects n lang ent : ~ bip39_size n -> generate sha256 n lang ent = Throw.
Proof.
  intros H. unfold generate. destruct (IsValidMnemonicSize n) eqn:E; [|reflexivity].
  apply size_cases in E. contradiction.
Qed.

(** equal entropy and valid checksums *)
Lemma valid_inj m m' ent c c' :
  bip39_size (length (m_idx m)) -> bip39_size (length (m_idx m')) ->
  digits_ok 2048 (m_idx m) -> digits_ok 2048 (m_idx m') ->
  toEntropy m = Ok (ent, c) -> toEntropy m' = Ok (ent, c') ->
  verify_checksum sha256 m = Ok true -> verify_checksum sha256 m' = Ok true -> m_idx m = m_idx m'.
Proof.
  intros S S' D D' T T' V V'.
  destruct (toEntropy_spec m S D) as (e & k & Te & Sp). rewrite T in Te. injection Te as <- <-.
  destruct (toEntropy_spec m' S' D') as (e & k & Te & Sp'). rewrite T' in Te. injection Te as <- <-.
  rewrite (verify_spec m _ _ S T) in V. rewrite (verify_spec m' _ _ S' T') in V'.
  assert (O : forall b, Ok b = Ok true -> b = true) by (intros b Hb; injection Hb; auto).
  apply O in V, V'. apply Z.eqb_eq in V, V'.
  assert (EL : (length (m_idx m) / 3 = length (m_idx m') / 3)%nat).
  { destruct Sp as (_ & L & _), Sp' as (_ & L' & _). lia. }
  rewrite EL in V. assert (c = c') as <- by congruence.
  apply (split_inj ent c); auto.
Qed.
End Sha.

(** ** Word lists *)
Fixpoint nodupb (l : list Z) : bool :=
  match l with [] => true | x :: r => forallb (fun y => negb (x =? y)) r && nodupb r end.
Lemma nodupb_spec l : nodupb l = true -> NoDup l.
Proof.
  induction l as [|x l IH]; intros H; [constructor|]. cbn in H. apply andb_prop in H as [H1 H2].
  constructor; [|auto]. intros Hin. rewrite forallb_forall in H1. specialize (H1 x Hin). rewrite Z.eqb_refl in H1. discriminate.
Qed.

Lemma word_bytes_value w : 0 < w -> bev 256 (word_bytes w) = w.
Proof.
  intros H. unfold word_bytes. rewrite pack_be_value. apply Z.mod_small. split; [lia|].
  pose proof (Z.log2_nonneg w). rewrite Z2Nat.id by (pose proof (Z.div_pos (Z.log2 w) 8); lia).
  rewrite pow256 by (pose proof (Z.div_pos (Z.log2 w) 8); lia).
  apply Z.lt_le_trans with (2 ^ Z.succ (Z.log2 w)); [apply Z.log2_spec; lia|].
  apply Z.pow_le_mono_r; dlia.
Qed.

Lemma dict_sound lang :
  nodupb (dict_of lang) = true /\ forallb (fun w => 0 <? w) (dict_of lang) = true /\
  forallb (fun w => forallb (fun c => negb (c =? 32)) w) (words_of lang) = true.
Proof. destruct lang; vm_compute; repeat split. Qed.

Lemma words_distinct lang : NoDup (words_of lang).
Proof.
  destruct (dict_sound lang) as (N & P & _). apply nodupb_spec in N. rewrite forallb_forall in P.
  unfold words_of. revert N P. induction (dict_of lang) as [|x l IH]; intros N P; [constructor|].
  inversion N as [|? ? N1 N2]; subst. cbn [map]. constructor.
  - intros Hin. apply in_map_iff in Hin as (y & E & Hy). apply N1.
    apply (f_equal (bev 256)) in E. specialize (P x (or_introl eq_refl)) as Px. specialize (P y (or_intror Hy)) as Py.
    rewrite !word_bytes_value in E by lia. congruence.
  - apply IH; auto. intros z Hz. apply P. right; auto.
Qed.

Lemma words_plain lang w : In w (words_of lang) -> ~ In 32 w /\ w <> [] /\ bytes_ok w.
Proof.
  intros H. destruct (dict_sound lang) as (_ & P & S). rewrite forallb_forall in P, S.
  specialize (S w H). rewrite forallb_forall in S. split.
  - intros H32. specialize (S 32 H32). discriminate.
  - unfold words_of in H. apply in_map_iff in H as (x & <- & Hx). unfold word_bytes. split; [|apply pack_be_ok].
    intros E. apply (f_equal (@List.length Z)) in E. rewrite pack_be_length in E.
    pose proof (Z.log2_nonneg x). pose proof (Z.div_pos (Z.log2 x) 8). cbn in E. lia.
Qed.

(** the look-up map *)
Lemma lookup_none i d w : ~ In w d -> dict_lookup i d w = None.
Proof.
  revert i; induction d as [|x d IH]; intros i H; [reflexivity|]. cbn [dict_lookup].
  rewrite IH by (intros ?; apply H; right; auto).
  destruct (zlist_eqb x w) eqn:E; [|reflexivity]. apply zlist_eqb_spec in E. subst. exfalso. apply H. left. reflexivity.
Qed.
Lemma lookup_nth d : NoDup d -> forall i n, (n < length d)%nat ->
  dict_lookup i d (nth n d []) = Some (i + Z.of_nat n).
Proof.
  induction d as [|x d IH]; intros N i n Hn; [cbn in Hn; lia|]. inversion N as [|? ? N1 N2]; subst.
  destruct n as [|n]; cbn [nth dict_lookup].
  - rewrite lookup_none by assumption. rewrite zlist_eqb_refl. f_equal. lia.
  - cbn [length] in Hn. rewrite IH by (auto; lia). f_equal. lia.
Qed.
Lemma lookup_word lang i : 0 <= i < 2048 -> dict_lookup 0 (words_of lang) (word_at lang i) = Some i.
Proof.
  intros H. unfold word_at. rewrite lookup_nth; [f_equal; lia|apply words_distinct|rewrite words_length; lia].
Qed.
Lemma lookup_some d : forall i w j, dict_lookup i d w = Some j -> i <= j < i + zlen d /\ nth (Z.to_nat (j - i)) d [] = w.
Proof.
  induction d as [|x d IH]; intros i w j H; [discriminate|]. cbn [dict_lookup] in H. rewrite zlen_cons. pose proof (zlen_nonneg d).
  destruct (dict_lookup (i + 1) d w) as [k|] eqn:E.
  - injection H as <-. apply IH in E as [R E]. split; [lia|].
    replace (Z.to_nat (k - i)) with (S (Z.to_nat (k - (i + 1)))) by lia. exact E.
  - destruct (zlist_eqb x w) eqn:Ex; [|discriminate]. injection H as <-. apply zlist_eqb_spec in Ex. subst.
    split; [lia|]. rewrite Z.sub_diag. reflexivity.
Qed.

Lemma lookup_words_ok lang idx : digits_ok 2048 idx -> lookup_words lang (map (word_at lang) idx) = Ok idx.
Proof.
  induction idx as [|i idx IH]; intros D; [reflexivity|]. apply digits_ok_cons in D as [Hi D].
  unfold lookup_words in *. cbn [map mapM]. rewrite lookup_word by lia. cbn [bind].
  rewrite IH by exact D. reflexivity.
Qed.
Lemma lookup_words_inv lang ws idx : lookup_words lang ws = Ok idx ->
  digits_ok 2048 idx /\ ws = map (word_at lang) idx.
Proof.
  revert idx; induction ws as [|w ws IH]; intros idx H; unfold lookup_words in *; cbn [mapM] in H.
  - injection H as <-. split; [constructor|reflexivity].
  - destruct (dict_lookup 0 (words_of lang) w) as [j|] eqn:E; [|discriminate]. cbn [bind] in H.
    apply bind_ok in H as (r & Hr & H). injection H as <-. apply IH in Hr as [D ->].
    apply lookup_some in E as [R E]. unfold zlen in R. rewrite words_length in R.
    split; [apply digits_ok_cons; split; [lia|exact D]|].
    cbn [map]. f_equal. unfold word_at. rewrite <- E. f_equal. lia.
Qed.

(** splitting a joined phrase *)
Lemma split_word cur w r : ~ In 32 w ->
  split_spaces cur (w ++ 32 :: r) = (rev cur ++ w) :: split_spaces [] r.
Proof.
  revert cur; induction w as [|c w IH]; intros cur H; cbn [app split_spaces].
  - rewrite app_nil_r. reflexivity.
  - destruct (Z.eqb_spec c 32) as [->|_]; [exfalso; apply H; left; reflexivity|].
    rewrite IH by (intros ?; apply H; right; auto). cbn [rev]. rewrite <- app_assoc. reflexivity.
Qed.
Lemma split_last cur w : ~ In 32 w -> split_spaces cur w = [rev cur ++ w].
Proof.
  revert cur; induction w as [|c w IH]; intros cur H; cbn [split_spaces].
  - rewrite app_nil_r. reflexivity.
  - destruct (Z.eqb_spec c 32) as [->|_]; [exfalso; apply H; left; reflexivity|].
    rewrite IH by (intros ?; apply H; right; auto). cbn [rev]. rewrite <- app_assoc. reflexivity.
Qed.
Lemma split_join ws : ws <> [] -> Forall (fun w => ~ In 32 w) ws -> split_spaces [] (join_spaces ws) = ws.
Proof.
  induction ws as [|w ws IH]; intros Hne F; [congruence|]. inversion F as [|? ? F1 F2]; subst.
  destruct ws as [|w' ws]; [cbn [join_spaces]; apply (split_last [] w F1)|].
  change (join_spaces (w :: w' :: ws)) with (w ++ 32 :: join_spaces (w' :: ws)).
  rewrite split_word by exact F1. rewrite IH by (auto; discriminate). reflexivity.
Qed.
Lemma join_split s : join_spaces (split_spaces [] s) = s.
Proof.
  assert (G : forall s cur, join_spaces (split_spaces cur s) = rev cur ++ s).
  { clear s. induction s as [|c s IH]; intros cur; cbn [split_spaces].
    - cbn [join_spaces]. rewrite app_nil_r. reflexivity.
    - destruct (Z.eqb_spec c 32) as [->|_].
      + assert (exists a b, split_spaces [] s = a :: b) as (a & b & E).
        { destruct s as [|x s]; [eexists _, _; reflexivity|]. cbn [split_spaces].
          destruct (x =? 32); [eexists _, _; reflexivity|].
          generalize [x]. clear. intros cur. revert cur; induction s as [|y s IH]; intros cur; [eexists _, _; reflexivity|].
          cbn [split_spaces]. destruct (y =? 32); [eexists _, _; reflexivity|apply IH]. }
        specialize (IH []). rewrite E in *.
        change (join_spaces (rev cur :: a :: b)) with (rev cur ++ 32 :: join_spaces (a :: b)).
        rewrite IH. reflexivity.
      + rewrite IH. cbn [rev]. rewrite <- app_assoc. reflexivity. }
  apply (G s []).
Qed.

Lemma word_at_in lang i : 0 <= i < 2048 -> In (word_at lang i) (words_of lang).
Proof. intros H. apply nth_In. rewrite words_length. lia. Qed.

Lemma text_round_trip lang idx : bip39_size (length idx) -> digits_ok 2048 idx ->
  Mnemonic_of_text (join_spaces (map (word_at lang) idx)) lang =
  Ok {| m_words := map (word_at lang) idx; m_idx := idx |}.
Proof.
  intros S D. unfold Mnemonic_of_text. rewrite split_join.
  - unfold Mnemonic_of_words. rewrite map_length, (proj1 (size_cases _) S). cbn [negb].
    rewrite lookup_words_ok by exact D. reflexivity.
  - intros E. apply (f_equal (@List.length (list Z))) in E. rewrite map_length in E. cbn in E.
    destruct (size_facts _ S). lia.
  - apply Forall_forall. intros w Hw. apply in_map_iff in Hw as (i & <- & Hi).
    unfold digits_ok in D. rewrite Forall_forall in D. specialize (D i Hi). cbv beta in D. apply (words_plain lang), word_at_in, D.
Qed.

Lemma text_accepts lang s m : Mnemonic_of_text s lang = Ok m ->
  bip39_size (length (m_idx m)) /\ digits_ok 2048 (m_idx m) /\
  m_words m = map (word_at lang) (m_idx m) /\ s = join_spaces (m_words m).
Proof.
  unfold Mnemonic_of_text, Mnemonic_of_words.
  destruct (IsValidMnemonicSize (length (split_spaces [] s))) eqn:S; cbn [negb]; [|discriminate].
  intros H. apply bind_ok in H as (idx & L & H). injection H as <-. cbn [m_idx m_words].
  apply lookup_words_inv in L as [D E]. split.
  - apply size_cases. rewrite E, map_length in S. exact S.
  - split; [exact D|]. split; [exact E|]. symmetry. apply join_split.
Qed.
