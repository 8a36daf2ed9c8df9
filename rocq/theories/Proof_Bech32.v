From Verif Require Import BaseLemmas Model_Hex Model_Bech32 Proof_Convertbits Proof_Polymod Proof_Bech32Dist Spec_Bech32.
Ltac Zify.zify_post_hook ::= idtac.

(** ** The characters *)
Lemma charset_ok v : sym v ->
  exists c, get_ub B32_CHARSET (Z.to_nat v) = Ok c /\ c = nth (Z.to_nat v) alphabet 0 /\
    0 <= c < 128 /\ is_upper c = false /\ c <> 49 /\ b32_char_value c = Ok v.
Proof.
  intros H.
  assert (E : match get_ub B32_CHARSET (Z.to_nat v) with
              | Ok c => (c =? nth (Z.to_nat v) alphabet 0) && (0 <=? c) && (c <? 128) && negb (is_upper c) && negb (c =? 49) &&
                  match b32_char_value c with Ok w => w =? v | _ => false end
              | _ => false end = true).
  { revert v H. apply (sym_sweep (fun v => match _ with Ok _ => _ | _ => _ end)). vm_compute. reflexivity. }
  destruct (get_ub B32_CHARSET (Z.to_nat v)) as [c| |] eqn:E1; try discriminate.
  exists c. rewrite !andb_true_iff in E. destruct E as [[[[[E2 E3] E4] E5] E6] E7].
  destruct (b32_char_value c) as [w| |] eqn:E8; try discriminate.
  apply Z.eqb_eq in E2, E7. subst w. rewrite negb_true_iff in E5.
  repeat split; auto; lia.
Qed.

Lemma char_value_ub c : 0 <= c -> (b32_char_value c = UB <-> 128 <= c).
Proof.
  intros H. unfold b32_char_value, get_ub.
  assert (L : length B32_CHARSET_REV = 128%nat) by reflexivity.
  split.
  - intros E. destruct (nth_error B32_CHARSET_REV (Z.to_nat c)) as [r|] eqn:En.
    + cbn [bind] in E. destruct (r =? -1); discriminate.
    + apply nth_error_None in En. lia.
  - intros Hc. assert (nth_error B32_CHARSET_REV (Z.to_nat c) = None) as -> by (apply nth_error_None; lia).
    reflexivity.
Qed.

Lemma char_value_ok c v : 0 <= c -> b32_char_value c = Ok v ->
  0 <= c < 128 /\ sym v /\ nth (Z.to_nat v) alphabet 0 = ascii_lower c.
Proof.
  intros Hc E.
  assert (Hb : c < 128).
  { destruct (Z.lt_ge_cases c 128) as [|Hge]; auto. exfalso.
    apply (char_value_ub c Hc) in Hge. congruence. }
  split; [lia|].
  assert (K : match b32_char_value c with
              | Ok v => (0 <=? v) && (v <? 32) && (nth (Z.to_nat v) alphabet 0 =? ascii_lower c) | _ => true end = true).
  { assert (Hr : 0 <= c < Z.of_nat 128) by lia. clear E Hc Hb. revert c Hr.
    apply (forallb_range (fun c => match _ with Ok _ => _ | _ => _ end) 128). vm_compute. reflexivity. }
  rewrite E in K. rewrite !andb_true_iff in K. destruct K as [[K1 K2] K3].
  apply Z.eqb_eq in K3. split; [|exact K3]. unfold sym, inb. change (2 ^ 5) with 32. lia.
Qed.

Lemma tolower_spec c : tolower c = ascii_lower c.
Proof. reflexivity. Qed.

Lemma tolower_id c : is_upper c = false -> tolower c = c.
Proof. unfold tolower. intros ->. reflexivity. Qed.
Lemma tolower_not_upper c : is_upper (tolower c) = false.
Proof. unfold tolower, is_upper. destruct ((65 <=? c) && (c <=? 90)) eqn:E; lia. Qed.
Lemma tolower_idem c : tolower (tolower c) = tolower c.
Proof. apply tolower_id, tolower_not_upper. Qed.
Lemma tolower_49 c : tolower c = 49 <-> c = 49.
Proof. unfold tolower, is_upper. destruct ((65 <=? c) && (c <=? 90)) eqn:E; lia. Qed.
Lemma tolower_byte c : byte_ok c -> byte_ok (tolower c).
Proof. unfold tolower, is_upper, byte_ok. destruct ((65 <=? c) && (c <=? 90)) eqn:E; lia. Qed.

(** ** rfind('1') *)
Lemma rsplit1_none s : rsplit1 s = None <-> ~ In 49 s.
Proof.
  induction s as [|c s IH]; cbn [rsplit1 In]; [tauto|].
  destruct (rsplit1 s) as [[a b]|] eqn:E.
  - split; [discriminate|]. intros H. exfalso. apply H. right.
    destruct (in_dec Z.eq_dec 49 s) as [|Hn]; auto. apply IH in Hn. discriminate.
  - destruct (c =? 49) eqn:Ec.
    + split; [discriminate|]. intros H. exfalso. apply H. left. lia.
    + split; auto. intros _ [H|H]; [lia|]. apply IH in H; auto.
Qed.

Lemma rsplit1_some s a b : rsplit1 s = Some (a, b) <-> (s = a ++ [49] ++ b /\ ~ In 49 b).
Proof.
  revert a b; induction s as [|c s IH]; intros a b; cbn [rsplit1].
  - split; [discriminate|]. intros [H _]. destruct a; discriminate.
  - destruct (rsplit1 s) as [[a' b']|] eqn:E.
    + destruct (proj1 (IH a' b') eq_refl) as [E1 E2]. split.
      * intros [= <- <-]. subst s. auto.
      * intros [H1 H2]. destruct a as [|x a].
        -- cbn in H1. injection H1 as -> ->. exfalso. apply H2. rewrite E1. apply in_app_iff. right. left. auto.
        -- cbn in H1. injection H1 as <- H1. assert (Some (a', b') = Some (a, b)) as [= -> ->] by (apply IH; auto).
           reflexivity.
    + assert (Hn : ~ In 49 s) by (apply rsplit1_none; auto).
      destruct (c =? 49) eqn:Ec.
      * assert (c = 49) as -> by lia. split.
        -- intros [= <- <-]. auto.
        -- intros [H1 H2]. destruct a as [|x a]; cbn in H1; [congruence|].
           injection H1 as <- H1. exfalso. apply Hn. rewrite H1. apply in_app_iff. right. left. auto.
      * split; [discriminate|]. intros [H1 H2]. destruct a as [|x a]; cbn in H1; [injection H1 as -> _; lia|].
        injection H1 as <- H1. exfalso. apply Hn. rewrite H1. apply in_app_iff. right. left. auto.
Qed.

(** ** The spec remainder equals the packed remainder *)
Lemma gen_spec c0 : sym c0 -> map (gf32_mul c0) bip173_generator = groups6 (polymod_gen c0).
Proof.
  intros H. apply zlist_eqb_spec. revert c0 H. apply (sym_sweep (fun c0 => zlist_eqb _ _)).
  vm_compute. reflexivity.
Qed.

Lemma bev_xorw a b : word a -> word b -> length a = length b -> (length a <= 6)%nat ->
  bev 32 (xorw a b) = Z.lxor (bev 32 a) (bev 32 b).
Proof.
  intros Ha Hb Hl H6. assert (H0 : inb 30 0) by (split; [lia|reflexivity]).
  rewrite <- !run_small; auto; try lia.
  - rewrite (run_linear a Ha b 0 0 Hb Hl H0 H0). reflexivity.
  - apply xorw_word; auto.
  - rewrite xorw_length; auto.
Qed.

Lemma len6 {A} (r : list A) : length r = 6%nat -> exists a b c d e f, r = [a; b; c; d; e; f].
Proof.
  intros H. do 6 (destruct r as [|? r]; [discriminate|]). destruct r; [|discriminate].
  do 6 eexists. reflexivity.
Qed.

Lemma rem_step_spec r v : word r -> length r = 6%nat -> sym v ->
  word (rem_step r v) /\ length (rem_step r v) = 6%nat /\
  bev 32 (rem_step r v) = polymod_step (bev 32 r) v.
Proof.
  intros Hr Hl Hv. destruct (len6 r Hl) as (c0 & c1 & c2 & c3 & c4 & c5 & ->).
  assert (Hc0 : sym c0) by (inversion Hr; auto).
  assert (Hrest : word [c1; c2; c3; c4; c5]) by (inversion Hr; auto).
  assert (Hrv : word ([c1; c2; c3; c4; c5] ++ [v])) by (apply Forall_app; auto).
  destruct (groups6_spec (polymod_gen c0) (gen_inb c0 Hc0)) as (G1 & G2 & G3).
  assert (E : rem_step [c0; c1; c2; c3; c4; c5] v =
              xorw ([c1; c2; c3; c4; c5] ++ [v]) (groups6 (polymod_gen c0))).
  { rewrite <- gen_spec by auto. reflexivity. }
  rewrite E. split; [apply xorw_word; auto|]. split; [rewrite xorw_length; rewrite ?G2; reflexivity|].
  rewrite bev_xorw by (rewrite ?G2; auto). rewrite G3, bev_snoc.
  unfold polymod_step.
  assert (HB : 0 <= bev 32 [c1; c2; c3; c4; c5] < 2 ^ 25).
  { change (2 ^ 25) with (32 ^ zlen [c1; c2; c3; c4; c5]). apply bev_bound; [lia|exact Hrest]. }
  rewrite (bev_cons 32 c0). change (zlen [c1; c2; c3; c4; c5]) with 5. change (32 ^ 5) with (2 ^ 25).
  set (B := bev 32 [c1; c2; c3; c4; c5]) in *.
  destruct Hc0 as [Hc1 Hc2]. change (2 ^ 5) with 32 in Hc2.
  assert (Z.shiftr (c0 * 2 ^ 25 + B) 25 mod 256 = c0) as ->.
  { rewrite shiftr_div by lia. rewrite Z.div_add_l by lia. rewrite (Z.div_small B) by lia.
    rewrite Z.add_0_r. apply Z.mod_small. lia. }
  f_equal.
  change 33554431 with (Z.ones 25). rewrite Z.land_ones by lia.
  rewrite (Z.add_comm (c0 * 2 ^ 25) B), Z_mod_plus_full, (Z.mod_small B) by lia.
  rewrite <- step_small by (auto; split; lia).
  unfold polymod_step. assert (Z.shiftr B 25 = 0) as -> by (rewrite shiftr_div by lia; apply Z.div_small; lia).
  change (polymod_gen (0 mod 256)) with 0. rewrite Z.lxor_0_r.
  change 33554431 with (Z.ones 25). rewrite Z.land_ones, Z.mod_small by lia. reflexivity.
Qed.

Lemma remainder_spec w : word w ->
  word (bip173_remainder w) /\ length (bip173_remainder w) = 6%nat /\ bev 32 (bip173_remainder w) = polymod w.
Proof.
  intros Hw. unfold bip173_remainder, polymod.
  assert (forall r, word r -> length r = 6%nat ->
    word (fold_left rem_step w r) /\ length (fold_left rem_step w r) = 6%nat /\
    bev 32 (fold_left rem_step w r) = fold_left polymod_step w (bev 32 r)) as H.
  { induction Hw as [|v w Hv Hw IH]; intros r Hr Hl; [auto|].
    destruct (rem_step_spec r v Hr Hl Hv) as (E1 & E2 & E3).
    cbn [fold_left]. rewrite <- E3. apply IH; auto. }
  apply (H [0;0;0;0;0;1]); [|reflexivity].
  repeat constructor; try lia; reflexivity.
Qed.

Lemma hrp_symbols_eq hrp : expand_hrp hrp = hrp_symbols hrp.
Proof.
  unfold expand_hrp, hrp_symbols. f_equal; [|f_equal].
  - apply map_ext. intros c. rewrite shiftr_div by lia. reflexivity.
  - apply map_ext. intros c. change 31 with (Z.ones 5). rewrite Z.land_ones by lia. reflexivity.
Qed.

Lemma verify_spec hrp values : bytes_ok hrp -> word values ->
  (verify_checksum hrp values = true <->
   bip173_remainder (hrp_symbols hrp ++ values) = [0; 0; 0; 0; 0; 1]).
Proof.
  intros Hh Hv. rewrite <- hrp_symbols_eq.
  assert (Hw : word (expand_hrp hrp ++ values)) by (apply Forall_app; split; [apply expand_hrp_word; auto|auto]).
  destruct (remainder_spec _ Hw) as (E1 & E2 & E3). unfold verify_checksum. rewrite <- E3, Z.eqb_eq. split.
  - intros E. apply (bev_inj 32); [lia|exact E1|repeat constructor; lia|exact E2|exact E].
  - intros ->. reflexivity.
Qed.

(** ** Encoding *)
Lemma mapM_charset w : word w ->
  mapM (fun c => get_ub B32_CHARSET (Z.to_nat c)) w = Ok (map (fun v => nth (Z.to_nat v) alphabet 0) w).
Proof.
  intros Hw. apply mapM_ok_map. intros x Hx.
  assert (sym x) as H by (eapply Forall_forall in Hw; eauto).
  destruct (charset_ok x H) as (c & E1 & E2 & _). congruence.
Qed.

Lemma no_upper_iff s : no_upper s <-> existsb is_upper s = false.
Proof.
  unfold no_upper, is_upper. split.
  - intros H. destruct (existsb _ s) eqn:E; auto. apply existsb_exists in E as (c & Hc & E).
    eapply Forall_forall in H; eauto. lia.
  - intros E. apply Forall_forall. intros c Hc H. assert (existsb (fun c => (65 <=? c) && (c <=? 90)) s = true).
    { apply existsb_exists. exists c. split; auto. lia. } congruence.
Qed.

Lemma map_tolower_id s : no_upper s -> map tolower s = s.
Proof.
  induction 1 as [|c s Hc Hs IH]; [reflexivity|]. cbn. rewrite IH. f_equal.
  apply tolower_id. unfold is_upper. lia.
Qed.

Lemma encode_spec hrp payload : bytes_ok hrp -> bytes_ok payload -> no_upper hrp ->
  exists text, bech32_encode hrp payload = Ok text /\ is_bech32 hrp payload text.
Proof.
  intros Hh Hp Hu. unfold bech32_encode. rewrite (proj1 (no_upper_iff hrp) Hu).
  destruct (convertbits_pad 8 5 ltac:(lia) ltac:(lia) payload Hp) as (u & p & E1 & E2 & E3 & E4 & E5).
  rewrite E1. cbn [bind].
  destruct (checksum_spec hrp u Hh E2) as (C1 & C2 & C3).
  rewrite mapM_charset by (apply Forall_app; split; auto). cbn [bind].
  eexists. split; [reflexivity|]. exists u, (create_checksum hrp u). split.
  - split; [exact E2|]. exists p. auto.
  - split; [exact C1|]. split; [exact C2|]. split; [|reflexivity].
    apply verify_spec; auto. apply Forall_app; auto.
Qed.

Lemma encode_upper hrp payload : ~ no_upper hrp -> bech32_encode hrp payload = Throw.
Proof.
  intros H. unfold bech32_encode. destruct (existsb is_upper hrp) eqn:E; auto.
  exfalso. apply H. apply no_upper_iff; auto.
Qed.

(** ** Decoding *)
Lemma mapM_values_of_chars w : word w ->
  mapM b32_char_value (map (fun v => nth (Z.to_nat v) alphabet 0) w) = Ok w.
Proof.
  induction 1 as [|v w Hv Hw IH]; [reflexivity|]. cbn [map mapM].
  destruct (charset_ok v Hv) as (c & _ & E2 & _ & _ & _ & E7). rewrite <- E2, E7. cbn [bind].
  rewrite IH. reflexivity.
Qed.

Lemma mapM_values_inv d values : Forall (fun c => 0 <= c) d -> mapM b32_char_value d = Ok values ->
  word values /\ map (fun v => nth (Z.to_nat v) alphabet 0) values = map ascii_lower d /\ length values = length d.
Proof.
  intros Hd. revert values. induction Hd as [|c d Hc Hd IH]; intros values E; cbn [mapM] in E.
  - injection E as <-. split; [constructor|auto].
  - apply bind_ok in E as (v & Ev & E). apply bind_ok in E as (vs & Evs & [= <-]).
    destruct (char_value_ok c v Hc Ev) as (_ & Hv & Hn). destruct (IH vs Evs) as (I1 & I2 & I3).
    split; [constructor; auto|]. cbn [map List.length]. rewrite Hn, I2, I3. auto.
Qed.

Lemma regrouped_unique payload data payload' :
  bytes_ok payload -> bytes_ok payload' -> regrouped payload data -> regrouped payload' data -> payload = payload'.
Proof.
  intros H1 H2 (Hd & p & A1 & A2 & A3) (_ & p' & B1 & B2 & B3).
  assert (p = p') as <- by lia.
  apply (bev_inj 256); auto; try lia.
  - unfold zlen in *. lia.
  - assert (0 < 2 ^ p) by (apply Z.pow_pos_nonneg; lia). rewrite A3 in B3. nia.
Qed.

Lemma regrouped_iff payload data : bytes_ok payload ->
  (regrouped payload data <-> convertbits payload 8 5 true = Ok data).
Proof.
  intros Hp. destruct (convertbits_pad 8 5 ltac:(lia) ltac:(lia) payload Hp) as (u & p & E1 & E2 & E3 & E4 & E5).
  change (2 ^ 5) with 32 in *. change (2 ^ 8) with 256 in *.
  rewrite E1. split.
  - intros (Hd & p' & A1 & A2 & A3). f_equal. assert (p = p') as <- by lia.
    apply (bev_inj 32); auto; try lia. unfold zlen in *. lia.
  - intros [= <-]. split; [exact E2|]. exists p. auto.
Qed.

Lemma alphabet_not_49 w : word w -> ~ In 49 (map (fun v => nth (Z.to_nat v) alphabet 0) w).
Proof.
  intros Hw H. apply in_map_iff in H as (v & E & Hin).
  assert (sym v) as Hs by (eapply Forall_forall in Hw; eauto).
  destruct (charset_ok v Hs) as (c & _ & E2 & _ & _ & E6 & _). congruence.
Qed.

Lemma decode_of_spec s hrp payload : bytes_ok s -> hrp <> [] -> bytes_ok payload ->
  is_bech32 hrp payload (map ascii_lower s) -> bech32_decode s = Ok (hrp, payload).
Proof.
  intros Hs Hh Hp (data & cs & Hreg & Hcs & Hl & Hrem & Htext).
  assert (Hd : word data) by apply Hreg.
  assert (Hw : word (data ++ cs)) by (apply Forall_app; auto).
  assert (Hhb : bytes_ok hrp).
  { assert (bytes_ok (map ascii_lower s)) as Hm.
    { apply Forall_map. eapply Forall_impl; [|exact Hs]. intros c Hc. apply tolower_byte; auto. }
    rewrite Htext in Hm. apply bytes_ok_app in Hm. apply Hm. }
  unfold bech32_decode. change (map tolower s) with (map ascii_lower s). rewrite Htext.
  assert (rsplit1 (hrp ++ str "1" ++ map (fun v => nth (Z.to_nat v) alphabet 0) (data ++ cs)) =
          Some (hrp, map (fun v => nth (Z.to_nat v) alphabet 0) (data ++ cs))) as ->.
  { apply rsplit1_some. split; [reflexivity|]. apply alphabet_not_49; auto. }
  destruct (length hrp =? 0)%nat eqn:E0; [destruct hrp; [congruence|discriminate]|].
  rewrite map_length, app_length, Hl.
  destruct (length data + 6 <? 6)%nat eqn:E6; [lia|]. cbn [orb].
  rewrite mapM_values_of_chars by auto. cbn [bind].
  rewrite (proj2 (verify_spec hrp (data ++ cs) Hhb Hw) Hrem). cbn [negb].
  rewrite app_length, Hl. replace (length data + 6 - 6)%nat with (length data) by lia.
  rewrite firstn_app_exact by reflexivity.
  destruct (cb_8_5_8 payload Hp) as (u & U1 & U2 & U3).
  apply (regrouped_iff payload data Hp) in Hreg. rewrite U1 in Hreg. injection Hreg as <-.
  rewrite U3. reflexivity.
Qed.

Lemma decode_to_spec s hrp payload : bytes_ok s -> bech32_decode s = Ok (hrp, payload) ->
  hrp <> [] /\ bytes_ok hrp /\ bytes_ok payload /\ no_upper hrp /\ is_bech32 hrp payload (map ascii_lower s).
Proof.
  intros Hs E. unfold bech32_decode in E.
  assert (Hm : bytes_ok (map tolower s)).
  { apply Forall_map. eapply Forall_impl; [|exact Hs]. intros c Hc. apply tolower_byte; auto. }
  destruct (rsplit1 (map tolower s)) as [[h d]|] eqn:Esp; [|discriminate].
  apply rsplit1_some in Esp as [Esp Hno].
  destruct ((length h =? 0)%nat || (length d <? 6)%nat) eqn:El; [discriminate|].
  apply bind_ok in E as (values & Ev & E).
  destruct (verify_checksum h values) eqn:Evc; [|discriminate]. cbn [negb] in E.
  apply bind_ok in E as (packed & Ep & [= -> ->]).
  assert (Hmm : bytes_ok hrp /\ bytes_ok d).
  { rewrite Esp in Hm. apply bytes_ok_app in Hm as [A B]. apply bytes_ok_app in B as [_ B]. auto. }
  destruct Hmm as [Hhb Hdb].
  destruct (mapM_values_inv d values) as (V1 & V2 & V3); auto.
  { eapply Forall_impl; [|exact Hdb]. intros c Hc. unfold byte_ok in Hc. lia. }
  set (n := (length values - 6)%nat) in *.
  assert (Hsplit : values = firstn n values ++ skipn n values) by (symmetry; apply firstn_skipn).
  assert (W1 : word (firstn n values)) by (apply (digits_ok_firstn 32); auto).
  assert (W2 : word (skipn n values)) by (apply (digits_ok_skipn 32); auto).
  destruct (cb_5_8_5 _ _ W1 Ep) as [P1 P2].
  assert (Hup : no_upper hrp).
  { assert (no_upper (map tolower s)) as Hq.
    { apply Forall_map. apply Forall_forall. intros c _. pose proof (tolower_not_upper c) as T.
      unfold is_upper in T. lia. }
    rewrite Esp in Hq. unfold no_upper in Hq. apply Forall_app in Hq. apply Hq. }
  split; [intros ->; discriminate|]. split; [auto|]. split; [auto|]. split; [auto|].
  exists (firstn n values), (skipn n values). split; [apply regrouped_iff; auto|].
  split; [auto|]. split; [rewrite skipn_length; unfold n; lia|].
  rewrite <- Hsplit. split; [apply verify_spec; auto|].
  change (map ascii_lower s) with (map tolower s). rewrite Esp. cbn [app]. f_equal.
  change (49 :: d = 49 :: map (fun v => nth (Z.to_nat v) alphabet 0) values). f_equal.
  rewrite V2. symmetry. change (map tolower d = d). apply map_tolower_id.
  assert (no_upper (map tolower s)) as Hq.
  { apply Forall_map. apply Forall_forall. intros c _. pose proof (tolower_not_upper c) as T.
    unfold is_upper in T. lia. }
  rewrite Esp in Hq. unfold no_upper in Hq. apply Forall_app in Hq as [_ Hq].
  apply Forall_app in Hq. apply Hq.
Qed.

Lemma is_bech32_no_upper hrp payload text : no_upper hrp -> is_bech32 hrp payload text -> no_upper text.
Proof.
  intros Hu (data & cs & [Hd _] & Hcs & _ & _ & ->).
  unfold no_upper. apply Forall_app. split; [exact Hu|]. apply Forall_app. split; [repeat constructor; vm_compute; intros [? ?]; discriminate || lia|].
  apply Forall_map. assert (word (data ++ cs)) as Hw by (apply Forall_app; auto).
  eapply Forall_impl; [|exact Hw]. intros v Hv H.
  destruct (charset_ok v Hv) as (c & _ & E2 & _ & E5 & _). rewrite <- E2 in H. unfold is_upper in E5. lia.
Qed.

Lemma is_bech32_bytes hrp payload text : bytes_ok hrp -> is_bech32 hrp payload text -> bytes_ok text.
Proof.
  intros Hu (data & cs & [Hd _] & Hcs & _ & _ & ->).
  apply bytes_ok_app. split; [exact Hu|]. apply bytes_ok_app. split; [repeat constructor; vm_compute; intros; discriminate|].
  apply Forall_map. assert (word (data ++ cs)) as Hw by (apply Forall_app; auto).
  eapply Forall_impl; [|exact Hw]. intros v Hv.
  destruct (charset_ok v Hv) as (c & _ & E2 & E4 & _). cbv beta. rewrite <- E2. unfold byte_ok. lia.
Qed.

Lemma bech32_round_trip hrp payload : bytes_ok hrp -> bytes_ok payload -> no_upper hrp -> hrp <> [] ->
  exists text, bech32_encode hrp payload = Ok text /\ bech32_decode text = Ok (hrp, payload).
Proof.
  intros Hh Hp Hu Hne. destruct (encode_spec hrp payload Hh Hp Hu) as (text & E1 & E2).
  exists text. split; [exact E1|]. apply decode_of_spec; auto.
  - exact (is_bech32_bytes hrp payload text Hh E2).
  - assert (map ascii_lower text = text) as -> by (apply map_tolower_id; exact (is_bech32_no_upper hrp payload text Hu E2)).
    exact E2.
Qed.

Lemma is_bech32_det hrp payload t t' : bytes_ok hrp -> bytes_ok payload ->
  is_bech32 hrp payload t -> is_bech32 hrp payload t' -> t = t'.
Proof.
  intros Hh Hp (d & c & R1 & C1 & L1 & Q1 & ->) (d' & c' & R2 & C2 & L2 & Q2 & ->).
  assert (d = d') as <-.
  { apply (regrouped_iff payload) in R1, R2; auto. congruence. }
  do 2 f_equal. f_equal. f_equal.
  assert (Hd : word d) by apply R1.
  apply verify_spec in Q1, Q2; auto; try (apply Forall_app; auto).
  unfold verify_checksum in Q1, Q2. apply Z.eqb_eq in Q1, Q2.
  rewrite polymod_run in Q1, Q2.
  destruct (list_eq_dec Z.eq_dec c c') as [|Hne]; auto. exfalso.
  pose proof (expand_hrp_word hrp Hh) as He.
  assert (run 1 (expand_hrp hrp ++ d ++ c) <> run 1 (expand_hrp hrp ++ d ++ c')) as HH; [|congruence].
  rewrite !app_assoc. rewrite <- (app_nil_r c), <- (app_nil_r c').
  apply detect_syndrome; [exact one_inb|apply Forall_app; auto|exact C1|exact C2|constructor|congruence|].
  apply burst_syndrome; [exact C1|exact C2|congruence|lia|exact Hne].
Qed.

Lemma bech32_canonical s hrp payload : bytes_ok s -> bech32_decode s = Ok (hrp, payload) ->
  bech32_encode hrp payload = Ok (map ascii_lower s).
Proof.
  intros Hs E. destruct (decode_to_spec s hrp payload Hs E) as (H1 & H2 & H3 & H4 & H5).
  destruct (encode_spec hrp payload H2 H3 H4) as (text & E1 & E2). rewrite E1. f_equal.
  exact (is_bech32_det hrp payload _ _ H2 H3 E2 H5).
Qed.

(** ** Error detection on texts *)
Lemma decode_shape h d r : bytes_ok (h ++ str "1" ++ d) -> ~ In 49 d ->
  bech32_decode (h ++ str "1" ++ d) = Ok r ->
  exists values, mapM b32_char_value (map tolower d) = Ok values /\
    verify_checksum (map tolower h) values = true.
Proof.
  intros Hb Hno E. unfold bech32_decode in E.
  rewrite !map_app in E. change (map tolower (str "1")) with [49] in E.
  assert (rsplit1 (map tolower h ++ [49] ++ map tolower d) = Some (map tolower h, map tolower d)) as Hsp.
  { apply rsplit1_some. split; auto. intros H. apply in_map_iff in H as (c & Hc & Hin).
    apply (proj1 (tolower_49 c)) in Hc. subst c. exact (Hno Hin). }
  rewrite Hsp in E. destruct (_ || _); [discriminate|].
  apply bind_ok in E as (values & Ev & E). exists values. split; auto.
  destruct (verify_checksum (map tolower h) values); auto. discriminate.
Qed.

Lemma mapM_app {A B} (f : A -> outcome B) a b r : mapM f (a ++ b) = Ok r ->
  exists ra rb, mapM f a = Ok ra /\ mapM f b = Ok rb /\ r = ra ++ rb.
Proof.
  revert r; induction a as [|x a IH]; intros r E; cbn [app mapM] in E.
  - exists [], r. auto.
  - apply bind_ok in E as (y & Ey & E). apply bind_ok in E as (ys & Eys & [= <-]).
    destruct (IH ys Eys) as (ra & rb & E1 & E2 & ->). exists (y :: ra), rb. cbn [mapM].
    rewrite Ey. cbn [bind]. rewrite E1. auto.
Qed.

Lemma differing_weight u : forall u' vu vu', length u = length u' ->
  Forall (fun c => 0 <= c) (map tolower u) -> Forall (fun c => 0 <= c) (map tolower u') ->
  mapM b32_char_value (map tolower u) = Ok vu -> mapM b32_char_value (map tolower u') = Ok vu' ->
  weight (xorw vu vu') = differing u u'.
Proof.
  induction u as [|x u IH]; intros [|y u'] vu vu' Hl Hu Hu' E E'; try discriminate.
  - cbn in E, E'. injection E as <-. injection E' as <-. reflexivity.
  - cbn [map mapM] in E, E'. inversion Hu; subst. inversion Hu'; subst.
    apply bind_ok in E as (v & Ev & E). apply bind_ok in E as (vs & Evs & [= <-]).
    apply bind_ok in E' as (v' & Ev' & E'). apply bind_ok in E' as (vs' & Evs' & [= <-]).
    injection Hl as Hl. specialize (IH u' vs vs' Hl ltac:(auto) ltac:(auto) Evs Evs').
    unfold weight, xorw, differing in *. cbn [combine map filter fst snd].
    assert ((Z.lxor v v' =? 0) = (ascii_lower x =? ascii_lower y)) as ->.
    { destruct (char_value_ok (tolower x) _ ltac:(assumption) Ev) as (_ & S1 & N1).
      destruct (char_value_ok (tolower y) _ ltac:(assumption) Ev') as (_ & S2 & N2).
      change (ascii_lower (tolower x)) with (tolower (tolower x)) in N1.
      change (ascii_lower (tolower y)) with (tolower (tolower y)) in N2.
      rewrite tolower_idem in N1, N2. change (ascii_lower x) with (tolower x). change (ascii_lower y) with (tolower y).
      destruct (tolower x =? tolower y) eqn:Exy.
      - apply Z.eqb_eq in Exy. rewrite Exy in Ev. assert (v = v') as -> by congruence.
        rewrite Z.lxor_nilpotent. reflexivity.
      - apply Z.eqb_neq. intros Ex. apply Z.lxor_eq in Ex. subst v'. lia. }
    destruct (ascii_lower x =? ascii_lower y); cbn [negb List.length]; rewrite IH; reflexivity.
Qed.

Lemma burst_weight e : word e -> (length e <= 6)%nat -> (1 <= weight e)%nat -> run 0 e <> 0.
Proof.
  intros He Hl Hw E. rewrite run_small in E by auto. apply bev32_zero in E; auto.
  rewrite E in Hw. clear - Hw. unfold weight in Hw.
  replace (filter (fun x : Z => negb (x =? 0)) (repeat 0 (length e))) with (@nil Z) in Hw; [cbn in Hw; lia|].
  induction (length e) as [|n IH]; [reflexivity|]. exact (IH Hw).
Qed.

Lemma bech32_detects h p u u' q :
  let s := h ++ str "1" ++ p ++ u ++ q in
  let s' := h ++ str "1" ++ p ++ u' ++ q in
  bytes_ok s -> bytes_ok s' -> ~ In 49 (p ++ u ++ q) -> ~ In 49 u' ->
  length u = length u' ->
  (1 <= differing u u')%nat ->
  (length u <= 6 \/ (length u <= 1023 /\ differing u u' <= 3) \/ (length u <= 89 /\ differing u u' <= 4))%nat ->
  is_ok (bech32_decode s) = true -> is_ok (bech32_decode s') = false.
Proof.
  cbv zeta. intros Hs Hs' Hno Hno' Hl Hd Hwin Hok.
  destruct (bech32_decode (h ++ str "1" ++ p ++ u ++ q)) as [r| |] eqn:E; try discriminate.
  destruct (bech32_decode (h ++ str "1" ++ p ++ u' ++ q)) as [r'| |] eqn:E'; auto. exfalso.
  assert (Hno2 : ~ In 49 (p ++ u' ++ q)).
  { rewrite !in_app_iff in *. tauto. }
  destruct (decode_shape h _ r Hs Hno E) as (vs & V1 & V2).
  destruct (decode_shape h _ r' Hs' Hno2 E') as (vs' & V1' & V2').
  assert (Hbytes : forall x, bytes_ok x -> bytes_ok (map tolower x)).
  { intros x Hx. apply Forall_map. eapply Forall_impl; [|exact Hx]. intros c Hc. apply tolower_byte; auto. }
  assert (Hnn : forall x, bytes_ok x -> Forall (fun c => 0 <= c) (map tolower x)).
  { intros x Hx. eapply Forall_impl; [|exact (Hbytes x Hx)]. intros c Hc. unfold byte_ok in Hc. lia. }
  rewrite !map_app in V1, V1'.
  apply mapM_app in V1 as (vp & vr & A1 & A2 & ->). apply mapM_app in A2 as (vu & vq & A2 & A3 & ->).
  apply mapM_app in V1' as (vp' & vr' & B1 & B2 & ->). apply mapM_app in B2 as (vu' & vq' & B2 & B3 & ->).
  assert (vp' = vp) as -> by congruence. assert (vq' = vq) as -> by congruence.
  rewrite !bytes_ok_app in Hs, Hs'. destruct Hs as (Hh & _ & Hp & Hu & Hq). destruct Hs' as (_ & _ & _ & Hu' & _).
  destruct (mapM_values_inv _ _ (Hnn p Hp) A1) as (Wp & _ & _).
  destruct (mapM_values_inv _ _ (Hnn u Hu) A2) as (Wu & _ & Lu).
  destruct (mapM_values_inv _ _ (Hnn u' Hu') B2) as (Wu' & _ & Lu').
  destruct (mapM_values_inv _ _ (Hnn q Hq) A3) as (Wq & _ & _).
  rewrite map_length in Lu, Lu'.
  pose proof (differing_weight u u' vu vu' Hl (Hnn u Hu) (Hnn u' Hu') A2 B2) as Hw.
  unfold verify_checksum in V2, V2'. apply Z.eqb_eq in V2, V2'. rewrite polymod_run in V2, V2'.
  pose proof (expand_hrp_word (map tolower h) (Hbytes h Hh)) as He.
  assert (run 1 (expand_hrp (map tolower h) ++ vp ++ vu ++ vq) <> run 1 (expand_hrp (map tolower h) ++ vp ++ vu' ++ vq)) as HH; [|congruence].
  rewrite !(app_assoc (expand_hrp _)).
  assert (Wx : word (xorw vu vu')) by (apply xorw_word; auto).
  assert (Lx : length (xorw vu vu') = length u) by (rewrite xorw_length; lia).
  apply detect_syndrome; [exact one_inb|apply Forall_app; auto|exact Wu|exact Wu'|exact Wq|congruence|].
  - destruct Hwin as [H6|[[H3 H3']|[H4 H4']]].
    + apply burst_weight; auto; lia.
    + apply distance3; auto; lia.
    + apply distance4; auto; lia.
Qed.

(** ** No undefined behaviour on 7-bit texts *)
Lemma mapM_not_ub {A B} (f : A -> outcome B) l : (forall x, In x l -> f x <> UB) -> mapM f l <> UB.
Proof.
  induction l as [|x l IH]; intros H E; cbn [mapM] in E; [discriminate|].
  destruct (f x) eqn:Ex; cbn [bind] in E; try discriminate.
  - destruct (mapM f l) eqn:El; cbn [bind] in E; try discriminate. apply IH; auto. intros; apply H; right; auto.
  - apply (H x); auto. left; auto.
Qed.

Lemma decode_ascii_safe s : Forall (fun c => 0 <= c < 128) s -> bech32_decode s <> UB.
Proof.
  intros Hs E. unfold bech32_decode in E.
  destruct (rsplit1 (map tolower s)) as [[h d]|] eqn:Esp; [|discriminate].
  apply rsplit1_some in Esp as [Esp _].
  destruct (_ || _); [discriminate|].
  assert (Hm : Forall (fun c => 0 <= c < 128) (map tolower s)).
  { apply Forall_map. eapply Forall_impl; [|exact Hs]. cbv beta. intros c Hc. unfold tolower, is_upper.
    destruct ((65 <=? c) && (c <=? 90)) eqn:?; lia. }
  rewrite Esp in Hm. apply Forall_app in Hm as [_ Hm]. apply Forall_app in Hm as [_ Hm].
  destruct (mapM b32_char_value d) as [v| |] eqn:Em; cbn [bind] in E; try discriminate.
  - destruct (negb _); [discriminate|].
    destruct (mapM_values_inv d v) as (V1 & _ & _); auto.
    { eapply Forall_impl; [|exact Hm]. cbv beta. intros; lia. }
    destruct (convertbits (firstn (length v - 6) v) 5 8 false) eqn:Ec; cbn [bind] in E; try discriminate.
    revert Ec. apply cb_5_8_not_ub. apply (digits_ok_firstn 32); auto.
  - revert Em. apply mapM_not_ub. intros c Hc Hub. rewrite Forall_forall in Hm. specialize (Hm c Hc). cbv beta in Hm.
    pose proof (proj1 (char_value_ub c ltac:(lia)) Hub). lia.
Qed.

(** ** Exactly when the table is read out of range *)
Lemma mapM_ub_iff {A B} (f : A -> outcome B) l : mapM f l = UB <->
  exists d c q, l = d ++ c :: q /\ Forall (fun x => exists y, f x = Ok y) d /\ f c = UB.
Proof.
  induction l as [|x l IH]; cbn [mapM].
  - split; [discriminate|]. intros (d & c & q & E & _). destruct d; discriminate.
  - destruct (f x) as [y| |] eqn:E; cbn [bind].
    + split.
      * intros H. assert (Hm : mapM f l = UB) by (destruct (mapM f l); [discriminate|discriminate|reflexivity]).
        apply IH in Hm as (d & c & q & -> & Hd & Hc). exists (x :: d), c, q. repeat split; auto. constructor; eauto.
      * intros ([|x' d] & c & q & El & Hd & Hc).
        -- injection El as -> ->. congruence.
        -- injection El as -> ->. inversion Hd; subst.
           assert (Hm : mapM f (d ++ c :: q) = UB) by (apply IH; exists d, c, q; auto). rewrite Hm. reflexivity.
    + split; [discriminate|]. intros ([|x' d] & c & q & El & Hd & Hc); injection El as -> ->; [congruence|].
      inversion Hd as [|? ? [y Hy] ?]; congruence.
    + split; [|reflexivity]. intros _. exists [], x, l. repeat split; auto.
Qed.
Lemma char_value_alphabet c : 0 <= c < 256 -> ((exists y, b32_char_value (tolower c) = Ok y) <-> In (ascii_lower c) alphabet).
Proof.
  intros H. rewrite tolower_spec.
  assert (E : Bool.eqb (match b32_char_value (ascii_lower c) with Ok _ => true | _ => false end)
                       (existsb (Z.eqb (ascii_lower c)) alphabet) = true).
  { assert (Hr : 0 <= c < Z.of_nat 256) by lia. clear H. revert c Hr.
    apply (forallb_range (fun c => Bool.eqb (match b32_char_value (ascii_lower c) with Ok _ => true | _ => false end)
                       (existsb (Z.eqb (ascii_lower c)) alphabet)) 256). vm_compute. reflexivity. }
  apply Bool.eqb_prop in E. split.
  - intros (y & Hy). rewrite Hy in E. symmetry in E. apply existsb_exists in E as (z & Hz & Ez). apply Z.eqb_eq in Ez. congruence.
  - intros Hin. assert (Ht : existsb (Z.eqb (ascii_lower c)) alphabet = true) by (apply existsb_exists; exists (ascii_lower c); split; auto; apply Z.eqb_refl).
    rewrite Ht in E. destruct (b32_char_value (ascii_lower c)) as [y| |]; try discriminate. eauto.
Qed.
Lemma tolower_big c : 128 <= tolower c <-> 128 <= c.
Proof. unfold tolower, is_upper. destruct ((65 <=? c) && (c <=? 90)) eqn:E; lia. Qed.
Lemma map_app_inv {A B} (f : A -> B) l : forall u v, map f l = u ++ v -> exists a b, l = a ++ b /\ map f a = u /\ map f b = v.
Proof.
  induction l as [|x l IH]; intros u v H.
  - destruct u; [|discriminate]. cbn in H. exists [], []. auto.
  - destruct u as [|y u]; [exists [], (x :: l); auto|]. cbn [map app] in H. injection H as H1 H2.
    destruct (IH _ _ H2) as (a & b & -> & Ha & Hb). exists (x :: a), b. repeat split; auto. cbn [map]. congruence.
Qed.
Lemma decode_ub_iff text : bytes_ok text ->
  (bech32_decode text = UB <->
   exists h d c q, text = h ++ str "1" ++ d ++ c :: q /\ h <> [] /\ ~ In 49 (d ++ c :: q) /\
     (6 <= length (d ++ c :: q))%nat /\ Forall (fun x => In (ascii_lower x) alphabet) d /\ 128 <= c).
Proof.
  intros Hb.
  assert (Hlow : bytes_ok (map tolower text)).
  { unfold bytes_ok in *. apply Forall_map. eapply Forall_impl; [|exact Hb]. intros. apply tolower_byte; auto. }
  assert (K : bech32_decode text = UB <-> exists h d, rsplit1 (map tolower text) = Some (h, d) /\ h <> [] /\ (6 <= length d)%nat /\ mapM b32_char_value d = UB).
  { unfold bech32_decode. destruct (rsplit1 (map tolower text)) as [[h d]|] eqn:Es; [|split; [discriminate|intros (h & d & H & _); discriminate]].
    pose proof (proj1 (rsplit1_some _ _ _) Es) as [Est _].
    destruct ((length h =? 0)%nat || (length d <? 6)%nat) eqn:Eg.
    { split; [discriminate|]. intros (h' & d' & H & H1 & H2 & _). injection H as <- <-. apply orb_true_iff in Eg as [Eg|Eg].
      - apply Nat.eqb_eq in Eg. destruct h; [congruence|discriminate].
      - apply Nat.ltb_lt in Eg. lia. }
    apply orb_false_iff in Eg as [E1 E2]. apply Nat.eqb_neq in E1. apply Nat.ltb_ge in E2.
    destruct (mapM b32_char_value d) as [v| |] eqn:Em; cbn [bind].
    - split; [|intros (h' & d' & H & _ & _ & H'); injection H as <- <-; congruence].
      destruct (negb _); [discriminate|]. intros H. exfalso.
      rewrite Est in Hlow. apply bytes_ok_app in Hlow as [_ Hlow]. apply bytes_ok_app in Hlow as [_ Hlow].
      destruct (mapM_values_inv d v) as (V1 & _ & _); auto.
      { eapply Forall_impl; [|exact Hlow]. unfold byte_ok. intros; lia. }
      destruct (convertbits (firstn (length v - 6) v) 5 8 false) eqn:Ec; cbn [bind] in H; try discriminate.
      revert Ec. apply cb_5_8_not_ub. apply (digits_ok_firstn 32); auto.
    - split; [discriminate|]. intros (h' & d' & H & _ & _ & H'); injection H as <- <-; congruence.
    - split; [|reflexivity]. intros _. exists h, d. repeat split; auto. destruct h; [cbn in E1; congruence|discriminate]. }
  rewrite K. clear K. split.
  - intros (h & d & Es & Hh & Hl & Hm). apply rsplit1_some in Es as [Et Hn].
    apply mapM_ub_iff in Hm as (u & c & q & -> & Hu & Hc).
    apply map_app_inv in Et as (th & t2 & -> & E1 & Et). apply map_app_inv in Et as (t1 & td & -> & E2 & Et).
    apply map_app_inv in Et as (tu & tq & -> & E3 & Et). destruct tq as [|c0 tq]; [discriminate|].
    cbn [map] in Et. injection Et as E4 E5.
    destruct t1 as [|s1 [|? ?]]; try discriminate. cbn [map] in E2. assert (tolower s1 = 49) as E2' by congruence. apply (proj1 (tolower_49 s1)) in E2'. subst s1.
    exists th, tu, c0, tq. split; [reflexivity|].
    apply bytes_ok_app in Hb as [_ Hb]. apply bytes_ok_app in Hb as [_ Hb]. apply bytes_ok_app in Hb as [Hbu Hbq]. apply bytes_ok_cons in Hbq as [Hbc _].
    split; [intros ->; cbn in E1; congruence|].
    assert (Emap : map tolower (tu ++ c0 :: tq) = u ++ c :: q) by (rewrite map_app; cbn [map]; congruence).
    split. { intros Hin. apply Hn. rewrite <- Emap. change 49 with (tolower 49). apply in_map. exact Hin. }
    split. { rewrite <- Emap, map_length in Hl. exact Hl. }
    split.
    + subst u. apply Forall_forall. intros x Hx. rewrite Forall_map, Forall_forall in Hu. specialize (Hu x Hx).
      apply char_value_alphabet; auto. unfold bytes_ok in Hbu. rewrite Forall_forall in Hbu. exact (Hbu x Hx).
    + apply tolower_big. rewrite E4. apply char_value_ub; auto. unfold byte_ok in Hbc. subst c. unfold tolower. destruct (is_upper c0); lia.
  - intros (h & d & c & q & -> & Hh & Hn & Hl & Hd & Hc).
    exists (map tolower h), (map tolower (d ++ c :: q)).
    assert (Hn' : ~ In 49 (map tolower (d ++ c :: q))).
    { intros Hin. apply in_map_iff in Hin as (x & E & Hx). apply (proj1 (tolower_49 x)) in E. subst x. auto. }
    split; [apply rsplit1_some; split; [rewrite !map_app; reflexivity|exact Hn']|].
    split; [destruct h; [congruence|discriminate]|]. split; [rewrite map_length; exact Hl|].
    apply mapM_ub_iff. exists (map tolower d), (tolower c), (map tolower q).
    split; [rewrite map_app; reflexivity|].
    apply bytes_ok_app in Hb as [_ Hb]. apply bytes_ok_app in Hb as [_ Hb]. apply bytes_ok_app in Hb as [Hbd _].
    split.
    + apply Forall_map. apply Forall_forall. intros x Hx. rewrite Forall_forall in Hd. apply char_value_alphabet; auto.
      unfold bytes_ok in Hbd. rewrite Forall_forall in Hbd. exact (Hbd x Hx).
    + apply char_value_ub; [unfold tolower; destruct (is_upper c); lia|]. apply tolower_big. exact Hc.
Qed.
