From Verif Require Import BaseLemmas Model_Bech32 Spec_Bech32 Proof_Bech32 Model_Address Spec_Address.
Ltac Zify.zify_post_hook ::= idtac.

Definition nid_of (n : net) : network_id := match n with Mainnet => NID_mainnet | Testnet => NID_testnet end.

Lemma skipn_nth_cons {A} (l : list A) n a : nth_error l n = Some a -> skipn n l = a :: skipn (S n) l.
Proof.
  revert l; induction n as [|n IH]; intros [|x l] H; cbn in H; try discriminate.
  - injection H as ->. reflexivity.
  - change (skipn n l = a :: skipn (S n) l). auto.
Qed.

Lemma mapM_get_ub {A} (data : list A) off n : (off + n <= length data)%nat ->
  mapM (fun i => get_ub data (i + off)) (seq 0 n) = Ok (firstn n (skipn off data)).
Proof.
  intros H.
  assert (G : forall n s, (s + off + n <= length data)%nat ->
    mapM (fun i => get_ub data (i + off)) (seq s n) = Ok (firstn n (skipn (s + off) data))).
  { clear n H. induction n as [|n IH]; intros s H; [reflexivity|].
    cbn [seq mapM]. unfold get_ub at 1.
    destruct (nth_error data (s + off)) as [a|] eqn:E; [|apply nth_error_None in E; lia].
    cbn [bind]. rewrite IH by lia. cbn [bind].
    rewrite (skipn_nth_cons data (s + off) a) by assumption. reflexivity. }
  rewrite G by lia. reflexivity.
Qed.

Lemma mapM_ext {A B} (f g : A -> outcome B) l : (forall x, f x = g x) -> mapM f l = mapM g l.
Proof. intros H. induction l as [|x l IH]; [reflexivity|]. cbn. rewrite H, IH. reflexivity. Qed.

(** What each decoder does once the payload is known. *)
Lemma base_from_payload s hrp data : bech32_decode s = Ok (hrp, data) ->
  BaseAddress_fromBech32 s =
  match data with
  | h :: t => if (length t =? 56)%nat && (h / 16 =? 0)
              then Ok {| ba_header := h; ba_pmt := firstn 28 t; ba_stk := skipn 28 t |} else Throw
  | [] => Throw
  end.
Proof.
  intros E. unfold BaseAddress_fromBech32. rewrite E. cbn [bind].
  destruct data as [|h t]; [reflexivity|].
  change (length (h :: t)) with (S (length t)). unfold KEY_HASH_LENGTH.
  change (28 * 2 + 1)%nat with 57%nat. change (S (length t) =? 57)%nat with (length t =? 56)%nat.
  destruct (Nat.eqb_spec (length t) 56) as [L|L]; [|reflexivity]. cbn [negb andb].
  change (get_ub (h :: t) 0) with (Ok h). cbn [bind].
  unfold GetAddressType, ADDRESS_TYPE_BIT_SHIFT. rewrite shiftr_div by lia. change (2 ^ 4) with 16.
  unfold SHELLY_ADDR_PAYMENTKEYHASH_STAKEKEYHASH.
  destruct (h / 16 =? 0); [|reflexivity]. cbn [negb].
  rewrite mapM_get_ub by (cbn [length]; lia). cbn [bind].
  rewrite (mapM_ext _ (fun i => get_ub (h :: t) (i + 29))) by (intros; f_equal; lia).
  rewrite mapM_get_ub by (cbn [length]; lia). cbn [bind].
  change (skipn 1 (h :: t)) with t. change (skipn 29 (h :: t)) with (skipn 28 t).
  rewrite (firstn_all2 (n:=28) (skipn 28 t)) by (rewrite skipn_length; lia). reflexivity.
Qed.

Lemma ent_from_payload s hrp data : bech32_decode s = Ok (hrp, data) ->
  EnterpriseAddress_fromBech32 s =
  match data with
  | h :: t => if (length t =? 28)%nat && (h / 16 =? 6)
              then Ok {| ea_header := h; ea_hash := t |} else Throw
  | [] => Throw
  end.
Proof.
  intros E. unfold EnterpriseAddress_fromBech32. rewrite E. cbn [bind].
  destruct data as [|h t]; [reflexivity|].
  change (length (h :: t)) with (S (length t)). unfold KEY_HASH_LENGTH.
  change (28 + 1)%nat with 29%nat. change (S (length t) =? 29)%nat with (length t =? 28)%nat.
  destruct (Nat.eqb_spec (length t) 28) as [L|L]; [|reflexivity]. cbn [negb andb].
  change (get_ub (h :: t) 0) with (Ok h). cbn [bind].
  unfold GetAddressType, ADDRESS_TYPE_BIT_SHIFT. rewrite shiftr_div by lia. change (2 ^ 4) with 16.
  unfold SHELLY_ADDR_PAYMENTKEYHASH.
  destruct (h / 16 =? 6); [|reflexivity]. cbn [negb].
  rewrite mapM_get_ub by (cbn [length]; lia). cbn [bind].
  change (skipn 1 (h :: t)) with t. rewrite firstn_all2 by lia. reflexivity.
Qed.

Lemma rew_from_payload s hrp data : bech32_decode s = Ok (hrp, data) ->
  RewardsAddress_fromBech32 s =
  match data with
  | h :: t => if (length t =? 28)%nat && (h / 16 =? 14)
              then Ok {| ra_header := h; ra_hash := t |} else Throw
  | [] => Throw
  end.
Proof.
  intros E. unfold RewardsAddress_fromBech32. rewrite E. cbn [bind].
  destruct data as [|h t]; [reflexivity|].
  change (length (h :: t)) with (S (length t)). unfold KEY_HASH_LENGTH.
  change (28 + 1)%nat with 29%nat. change (S (length t) =? 29)%nat with (length t =? 28)%nat.
  destruct (Nat.eqb_spec (length t) 28) as [L|L]; [|reflexivity]. cbn [negb andb].
  change (get_ub (h :: t) 0) with (Ok h). cbn [bind].
  unfold GetAddressType, ADDRESS_TYPE_BIT_SHIFT. rewrite shiftr_div by lia. change (2 ^ 4) with 16.
  unfold STAKE_ADDR_STAKEKEYHASH.
  destruct (h / 16 =? 14); [|reflexivity]. cbn [negb].
  rewrite mapM_get_ub by (cbn [length]; lia). cbn [bind].
  change (skipn 1 (h :: t)) with t. rewrite firstn_all2 by lia. reflexivity.
Qed.

(** ** Acceptance, exactly *)
Lemma base_accepts s a : BaseAddress_fromBech32 s = Ok a <->
  exists hrp h p k, bech32_decode s = Ok (hrp, h :: p ++ k) /\ length p = 28%nat /\ length k = 28%nat /\
    h / 16 = 0 /\ a = {| ba_header := h; ba_pmt := p; ba_stk := k |}.
Proof.
  split.
  - intros H. destruct (bech32_decode s) as [[hrp data]| |] eqn:E.
    + rewrite (base_from_payload s hrp data E) in H. destruct data as [|h t]; [discriminate|].
      destruct (Nat.eqb_spec (length t) 56) as [L|L]; [|discriminate].
      destruct (Z.eqb_spec (h / 16) 0) as [T|T]; [|discriminate]. cbn [andb] in H. injection H as <-.
      exists hrp, h, (firstn 28 t), (skipn 28 t). rewrite firstn_skipn, firstn_length, skipn_length.
      repeat split; auto; lia.
    + unfold BaseAddress_fromBech32 in H. rewrite E in H. discriminate.
    + unfold BaseAddress_fromBech32 in H. rewrite E in H. discriminate.
  - intros (hrp & h & p & k & E & Lp & Lk & T & ->). rewrite (base_from_payload s hrp _ E).
    rewrite app_length, Lp, Lk, T. cbn [Nat.add Nat.eqb Z.eqb andb].
    rewrite firstn_app_exact, skipn_app_exact by auto. reflexivity.
Qed.

Lemma ent_accepts s a : EnterpriseAddress_fromBech32 s = Ok a <->
  exists hrp h k, bech32_decode s = Ok (hrp, h :: k) /\ length k = 28%nat /\ h / 16 = 6 /\
    a = {| ea_header := h; ea_hash := k |}.
Proof.
  split.
  - intros H. destruct (bech32_decode s) as [[hrp data]| |] eqn:E.
    + rewrite (ent_from_payload s hrp data E) in H. destruct data as [|h t]; [discriminate|].
      destruct (Nat.eqb_spec (length t) 28) as [L|L]; [|discriminate].
      destruct (Z.eqb_spec (h / 16) 6) as [T|T]; [|discriminate]. cbn [andb] in H. injection H as <-.
      exists hrp, h, t. repeat split; auto.
    + unfold EnterpriseAddress_fromBech32 in H. rewrite E in H. discriminate.
    + unfold EnterpriseAddress_fromBech32 in H. rewrite E in H. discriminate.
  - intros (hrp & h & k & E & Lk & T & ->). rewrite (ent_from_payload s hrp _ E).
    rewrite Lk, T. reflexivity.
Qed.

Lemma rew_accepts s a : RewardsAddress_fromBech32 s = Ok a <->
  exists hrp h k, bech32_decode s = Ok (hrp, h :: k) /\ length k = 28%nat /\ h / 16 = 14 /\
    a = {| ra_header := h; ra_hash := k |}.
Proof.
  split.
  - intros H. destruct (bech32_decode s) as [[hrp data]| |] eqn:E.
    + rewrite (rew_from_payload s hrp data E) in H. destruct data as [|h t]; [discriminate|].
      destruct (Nat.eqb_spec (length t) 28) as [L|L]; [|discriminate].
      destruct (Z.eqb_spec (h / 16) 14) as [T|T]; [|discriminate]. cbn [andb] in H. injection H as <-.
      exists hrp, h, t. repeat split; auto.
    + unfold RewardsAddress_fromBech32 in H. rewrite E in H. discriminate.
    + unfold RewardsAddress_fromBech32 in H. rewrite E in H. discriminate.
  - intros (hrp & h & k & E & Lk & T & ->). rewrite (rew_from_payload s hrp _ E).
    rewrite Lk, T. reflexivity.
Qed.

(** ** Round trips *)
Lemma no_upper_str s : existsb is_upper s = false -> no_upper s.
Proof.
  intros H. apply Forall_forall. intros c Hc Hr.
  assert (existsb is_upper s = true); [|congruence].
  apply existsb_exists. exists c. split; auto. unfold is_upper. lia.
Qed.

Lemma enc_dec hrp pay : bytes_okb hrp = true -> existsb is_upper hrp = false -> hrp <> [] -> bytes_ok pay ->
  exists text, bech32_encode hrp pay = Ok text /\ bech32_decode text = Ok (hrp, pay) /\ is_bech32 hrp pay text.
Proof.
  intros H1 H2 H3 H4. apply bytes_okb_spec in H1. apply no_upper_str in H2.
  destruct (bech32_round_trip hrp pay H1 H4 H2 H3) as (t & E & D).
  destruct (encode_spec hrp pay H1 H4 H2) as (t' & E' & S). exists t. repeat split; auto. congruence.
Qed.

Lemma base_round_trip n p k : hash28 p -> hash28 k ->
  exists text,
    BaseAddress_toBech32 (BaseAddress_mk (nid_of n) p k) = Ok text /\
    is_bech32 (cip5_addr n) (cip19_header TYPE_BASE n :: p ++ k) text /\
    BaseAddress_fromBech32 text = Ok (BaseAddress_mk (nid_of n) p k).
Proof.
  intros [Bp Lp] [Bk Lk].
  assert (B : bytes_ok (cip19_header TYPE_BASE n :: p ++ k)).
  { apply bytes_ok_cons. split; [destruct n; cbv; intuition discriminate|]. apply bytes_ok_app. auto. }
  destruct (enc_dec (cip5_addr n) (cip19_header TYPE_BASE n :: p ++ k)) as (t & E & D & S);
    [destruct n; reflexivity|destruct n; reflexivity|destruct n; discriminate|exact B|].
  exists t. repeat split; auto.
  - destruct n; exact E.
  - apply base_accepts. exists (cip5_addr n), (cip19_header TYPE_BASE n), p, k.
    repeat split; auto; destruct n; reflexivity.
Qed.

Lemma ent_round_trip n k : hash28 k ->
  exists text,
    EnterpriseAddress_toBech32 (EnterpriseAddress_mk (nid_of n) k) = Ok text /\
    is_bech32 (cip5_addr n) (cip19_header TYPE_ENTERPRISE n :: k) text /\
    EnterpriseAddress_fromBech32 text = Ok (EnterpriseAddress_mk (nid_of n) k).
Proof.
  intros [Bk Lk].
  assert (B : bytes_ok (cip19_header TYPE_ENTERPRISE n :: k)).
  { apply bytes_ok_cons. split; [destruct n; cbv; intuition discriminate|]. auto. }
  destruct (enc_dec (cip5_addr n) (cip19_header TYPE_ENTERPRISE n :: k)) as (t & E & D & S);
    [destruct n; reflexivity|destruct n; reflexivity|destruct n; discriminate|exact B|].
  exists t. repeat split; auto.
  - destruct n; exact E.
  - apply ent_accepts. exists (cip5_addr n), (cip19_header TYPE_ENTERPRISE n), k.
    repeat split; auto; destruct n; reflexivity.
Qed.

Lemma rew_round_trip n k : hash28 k ->
  exists text,
    RewardsAddress_toBech32 (RewardsAddress_mk (nid_of n) k) = Ok text /\
    is_bech32 (cip5_stake n) (cip19_header TYPE_REWARDS n :: k) text /\
    RewardsAddress_fromBech32 text = Ok (RewardsAddress_mk (nid_of n) k).
Proof.
  intros [Bk Lk].
  assert (B : bytes_ok (cip19_header TYPE_REWARDS n :: k)).
  { apply bytes_ok_cons. split; [destruct n; cbv; intuition discriminate|]. auto. }
  destruct (enc_dec (cip5_stake n) (cip19_header TYPE_REWARDS n :: k)) as (t & E & D & S);
    [destruct n; reflexivity|destruct n; reflexivity|destruct n; discriminate|exact B|].
  exists t. repeat split; auto.
  - destruct n; exact E.
  - apply rew_accepts. exists (cip5_stake n), (cip19_header TYPE_REWARDS n), k.
    repeat split; auto; destruct n; reflexivity.
Qed.

Lemma base_bytes n p k :
  BaseAddress_toBytes (BaseAddress_mk (nid_of n) p k) = cip19_header TYPE_BASE n :: p ++ k /\
  BaseAddress_toBytesRaw (BaseAddress_mk (nid_of n) p k) = p ++ k.
Proof. destruct n; split; reflexivity. Qed.
Lemma ent_bytes n k :
  EnterpriseAddress_toBytes (EnterpriseAddress_mk (nid_of n) k) = cip19_header TYPE_ENTERPRISE n :: k /\
  EnterpriseAddress_toBytesRaw (EnterpriseAddress_mk (nid_of n) k) = k.
Proof. destruct n; split; reflexivity. Qed.
Lemma rew_bytes n k :
  RewardsAddress_toBytes (RewardsAddress_mk (nid_of n) k) = cip19_header TYPE_REWARDS n :: k /\
  RewardsAddress_toBytesRaw (RewardsAddress_mk (nid_of n) k) = k.
Proof. destruct n; split; reflexivity. Qed.

(** ** Exclusivity *)
Lemma kinds_exclusive s :
  ~ (is_ok (BaseAddress_fromBech32 s) = true /\ is_ok (EnterpriseAddress_fromBech32 s) = true) /\
  ~ (is_ok (BaseAddress_fromBech32 s) = true /\ is_ok (RewardsAddress_fromBech32 s) = true) /\
  ~ (is_ok (EnterpriseAddress_fromBech32 s) = true /\ is_ok (RewardsAddress_fromBech32 s) = true).
Proof.
  destruct (BaseAddress_fromBech32 s) as [a| |] eqn:Ea, (EnterpriseAddress_fromBech32 s) as [b| |] eqn:Eb,
    (RewardsAddress_fromBech32 s) as [c| |] eqn:Ec; repeat split; intros [Ha Hb]; try discriminate.
  all: try apply base_accepts in Ea as (? & ? & ? & ? & Ea & ? & ? & ? & _).
  all: try apply ent_accepts in Eb as (? & ? & ? & Eb & ? & ? & _).
  all: try apply rew_accepts in Ec as (? & ? & ? & Ec & ? & ? & _).
  all: try rewrite Ea in Eb; try rewrite Ea in Ec; try rewrite Eb in Ec.
  all: try (injection Eb as ? ? Eb; apply (f_equal (@List.length Z)) in Eb; rewrite app_length in Eb; lia).
  all: try (injection Ec as ? ? Ec; apply (f_equal (@List.length Z)) in Ec; rewrite app_length in Ec; lia).
  all: try (injection Ec as ? ? ?; subst; lia).
Qed.

(** ** A text with the right prefix is reproduced *)
Lemma prefix_ok_reproduced s hrp pay : bytes_ok s -> bech32_decode s = Ok (hrp, pay) ->
  bech32_encode hrp pay = Ok (map ascii_lower s).
Proof. intros B E. apply bech32_canonical; auto. Qed.

Lemma land15 a : Z.land a 15 = a mod 16.
Proof. change 15 with (Z.ones 4). rewrite land_ones_mod by lia. reflexivity. Qed.

Lemma hdr_tag h ty n : h = 16 * ty + net_tag n ->
  (GetNetworkTag h =? NETWORK_TAG_MAINNET) = match n with Mainnet => true | Testnet => false end.
Proof.
  intros ->. unfold GetNetworkTag, NETWORK_TAG_BIT_MASK, NETWORK_TAG_MAINNET. rewrite land15.
  rewrite Z.mul_comm, Z.add_comm, Z.mod_add by lia. destruct n; reflexivity.
Qed.

Lemma base_reproduced s a n : bytes_ok s -> BaseAddress_fromBech32 s = Ok a ->
  ba_header a = cip19_header TYPE_BASE n -> (exists pay, bech32_decode s = Ok (cip5_addr n, pay)) ->
  BaseAddress_toBech32 a = Ok (map ascii_lower s).
Proof.
  intros B E Hh [pay D]. apply base_accepts in E as (hrp & h & p & k & E & _ & _ & _ & ->).
  rewrite E in D. injection D as -> <-. apply prefix_ok_reproduced in E; auto.
  unfold BaseAddress_toBech32, BaseAddress_toBytes. cbn [ba_header ba_pmt ba_stk] in *.
  rewrite (hdr_tag h TYPE_BASE n) by (rewrite Hh; reflexivity). destruct n; exact E.
Qed.
Lemma ent_reproduced s a n : bytes_ok s -> EnterpriseAddress_fromBech32 s = Ok a ->
  ea_header a = cip19_header TYPE_ENTERPRISE n -> (exists pay, bech32_decode s = Ok (cip5_addr n, pay)) ->
  EnterpriseAddress_toBech32 a = Ok (map ascii_lower s).
Proof.
  intros B E Hh [pay D]. apply ent_accepts in E as (hrp & h & k & E & _ & _ & ->).
  rewrite E in D. injection D as -> <-. apply prefix_ok_reproduced in E; auto.
  unfold EnterpriseAddress_toBech32, EnterpriseAddress_toBytes. cbn [ea_header ea_hash] in *.
  rewrite (hdr_tag h TYPE_ENTERPRISE n) by (rewrite Hh; reflexivity). destruct n; exact E.
Qed.
Lemma rew_reproduced s a n : bytes_ok s -> RewardsAddress_fromBech32 s = Ok a ->
  ra_header a = cip19_header TYPE_REWARDS n -> (exists pay, bech32_decode s = Ok (cip5_stake n, pay)) ->
  RewardsAddress_toBech32 a = Ok (map ascii_lower s).
Proof.
  intros B E Hh [pay D]. apply rew_accepts in E as (hrp & h & k & E & _ & _ & ->).
  rewrite E in D. injection D as -> <-. apply prefix_ok_reproduced in E; auto.
  unfold RewardsAddress_toBech32, RewardsAddress_toBytes. cbn [ra_header ra_hash] in *.
  rewrite (hdr_tag h TYPE_REWARDS n) by (rewrite Hh; reflexivity). destruct n; exact E.
Qed.

(** ** Chain pointers *)
Lemma land127 a : Z.land a 127 = a mod 128.
Proof. change 127 with (Z.ones 7). rewrite land_ones_mod by lia. reflexivity. Qed.
Lemma lor128 a : 0 <= a < 128 -> Z.lor 128 a = 128 + a.
Proof. intros H. change 128 with (1 * 2 ^ 7) at 1. rewrite lor_shift_add by (change (2 ^ 7) with 128; lia). reflexivity. Qed.

Lemma cp_loop_spec fuel v out : 0 <= v < 128 ^ Z.of_nat fuel ->
  exists ds, cp_loop (S fuel) v out = Ok (map (fun x => 128 + x) ds ++ out) /\ digits_ok 128 ds /\
    bev 128 ds = v /\ (ds <> [] -> hd 0 ds <> 0) /\ (0 < v -> ds <> []).
Proof.
  revert v out; induction fuel as [|f IH]; intros v out Hv.
  - change (128 ^ Z.of_nat 0) with 1 in Hv. assert (v = 0) as -> by lia.
    exists []. repeat split; try constructor; try congruence. lia.
  - change (cp_loop (S (S f)) v out) with
      (if 0 <? v then cp_loop (S f) (Z.shiftr v 7) (Z.lor 128 (Z.land v 127) :: out) else Ok out).
    destruct (Z.ltb_spec 0 v) as [P|P].
    + rewrite shiftr_div, land127, lor128 by (try apply Z.mod_pos_bound; lia). change (2 ^ 7) with 128.
      assert (Hv' : 0 <= v / 128 < 128 ^ Z.of_nat f).
      { rewrite Nat2Z.inj_succ, Z.pow_succ_r in Hv by lia. split; [apply Z.div_pos; lia|].
        apply Z.div_lt_upper_bound; lia. }
      destruct (IH (v / 128) (128 + v mod 128 :: out) Hv') as (ds & E & D & V & H & N).
      rewrite E. exists (ds ++ [v mod 128]).
      rewrite map_app, <- app_assoc. cbn [map app]. split; [reflexivity|].
      split; [apply digits_ok_app; split; [exact D|]; apply digits_ok_cons; split; [apply Z.mod_pos_bound; lia|constructor]|].
      split; [rewrite bev_snoc, V; rewrite (Z.div_mod v 128) at 3; lia|].
      split; [|intros _; destruct ds; discriminate].
      intros _. destruct ds as [|d ds].
      * cbn [app hd]. change (bev 128 []) with 0 in V. intros Z0.
        rewrite (Z.div_mod v 128) in P by lia. rewrite <- V, Z0 in P. lia.
      * cbn [app hd]. apply H. discriminate.
    + assert (v = 0) as -> by lia. exists []. repeat split; try constructor; try congruence. lia.
Qed.

Lemma cp_field_spec v out : 0 <= v < 2 ^ 64 ->
  exists bs, cp_field v out = Ok (bs ++ out) /\ is_varlen v bs.
Proof.
  intros Hv. unfold cp_field. rewrite land127, shiftr_div by lia. change (2 ^ 7) with 128.
  destruct (cp_loop_spec 9 (v / 128) (v mod 128 :: out)) as (ds & E & D & V & H & N).
  { split; [apply Z.div_pos; lia|]. apply Z.div_lt_upper_bound; [lia|].
    change (128 * 128 ^ Z.of_nat 9) with (2 ^ 70). lia. }
  exists (map (fun x => 128 + x) ds ++ [v mod 128]). rewrite <- app_assoc. split; [exact E|].
  exists ds, (v mod 128). repeat split.
  - apply digits_ok_app; split; [exact D|]. apply digits_ok_cons; split; [apply Z.mod_pos_bound; lia|constructor].
  - rewrite bev_snoc, V. rewrite (Z.div_mod v 128) at 3; lia.
  - exact H.
Qed.

Lemma varlen_prefix_free : forall ds ds' d d' r r',
  digits_ok 128 ds -> digits_ok 128 ds' -> 0 <= d < 128 -> 0 <= d' < 128 ->
  map (fun x => 128 + x) ds ++ d :: r = map (fun x => 128 + x) ds' ++ d' :: r' ->
  ds = ds' /\ d = d' /\ r = r'.
Proof.
  induction ds as [|x ds IH]; intros [|y ds'] d d' r r' D D' Hd Hd' E; cbn [map app] in E.
  - injection E as -> ->. auto.
  - apply digits_ok_cons in D' as [Hy _]. apply (f_equal (hd 0)) in E. cbn [hd] in E. lia.
  - apply digits_ok_cons in D as [Hx _]. apply (f_equal (hd 0)) in E. cbn [hd] in E. lia.
  - apply digits_ok_cons in D as [Hx D]. apply digits_ok_cons in D' as [Hy D'].
    pose proof (f_equal (hd 0) E) as E1. pose proof (f_equal (@tl Z) E) as E2. cbn [hd tl] in E1, E2.
    destruct (IH ds' d d' r r') as (-> & -> & ->); auto.
    repeat split; auto. f_equal. lia.
Qed.

Lemma is_varlen_split v v' bs bs' r r' : is_varlen v bs -> is_varlen v' bs' -> bs ++ r = bs' ++ r' ->
  v = v' /\ bs = bs' /\ r = r'.
Proof.
  intros (ds & d & D & V & -> & _) (ds' & d' & D' & V' & -> & _) E.
  apply digits_ok_app in D as [D Dd]. apply digits_ok_cons in Dd as [Dd _].
  apply digits_ok_app in D' as [D' Dd']. apply digits_ok_cons in Dd' as [Dd' _].
  rewrite <- !app_assoc in E. cbn [app] in E.
  destruct (varlen_prefix_free ds ds' d d' r r') as (-> & -> & ->); auto.
  repeat split; congruence.
Qed.

Definition cp_ok (p : chain_pointer) : Prop :=
  0 <= cp_slot p < 2 ^ 64 /\ 0 <= cp_tx p < 2 ^ 64 /\ 0 <= cp_cert p < 2 ^ 64.

Lemma cp_spec p : cp_ok p -> exists s t c, cp_toBytes p = Ok (s ++ t ++ c) /\
  is_varlen (cp_slot p) s /\ is_varlen (cp_tx p) t /\ is_varlen (cp_cert p) c.
Proof.
  intros (H1 & H2 & H3). unfold cp_toBytes.
  destruct (cp_field_spec (cp_cert p) [] H3) as (c & -> & Vc). cbn [bind].
  destruct (cp_field_spec (cp_tx p) (c ++ []) H2) as (t & -> & Vt). cbn [bind].
  destruct (cp_field_spec (cp_slot p) (t ++ c ++ []) H1) as (s & -> & Vs).
  exists s, t, c. rewrite app_nil_r. auto.
Qed.

Lemma cp_injective p q r r' bs bs' : cp_ok p -> cp_ok q ->
  cp_toBytes p = Ok bs -> cp_toBytes q = Ok bs' -> bs ++ r = bs' ++ r' -> p = q /\ r = r'.
Proof.
  intros Hp Hq Ep Eq E.
  destruct (cp_spec p Hp) as (s & t & c & Ep' & Vs & Vt & Vc).
  destruct (cp_spec q Hq) as (s' & t' & c' & Eq' & Vs' & Vt' & Vc').
  rewrite Ep in Ep'. injection Ep' as ->. rewrite Eq in Eq'. injection Eq' as ->.
  rewrite <- !app_assoc in E.
  destruct (is_varlen_split _ _ _ _ _ _ Vs Vs' E) as (A1 & -> & E2).
  destruct (is_varlen_split _ _ _ _ _ _ Vt Vt' E2) as (A2 & -> & E3).
  destruct (is_varlen_split _ _ _ _ _ _ Vc Vc' E3) as (A3 & -> & E4).
  destruct p, q; cbn in *; subst; auto.
Qed.

(** ** The prefix is not looked at *)
Lemma prefix_ignored hrp hrp' pay t t' : bytes_ok hrp -> bytes_ok hrp' -> bytes_ok pay -> no_upper hrp -> no_upper hrp' -> hrp <> [] -> hrp' <> [] ->
  bech32_encode hrp pay = Ok t -> bech32_encode hrp' pay = Ok t' ->
  BaseAddress_fromBech32 t = BaseAddress_fromBech32 t' /\ EnterpriseAddress_fromBech32 t = EnterpriseAddress_fromBech32 t' /\
  RewardsAddress_fromBech32 t = RewardsAddress_fromBech32 t'.
Proof.
  intros B B' P U U' N N' E E'.
  destruct (bech32_round_trip hrp pay B P U N) as (x & Ex & Dx). destruct (bech32_round_trip hrp' pay B' P U' N') as (y & Ey & Dy).
  assert (x = t) by congruence. assert (y = t') by congruence. subst x y.
  unfold BaseAddress_fromBech32, EnterpriseAddress_fromBech32, RewardsAddress_fromBech32. rewrite Dx, Dy. cbn [bind]. auto.
Qed.
Lemma encode_shape hrp pay t : bech32_encode hrp pay = Ok t -> exists d, t = hrp ++ [49] ++ d /\ ~ In 49 d.
Proof.
  unfold bech32_encode. destruct (existsb is_upper hrp); [discriminate|].
  destruct (convertbits pay 8 5 true) as [u| |]; cbn [bind]; try discriminate.
  destruct (mapM _ _) as [c| |] eqn:E; cbn [bind]; try discriminate. intros H. exists c. split; [congruence|].
  clear H. revert c E. generalize (u ++ create_checksum hrp u). induction l as [|x l IH]; intros c E; cbn [mapM] in E.
  - assert (c = []) by congruence. subst. auto.
  - destruct (get_ub B32_CHARSET (Z.to_nat x)) as [y| |] eqn:Ey; cbn [bind] in E; try discriminate.
    destruct (mapM _ l) as [r| |]; cbn [bind] in E; try discriminate.
    assert (c = y :: r) by congruence. subst c. intros [H|H].
    + subst y. unfold get_ub in Ey. destruct (nth_error B32_CHARSET (Z.to_nat x)) eqn:En; [|discriminate].
      assert (z = 49) by congruence. subst z. apply nth_error_In in En. revert En. vm_compute. intuition discriminate.
    + exact (IH r eq_refl H).
Qed.
Lemma encode_prefix_inj hrp hrp' pay pay' t : bech32_encode hrp pay = Ok t -> bech32_encode hrp' pay' = Ok t -> hrp = hrp'.
Proof.
  intros H H'. apply encode_shape in H as (d & -> & Nd). apply encode_shape in H' as (d' & E & Nd').
  pose proof (proj2 (rsplit1_some (hrp ++ [49] ++ d) hrp d) (conj eq_refl Nd)) as R.
  pose proof (proj2 (rsplit1_some (hrp ++ [49] ++ d) hrp' d') (conj E Nd')) as R'. congruence.
Qed.
Lemma tag_is_one h : (GetNetworkTag h =? NETWORK_TAG_MAINNET) = (h mod 16 =? 1).
Proof. unfold GetNetworkTag, NETWORK_TAG_BIT_MASK, NETWORK_TAG_MAINNET. rewrite land15. reflexivity. Qed.
Lemma reproduced_gen s hrp pay want : bytes_ok s -> bech32_decode s = Ok (hrp, pay) ->
  (bech32_encode want pay = Ok (map ascii_lower s) <-> hrp = want).
Proof.
  intros B E. pose proof (prefix_ok_reproduced s hrp pay B E) as R. split; [|intros <-; exact R].
  intros H. exact (encode_prefix_inj _ _ _ _ _ R H).
Qed.
Lemma base_reproduced_iff s a hrp pay : bytes_ok s -> BaseAddress_fromBech32 s = Ok a -> bech32_decode s = Ok (hrp, pay) ->
  (BaseAddress_toBech32 a = Ok (map ascii_lower s) <-> hrp = cip5_addr (tag_net (ba_header a))).
Proof.
  intros B E D. apply base_accepts in E as (hrp' & h & p & k & E & _ & _ & _ & ->).
  assert (pay = h :: p ++ k) by congruence. subst pay. unfold BaseAddress_toBech32, BaseAddress_toBytes, tag_net. cbn [ba_header ba_pmt ba_stk].
  rewrite tag_is_one. destruct (h mod 16 =? 1); cbn [cip5_addr]; apply (reproduced_gen s); auto.
Qed.
Lemma ent_reproduced_iff s a hrp pay : bytes_ok s -> EnterpriseAddress_fromBech32 s = Ok a -> bech32_decode s = Ok (hrp, pay) ->
  (EnterpriseAddress_toBech32 a = Ok (map ascii_lower s) <-> hrp = cip5_addr (tag_net (ea_header a))).
Proof.
  intros B E D. apply ent_accepts in E as (hrp' & h & k & E & _ & _ & ->).
  assert (pay = h :: k) by congruence. subst pay. unfold EnterpriseAddress_toBech32, EnterpriseAddress_toBytes, tag_net. cbn [ea_header ea_hash].
  rewrite tag_is_one. destruct (h mod 16 =? 1); cbn [cip5_addr]; apply (reproduced_gen s); auto.
Qed.
Lemma rew_reproduced_iff s a hrp pay : bytes_ok s -> RewardsAddress_fromBech32 s = Ok a -> bech32_decode s = Ok (hrp, pay) ->
  (RewardsAddress_toBech32 a = Ok (map ascii_lower s) <-> hrp = cip5_stake (tag_net (ra_header a))).
Proof.
  intros B E D. apply rew_accepts in E as (hrp' & h & k & E & _ & _ & ->).
  assert (pay = h :: k) by congruence. subst pay. unfold RewardsAddress_toBech32, RewardsAddress_toBytes, tag_net. cbn [ra_header ra_hash].
  rewrite tag_is_one. destruct (h mod 16 =? 1); cbn [cip5_stake]; apply (reproduced_gen s); auto.
Qed.
