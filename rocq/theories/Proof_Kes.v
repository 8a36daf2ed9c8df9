From Verif Require Import BaseLemmas Model_Hex Proof_Hex Model_Kes Spec_Kes.
Ltac Zify.zify_post_hook ::= idtac.

(** ** Buffers *)
Lemma sub_ub_mid a b c off n : off = length a -> n = length b -> sub_ub (a ++ b ++ c) off n = Ok b.
Proof.
  intros -> ->. unfold sub_ub. rewrite !app_length.
  destruct (Nat.ltb_spec (length a + (length b + length c)) (length a + length b)); [lia|].
  rewrite skipn_app_exact, firstn_app_exact by reflexivity. reflexivity.
Qed.
Lemma blit_mid a b b' c off : off = length a -> length b = length b' ->
  blit (a ++ b ++ c) off b' = Ok (a ++ b' ++ c).
Proof.
  intros -> L. unfold blit. rewrite !app_length.
  destruct (Nat.ltb_spec (length a + (length b + length c)) (length a + length b')); [lia|].
  rewrite firstn_app_exact by reflexivity. f_equal. f_equal. f_equal.
  rewrite app_assoc. apply skipn_app_exact. rewrite app_length. lia.
Qed.
Lemma sub_ub_head b c n : n = length b -> sub_ub (b ++ c) 0 n = Ok b.
Proof. intros Hn. apply (sub_ub_mid [] b c); auto. Qed.
Lemma blit_head b b' c : length b = length b' -> blit (b ++ c) 0 b' = Ok (b' ++ c).
Proof. intros Hn. apply (blit_mid [] b b' c); auto. Qed.
Lemma zeros_length n : length (zeros n) = n.
Proof. apply repeat_length. Qed.
Lemma zeros_app a b : zeros (a + b) = zeros a ++ zeros b.
Proof. apply repeat_app. Qed.
Lemma sk_size_S e : sk_size (S e) = (sk_size e + 96)%nat.
Proof. unfold sk_size. lia. Qed.
Lemma sig_size_S e : sig_size (S e) = (sig_size e + 64)%nat.
Proof. unfold sig_size. lia. Qed.
Lemma csig_size_S e : csig_size (S e) = (csig_size e + 32)%nat.
Proof. unfold csig_size. lia. Qed.

Lemma split_at {A} n (l : list A) : (n <= length l)%nat -> exists a b, l = a ++ b /\ length a = n.
Proof. intros H. exists (firstn n l), (skipn n l). rewrite firstn_skipn, firstn_length. split; [reflexivity|lia]. Qed.

Lemma half_val e : (e <= 31)%nat -> kd_half (S e) = 2 ^ Z.of_nat e.
Proof.
  intros H. unfold kd_half. replace (Z.of_nat (S e) - 1) with (Z.of_nat e) by lia.
  apply Z.mod_small. split; [apply Z.pow_nonneg; lia|]. apply Z.pow_lt_mono_r; lia.
Qed.
Lemma total_val e : (e <= 31)%nat -> kd_total e = 2 ^ Z.of_nat e.
Proof.
  intros H. unfold kd_total. apply Z.mod_small. split; [apply Z.pow_nonneg; lia|]. apply Z.pow_lt_mono_r; lia.
Qed.
Lemma pow_S e : 2 ^ Z.of_nat (S e) = 2 * 2 ^ Z.of_nat e.
Proof. rewrite Nat2Z.inj_succ, Z.pow_succ_r by lia. reflexivity. Qed.
Lemma pow_pos e : 0 < 2 ^ Z.of_nat e.
Proof. apply Z.pow_pos_nonneg; lia. Qed.
Lemma pow_small e : (e <= 31)%nat -> 2 ^ Z.of_nat e < 2 ^ 32.
Proof. intros H. apply Z.pow_lt_mono_r; lia. Qed.

Section Kes.
Variable H : list Z -> list Z.
Variable ed_pk : list Z -> list Z.
Variable ed_sign : list Z -> list Z -> list Z.
Variable ed_verify : list Z -> list Z -> list Z -> bool.
Hypothesis C : kes_crypto H ed_pk ed_sign ed_verify.

Notation keygen_buffer := (keygen_buffer H ed_pk).
Notation update_buffer := (update_buffer H ed_pk).
Notation kes_update := (kes_update H ed_pk).
Notation kes_updates := (kes_updates H ed_pk).
Notation kes_keygen := (kes_keygen H ed_pk).
Notation vk := (vk H ed_pk).
Notation lseed := (lseed H).
Notation rseed := (rseed H).
Notation seed_at := (seed_at H).

Lemma seed_left_eq s : seed_left H s = lseed s. Proof. reflexivity. Qed.
Lemma seed_right_eq s : seed_right H s = rseed s. Proof. reflexivity. Qed.
Lemma lseed_len s : length (lseed s) = 32%nat. Proof. apply (H_len _ _ _ _ C). Qed.
Lemma rseed_len s : length (rseed s) = 32%nat. Proof. apply (H_len _ _ _ _ C). Qed.
Lemma vk_len d s : length (vk d s) = 32%nat.
Proof. destruct d; [apply (pk_len _ _ _ _ C)|apply (H_len _ _ _ _ C)]. Qed.

(** ** The stored key at period [p], as a function of the seed *)
Fixpoint state (d : nat) (s : list Z) (p : Z) : list Z :=
  match d with
  | O => s
  | S e =>
      (if p <? 2 ^ Z.of_nat e then state e (lseed s) p ++ rseed s
       else state e (rseed s) (p - 2 ^ Z.of_nat e) ++ zeros 32)
      ++ vk e (lseed s) ++ vk e (rseed s)
  end.

Lemma state_len d s p : length s = 32%nat -> length (state d s p) = sk_size d.
Proof.
  revert s p; induction d as [|e IH]; intros s p L; cbn [state]; [rewrite L; reflexivity|].
  rewrite !app_length, !vk_len, sk_size_S.
  destruct (p <? 2 ^ Z.of_nat e); rewrite app_length, IH, ?zeros_length, ?rseed_len; auto using lseed_len, rseed_len; lia.
Qed.

(** ** keygen *)
Lemma keygen_some d : forall buf s, length buf = sk_size d -> length s = 32%nat ->
  keygen_buffer d buf (Some s) = Ok (state d s 0, vk d s).
Proof.
  induction d as [|e IH]; intros buf s Lb Ls.
  - cbn [Model_Kes.keygen_buffer]. change (sk_size 0) with 32%nat in *. rewrite Ls, Nat.eqb_refl. cbn [negb].
    replace buf with (buf ++ []) by (rewrite app_nil_r; reflexivity).
    rewrite (blit_head buf s) by lia. cbn [bind]. rewrite app_nil_r. reflexivity.
  - cbn [Model_Kes.keygen_buffer]. rewrite Lb, Ls, !Nat.eqb_refl. cbn [negb bind].
    rewrite seed_left_eq, seed_right_eq. rewrite sk_size_S in Lb.
    destruct (split_at (sk_size e) buf) as (a & t & -> & La); [lia|]. rewrite app_length in Lb.
    destruct (split_at 32 t) as (b & t2 & -> & Lb2); [lia|]. rewrite app_length in Lb.
    destruct (split_at 32 t2) as (c & d0 & -> & Lc); [lia|]. rewrite app_length in Lb.
    rewrite blit_mid by (rewrite ?rseed_len; lia). cbn [bind].
    rewrite (sub_ub_head a) by (auto; lia). cbn [bind].
    rewrite IH by (auto using lseed_len; lia). cbn [bind].
    rewrite (blit_head a) by (rewrite ?state_len; auto using lseed_len; lia). cbn [bind app].
    rewrite IH by (rewrite ?zeros_length; auto using rseed_len). cbn [bind].
    replace (state e (lseed s) 0 ++ rseed s ++ c ++ d0) with ((state e (lseed s) 0 ++ rseed s) ++ c ++ d0)
      by (rewrite <- app_assoc; reflexivity).
    rewrite blit_mid by (rewrite ?app_length, ?state_len, ?rseed_len, ?vk_len; auto using lseed_len; lia). cbn [bind].
    replace ((state e (lseed s) 0 ++ rseed s) ++ vk e (lseed s) ++ d0)
      with (((state e (lseed s) 0 ++ rseed s) ++ vk e (lseed s)) ++ d0 ++ []) by (rewrite app_nil_r, <- !app_assoc; reflexivity).
    rewrite blit_mid by (rewrite ?app_length, ?state_len, ?rseed_len, ?vk_len; auto using lseed_len; lia). cbn [bind].
    rewrite app_nil_r. cbn [state]. pose proof (pow_pos e). destruct (Z.ltb_spec 0 (2 ^ Z.of_nat e)); [|lia].
    rewrite <- !app_assoc. reflexivity.
Qed.

Lemma keygen_none d x s : length x = sk_size d -> length s = 32%nat ->
  keygen_buffer d (x ++ s) None = Ok (state d s 0 ++ zeros 32, vk d s).
Proof.
  intros Lx Ls. destruct d as [|e].
  - cbn [Model_Kes.keygen_buffer]. change (sk_size 0) with 32%nat in *. rewrite app_length, Lx, Ls. cbn [Nat.add Nat.eqb negb].
    replace (x ++ s) with (x ++ s ++ []) by (rewrite app_nil_r; reflexivity).
    rewrite sub_ub_mid by lia. cbn [bind]. rewrite blit_mid by (rewrite ?zeros_length; lia). cbn [bind].
    rewrite (blit_head x) by (auto; lia). cbn [bind]. rewrite app_nil_r. reflexivity.
  - cbn [Model_Kes.keygen_buffer]. rewrite app_length, Lx, Ls, Nat.eqb_refl. cbn [negb].
    replace (x ++ s) with (x ++ s ++ []) by (rewrite app_nil_r; reflexivity).
    rewrite sub_ub_mid by lia. cbn [bind]. rewrite blit_mid by (rewrite ?zeros_length; lia). cbn [bind].
    rewrite app_nil_r, seed_left_eq, seed_right_eq. rewrite sk_size_S in Lx.
    destruct (split_at (sk_size e) x) as (a & t & -> & La); [lia|]. rewrite app_length in Lx.
    destruct (split_at 32 t) as (b & t2 & -> & Lb2); [lia|]. rewrite app_length in Lx.
    destruct (split_at 32 t2) as (c & d0 & -> & Lc); [lia|]. rewrite app_length in Lx.
    rewrite <- !app_assoc.
    rewrite blit_mid by (rewrite ?rseed_len; lia). cbn [bind].
    rewrite (sub_ub_head a) by (auto; lia). cbn [bind].
    rewrite keygen_some by (auto using lseed_len; lia). cbn [bind].
    rewrite (blit_head a) by (rewrite ?state_len; auto using lseed_len; lia). cbn [bind app].
    rewrite keygen_some by (rewrite ?zeros_length; auto using rseed_len). cbn [bind].
    replace (state e (lseed s) 0 ++ rseed s ++ c ++ d0 ++ zeros 32)
      with ((state e (lseed s) 0 ++ rseed s) ++ c ++ (d0 ++ zeros 32)) by (rewrite <- app_assoc; reflexivity).
    rewrite blit_mid by (rewrite ?app_length, ?state_len, ?rseed_len, ?vk_len; auto using lseed_len; lia). cbn [bind].
    replace ((state e (lseed s) 0 ++ rseed s) ++ vk e (lseed s) ++ d0 ++ zeros 32)
      with (((state e (lseed s) 0 ++ rseed s) ++ vk e (lseed s)) ++ d0 ++ zeros 32) by (rewrite <- !app_assoc; reflexivity).
    rewrite blit_mid by (rewrite ?app_length, ?state_len, ?rseed_len, ?vk_len; auto using lseed_len; lia). cbn [bind].
    cbn [state]. pose proof (pow_pos e). destruct (Z.ltb_spec 0 (2 ^ Z.of_nat e)); [|lia].
    rewrite <- !app_assoc. reflexivity.
Qed.

(** ** update *)
Lemma update_spec d : (d <= 31)%nat -> forall s p extra, length s = 32%nat -> 0 <= p ->
  p + 1 < 2 ^ Z.of_nat d ->
  update_buffer d (state d s p ++ extra) p = (state d s (p + 1) ++ extra, Ok tt).
Proof.
  induction d as [|e IH]; intros Hd s p extra Ls Hp Hlt; [change (2 ^ Z.of_nat 0) with 1 in Hlt; lia|].
  pose proof (pow_pos e). pose proof (pow_small e ltac:(lia)). pose proof (pow_small (S e) ltac:(lia)).
  cbn [Model_Kes.update_buffer]. rewrite total_val, half_val by lia.
  rewrite (Z.mod_small (p + 1)) by lia. rewrite pow_S in *.
  destruct (Z.eqb_spec (p + 1) (2 * 2 ^ Z.of_nat e)); [lia|].
  destruct (Z.ltb_spec (p + 1) (2 ^ Z.of_nat e)) as [A|A].
  - cbn [state]. destruct (Z.ltb_spec p (2 ^ Z.of_nat e)); [|lia]. destruct (Z.ltb_spec (p + 1) (2 ^ Z.of_nat e)); [|lia].
    rewrite <- !app_assoc. rewrite firstn_app_exact, skipn_app_exact by (rewrite state_len; auto using lseed_len).
    rewrite app_length, state_len by apply lseed_len.
    destruct (Nat.ltb_spec (sk_size e + length (rseed s ++ vk e (lseed s) ++ vk e (rseed s) ++ extra)) (sk_size e)); [lia|].
    specialize (IH ltac:(lia) (lseed s) p [] (lseed_len s) Hp ltac:(lia)). rewrite !app_nil_r in IH. rewrite IH. reflexivity.
  - destruct (Z.eqb_spec (p + 1) (2 ^ Z.of_nat e)) as [B|B].
    + cbn [state]. destruct (Z.ltb_spec p (2 ^ Z.of_nat e)); [|lia]. destruct (Z.ltb_spec (p + 1) (2 ^ Z.of_nat e)); [lia|].
      rewrite <- !app_assoc.
      replace (state e (lseed s) p ++ rseed s ++ vk e (lseed s) ++ vk e (rseed s) ++ extra)
        with ((state e (lseed s) p ++ rseed s) ++ vk e (lseed s) ++ vk e (rseed s) ++ extra) by (rewrite <- app_assoc; reflexivity).
      rewrite firstn_app_exact, skipn_app_exact by (rewrite app_length, state_len, rseed_len; auto using lseed_len).
      rewrite app_length, app_length, state_len, rseed_len by apply lseed_len.
      destruct (Nat.ltb_spec (sk_size e + 32 + length (vk e (lseed s) ++ vk e (rseed s) ++ extra)) (sk_size e + 32)); [lia|].
      rewrite keygen_none by (try apply state_len; auto using lseed_len, rseed_len).
      replace (p + 1 - 2 ^ Z.of_nat e) with 0 by lia. rewrite <- !app_assoc. reflexivity.
    + cbn [state]. destruct (Z.ltb_spec p (2 ^ Z.of_nat e)); [lia|]. destruct (Z.ltb_spec (p + 1) (2 ^ Z.of_nat e)); [lia|].
      rewrite <- !app_assoc. rewrite firstn_app_exact, skipn_app_exact by (rewrite state_len; auto using rseed_len).
      rewrite app_length, state_len by apply rseed_len.
      destruct (Nat.ltb_spec (sk_size e + length (zeros 32 ++ vk e (lseed s) ++ vk e (rseed s) ++ extra)) (sk_size e)); [lia|].
      rewrite Z.mod_small by lia.
      specialize (IH ltac:(lia) (rseed s) (p - 2 ^ Z.of_nat e) [] (rseed_len s) ltac:(lia) ltac:(lia)).
      rewrite !app_nil_r in IH. rewrite IH. replace (p + 1 - 2 ^ Z.of_nat e) with (p - 2 ^ Z.of_nat e + 1) by lia. reflexivity.
Qed.

Lemma update_last d buf p : (d <= 31)%nat -> p + 1 = 2 ^ Z.of_nat d -> update_buffer d buf p = (buf, Throw).
Proof.
  intros Hd Hp. destruct d as [|e]; [reflexivity|]. cbn [Model_Kes.update_buffer].
  rewrite total_val by lia. pose proof (pow_small (S e) ltac:(lia)). pose proof (pow_pos (S e)).
  rewrite Hp, Z.mod_small, Z.eqb_refl by lia. reflexivity.
Qed.

(** The key object after [u] updates. *)
Definition key_at (d : nat) (s : list Z) (u : Z) : kes_key :=
  {| prv := state d s u ++ pack_be 4 u; period_ := u |}.

Lemma key_period d s u : length s = 32%nat -> 0 <= u < 2 ^ 32 -> (d = 0%nat -> u = 0) ->
  kes_period d (key_at d s u) = Ok u.
Proof.
  intros Ls Hu H0. destruct d as [|e]; [rewrite H0 by reflexivity; reflexivity|].
  unfold kes_period, key_at. cbn [prv]. rewrite app_length, pack_be_length.
  replace (state (S e) s u ++ pack_be 4 u) with (state (S e) s u ++ pack_be 4 u ++ []) by (rewrite app_nil_r; reflexivity).
  rewrite sub_ub_mid by (rewrite ?pack_be_length; lia). cbn [bind]. rewrite pack_unpack_be; [reflexivity|].
  change (256 ^ Z.of_nat 4) with (2 ^ 32). lia.
Qed.

Lemma update_step d s u : (d <= 31)%nat -> length s = 32%nat -> 0 <= u -> u + 1 < 2 ^ Z.of_nat d ->
  kes_update d (key_at d s u) = (key_at d s (u + 1), Ok tt).
Proof.
  intros Hd Ls Hu Hlt. pose proof (pow_small d Hd).
  destruct d as [|e]; [change (2 ^ Z.of_nat 0) with 1 in Hlt; lia|].
  unfold Model_Kes.kes_update. rewrite key_period by (auto; try lia; discriminate).
  rewrite (Z.mod_small u) by lia. unfold key_at at 1. cbn [prv]. rewrite update_spec by auto.
  replace (state (S e) s (u + 1) ++ pack_be 4 u) with (state (S e) s (u + 1) ++ pack_be 4 u ++ []) by (rewrite app_nil_r; reflexivity).
  rewrite blit_mid by (rewrite ?state_len, ?pack_be_length; auto).
  rewrite app_nil_r, Z.mod_small by lia. reflexivity.
Qed.

Lemma update_end d s u : (d <= 31)%nat -> length s = 32%nat -> 0 <= u -> u + 1 = 2 ^ Z.of_nat d ->
  kes_update d (key_at d s u) = (key_at d s u, Throw).
Proof.
  intros Hd Ls Hu Hlt. pose proof (pow_small d Hd).
  destruct d as [|e]; [reflexivity|].
  unfold Model_Kes.kes_update. rewrite key_period by (auto; try lia; discriminate).
  rewrite (Z.mod_small u) by lia. rewrite update_last by auto. reflexivity.
Qed.

Lemma keygen_spec d kb s : length kb = (sk_size d + 4)%nat -> length s = 32%nat ->
  kes_keygen d kb s = Ok (key_at d s 0, vk d s, zeros 32).
Proof.
  intros Lk Ls. unfold Model_Kes.kes_keygen. rewrite Lk, Ls, !Nat.eqb_refl. cbn [negb].
  destruct (split_at (sk_size d) kb) as (a & b & -> & La); [lia|]. rewrite app_length in Lk.
  assert (E : match d with
    | O => let* kb := blit (a ++ b) 0 s in Ok (kb, ed_pk s)
    | S _ => let* main := sub_ub (a ++ b) 0 (sk_size d) in
             let* (main, pk) := keygen_buffer d main (Some s) in
             let* kb := blit (a ++ b) 0 main in Ok (kb, pk)
    end = Ok (state d s 0 ++ b, vk d s)).
  { destruct d as [|e].
    - change (sk_size 0) with 32%nat in *. rewrite (blit_head a) by (auto; lia). reflexivity.
    - rewrite (sub_ub_head a) by (auto; lia). cbn [bind]. rewrite keygen_some by auto. cbn [bind].
      rewrite (blit_head a) by (rewrite ?state_len; auto; lia). reflexivity. }
  rewrite E. cbn [bind].
  replace (state d s 0 ++ b) with (state d s 0 ++ b ++ []) by (rewrite app_nil_r; reflexivity).
  rewrite blit_mid by (rewrite ?state_len, ?pack_be_length; auto; lia). cbn [bind]. rewrite app_nil_r.
  unfold kes_of_bytes. rewrite app_length, state_len, pack_be_length by auto.
  rewrite Nat.eqb_refl. rewrite andb_false_r.
  destruct (Nat.eqb_spec (sk_size d + 4) (sk_size d)); [lia|]. reflexivity.
Qed.

Lemma updates_spec d s (u : nat) : (d <= 31)%nat -> length s = 32%nat -> Z.of_nat u < 2 ^ Z.of_nat d ->
  kes_updates u d (key_at d s 0) = Ok (key_at d s (Z.of_nat u)).
Proof.
  intros Hd Ls. induction u as [|u IH]; intros Hu; [reflexivity|].
  cbn [Model_Kes.kes_updates]. rewrite IH by lia. cbn [bind].
  rewrite update_step by (auto; lia). replace (Z.of_nat (S u)) with (Z.of_nat u + 1) by lia. reflexivity.
Qed.

(** ** Signatures *)
Fixpoint sig_at (d : nat) (s : list Z) (p : Z) (m : list Z) : list Z :=
  match d with
  | O => ed_sign s m
  | S e => (if p <? 2 ^ Z.of_nat e then sig_at e (lseed s) p m else sig_at e (rseed s) (p - 2 ^ Z.of_nat e) m)
           ++ vk e (lseed s) ++ vk e (rseed s)
  end.
Lemma sig_at_len d s p m : length (sig_at d s p m) = sig_size d.
Proof.
  revert s p; induction d as [|e IH]; intros s p; cbn [sig_at]; [apply (sign_len _ _ _ _ C)|].
  rewrite !app_length, !vk_len, sig_size_S. destruct (p <? _); rewrite IH; lia.
Qed.

Lemma sign_spec d s p m extra : length s = 32%nat -> (d = 0%nat -> extra = []) ->
  sign_from_buffer ed_sign d (state d s p ++ extra) m = Ok (sig_at d s p m).
Proof.
  revert s p extra; induction d as [|e IH]; intros s p extra Ls Hx.
  - rewrite Hx by reflexivity. cbn [sign_from_buffer state sig_at]. rewrite app_nil_r, Ls. cbn [Nat.eqb negb].
    rewrite firstn_all2 by lia. unfold sig_of_bytes. rewrite (sign_len _ _ _ _ C). reflexivity.
  - clear Hx. cbn [sign_from_buffer].
    set (sd := if p <? 2 ^ Z.of_nat e then lseed s else rseed s).
    set (q := if p <? 2 ^ Z.of_nat e then p else p - 2 ^ Z.of_nat e).
    set (o := if p <? 2 ^ Z.of_nat e then rseed s else zeros 32).
    assert (St : state (S e) s p = state e sd q ++ o ++ vk e (lseed s) ++ vk e (rseed s)).
    { subst sd q o. cbn [state]. destruct (p <? 2 ^ Z.of_nat e); rewrite <- !app_assoc; reflexivity. }
    assert (Sg : sig_at (S e) s p m = sig_at e sd q m ++ vk e (lseed s) ++ vk e (rseed s)).
    { subst sd q. cbn [sig_at]. destruct (p <? 2 ^ Z.of_nat e); reflexivity. }
    assert (Lsd : length sd = 32%nat) by (subst sd; destruct (p <? _); auto using lseed_len, rseed_len).
    assert (Lo : length o = 32%nat) by (subst o; destruct (p <? _); auto using rseed_len, zeros_length).
    rewrite St, Sg. clear St Sg. clearbody sd q o.
    pose proof (state_len e sd q Lsd) as Lst. pose proof (sig_at_len e sd q m) as Lsg.
    rewrite <- !app_assoc.
    rewrite (sub_ub_head (state e sd q)) by (auto; lia). cbn [bind].
    specialize (IH sd q [] Lsd (fun _ => eq_refl)). rewrite app_nil_r in IH. rewrite IH. cbn [bind].
    rewrite sig_size_S. rewrite zeros_app.
    change (zeros 64) with (zeros 32 ++ zeros 32).
    rewrite (blit_head (zeros (sig_size e))) by (rewrite ?zeros_length; auto; lia). cbn [bind app].
    rewrite sk_size_S.
    replace (state e sd q ++ o ++ vk e (lseed s) ++ vk e (rseed s) ++ extra)
      with ((state e sd q ++ o) ++ vk e (lseed s) ++ (vk e (rseed s) ++ extra)) by (rewrite <- !app_assoc; reflexivity).
    rewrite sub_ub_mid by (rewrite ?app_length, ?vk_len; lia). cbn [bind].
    replace ((state e sd q ++ o) ++ vk e (lseed s) ++ (vk e (rseed s) ++ extra))
      with (((state e sd q ++ o) ++ vk e (lseed s)) ++ vk e (rseed s) ++ extra) by (rewrite <- !app_assoc; reflexivity).
    rewrite sub_ub_mid by (rewrite ?app_length, ?vk_len; lia). cbn [bind].
    rewrite blit_mid by (rewrite ?zeros_length, ?vk_len; lia). cbn [bind].
    replace (sig_at e sd q m ++ vk e (lseed s) ++ zeros 32)
      with ((sig_at e sd q m ++ vk e (lseed s)) ++ zeros 32 ++ []) by (rewrite app_nil_r, <- !app_assoc; reflexivity).
    rewrite blit_mid by (rewrite ?app_length, ?zeros_length, ?vk_len; lia). cbn [bind].
    rewrite app_nil_r. unfold sig_of_bytes. rewrite !app_length, !vk_len, Lsg, sig_size_S.
    rewrite <- Nat.add_assoc. cbn [Nat.add]. rewrite Nat.eqb_refl. cbn [negb]. rewrite <- !app_assoc. reflexivity.
Qed.

Lemma kes_sign_spec d s u m : length s = 32%nat ->
  kes_sign ed_sign d (key_at d s u) m = Ok (sig_at d s u m).
Proof.
  intros Ls. destruct d as [|e].
  - unfold kes_sign, key_at. cbn [prv state sig_at].
    rewrite (sub_ub_head s) by (auto; lia). cbn [bind]. unfold sig_of_bytes. rewrite (sign_len _ _ _ _ C). reflexivity.
  - unfold kes_sign, key_at. cbn [prv]. apply sign_spec; auto. discriminate.
Qed.

(** Verification of the signature of period [p] at period [q]: the two halves. *)
Lemma verify_step e s p q m pk : (e <= 31)%nat ->
  sig_verify H ed_verify (S e) (sig_at (S e) s p m) q pk m =
  if zlist_eqb (vk (S e) s) pk then
    let sigma := if p <? 2 ^ Z.of_nat e then sig_at e (lseed s) p m else sig_at e (rseed s) (p - 2 ^ Z.of_nat e) m in
    if q <? 2 ^ Z.of_nat e then sig_verify H ed_verify e sigma q (vk e (lseed s)) m
    else sig_verify H ed_verify e sigma ((q - 2 ^ Z.of_nat e) mod 2 ^ 32) (vk e (rseed s)) m
  else Throw.
Proof.
  intros He. cbn [sig_verify sig_at]. rewrite half_val by exact He.
  set (sigma := if p <? 2 ^ Z.of_nat e then _ else _).
  assert (Ls : length sigma = sig_size e) by (subst sigma; destruct (p <? _); apply sig_at_len).
  clearbody sigma. rewrite !app_length, !vk_len, Ls.
  rewrite sub_ub_mid by (rewrite ?vk_len; lia). cbn [bind].
  replace (sigma ++ vk e (lseed s) ++ vk e (rseed s)) with ((sigma ++ vk e (lseed s)) ++ vk e (rseed s) ++ [])
    by (rewrite app_nil_r, <- app_assoc; reflexivity).
  rewrite sub_ub_mid by (rewrite ?app_length, ?vk_len; lia). cbn [bind].
  change (hash_pair H (vk e (lseed s)) (vk e (rseed s))) with (vk (S e) s).
  destruct (zlist_eqb (vk (S e) s) pk); [|reflexivity]. cbn [negb].
  rewrite app_nil_r, <- app_assoc. rewrite (sub_ub_head sigma) by (auto; lia). cbn [bind].
  unfold sig_of_bytes. rewrite Ls, Nat.eqb_refl. reflexivity.
Qed.

Lemma verify_ok d : (d <= 31)%nat -> forall s p m, 0 <= p < 2 ^ Z.of_nat d ->
  sig_verify H ed_verify d (sig_at d s p m) p (vk d s) m = Ok true.
Proof.
  induction d as [|e IH]; intros Hd s p m Hp.
  - cbn [sig_verify sig_at Spec_Kes.vk]. rewrite (sign_ok _ _ _ _ C). reflexivity.
  - rewrite verify_step by lia. rewrite zlist_eqb_refl. rewrite pow_S in Hp. cbv zeta.
    pose proof (pow_small e ltac:(lia)). pose proof (pow_pos e).
    destruct (Z.ltb_spec p (2 ^ Z.of_nat e)).
    + apply IH; lia.
    + rewrite Z.mod_small by lia. apply IH; lia.
Qed.

(** At every period from the last one on, the signature of the last period verifies. *)
Lemma verify_beyond d : (d <= 31)%nat -> forall s q m, 2 ^ Z.of_nat d - 1 <= q < 2 ^ 32 ->
  sig_verify H ed_verify d (sig_at d s (2 ^ Z.of_nat d - 1) m) q (vk d s) m = Ok true.
Proof.
  induction d as [|e IH]; intros Hd s q m Hq.
  - cbn [sig_verify sig_at Spec_Kes.vk]. rewrite (sign_ok _ _ _ _ C). reflexivity.
  - rewrite verify_step by lia. rewrite zlist_eqb_refl. rewrite pow_S in *. cbv zeta.
    pose proof (pow_small e ltac:(lia)). pose proof (pow_pos e).
    destruct (Z.ltb_spec (2 * 2 ^ Z.of_nat e - 1) (2 ^ Z.of_nat e)); [lia|].
    destruct (Z.ltb_spec q (2 ^ Z.of_nat e)); [lia|].
    rewrite Z.mod_small by lia.
    replace (2 * 2 ^ Z.of_nat e - 1 - 2 ^ Z.of_nat e) with (2 ^ Z.of_nat e - 1) by lia.
    apply IH; lia.
Qed.

(** A signature verifying at another period would be a forgery (or a hash collision). *)
Notation siblings_distinct := (siblings_distinct H ed_pk).
Lemma siblings_sub s d (b : bool) : siblings_distinct s (S d) -> siblings_distinct (if b then rseed s else lseed s) d.
Proof.
  intros D path e L He. specialize (D (b :: path) e). cbn [length app] in D.
  destruct b; apply D; cbn; lia.
Qed.

Lemma verify_other d : (d <= 31)%nat -> forall s p q m, siblings_distinct s d ->
  0 <= p < 2 ^ Z.of_nat d -> 0 <= q < 2 ^ Z.of_nat d -> p <> q ->
  sig_verify H ed_verify d (sig_at d s p m) q (vk d s) m = Ok true ->
  ed_verify (ed_pk (seed_at s (leaf_path d q))) m (ed_sign (seed_at s (leaf_path d p)) m) = true.
Proof.
  induction d as [|e IH]; intros Hd s p q m D Hp Hq Hne V.
  - change (2 ^ Z.of_nat 0) with 1 in *. lia.
  - rewrite verify_step in V by lia. rewrite zlist_eqb_refl in V. rewrite pow_S in *. cbv zeta in V.
    pose proof (pow_small e ltac:(lia)). pose proof (pow_pos e).
    pose proof (siblings_sub s e false D) as DL. pose proof (siblings_sub s e true D) as DR. cbv iota in DL, DR.
    cbn [leaf_path].
    destruct (Z.ltb_spec p (2 ^ Z.of_nat e)) as [P|P]; destruct (Z.ltb_spec q (2 ^ Z.of_nat e)) as [Q|Q]; cbn [Spec_Kes.seed_at].
    + apply IH; auto; lia.
    + rewrite Z.mod_small in V by lia. destruct e as [|f].
      * cbn [sig_verify sig_at Spec_Kes.vk leaf_path Spec_Kes.seed_at] in *. congruence.
      * rewrite verify_step in V by lia. destruct (zlist_eqb (vk (S f) (lseed s)) (vk (S f) (rseed s))) eqn:E; [|discriminate].
        apply zlist_eqb_spec in E. exfalso. apply (D [] (S f)); [cbn; lia|lia|exact E].
    + destruct e as [|f].
      * cbn [sig_verify sig_at Spec_Kes.vk leaf_path Spec_Kes.seed_at] in *. congruence.
      * rewrite verify_step in V by lia. destruct (zlist_eqb (vk (S f) (rseed s)) (vk (S f) (lseed s))) eqn:E; [|discriminate].
        apply zlist_eqb_spec in E. exfalso. apply (D [] (S f)); [cbn; lia|lia|symmetry; exact E].
    + rewrite Z.mod_small in V by lia. apply IH; auto; lia.
Qed.

(** ** Public key *)
Lemma publicKey_spec e s u : length s = 32%nat ->
  kes_publicKey H (S e) (key_at (S e) s u) = Ok (vk (S e) s).
Proof.
  intros Ls. unfold kes_publicKey, key_at. cbn [prv].
  assert (exists a, state (S e) s u = a ++ vk e (lseed s) ++ vk e (rseed s) /\ length a = (sk_size e + 32)%nat) as (a & -> & La).
  { cbn [state]. eexists. split; [reflexivity|]. destruct (u <? _); rewrite app_length, state_len, ?zeros_length, ?rseed_len; auto using lseed_len, rseed_len. }
  rewrite sk_size_S, <- !app_assoc.
  rewrite sub_ub_mid by (rewrite ?vk_len; lia). cbn [bind].
  replace (a ++ vk e (lseed s) ++ vk e (rseed s) ++ pack_be 4 u)
    with ((a ++ vk e (lseed s)) ++ vk e (rseed s) ++ pack_be 4 u) by (rewrite <- app_assoc; reflexivity).
  rewrite sub_ub_mid by (rewrite ?app_length, ?vk_len; lia). reflexivity.
Qed.

(** ** Compact signatures *)
Fixpoint csig_at (d : nat) (s : list Z) (p : Z) (m : list Z) : list Z :=
  match d with
  | O => ed_sign s m ++ ed_pk s
  | S e => if p <? 2 ^ Z.of_nat e then csig_at e (lseed s) p m ++ vk e (rseed s)
           else csig_at e (rseed s) (p - 2 ^ Z.of_nat e) m ++ vk e (lseed s)
  end.
Lemma csig_at_len d s p m : length (csig_at d s p m) = csig_size d.
Proof.
  revert s p; induction d as [|e IH]; intros s p; cbn [csig_at].
  - rewrite app_length, (sign_len _ _ _ _ C), (pk_len _ _ _ _ C). reflexivity.
  - rewrite csig_size_S. destruct (p <? _); rewrite app_length, IH, vk_len; lia.
Qed.

Lemma sign_compact_spec d : (d <= 31)%nat -> forall s p m extra, length s = 32%nat -> 0 <= p < 2 ^ Z.of_nat d ->
  sign_compact_from_buffer ed_pk ed_sign d (state d s p ++ extra) m p = Ok (csig_at d s p m).
Proof.
  induction d as [|e IH]; intros Hd s p m extra Ls Hp.
  - cbn [sign_compact_from_buffer state csig_at].
    rewrite (sub_ub_head s) by (auto; lia). cbn [bind].
    change (zeros (csig_size 0)) with (zeros 64 ++ zeros 32 ++ []).
    rewrite blit_mid by (rewrite ?zeros_length, ?(pk_len _ _ _ _ C); lia). cbn [bind].
    rewrite app_nil_r. rewrite (blit_head (zeros 64)) by (rewrite ?zeros_length, ?(sign_len _ _ _ _ C); auto). cbn [bind app].
    unfold csig_of_bytes. rewrite app_length, (sign_len _ _ _ _ C), (pk_len _ _ _ _ C). reflexivity.
  - cbn [sign_compact_from_buffer]. rewrite half_val by lia. rewrite pow_S in Hp.
    pose proof (pow_small e ltac:(lia)). pose proof (pow_pos e).
    cbn [state csig_at]. rewrite csig_size_S, zeros_app.
    destruct (Z.ltb_spec p (2 ^ Z.of_nat e)) as [P|P].
    + rewrite <- !app_assoc.
      replace (state e (lseed s) p ++ rseed s ++ vk e (lseed s) ++ vk e (rseed s) ++ extra)
        with ((state e (lseed s) p ++ rseed s ++ vk e (lseed s)) ++ vk e (rseed s) ++ extra) by (rewrite <- !app_assoc; reflexivity).
      rewrite sub_ub_mid by (rewrite ?app_length, ?state_len, ?vk_len, ?rseed_len; auto using lseed_len; lia). cbn [bind].
      replace (zeros (csig_size e) ++ zeros 32) with (zeros (csig_size e) ++ zeros 32 ++ []) by (rewrite app_nil_r; reflexivity).
      rewrite blit_mid by (rewrite ?zeros_length, ?vk_len; lia). cbn [bind].
      rewrite <- !app_assoc. rewrite (sub_ub_head (state e (lseed s) p)) by (rewrite ?state_len; auto using lseed_len). cbn [bind].
      specialize (IH ltac:(lia) (lseed s) p m [] (lseed_len s) ltac:(lia)). rewrite app_nil_r in IH. rewrite IH. cbn [bind].
      rewrite (blit_head (zeros (csig_size e))) by (rewrite ?zeros_length, ?csig_at_len; auto). cbn [bind].
      cbn [app]. rewrite app_nil_r. unfold csig_of_bytes. rewrite app_length, csig_at_len, vk_len, csig_size_S, Nat.eqb_refl. reflexivity.
    + rewrite <- !app_assoc.
      replace (state e (rseed s) (p - 2 ^ Z.of_nat e) ++ zeros 32 ++ vk e (lseed s) ++ vk e (rseed s) ++ extra)
        with ((state e (rseed s) (p - 2 ^ Z.of_nat e) ++ zeros 32) ++ vk e (lseed s) ++ (vk e (rseed s) ++ extra)) by (rewrite <- !app_assoc; reflexivity).
      rewrite sub_ub_mid by (rewrite ?app_length, ?state_len, ?vk_len, ?zeros_length; auto using rseed_len; lia). cbn [bind].
      replace (zeros (csig_size e) ++ zeros 32) with (zeros (csig_size e) ++ zeros 32 ++ []) by (rewrite app_nil_r; reflexivity).
      rewrite blit_mid by (rewrite ?zeros_length, ?vk_len; lia). cbn [bind].
      rewrite <- !app_assoc. rewrite (sub_ub_head (state e (rseed s) (p - 2 ^ Z.of_nat e))) by (rewrite ?state_len; auto using rseed_len). cbn [bind].
      rewrite Z.mod_small by lia.
      specialize (IH ltac:(lia) (rseed s) (p - 2 ^ Z.of_nat e) m [] (rseed_len s) ltac:(lia)). rewrite app_nil_r in IH. rewrite IH. cbn [bind].
      rewrite (blit_head (zeros (csig_size e))) by (rewrite ?zeros_length, ?csig_at_len; auto). cbn [bind].
      cbn [app]. rewrite app_nil_r. unfold csig_of_bytes. rewrite app_length, csig_at_len, vk_len, csig_size_S, Nat.eqb_refl. reflexivity.
Qed.

Lemma recompute_ok d : (d <= 31)%nat -> forall s p m, 0 <= p < 2 ^ Z.of_nat d ->
  csig_recompute H ed_verify d (csig_at d s p m) p m = Ok (vk d s).
Proof.
  induction d as [|e IH]; intros Hd s p m Hp.
  - cbn [csig_recompute csig_at]. rewrite app_length, (sign_len _ _ _ _ C), (pk_len _ _ _ _ C).
    rewrite (sub_ub_head (ed_sign s m)) by (rewrite ?(sign_len _ _ _ _ C); auto). cbn [bind].
    replace (ed_sign s m ++ ed_pk s) with (ed_sign s m ++ ed_pk s ++ []) by (rewrite app_nil_r; reflexivity).
    rewrite sub_ub_mid by (rewrite ?(sign_len _ _ _ _ C), ?(pk_len _ _ _ _ C); lia). cbn [bind].
    rewrite (sign_ok _ _ _ _ C). reflexivity.
  - cbn [csig_recompute]. rewrite half_val by lia. rewrite csig_at_len, csig_size_S.
    pose proof (pow_small e ltac:(lia)). pose proof (pow_pos e). rewrite pow_S in Hp. cbn [csig_at].
    destruct (Z.ltb_spec p (2 ^ Z.of_nat e)) as [P|P].
    + replace (csig_at e (lseed s) p m ++ vk e (rseed s)) with (csig_at e (lseed s) p m ++ vk e (rseed s) ++ []) by (rewrite app_nil_r; reflexivity).
      rewrite sub_ub_mid by (rewrite ?csig_at_len, ?vk_len; lia). cbn [bind].
      rewrite (sub_ub_head (csig_at e (lseed s) p m)) by (rewrite ?csig_at_len; auto). cbn [bind].
      unfold csig_of_bytes. rewrite csig_at_len, Nat.eqb_refl. cbn [negb bind]. rewrite IH by lia. reflexivity.
    + replace (csig_at e (rseed s) (p - 2 ^ Z.of_nat e) m ++ vk e (lseed s)) with (csig_at e (rseed s) (p - 2 ^ Z.of_nat e) m ++ vk e (lseed s) ++ []) by (rewrite app_nil_r; reflexivity).
      rewrite sub_ub_mid by (rewrite ?csig_at_len, ?vk_len; lia). cbn [bind].
      rewrite (sub_ub_head (csig_at e (rseed s) (p - 2 ^ Z.of_nat e) m)) by (rewrite ?csig_at_len; auto). cbn [bind].
      unfold csig_of_bytes. rewrite csig_at_len, Nat.eqb_refl. cbn [negb bind]. rewrite Z.mod_small by lia. rewrite IH by lia. reflexivity.
Qed.

(** ** What is stored *)
Lemma first_period_le d p : 0 <= p < 2 ^ Z.of_nat d -> first_period d (leaf_path d p) = p.
Proof.
  revert p; induction d as [|e IH]; intros p Hp; [change (2 ^ Z.of_nat 0) with 1 in Hp; cbn; lia|].
  rewrite pow_S in Hp. cbn [leaf_path]. destruct (Z.ltb_spec p (2 ^ Z.of_nat e)); cbn [first_period]; rewrite IH by lia; lia.
Qed.
Lemma leaf_path_length d p : length (leaf_path d p) = d.
Proof. revert p; induction d as [|e IH]; intros p; [reflexivity|]. cbn [leaf_path]. destruct (p <? _); cbn [length]; rewrite IH; reflexivity. Qed.
Lemma first_period_nonneg d path : 0 <= first_period d path.
Proof. revert path; induction d as [|e IH]; intros [|b r]; cbn [first_period]; try lia. pose proof (IH r). pose proof (pow_pos e). destruct b; lia. Qed.
Lemma first_period_ext d path q : first_period d path <= first_period d (path ++ q).
Proof.
  revert path; induction d as [|e IH]; intros path.
  - destruct path; destruct q; cbn [first_period app]; lia.
  - destruct path as [|b r]; cbn [app].
    + pose proof (first_period_nonneg (S e) q). cbn [first_period]. cbn [first_period] in *. lia.
    + cbn [first_period]. specialize (IH r). lia.
Qed.

Notation storable := (storable H ed_pk).
Lemma storable_left s e p b : storable (lseed s) e p b -> storable s (S e) p b.
Proof.
  intros [->|[(path & L & ->)|(path & L & -> & F)]].
  - left; reflexivity.
  - right; left. exists (false :: path). cbn [length]. split; [lia|]. reflexivity.
  - right; right. exists (false :: path). cbn [length first_period]. repeat split; try lia. 
Qed.
Lemma storable_right s e p b : storable (rseed s) e p b -> storable s (S e) (p + 2 ^ Z.of_nat e) b.
Proof.
  intros [->|[(path & L & ->)|(path & L & -> & F)]].
  - left; reflexivity.
  - right; left. exists (true :: path). cbn [length]. split; [lia|]. reflexivity.
  - right; right. exists (true :: path). cbn [length first_period]. repeat split; try lia.
Qed.
Lemma state_blocks d : forall s p, 0 <= p < 2 ^ Z.of_nat d ->
  exists bs, state d s p = concat bs /\ Forall (storable s d p) bs.
Proof.
  induction d as [|e IH]; intros s p Hp.
  - exists [s]. cbn [state concat]. rewrite app_nil_r. split; [reflexivity|]. constructor; [|constructor].
    right; right. exists []. cbn. change (2 ^ Z.of_nat 0) with 1 in Hp. repeat split; lia.
  - rewrite pow_S in Hp. pose proof (pow_pos e). cbn [state].
    assert (K : Forall (storable s (S e) p) [vk e (lseed s); vk e (rseed s)]).
    { constructor; [|constructor; [|constructor]].
      - right; left. exists [false]. cbn [length]. split; [lia|]. replace (S e - 1)%nat with e by lia. reflexivity.
      - right; left. exists [true]. cbn [length]. split; [lia|]. replace (S e - 1)%nat with e by lia. reflexivity. }
    destruct (Z.ltb_spec p (2 ^ Z.of_nat e)) as [P|P].
    + destruct (IH (lseed s) p ltac:(lia)) as (bs & -> & F).
      exists (bs ++ [rseed s] ++ [vk e (lseed s); vk e (rseed s)]). split.
      { rewrite !concat_app. cbn [concat]. rewrite !app_nil_r, <- !app_assoc. reflexivity. }
      apply Forall_app; split; [eapply Forall_impl; [|exact F]; intros b; apply storable_left|].
      constructor; [|exact K]. right; right. exists [true]. cbn [length first_period]. split; [lia|]. split; [reflexivity|].
      assert (E0 : first_period e [] = 0) by (destruct e; reflexivity). rewrite E0. lia.
    + destruct (IH (rseed s) (p - 2 ^ Z.of_nat e) ltac:(lia)) as (bs & -> & F).
      exists (bs ++ [zeros 32] ++ [vk e (lseed s); vk e (rseed s)]). split.
      { rewrite !concat_app. cbn [concat]. rewrite !app_nil_r, <- !app_assoc. reflexivity. }
      apply Forall_app; split.
      { eapply Forall_impl; [|exact F]. intros b Hb. apply storable_right in Hb.
        replace (p - 2 ^ Z.of_nat e + 2 ^ Z.of_nat e) with p in Hb by lia. exact Hb. }
      constructor; [|exact K]. left. reflexivity.
Qed.
End Kes.
