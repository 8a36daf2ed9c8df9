(** Histories of a KES key: updates mixed with saving and restoring. *)
From Verif Require Import Base BaseLemmas Model_Hex Proof_Hex Model_Kes Spec_Kes Proof_Kes.
Ltac Zify.zify_post_hook ::= idtac.

Section Hist.
Variable H : list Z -> list Z.
Variable ed_pk : list Z -> list Z.
Variable ed_sign : list Z -> list Z -> list Z.
Variable ed_verify : list Z -> list Z -> list Z -> bool.
Hypothesis C : kes_crypto H ed_pk ed_sign ed_verify.
Notation state := (state H ed_pk).
Notation key_at := (key_at H ed_pk).
Notation vk := (vk H ed_pk).
Notation lseed := (lseed H).
Notation rseed := (rseed H).

Definition like (d : nat) (s : list Z) (u : Z) (k : kes_key) : Prop := prv k = state d s u ++ pack_be 4 u.

Lemma like_key d s u k : like d s u k -> k = {| prv := state d s u ++ pack_be 4 u; period_ := period_ k |}.
Proof. destruct k as [a b]; cbn. unfold like; cbn. intros ->. reflexivity. Qed.

Lemma pack4_len u : length (pack_be 4 u) = 4%nat.
Proof. reflexivity. Qed.

Lemma like_reload d s u k : length s = 32%nat -> like d s u k ->
  kes_of_bytes d (prv k) = Ok {| prv := prv k; period_ := 0 |}.
Proof.
  intros Ls L. unfold kes_of_bytes.
  assert (E : length (prv k) = (sk_size d + 4)%nat) by (rewrite L, app_length, (state_len H ed_pk ed_sign ed_verify C), pack4_len by exact Ls; reflexivity).
  rewrite !E. destruct (Nat.eqb_spec (sk_size d + 4) (sk_size d)); [lia|]. rewrite Nat.eqb_refl. reflexivity.
Qed.

Lemma like_step d s u k : (d <= 31)%nat -> length s = 32%nat -> 0 <= u -> u + 1 < 2 ^ Z.of_nat d -> like d s u k ->
  kes_update H ed_pk d k = (key_at d s (u + 1), Ok tt).
Proof.
  intros Hd Ls Hu Hlt L. rewrite <- (update_step H ed_pk ed_sign ed_verify C d s u) by assumption.
  unfold kes_update. destruct d as [|e]; [change (2 ^ Z.of_nat 0) with 1 in Hlt; lia|].
  pose proof (key_period H ed_pk (S e) s u Ls) as KP.
  pose proof (pow_small (S e) Hd). specialize (KP ltac:(lia) ltac:(discriminate)).
  assert (E : kes_period (S e) k = Ok u) by (rewrite (like_key _ _ _ _ L); exact KP).
  rewrite E, KP. rewrite Z.mod_small by lia.
  rewrite L. change (prv (key_at (S e) s u)) with (state (S e) s u ++ pack_be 4 u).
  rewrite (update_spec H ed_pk ed_sign ed_verify C) by (auto; lia). reflexivity.
Qed.

Lemma like_end d s u k : (d <= 31)%nat -> length s = 32%nat -> 0 <= u -> u + 1 = 2 ^ Z.of_nat d -> like d s u k ->
  kes_update H ed_pk d k = (k, Throw).
Proof.
  intros Hd Ls Hu Hlt L. unfold kes_update. destruct d as [|e]; [reflexivity|].
  pose proof (key_period H ed_pk (S e) s u Ls) as KP.
  pose proof (pow_small (S e) Hd). specialize (KP ltac:(lia) ltac:(discriminate)).
  assert (E : kes_period (S e) k = Ok u) by (rewrite (like_key _ _ _ _ L); exact KP).
  rewrite E. rewrite Z.mod_small by lia. rewrite update_last by lia. destruct k; reflexivity.
Qed.

Definition no_file (h : list kes_op) : Prop := ~ In ReloadFile h.

Lemma run_from d s h : (d <= 31)%nat -> length s = 32%nat -> no_file h -> forall k u, 0 <= u -> like d s u k ->
  u + Z.of_nat (updates_in h) < 2 ^ Z.of_nat d ->
  exists k', kes_run H ed_pk d k h = Ok k' /\ like d s (u + Z.of_nat (updates_in h)) k'.
Proof.
  intros Hd Ls. induction h as [|o h IH]; intros NF k u Hu L Hlt.
  - exists k. cbn. rewrite Z.add_0_r. auto.
  - assert (NF' : no_file h) by (intros I; apply NF; right; exact I).
    destruct o; cbn [kes_run].
    + unfold updates_in in *. cbn [filter is_update length] in *. rewrite (like_step d s u k) by (auto; lia).
      destruct (IH NF' (key_at d s (u + 1)) (u + 1)) as (k' & R & L'); [lia|reflexivity|lia|].
      exists k'. split; [exact R|]. replace (u + Z.of_nat (S (length (filter is_update h)))) with (u + 1 + Z.of_nat (length (filter is_update h))) by lia. exact L'.
    + rewrite (like_reload d s u k) by auto. cbn [bind].
      apply (IH NF'); auto.
    + exfalso. apply NF. left. reflexivity.
Qed.

Lemma run_ok d s kb k pk sb h : (d <= 31)%nat -> length s = 32%nat -> length kb = (sk_size d + 4)%nat ->
  kes_keygen H ed_pk d kb s = Ok (k, pk, sb) -> no_file h ->
  Z.of_nat (updates_in h) < 2 ^ Z.of_nat d ->
  exists k', kes_run H ed_pk d k h = Ok k' /\ like d s (Z.of_nat (updates_in h)) k'.
Proof.
  intros Hd Ls Lk K NF Hlt. rewrite (keygen_spec H ed_pk ed_sign ed_verify C) in K by assumption.
  injection K as <- <- <-. apply (run_from d s h Hd Ls NF (key_at d s 0) 0); [lia|reflexivity|lia].
Qed.

Lemma run_app d k h1 h2 : kes_run H ed_pk d k (h1 ++ h2) = let* k' := kes_run H ed_pk d k h1 in kes_run H ed_pk d k' h2.
Proof.
  revert k; induction h1 as [|o h IH]; intros k; [reflexivity|]. destruct o; cbn [kes_run app].
  - destruct (kes_update H ed_pk d k) as [k' [u| |]]; [apply IH|reflexivity|reflexivity].
  - destruct (kes_of_bytes d (prv k)); cbn [bind]; [apply IH|reflexivity|reflexivity].
  - destruct (kes_of_bytes d (kes_file_bytes d k)); cbn [bind]; [apply IH|reflexivity|reflexivity].
Qed.

Lemma like_sign d s u k m : length s = 32%nat -> like d s u k ->
  kes_sign ed_sign d k m = Ok (sig_at H ed_pk ed_sign d s u m).
Proof.
  intros Ls L. rewrite <- (kes_sign_spec H ed_pk ed_sign ed_verify C d s u m Ls). unfold kes_sign, Proof_Kes.key_at. rewrite !L. reflexivity.
Qed.
Lemma like_publicKey e s u k : length s = 32%nat -> like (S e) s u k -> kes_publicKey H (S e) k = Ok (vk (S e) s).
Proof.
  intros Ls L. rewrite <- (publicKey_spec H ed_pk ed_sign ed_verify C e s u Ls). unfold kes_publicKey, Proof_Kes.key_at. rewrite !L. reflexivity.
Qed.
Lemma like_period d s u k : length s = 32%nat -> 0 <= u < 2 ^ 32 -> (d = 0%nat -> u = 0) -> like d s u k -> kes_period d k = Ok u.
Proof.
  intros Ls Hu H0 L. rewrite <- (key_period H ed_pk d s u Ls Hu H0). unfold kes_period, Proof_Kes.key_at. rewrite !L. reflexivity.
Qed.

(** ** C19 *)
Lemma sign_verifies : forall d kb s k pk sb h m, (d <= 7)%nat -> length s = 32%nat -> length kb = (sk_size d + 4)%nat ->
  kes_keygen H ed_pk d kb s = Ok (k, pk, sb) -> ~ In ReloadFile h ->
  Z.of_nat (updates_in h) < 2 ^ Z.of_nat d ->
  exists k' sig, kes_run H ed_pk d k h = Ok k' /\ kes_sign ed_sign d k' m = Ok sig /\
    sig_verify H ed_verify d sig (Z.of_nat (updates_in h)) pk m = Ok true.
Proof.
  intros d kb s k pk sb h m Hd Ls Lk K NF Hlt.
  destruct (run_ok d s kb k pk sb h ltac:(lia) Ls Lk K NF Hlt) as (k' & R & L).
  rewrite (keygen_spec H ed_pk ed_sign ed_verify C) in K by assumption. injection K as <- <- <-.
  exists k', (sig_at H ed_pk ed_sign d s (Z.of_nat (updates_in h)) m).
  split; [exact R|]. split; [apply like_sign; assumption|].
  apply (verify_ok H ed_pk ed_sign ed_verify C); lia.
Qed.

(** ** C20 *)
Lemma publicKey_const : forall e kb s k pk sb h, (S e <= 7)%nat -> length s = 32%nat -> length kb = (sk_size (S e) + 4)%nat ->
  kes_keygen H ed_pk (S e) kb s = Ok (k, pk, sb) -> ~ In ReloadFile h ->
  Z.of_nat (updates_in h) < 2 ^ Z.of_nat (S e) ->
  exists k', kes_run H ed_pk (S e) k h = Ok k' /\ kes_publicKey H (S e) k' = Ok pk.
Proof.
  intros e kb s k pk sb h Hd Ls Lk K NF Hlt.
  destruct (run_ok (S e) s kb k pk sb h ltac:(lia) Ls Lk K NF Hlt) as (k' & R & L).
  rewrite (keygen_spec H ed_pk ed_sign ed_verify C) in K by assumption. injection K as <- <- <-.
  exists k'. split; [exact R|]. eapply like_publicKey; eassumption.
Qed.

(** ** C21 *)
Lemma lifetime : forall d kb s k pk sb h, (d <= 7)%nat -> length s = 32%nat -> length kb = (sk_size d + 4)%nat ->
  kes_keygen H ed_pk d kb s = Ok (k, pk, sb) -> ~ In ReloadFile h ->
  (Z.of_nat (updates_in h) < 2 ^ Z.of_nat d ->
     exists k', kes_run H ed_pk d k h = Ok k' /\ kes_period d k' = Ok (Z.of_nat (updates_in h))) /\
  (Z.of_nat (updates_in h) = 2 ^ Z.of_nat d - 1 ->
     exists k', kes_run H ed_pk d k h = Ok k' /\ kes_update H ed_pk d k' = (k', Throw)) /\
  (2 ^ Z.of_nat d <= Z.of_nat (updates_in h) -> kes_run H ed_pk d k h = Throw).
Proof.
  intros d kb s k pk sb h Hd Ls Lk K NF.
  pose proof (pow_small d ltac:(lia)). pose proof (pow_pos d).
  split; [|split].
  - intros Hlt. destruct (run_ok d s kb k pk sb h ltac:(lia) Ls Lk K NF Hlt) as (k' & R & L).
    exists k'. split; [exact R|]. eapply like_period; try eassumption; [lia|]. intros ->. change (2 ^ Z.of_nat 0) with 1 in Hlt. lia.
  - intros Hlt. destruct (run_ok d s kb k pk sb h ltac:(lia) Ls Lk K NF ltac:(lia)) as (k' & R & L).
    exists k'. split; [exact R|]. eapply like_end; try eassumption; lia.
  - intros Hge.
    assert (SP : exists h1 h2, h = h1 ++ Update :: h2 /\ Z.of_nat (updates_in h1) = 2 ^ Z.of_nat d - 1).
    { assert (G : forall (h : list kes_op) (n : nat), (n < updates_in h)%nat -> exists h1 h2, h = h1 ++ Update :: h2 /\ updates_in h1 = n).
      { clear. induction h as [|o h IH]; intros n Hn; [cbn in Hn; lia|].
        unfold updates_in in Hn. cbn [filter] in Hn. destruct (is_update o) eqn:E.
        - destruct o; try discriminate E. destruct n as [|n]; [exists [], h; split; reflexivity|].
          cbn [length] in Hn. destruct (IH n) as (h1 & h2 & -> & E1); [unfold updates_in; lia|].
          exists (Update :: h1), h2. split; [reflexivity|]. unfold updates_in in *. cbn [filter is_update length]. lia.
        - destruct (IH n) as (h1 & h2 & -> & E1); [unfold updates_in; lia|].
          exists (o :: h1), h2. split; [reflexivity|]. unfold updates_in in *. cbn [filter]. rewrite E. exact E1. }
      destruct (G h (Z.to_nat (2 ^ Z.of_nat d - 1))) as (h1 & h2 & E1 & E2); [lia|].
      exists h1, h2. split; [exact E1|]. lia. }
    destruct SP as (h1 & h2 & -> & E1).
    assert (NF1 : no_file h1) by (intros I; apply NF; apply in_or_app; left; exact I).
    destruct (run_ok d s kb k pk sb h1 ltac:(lia) Ls Lk K NF1 ltac:(lia)) as (k' & R & L).
    rewrite run_app, R. cbn [bind kes_run]. rewrite (like_end d s (Z.of_nat (updates_in h1)) k' ltac:(lia) Ls ltac:(lia) ltac:(lia) L). reflexivity.
Qed.

(** ** C22 *)
Lemma seed_at_app s a b : seed_at H s (a ++ b) = seed_at H (seed_at H s a) b.
Proof. revert s; induction a as [|x a IH]; intros s; [reflexivity|]. cbn [seed_at app]. apply IH. Qed.

Lemma storable_derive root d p b r q : storable H ed_pk root d p b -> 0 <= q < 2 ^ Z.of_nat d -> q < p ->
  seed_at H b r = seed_at H root (leaf_path d q) ->
  b = repeat 0 32 \/ (exists path, (length path <= d)%nat /\ b = vk (d - length path) (seed_at H root path)) \/
  exists path, (length path <= d)%nat /\ path ++ r <> leaf_path d q /\ seed_at H root (path ++ r) = seed_at H root (leaf_path d q).
Proof.
  intros [->|[(path & L & ->)|(path & L & -> & F)]] Hq Hlt E; [left; reflexivity|right; left; eauto|].
  right; right. exists path. split; [exact L|]. split.
  - intros Eq. pose proof (first_period_ext d path r) as X. rewrite Eq, first_period_le in X by exact Hq. lia.
  - rewrite seed_at_app. exact E.
Qed.

Lemma forward_secure : forall d kb s k pk sb h, (d <= 7)%nat -> length s = 32%nat -> length kb = (sk_size d + 4)%nat ->
  kes_keygen H ed_pk d kb s = Ok (k, pk, sb) -> ~ In ReloadFile h ->
  let p := Z.of_nat (updates_in h) in p < 2 ^ Z.of_nat d ->
  sb = repeat 0 32 /\
  exists k' bs, kes_run H ed_pk d k h = Ok k' /\ prv k' = concat bs ++ pack_be 4 p /\ Forall (storable H ed_pk s d p) bs /\
    forall b r q, In b bs -> 0 <= q < p -> seed_at H b r = seed_at H s (leaf_path d q) ->
      b = repeat 0 32 \/ (exists path, (length path <= d)%nat /\ b = vk (d - length path) (seed_at H s path)) \/
      exists path, (length path <= d)%nat /\ path ++ r <> leaf_path d q /\ seed_at H s (path ++ r) = seed_at H s (leaf_path d q).
Proof.
  intros d kb s k pk sb h Hd Ls Lk K NF p Hlt.
  destruct (run_ok d s kb k pk sb h ltac:(lia) Ls Lk K NF Hlt) as (k' & R & L).
  rewrite (keygen_spec H ed_pk ed_sign ed_verify C) in K by assumption. injection K as <- <- <-.
  split; [reflexivity|].
  destruct (state_blocks H ed_pk d s p ltac:(lia)) as (bs & E & F).
  exists k', bs. split; [exact R|]. split; [rewrite L; unfold p in E; rewrite E; reflexivity|]. split; [exact F|].
  intros b r q I Hq Eq. rewrite Forall_forall in F. apply (storable_derive s d p b r q); [apply F; exact I|lia|lia|exact Eq].
Qed.

(** ** C23 *)
Lemma sizes : forall d kb s k pk sb h m, (d <= 7)%nat -> length s = 32%nat -> length kb = (sk_size d + 4)%nat ->
  kes_keygen H ed_pk d kb s = Ok (k, pk, sb) -> ~ In ReloadFile h ->
  Z.of_nat (updates_in h) < 2 ^ Z.of_nat d ->
  length pk = 32%nat /\
  exists k' sig, kes_run H ed_pk d k h = Ok k' /\ length (prv k') = (32 + 96 * d + 4)%nat /\
    kes_sign ed_sign d k' m = Ok sig /\ length sig = (64 + 64 * d)%nat.
Proof.
  intros d kb s k pk sb h m Hd Ls Lk K NF Hlt.
  destruct (run_ok d s kb k pk sb h ltac:(lia) Ls Lk K NF Hlt) as (k' & R & L).
  rewrite (keygen_spec H ed_pk ed_sign ed_verify C) in K by assumption. injection K as <- <- <-.
  split; [apply (vk_len H ed_pk ed_sign ed_verify C)|].
  eexists k', _. split; [exact R|]. split.
  - rewrite L, app_length, (state_len H ed_pk ed_sign ed_verify C), pack4_len by exact Ls. unfold sk_size. lia.
  - split; [apply like_sign; eassumption|]. rewrite (sig_at_len H ed_pk ed_sign ed_verify C). unfold sig_size. lia.
Qed.

Lemma sig_of_bytes_iff d b r : sig_of_bytes d b = Ok r <-> length b = (64 + 64 * d)%nat /\ r = b.
Proof.
  unfold sig_of_bytes, sig_size. replace (64 + d * (32 * 2))%nat with (64 + 64 * d)%nat by lia.
  destruct (Nat.eqb_spec (length b) (64 + 64 * d)); cbn [negb]; split; [intros [= ->]; auto|intros [_ ->]; reflexivity|discriminate|intros [? _]; contradiction].
Qed.
Lemma csig_of_bytes_iff d b r : csig_of_bytes d b = Ok r <-> length b = (64 + 32 * (d + 1))%nat /\ r = b.
Proof.
  unfold csig_of_bytes, csig_size. replace (64 + (d + 1) * 32)%nat with (64 + 32 * (d + 1))%nat by lia.
  destruct (Nat.eqb_spec (length b) (64 + 32 * (d + 1))); cbn [negb]; split; [intros [= ->]; auto|intros [_ ->]; reflexivity|discriminate|intros [? _]; contradiction].
Qed.
Lemma key_of_bytes_iff d b k : kes_of_bytes d b = Ok k <->
  period_ k = 0 /\ ((length b = (32 + 96 * d)%nat /\ prv k = b ++ [0; 0; 0; 0]) \/ (length b = (32 + 96 * d + 4)%nat /\ prv k = b)).
Proof.
  unfold kes_of_bytes, sk_size. replace (32 + d * (32 + 32 * 2))%nat with (32 + 96 * d)%nat by lia.
  destruct (Nat.eqb_spec (length b) (32 + 96 * d)); destruct (Nat.eqb_spec (length b) (32 + 96 * d + 4)); cbn [negb andb].
  - lia.
  - split; [intros [= <-]; cbn; auto|]. intros [P [[_ Q]|[? _]]]; [|lia]. destruct k; cbn in *; subst; reflexivity.
  - split; [intros [= <-]; cbn; auto|]. intros [P [[? _]|[_ Q]]]; [lia|]. destruct k; cbn in *; subst; reflexivity.
  - split; [discriminate|]. intros [_ [[? _]|[? _]]]; contradiction.
Qed.

(** ** C24 *)
Lemma like_compact e s u k m : (S e <= 31)%nat -> length s = 32%nat -> 0 <= u < 2 ^ Z.of_nat (S e) ->
  like (S e) s u k -> period_ k = u ->
  kes_signCompact ed_pk ed_sign (S e) k m = Ok (csig_at H ed_pk ed_sign (S e) s u m).
Proof.
  intros Hd Ls Hu L P. unfold kes_signCompact. rewrite P, L.
  apply (sign_compact_spec H ed_pk ed_sign ed_verify C); assumption.
Qed.

Lemma run_period d s h : (d <= 31)%nat -> length s = 32%nat -> forall k u k', 0 <= u -> like d s u k -> period_ k = u ->
  u + Z.of_nat (updates_in h) < 2 ^ Z.of_nat d -> (forall o, In o h -> o = Update) ->
  kes_run H ed_pk d k h = Ok k' -> period_ k' = u + Z.of_nat (updates_in h).
Proof.
  intros Hd Ls. induction h as [|o h IH]; intros k u k' Hu L P Hlt A R.
  - cbn in R. injection R as <-. cbn. lia.
  - pose proof (A o (or_introl eq_refl)) as ->. unfold updates_in in *. cbn [filter is_update length kes_run] in *.
    rewrite (like_step d s u k) in R by (auto; lia).
    rewrite (IH (key_at d s (u + 1)) (u + 1) k'); [lia|lia|reflexivity|reflexivity|lia|intros o I; apply A; right; exact I|exact R].
Qed.

Lemma updates_in_app a b : updates_in (a ++ b) = (updates_in a + updates_in b)%nat.
Proof. unfold updates_in. rewrite filter_app, app_length. reflexivity. Qed.

Lemma compact_ok : forall e kb s k pk sb h m, (S e <= 7)%nat -> length s = 32%nat -> length kb = (sk_size (S e) + 4)%nat ->
  kes_keygen H ed_pk (S e) kb s = Ok (k, pk, sb) -> ~ In ReloadFile h ->
  ((forall o, In o h -> o = Update) \/ (exists h', h = h' ++ [Update])) ->
  Z.of_nat (updates_in h) < 2 ^ Z.of_nat (S e) ->
  exists k' sig, kes_run H ed_pk (S e) k h = Ok k' /\ kes_signCompact ed_pk ed_sign (S e) k' m = Ok sig /\
    length sig = (64 + 32 * (S e + 1))%nat /\
    csig_verify H ed_verify (S e) sig (Z.of_nat (updates_in h)) pk m = Ok true.
Proof.
  intros e kb s k pk sb h m Hd Ls Lk K NF SH Hlt.
  destruct (run_ok (S e) s kb k pk sb h ltac:(lia) Ls Lk K NF Hlt) as (k' & R & L).
  pose proof K as K'. rewrite (keygen_spec H ed_pk ed_sign ed_verify C) in K by assumption. injection K as <- <- <-.
  assert (P : period_ k' = Z.of_nat (updates_in h)).
  { destruct SH as [A|(h' & ->)].
    - apply (run_period (S e) s h ltac:(lia) Ls (key_at (S e) s 0) 0 k'); try reflexivity; try assumption; lia.
    - rewrite run_app in R. rewrite updates_in_app in *. change (updates_in [Update]) with 1%nat in *.
      assert (NF1 : no_file h') by (intros I; apply NF; apply in_or_app; left; exact I).
      destruct (run_ok (S e) s kb _ _ _ h' ltac:(lia) Ls Lk K' NF1 ltac:(lia)) as (k1 & R1 & L1).
      rewrite R1 in R. cbn [bind kes_run] in R. rewrite (like_step (S e) s (Z.of_nat (updates_in h')) k1 ltac:(lia) Ls ltac:(lia) ltac:(lia) L1) in R.
      injection R as <-. cbn [Proof_Kes.key_at period_]. lia. }
  eexists k', _. split; [exact R|]. split; [apply (like_compact e s (Z.of_nat (updates_in h))); auto; lia|].
  split; [rewrite (csig_at_len H ed_pk ed_sign ed_verify C); unfold csig_size; lia|].
  unfold csig_verify. rewrite (recompute_ok H ed_pk ed_sign ed_verify C) by lia. cbn [bind]. rewrite zlist_eqb_refl. reflexivity.
Qed.

(** The compact signature of a depth-0 key is written past the end of a 64-byte buffer. *)
Lemma compact_depth0_UB : forall kb s k pk sb m, length s = 32%nat -> length kb = (sk_size 0 + 4)%nat ->
  kes_keygen H ed_pk 0 kb s = Ok (k, pk, sb) -> kes_signCompact ed_pk ed_sign 0 k m = UB.
Proof.
  intros kb s k pk sb m Ls Lk K. rewrite (keygen_spec H ed_pk ed_sign ed_verify C) in K by assumption. injection K as <- <- <-.
  unfold kes_signCompact. cbn [Proof_Kes.key_at prv Proof_Kes.state].
  rewrite (sub_ub_head s) by (auto; lia). cbn [bind]. unfold blit. rewrite zeros_length, (pk_len _ _ _ _ C). reflexivity.
Qed.

(** A restored key in the second half of its life: if its compact signature verified, two different
    64-byte strings would have the same Blake2b-256 digest. *)
Lemma compact_reload_bad : forall e kb s k pk sb h m k' sig, (S e <= 7)%nat -> length s = 32%nat -> length kb = (sk_size (S e) + 4)%nat ->
  kes_keygen H ed_pk (S e) kb s = Ok (k, pk, sb) -> ~ In ReloadFile h ->
  2 ^ Z.of_nat e <= Z.of_nat (updates_in h) < 2 ^ Z.of_nat (S e) ->
  kes_run H ed_pk (S e) k (h ++ [Reload]) = Ok k' ->
  kes_signCompact ed_pk ed_sign (S e) k' m = Ok sig ->
  csig_verify H ed_verify (S e) sig (Z.of_nat (updates_in h)) pk m = Ok true ->
  exists x, H (vk e (rseed s) ++ x) = H (vk e (lseed s) ++ vk e (rseed s)).
Proof.
  intros e kb s k pk sb h m k' sig Hd Ls Lk K NF Hlt R SG V.
  destruct (run_ok (S e) s kb k pk sb h ltac:(lia) Ls Lk K NF ltac:(lia)) as (k1 & R1 & L1).
  rewrite run_app, R1 in R. cbn [bind kes_run] in R. rewrite (like_reload (S e) s _ k1 Ls L1) in R. cbn [bind] in R.
  injection R as <-.
  rewrite (keygen_spec H ed_pk ed_sign ed_verify C) in K by assumption. injection K as <- <- <-.
  set (u := Z.of_nat (updates_in h)) in *.
  unfold kes_signCompact in SG. cbn [prv period_] in SG. rewrite !L1 in SG.
  cbn [sign_compact_from_buffer] in SG. rewrite half_val in SG by lia.
  pose proof (pow_pos e). destruct (Z.ltb_spec 0 (2 ^ Z.of_nat e)) as [_|]; [|lia].
  cbn [Proof_Kes.state] in SG. destruct (Z.ltb_spec u (2 ^ Z.of_nat e)) as [|_]; [lia|].
  rewrite <- !app_assoc in SG.
  replace (Proof_Kes.state H ed_pk e (rseed s) (u - 2 ^ Z.of_nat e) ++ zeros 32 ++ vk e (lseed s) ++ vk e (rseed s) ++ pack_be 4 u)
    with ((Proof_Kes.state H ed_pk e (rseed s) (u - 2 ^ Z.of_nat e) ++ zeros 32 ++ vk e (lseed s)) ++ vk e (rseed s) ++ pack_be 4 u) in SG
    by (rewrite <- !app_assoc; reflexivity).
  rewrite sub_ub_mid in SG by (rewrite ?app_length, ?(state_len H ed_pk ed_sign ed_verify C), ?zeros_length, ?(vk_len H ed_pk ed_sign ed_verify C); auto using (rseed_len H ed_pk ed_sign ed_verify C); lia).
  cbn [bind] in SG. rewrite csig_size_S, zeros_app in SG.
  replace (zeros (csig_size e) ++ zeros 32) with (zeros (csig_size e) ++ zeros 32 ++ []) in SG by (rewrite app_nil_r; reflexivity).
  rewrite blit_mid in SG by (rewrite ?zeros_length, ?(vk_len H ed_pk ed_sign ed_verify C); lia). cbn [bind] in SG.
  destruct (sub_ub _ 0 (sk_size e)) as [sub| |]; cbn [bind] in SG; try discriminate SG.
  destruct (sign_compact_from_buffer ed_pk ed_sign e sub m 0) as [sigma| |] eqn:SC; cbn [bind] in SG; try discriminate SG.
  assert (Lsig : length sigma = csig_size e).
  { destruct e as [|f]; cbn [sign_compact_from_buffer] in SC.
    - repeat match type of SC with bind ?x _ = _ => destruct x; cbn [bind] in SC; try discriminate SC end.
      apply csig_of_bytes_iff in SC as [E ->]. unfold csig_size. lia.
    - destruct (0 <? kd_half (S f)); repeat match type of SC with bind ?x _ = _ => destruct x; cbn [bind] in SC; try discriminate SC end;
      apply csig_of_bytes_iff in SC as [E ->]; unfold csig_size; lia. }
  rewrite (blit_head (zeros (csig_size e))) in SG by (rewrite zeros_length; auto). cbn [bind] in SG.
  apply csig_of_bytes_iff in SG as [_ ->].
  unfold csig_verify in V. cbn [csig_recompute] in V. rewrite half_val in V by lia.
  destruct (Z.ltb_spec u (2 ^ Z.of_nat e)) as [|_]; [lia|].
  rewrite app_nil_r in V.
  assert (LV : length (sigma ++ vk e (rseed s)) = (csig_size e + 32)%nat) by (rewrite app_length, Lsig, (vk_len H ed_pk ed_sign ed_verify C); reflexivity).
  rewrite LV in V.
  replace (sub_ub (sigma ++ vk e (rseed s)) (csig_size e + 32 - 32) 32) with (Ok (vk e (rseed s))) in V.
  2:{ symmetry. replace (sigma ++ vk e (rseed s)) with (sigma ++ vk e (rseed s) ++ []) by (rewrite app_nil_r; reflexivity).
      apply sub_ub_mid; rewrite ?(vk_len H ed_pk ed_sign ed_verify C); lia. }
  cbn [bind] in V. rewrite (sub_ub_head sigma) in V by lia. cbn [bind] in V.
  unfold csig_of_bytes in V. rewrite Lsig, Nat.eqb_refl in V. cbn [negb bind] in V.
  destruct (csig_recompute H ed_verify e sigma _ m) as [x| |]; cbn [bind] in V; try discriminate V.
  injection V as V. apply zlist_eqb_spec in V. exists x. symmetry. exact V.
Qed.

(** ** C25 *)
Lemma beyond : forall d kb s k pk sb h q m, (d <= 7)%nat -> length s = 32%nat -> length kb = (sk_size d + 4)%nat ->
  kes_keygen H ed_pk d kb s = Ok (k, pk, sb) -> ~ In ReloadFile h ->
  Z.of_nat (updates_in h) = 2 ^ Z.of_nat d - 1 -> 2 ^ Z.of_nat d <= q < 2 ^ 32 ->
  exists k' sig, kes_run H ed_pk d k h = Ok k' /\ kes_sign ed_sign d k' m = Ok sig /\
    sig_verify H ed_verify d sig q pk m = Ok true.
Proof.
  intros d kb s k pk sb h q m Hd Ls Lk K NF E Hq.
  destruct (run_ok d s kb k pk sb h ltac:(lia) Ls Lk K NF ltac:(lia)) as (k' & R & L).
  rewrite (keygen_spec H ed_pk ed_sign ed_verify C) in K by assumption. injection K as <- <- <-.
  eexists k', _. split; [exact R|]. split; [apply like_sign; eassumption|].
  rewrite E. apply (verify_beyond H ed_pk ed_sign ed_verify C); lia.
Qed.

Lemma other_period : forall d kb s k pk sb h q m k' sig, (d <= 7)%nat -> length s = 32%nat -> length kb = (sk_size d + 4)%nat ->
  kes_keygen H ed_pk d kb s = Ok (k, pk, sb) -> ~ In ReloadFile h ->
  let p := Z.of_nat (updates_in h) in
  p < 2 ^ Z.of_nat d -> 0 <= q < 2 ^ Z.of_nat d -> p <> q ->
  siblings_distinct H ed_pk s d ->
  kes_run H ed_pk d k h = Ok k' -> kes_sign ed_sign d k' m = Ok sig ->
  sig_verify H ed_verify d sig q pk m = Ok true ->
  ed_verify (ed_pk (seed_at H s (leaf_path d q))) m (ed_sign (seed_at H s (leaf_path d p)) m) = true.
Proof.
  intros d kb s k pk sb h q m k' sig Hd Ls Lk K NF p Hp Hq Hne D R SG V.
  destruct (run_ok d s kb k pk sb h ltac:(lia) Ls Lk K NF Hp) as (k1 & R1 & L).
  rewrite R in R1. injection R1 as <-.
  rewrite (keygen_spec H ed_pk ed_sign ed_verify C) in K by assumption. injection K as <- <- <-.
  rewrite (like_sign d s p k' m Ls L) in SG. injection SG as <-.
  eapply (verify_other H ed_pk ed_sign ed_verify C); try eassumption; try lia.
Qed.

(** ** C53 *)
(** Keys whose file was written at period 0 come back unchanged. *)
Lemma file_fresh : forall d kb s k pk sb, (d <= 7)%nat -> length s = 32%nat -> length kb = (sk_size d + 4)%nat ->
  kes_keygen H ed_pk d kb s = Ok (k, pk, sb) -> kes_run H ed_pk d k [ReloadFile] = Ok k.
Proof.
  intros d kb s k pk sb Hd Ls Lk K. rewrite (keygen_spec H ed_pk ed_sign ed_verify C) in K by assumption. injection K as <- <- <-.
  cbn [kes_run]. unfold kes_file_bytes, Proof_Kes.key_at. cbn [prv].
  rewrite firstn_app_exact by (rewrite (state_len H ed_pk ed_sign ed_verify C); auto).
  unfold kes_of_bytes. rewrite (state_len H ed_pk ed_sign ed_verify C), Nat.eqb_refl by exact Ls. reflexivity.
Qed.

(** A restored file reports period 0 but still signs for the period it was saved in. *)
Lemma file_late : forall d kb s k pk sb h m, (d <= 7)%nat -> length s = 32%nat -> length kb = (sk_size d + 4)%nat ->
  kes_keygen H ed_pk d kb s = Ok (k, pk, sb) -> ~ In ReloadFile h ->
  Z.of_nat (updates_in h) < 2 ^ Z.of_nat d ->
  exists k' sig, kes_run H ed_pk d k (h ++ [ReloadFile]) = Ok k' /\ kes_period d k' = Ok 0 /\
    kes_sign ed_sign d k' m = Ok sig /\ sig_verify H ed_verify d sig (Z.of_nat (updates_in h)) pk m = Ok true.
Proof.
  intros d kb s k pk sb h m Hd Ls Lk K NF Hlt.
  destruct (run_ok d s kb k pk sb h ltac:(lia) Ls Lk K NF Hlt) as (k1 & R1 & L1).
  rewrite (keygen_spec H ed_pk ed_sign ed_verify C) in K by assumption. injection K as <- <- <-.
  rewrite run_app, R1. cbn [bind kes_run]. unfold kes_file_bytes. rewrite L1.
  rewrite firstn_app_exact by (rewrite (state_len H ed_pk ed_sign ed_verify C); auto).
  unfold kes_of_bytes. rewrite (state_len H ed_pk ed_sign ed_verify C), Nat.eqb_refl by exact Ls.
  destruct (Nat.eqb_spec (sk_size d) (sk_size d + 4)); [lia|]. cbn [negb andb bind].
  set (u := Z.of_nat (updates_in h)) in *.
  eexists _, (sig_at H ed_pk ed_sign d s u m). split; [reflexivity|]. split; [|split].
  - destruct d as [|e]; [reflexivity|]. unfold kes_period. cbn [prv].
    rewrite app_length, (state_len H ed_pk ed_sign ed_verify C) by exact Ls.
    replace (state (S e) s u ++ zeros 4) with (state (S e) s u ++ zeros 4 ++ []) by (rewrite app_nil_r; reflexivity).
    rewrite sub_ub_mid by (rewrite ?(state_len H ed_pk ed_sign ed_verify C) by exact Ls; cbn; lia). reflexivity.
  - destruct d as [|e].
    + cbn [kes_sign prv]. cbn [Proof_Kes.state]. rewrite (sub_ub_head s) by (auto; lia). cbn [bind].
      apply sig_of_bytes_iff. split; [rewrite (sign_len _ _ _ _ C); reflexivity|reflexivity].
    + cbn [kes_sign prv]. apply (sign_spec H ed_pk ed_sign ed_verify C); [exact Ls|discriminate].
  - apply (verify_ok H ed_pk ed_sign ed_verify C d ltac:(lia) s u m). lia.
Qed.

(** Saved at the middle of its life (period 2^e) and restored, a key of depth e+1 is, after 2^e
    further updates, the key of the all-zero seed. *)
Definition bad_at (e : nat) (s : list Z) (j : Z) (k : kes_key) : Prop :=
  prv k = state e (rseed s) j ++ zeros 32 ++ vk e (lseed s) ++ vk e (rseed s) ++ pack_be 4 j.

Lemma bad_period e s j k : length s = 32%nat -> 0 <= j < 2 ^ 32 -> bad_at e s j k -> kes_period (S e) k = Ok j.
Proof.
  intros Ls Hj B. unfold kes_period. rewrite !B.
  set (x := state e (rseed s) j ++ zeros 32 ++ vk e (lseed s) ++ vk e (rseed s)).
  replace (state e (rseed s) j ++ zeros 32 ++ vk e (lseed s) ++ vk e (rseed s) ++ pack_be 4 j) with (x ++ pack_be 4 j ++ [])
    by (unfold x; rewrite app_nil_r, <- !app_assoc; reflexivity).
  rewrite sub_ub_mid by (rewrite ?app_length, ?pack4_len; cbn [length]; lia). cbn [bind]. f_equal.
  apply pack_unpack_be. change (256 ^ Z.of_nat 4) with (2 ^ 32). exact Hj.
Qed.

Lemma bad_step e s j k : (S e <= 31)%nat -> length s = 32%nat -> 0 <= j -> j + 1 < 2 ^ Z.of_nat e -> bad_at e s j k ->
  exists k', kes_update H ed_pk (S e) k = (k', Ok tt) /\ bad_at e s (j + 1) k'.
Proof.
  intros Hd Ls Hj Hlt B. pose proof (pow_small e ltac:(lia)). pose proof (pow_pos e).
  unfold kes_update. rewrite (bad_period e s j k) by (auto; lia). rewrite (Z.mod_small j) by lia.
  cbn [update_buffer]. rewrite total_val, half_val by lia. rewrite (Z.mod_small (j + 1)) by lia. rewrite pow_S.
  destruct (Z.eqb_spec (j + 1) (2 * 2 ^ Z.of_nat e)); [lia|]. destruct (Z.ltb_spec (j + 1) (2 ^ Z.of_nat e)); [|lia].
  assert (Lst : forall j, length (state e (rseed s) j) = sk_size e) by (intros; apply (state_len H ed_pk ed_sign ed_verify C); apply (rseed_len H ed_pk ed_sign ed_verify C)).
  rewrite !B. destruct (Nat.ltb_spec (length (state e (rseed s) j ++ zeros 32 ++ vk e (lseed s) ++ vk e (rseed s) ++ pack_be 4 j)) (sk_size e)) as [X|_].
  { rewrite app_length, Lst in X. lia. }
  rewrite firstn_app_exact, skipn_app_exact by (symmetry; apply Lst).
  pose proof (update_spec H ed_pk ed_sign ed_verify C e ltac:(lia) (rseed s) j [] (rseed_len H ed_pk ed_sign ed_verify C s) Hj Hlt) as U.
  rewrite !app_nil_r in U. rewrite U.
  set (x := state e (rseed s) (j + 1) ++ zeros 32 ++ vk e (lseed s) ++ vk e (rseed s)).
  replace (state e (rseed s) (j + 1) ++ zeros 32 ++ vk e (lseed s) ++ vk e (rseed s) ++ pack_be 4 j) with (x ++ pack_be 4 j ++ [])
    by (unfold x; rewrite app_nil_r, <- !app_assoc; reflexivity).
  rewrite blit_mid; [|unfold x; rewrite !app_length, Lst, !(vk_len H ed_pk ed_sign ed_verify C), zeros_length, sk_size_S; lia|reflexivity].
  eexists. split; [reflexivity|]. unfold bad_at. cbn [prv]. unfold x. rewrite app_nil_r, <- !app_assoc. reflexivity.
Qed.

Lemma bad_run e s n : (S e <= 31)%nat -> length s = 32%nat -> forall j k, 0 <= j -> j + Z.of_nat n < 2 ^ Z.of_nat e -> bad_at e s j k ->
  exists k', kes_run H ed_pk (S e) k (repeat Update n) = Ok k' /\ bad_at e s (j + Z.of_nat n) k'.
Proof.
  intros Hd Ls. induction n as [|n IH]; intros j k Hj Hlt B.
  - exists k. rewrite Z.add_0_r. auto.
  - destruct (bad_step e s j k Hd Ls Hj ltac:(lia) B) as (k1 & E & B1). cbn [repeat kes_run]. rewrite E.
    destruct (IH (j + 1) k1 ltac:(lia) ltac:(lia) B1) as (k' & R & B'). exists k'. split; [exact R|].
    replace (j + Z.of_nat (S n)) with (j + 1 + Z.of_nat n) by lia. exact B'.
Qed.

Lemma file_zero_seed : forall e kb s k pk sb h, (S e <= 7)%nat -> length s = 32%nat -> length kb = (sk_size (S e) + 4)%nat ->
  kes_keygen H ed_pk (S e) kb s = Ok (k, pk, sb) -> ~ In ReloadFile h ->
  Z.of_nat (updates_in h) = 2 ^ Z.of_nat e ->
  exists k', kes_run H ed_pk (S e) k (h ++ [ReloadFile] ++ repeat Update (Z.to_nat (2 ^ Z.of_nat e))) = Ok k' /\
    forall kb0, length kb0 = (sk_size e + 4)%nat ->
    exists k0 pk0 sb0, kes_keygen H ed_pk e kb0 (repeat 0 32) = Ok (k0, pk0, sb0) /\
      firstn (sk_size e) (prv k') = firstn (sk_size e) (prv k0).
Proof.
  intros e kb s k pk sb h Hd Ls Lk K NF E.
  pose proof (pow_S e). pose proof (pow_pos e). pose proof (pow_small e ltac:(lia)).
  destruct (run_ok (S e) s kb k pk sb h ltac:(lia) Ls Lk K NF ltac:(lia)) as (k1 & R1 & L1).
  rewrite run_app, R1. cbn [bind kes_run app]. unfold kes_file_bytes.
  assert (Lst : forall j, length (state e (rseed s) j) = sk_size e) by (intros; apply (state_len H ed_pk ed_sign ed_verify C); apply (rseed_len H ed_pk ed_sign ed_verify C)).
  rewrite !L1. rewrite firstn_app_exact by (rewrite (state_len H ed_pk ed_sign ed_verify C); auto).
  unfold kes_of_bytes at 1. rewrite (state_len H ed_pk ed_sign ed_verify C), Nat.eqb_refl by exact Ls.
  destruct (Nat.eqb_spec (sk_size (S e)) (sk_size (S e) + 4)) as [|_]; [lia|]. cbn [negb andb bind].
  set (k2 := {| prv := _; period_ := 0 |}).
  assert (B : bad_at e s 0 k2).
  { unfold bad_at, k2. cbn [prv]. rewrite E. cbn [Proof_Kes.state]. rewrite Z.ltb_irrefl, Z.sub_diag.
    change (pack_be 4 0) with (zeros 4). rewrite <- !app_assoc. reflexivity. }
  set (n := Z.to_nat (2 ^ Z.of_nat e - 1)).
  replace (Z.to_nat (2 ^ Z.of_nat e)) with (n + 1)%nat by (unfold n; lia).
  rewrite repeat_app, run_app.
  destruct (bad_run e s n ltac:(lia) Ls 0 k2 ltac:(lia) ltac:(unfold n; lia) B) as (k3 & R3 & B3).
  rewrite R3. cbn [bind repeat kes_run]. rewrite Z.add_0_l in B3. set (j := Z.of_nat n) in *. assert (Ej : j = 2 ^ Z.of_nat e - 1) by (unfold j, n; lia).
  unfold kes_update. rewrite (bad_period e s j k3) by (auto; lia). rewrite (Z.mod_small j) by lia.
  cbn [update_buffer]. rewrite total_val, half_val by lia. rewrite (Z.mod_small (j + 1)) by lia. rewrite pow_S.
  destruct (Z.eqb_spec (j + 1) (2 * 2 ^ Z.of_nat e)); [lia|]. destruct (Z.ltb_spec (j + 1) (2 ^ Z.of_nat e)); [lia|].
  destruct (Z.eqb_spec (j + 1) (2 ^ Z.of_nat e)); [|lia].
  rewrite !B3. destruct (Nat.ltb_spec (length (state e (rseed s) j ++ zeros 32 ++ vk e (lseed s) ++ vk e (rseed s) ++ pack_be 4 j)) (sk_size e + 32)) as [X|_].
  { rewrite !app_length, Lst, zeros_length in X. lia. }
  assert (Lx : length (state e (rseed s) j ++ zeros 32) = (sk_size e + 32)%nat) by (rewrite app_length, Lst, zeros_length; reflexivity).
  replace (state e (rseed s) j ++ zeros 32 ++ vk e (lseed s) ++ vk e (rseed s) ++ pack_be 4 j)
    with ((state e (rseed s) j ++ zeros 32) ++ vk e (lseed s) ++ vk e (rseed s) ++ pack_be 4 j) by (rewrite <- app_assoc; reflexivity).
  rewrite firstn_app_exact, skipn_app_exact by (symmetry; exact Lx).
  rewrite (keygen_none H ed_pk ed_sign ed_verify C e _ (zeros 32)) by (rewrite ?Lst, ?zeros_length; reflexivity).
  set (x := (state e (zeros 32) 0 ++ zeros 32) ++ vk e (lseed s) ++ vk e (rseed s)).
  replace ((state e (zeros 32) 0 ++ zeros 32) ++ vk e (lseed s) ++ vk e (rseed s) ++ pack_be 4 j) with (x ++ pack_be 4 j ++ [])
    by (unfold x; rewrite app_nil_r, <- !app_assoc; reflexivity).
  assert (L0 : length (state e (zeros 32) 0) = sk_size e) by (apply (state_len H ed_pk ed_sign ed_verify C); reflexivity).
  rewrite blit_mid; [|unfold x; rewrite !app_length, L0, !(vk_len H ed_pk ed_sign ed_verify C), zeros_length, sk_size_S; lia|reflexivity].
  eexists. split; [reflexivity|]. intros kb0 Lk0.
  rewrite (keygen_spec H ed_pk ed_sign ed_verify C) by (auto; reflexivity). eexists _, _, _. split; [reflexivity|].
  cbn [prv Proof_Kes.key_at]. unfold x. rewrite <- !app_assoc. change (repeat 0 32) with (zeros 32). rewrite !firstn_app_exact by (symmetry; exact L0). reflexivity.
Qed.
End Hist.
