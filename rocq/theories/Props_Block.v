(** C73: what a node makes of the blocks of a pool whose keys and certificates come from the library. *)
From Verif Require Import Base BaseLemmas Model_Hex Proof_Hex Spec_Cbor Model_Cbor Spec_Ledger Model_Kes Spec_Kes Proof_Kes Proof_KesHist Proof_KesMore Props_Kes Props_Ledger Model_Pool Props_Pool Spec_Block.
Ltac Zify.zify_post_hook ::= idtac.

Section Verify.
Variables (H : list Z -> list Z) (ed_verify : list Z -> list Z -> list Z -> bool).
Lemma split3 (sig : list Z) e : length sig = sig_size (S e) -> exists sub l r, sig = sub ++ l ++ r /\ length sub = sig_size e /\ length l = 32%nat /\ length r = 32%nat.
Proof.
  intros L. rewrite sig_size_S in L. destruct (split_at (sig_size e) sig) as (sub & t & -> & Ls); [lia|]. rewrite app_length in L.
  destruct (split_at 32 t) as (l & r & -> & Ll); [lia|]. rewrite app_length in L. exists sub, l, r. repeat split; auto; lia.
Qed.
Lemma verify_unfold e sub l r t pk m : (e <= 31)%nat -> length sub = sig_size e -> length l = 32%nat -> length r = 32%nat ->
  sig_verify H ed_verify (S e) (sub ++ l ++ r) t pk m =
  if negb (zlist_eqb (H (l ++ r)) pk) then Throw
  else if t <? 2 ^ Z.of_nat e then sig_verify H ed_verify e sub t l m else sig_verify H ed_verify e sub ((t - 2 ^ Z.of_nat e) mod 2 ^ 32) r m.
Proof.
  intros He Ls Ll Lr. cbn [sig_verify]. rewrite half_val by exact He. unfold hash_pair.
  rewrite (sub_ub_mid sub l r) by (rewrite ?app_length; lia). cbn [bind].
  replace (sub ++ l ++ r) with ((sub ++ l) ++ r ++ []) by (rewrite app_nil_r, <- app_assoc; reflexivity).
  rewrite (sub_ub_mid (sub ++ l) r []) by (rewrite ?app_length; cbn [length]; lia). cbn [bind].
  destruct (zlist_eqb (H (l ++ r)) pk); [|reflexivity]. cbn [negb].
  rewrite <- app_assoc. rewrite (sub_ub_head sub) by auto. cbn [bind]. unfold sig_of_bytes. rewrite Ls, Nat.eqb_refl. reflexivity.
Qed.
Lemma verify_exact d : (d <= 31)%nat -> forall sig t pk m, length sig = sig_size d -> 0 <= t < 2 ^ Z.of_nat d ->
  sig_verify H ed_verify d sig t pk m = Ok true <-> kes_valid H ed_verify d pk t m sig.
Proof.
  induction d as [|e IH]; intros Hd sig t pk m L Ht.
  - cbn [sig_verify kes_valid]. change (2 ^ Z.of_nat 0) with 1 in Ht. split; [intros E; split; [lia|split; [exact L|congruence]]|intros (_ & _ & ->); reflexivity].
  - pose proof (pow_small e ltac:(lia)) as P1. pose proof (pow_pos e) as P2. rewrite pow_S in Ht.
    destruct (split3 sig e L) as (sub & l & r & -> & Ls & Ll & Lr). rewrite verify_unfold by (assumption || lia). cbn [kes_valid]. split.
    + destruct (zlist_eqb (H (l ++ r)) pk) eqn:E; [|discriminate]. apply zlist_eqb_spec in E. cbn [negb]. intros V. exists sub, l, r. split; [reflexivity|]. split; [exact Ll|]. split; [exact Lr|]. split; [exact E|].
      destruct (Z.ltb_spec t (2 ^ Z.of_nat e)); (split; intros; [|]); try lia.
      * apply IH in V; [exact V|lia|exact Ls|lia].
      * rewrite Z.mod_small in V by lia. apply IH in V; [exact V|lia|exact Ls|lia].
    + intros (sub' & l' & r' & E & Ll' & Lr' & Eh & V1 & V2). assert (LL : length sub = length sub') by (apply (f_equal (@length Z)) in E; rewrite !app_length in E; lia).
      apply app_inv_length in E as [<- E]; [|exact LL]. apply app_inv_length in E as [<- <-]; [|lia]. rewrite (proj2 (zlist_eqb_spec _ _) Eh). cbn [negb].
      destruct (Z.ltb_spec t (2 ^ Z.of_nat e)).
      * apply IH; [lia|exact Ls|lia|]. apply V1. assumption.
      * rewrite Z.mod_small by lia. apply IH; [lia|exact Ls|lia|]. apply V2. assumption.
Qed.
Lemma verify_no_ub d : (d <= 31)%nat -> forall sig t pk m, length sig = sig_size d -> sig_verify H ed_verify d sig t pk m <> UB.
Proof.
  induction d as [|e IH]; intros Hd sig t pk m L; [cbn [sig_verify]; discriminate|].
  destruct (split3 sig e L) as (sub & l & r & -> & Ls & Ll & Lr). rewrite verify_unfold by (assumption || lia).
  destruct (zlist_eqb _ _); [|discriminate]. cbn [negb]. destruct (t <? _); apply IH; (lia || assumption).
Qed.
Lemma kes_valid_len d : forall pk t m sig, kes_valid H ed_verify d pk t m sig -> length sig = sig_size d.
Proof.
  induction d as [|e IH]; intros pk t m sig V; cbn [kes_valid] in V; [destruct V as (_ & -> & _); reflexivity|].
  destruct V as (sub & l & r & -> & Ll & Lr & _ & V1 & V2). rewrite sig_size_S, !app_length, Ll, Lr.
  destruct (Z.lt_ge_cases t (2 ^ Z.of_nat e)) as [A|A]; [rewrite (IH _ _ _ _ (V1 A))|rewrite (IH _ _ _ _ (V2 A))]; reflexivity.
Qed.
(** compact *)
Lemma csplit (sig : list Z) e : length sig = csig_size (S e) -> exists sub k, sig = sub ++ k /\ length sub = csig_size e /\ length k = 32%nat.
Proof. intros L. rewrite csig_size_S in L. destruct (split_at (csig_size e) sig) as (sub & k & -> & Ls); [lia|]. rewrite app_length in L. exists sub, k. repeat split; auto; lia. Qed.
Variables (ed_pk : list Z -> list Z) (ed_sign : list Z -> list Z -> list Z).
Hypothesis C : kes_crypto H ed_pk ed_sign ed_verify.
Lemma recompute_exact d : (d <= 31)%nat -> forall sig t pk m, length sig = csig_size d -> 0 <= t < 2 ^ Z.of_nat d ->
  csig_recompute H ed_verify d sig t m = Ok pk <-> ckes_valid H ed_verify d pk t m sig.
Proof.
  induction d as [|e IH]; intros Hd sig t pk m L Ht.
  - change (2 ^ Z.of_nat 0) with 1 in Ht. change (csig_size 0) with 96%nat in L. destruct (split_at 64 sig) as (s & k & -> & Ls); [lia|]. rewrite app_length in L.
    cbn [csig_recompute ckes_valid]. rewrite (sub_ub_head s k) by (symmetry; exact Ls). cbn [bind].
    replace (sub_ub (s ++ k) (length (s ++ k) - 32) 32) with (Ok k : outcome (list Z)).
    2:{ symmetry. replace (s ++ k) with (s ++ k ++ []) by (rewrite app_nil_r; reflexivity). rewrite !app_length. cbn [length]. apply sub_ub_mid; lia. }
    cbn [bind]. split.
    + destruct (ed_verify k m s) eqn:V; [|discriminate]. cbn [negb]. intros E. assert (k = pk) by congruence. subst k. split; [lia|]. exists s. split; [reflexivity|]. split; [exact Ls|]. split; [lia|exact V].
    + intros (_ & s' & E & Ls' & Lk & V). apply app_inv_length in E as [<- <-]; [|lia]. rewrite V. reflexivity.
  - rewrite pow_S in Ht. destruct (csplit sig e L) as (sub & k & -> & Ls & Lk).
    rewrite (recompute_step H ed_pk ed_sign ed_verify C) by (try rewrite pow_S; assumption || lia). cbn [ckes_valid]. split.
    + intros E. destruct (Z.ltb_spec t (2 ^ Z.of_nat e)) as [T|T]; apply bind_ok in E as (q & E & EH); assert (LQ := recompute_len H ed_pk ed_sign ed_verify C _ _ _ _ _ E); (apply IH in E; [|lia|exact Ls|lia]).
      * exists sub, q, k. split; [exact LQ|]. split; [exact Lk|]. split; [congruence|]. split; intros; [split; [reflexivity|exact E]|lia].
      * exists sub, k, q. split; [exact Lk|]. split; [exact LQ|]. split; [congruence|]. split; intros; [lia|split; [reflexivity|exact E]].
    + intros (sub' & l & r & Ll & Lr & EH & V1 & V2). destruct (Z.ltb_spec t (2 ^ Z.of_nat e)) as [T|T].
      * destruct (V1 T) as [E V]. assert (LL : length sub = length sub') by (apply (f_equal (@length Z)) in E; rewrite !app_length in E; lia). apply app_inv_length in E as [<- <-]; [|exact LL].
        apply IH in V; [|lia|exact Ls|lia]. rewrite V. cbn [bind]. congruence.
      * destruct (V2 T) as [E V]. assert (LL : length sub = length sub') by (apply (f_equal (@length Z)) in E; rewrite !app_length in E; lia). apply app_inv_length in E as [<- <-]; [|exact LL].
        apply IH in V; [|lia|exact Ls|lia]. rewrite V. cbn [bind]. congruence.
Qed.
(** A signature valid under a library key contains a signature of the leaf key of its period, or breaks the hash on a node of the key's own tree. *)
Lemma leaf_signed d : forall s t m sig, kes_valid H ed_verify d (vk H ed_pk d s) t m sig ->
  ed_verify (ed_pk (seed_at H s (leaf_path d t))) m (firstn 64 sig) = true \/ breaks H ed_pk s d sig.
Proof.
  induction d as [|e IH]; intros s t m sig V.
  - destruct V as (_ & L & V). cbn [vk] in V. cbn [leaf_path seed_at]. left. rewrite firstn_all2 by lia. exact V.
  - pose proof V as VL. apply kes_valid_len in VL. cbn [kes_valid] in V. destruct V as (sub & l & r & -> & Ll & Lr & EH & V1 & V2). cbn [vk] in EH.
    destruct (list_eq_dec Z.eq_dec (l ++ r) (vk H ed_pk e (lseed H s) ++ vk H ed_pk e (rseed H s))) as [E|N].
    2:{ right. exists (l ++ r). split; [exists sub, []; rewrite app_nil_r; reflexivity|]. exists [], e. cbn [length app seed_at]. split; [lia|]. split; [rewrite app_length; lia|]. split; [exact N|exact EH]. }
    apply app_inv_length in E as [-> ->]; [|rewrite (vk_len H ed_pk ed_sign ed_verify C); exact Ll].
    assert (LS : (64 <= length sub)%nat). { rewrite sig_size_S, !app_length, Ll, Lr in VL. unfold sig_size in VL. lia. }
    replace (firstn 64 (sub ++ vk H ed_pk e (lseed H s) ++ vk H ed_pk e (rseed H s))) with (firstn 64 sub).
    2:{ rewrite firstn_app. replace (64 - length sub)%nat with 0%nat by lia. cbn [firstn]. rewrite app_nil_r. reflexivity. }
    cbn [leaf_path]. destruct (Z.ltb_spec t (2 ^ Z.of_nat e)) as [T|T]; cbn [seed_at].
    + destruct (IH _ _ _ _ (V1 T)) as [X|(y & P & Q)]; [left; exact X|right]. exists y. split; [apply part_app, P|]. apply (second_sub H ed_pk ed_sign ed_verify C s e false y Q).
    + destruct (IH _ _ _ _ (V2 T)) as [X|(y & P & Q)]; [left; exact X|right]. exists y. split; [apply part_app, P|]. apply (second_sub H ed_pk ed_sign ed_verify C s e true y Q).
Qed.
End Verify.

(** C73: verifying a signature of the right length, whoever made it, at a period of the key's life: it is accepted exactly if it is valid in the sense of
    the sum composition; otherwise it is refused (false or an exception), without touching anything outside its bytes. *)
Theorem C73_verify_exact : forall H ed_verify d sig t pk m, (d <= 7)%nat -> length sig = (64 + 64 * d)%nat -> 0 <= t < 2 ^ Z.of_nat d ->
  (sig_verify H ed_verify d sig t pk m = Ok true <-> kes_valid H ed_verify d pk t m sig) /\ sig_verify H ed_verify d sig t pk m <> UB.
Proof. intros H ed_verify d sig t pk m Hd L Ht. assert (L' : length sig = sig_size d) by (unfold sig_size; lia). split; [apply verify_exact|apply verify_no_ub]; (lia || assumption). Qed.
Print Assumptions C73_verify_exact.
Theorem C73_compact_verify_exact : forall H ed_pk ed_sign ed_verify, kes_crypto H ed_pk ed_sign ed_verify ->
  forall e sig t pk m, (S e <= 7)%nat -> length sig = (96 + 32 * S e)%nat -> 0 <= t < 2 ^ Z.of_nat (S e) ->
  csig_verify H ed_verify (S e) sig t pk m = Ok true <-> ckes_valid H ed_verify (S e) pk t m sig.
Proof.
  intros H ed_pk ed_sign ed_verify C e sig t pk m Hd L Ht. assert (L' : length sig = csig_size (S e)) by (unfold csig_size; lia).
  rewrite <- (recompute_exact H ed_verify ed_pk ed_sign C (S e)) by (lia || assumption). unfold csig_verify. destruct (csig_recompute H ed_verify (S e) sig t m) as [r| |]; cbn [bind]; [|split; discriminate..].
  split; intros E; [assert (X : zlist_eqb pk r = true) by congruence; apply zlist_eqb_spec in X; congruence|]. assert (r = pk) by congruence. subst. rewrite zlist_eqb_refl. reflexivity.
Qed.
Print Assumptions C73_compact_verify_exact.

(** Depth 0: a compact signature is 64 bytes of Ed25519 signature and the 32 bytes of the key; the code looks at the first 64 only, so every valid
    signature is accepted, and so is every string that differs from a valid one in the attached key. *)
Theorem C73_compact_verify_depth0 : forall H ed_verify sig t pk m, length sig = 96%nat ->
  (csig_verify H ed_verify 0 sig t pk m = Ok true <-> exists s vk, sig = s ++ vk /\ length s = 64%nat /\ length vk = 32%nat /\ ed_verify pk m s = true) /\
  (ckes_valid H ed_verify 0 pk t m sig -> csig_verify H ed_verify 0 sig t pk m = Ok true) /\
  csig_verify H ed_verify 0 sig t pk m <> UB.
Proof.
  intros H ed_verify sig t pk m L.
  assert (E : forall s vk, sig = s ++ vk -> length s = 64%nat -> csig_verify H ed_verify 0 sig t pk m = Ok (ed_verify pk m s)).
  { intros s vk -> Ls. rewrite app_length in L. unfold csig_verify, sub_ub. rewrite app_length, skipn_O. destruct (Nat.ltb_spec (length s + length vk) (0 + 64)) as [B|_]; [lia|].
    cbn [bind]. rewrite <- Ls, firstn_app_exact by reflexivity. reflexivity. }
  pose proof (E (firstn 64 sig) (skipn 64 sig) (eq_sym (firstn_skipn 64 sig)) ltac:(rewrite firstn_length; lia)) as E0.
  split; [split|split].
  - intros V. exists (firstn 64 sig), (skipn 64 sig). rewrite firstn_skipn, firstn_length, skipn_length. split; [reflexivity|]. split; [lia|]. split; [lia|]. congruence.
  - intros (s & vk & X & Ls & _ & V). rewrite (E s vk X Ls), V. reflexivity.
  - cbn [ckes_valid]. intros (_ & s & X & Ls & _ & V). rewrite (E s pk X Ls), V. reflexivity.
  - rewrite E0. discriminate.
Qed.
Print Assumptions C73_compact_verify_depth0.
(** The other direction fails at depth 0: any 32 bytes may take the place of the key that the signature carries. *)
Theorem C73_compact_depth0_refuted : forall H ed_verify s vk vk' t pk m, length s = 64%nat -> length vk = 32%nat -> length vk' = 32%nat -> vk' <> vk ->
  csig_verify H ed_verify 0 (s ++ vk) t pk m = Ok true ->
  csig_verify H ed_verify 0 (s ++ vk') t pk m = Ok true /\ ~ (ckes_valid H ed_verify 0 pk t m (s ++ vk) /\ ckes_valid H ed_verify 0 pk t m (s ++ vk')).
Proof.
  intros H ed_verify s vk vk' t pk m Ls L L' N V. split.
  - destruct (C73_compact_verify_depth0 H ed_verify (s ++ vk) t pk m ltac:(rewrite app_length; lia)) as ([F _] & _).
    destruct (C73_compact_verify_depth0 H ed_verify (s ++ vk') t pk m ltac:(rewrite app_length; lia)) as ([_ G] & _).
    destruct (F V) as (s0 & v0 & X & L0 & _ & W). apply app_inv_length in X; [|lia]. destruct X as [-> _]. apply G. exists s0, vk'. auto.
  - cbn [ckes_valid]. intros [(_ & s1 & X1 & L1 & _) (_ & s2 & X2 & L2 & _)]. apply app_inv_length in X1; [|lia]. apply app_inv_length in X2; [|lia].
    destruct X1, X2. congruence.
Qed.
Print Assumptions C73_compact_depth0_refuted.
Example C73_ex_depth0 : csig_verify (fun x => x) (fun pk _ s => zlist_eqb (firstn 32 s) pk) 0 (repeat 7 64 ++ repeat 9 32) 0 (repeat 7 32) [1] = Ok true.
Proof. vm_compute. reflexivity. Qed.

(** What is assumed of the hash functions and of the cold key's signatures. *)
Record block_crypto {SK} (H : list Z -> list Z) (sign : SK -> list Z -> list Z) (pub : SK -> list Z) (verify : list Z -> list Z -> list Z -> bool) : Prop := {
  bc_H : forall x, bytes_ok (H x);
  bc_sign : forall sk m, bytesN 64 (sign sk m);
  bc_ok : scheme_correct sign pub verify }.

Lemma pub_bytes H ed_pk ed_sign ed_verify e s : kes_crypto H ed_pk ed_sign ed_verify -> (forall x, bytes_ok (H x)) -> bytesN 32 (vk H ed_pk (S e) s).
Proof. intros C B. split; [apply B|]. unfold zlen. rewrite (vk_len H ed_pk ed_sign ed_verify C). reflexivity. Qed.
Lemma be8_pack n : u64 n -> be8 n (pack_be 8 n).
Proof. intros U. unfold be8. rewrite pack_be_length, pack_be_value, Z.mod_small by (unfold u64 in U; cbn; lia). split; [reflexivity|]. split; [apply pack_be_ok|reflexivity]. Qed.
Lemma be8_is n s : be8 n s -> u64 n /\ s = pack_be 8 n.
Proof.
  intros (L & B & V). assert (U : u64 n). { rewrite <- V. unfold u64. pose proof (bev_bound 256 s ltac:(lia) B) as R. unfold zlen in R. rewrite L in R. exact R. }
  split; [exact U|]. apply (bev_inj 256); [lia|exact B|apply pack_be_ok|unfold zlen; rewrite pack_be_length, L; reflexivity|]. rewrite V, pack_be_value, Z.mod_small by (unfold u64 in U; cbn; lia). reflexivity.
Qed.

(** C73: a pool makes a hot key, evolves it [u] times (storing and restoring it at will), has it certified from period [c0] on with number [n] by its cold key, and signs a
    header.  At period [c0 + u] a node accepts it exactly if the pool is registered, the key is not used for too long and the certificate's number is
    that of the pool's last block or the next one. *)
Theorem C73_block_accepted_iff : forall H H224 ed_pk ed_sign ed_verify SK (sign : SK -> list Z -> list Z) pub,
  kes_crypto H ed_pk ed_sign ed_verify -> block_crypto H sign pub ed_verify ->
  forall kb s k hot sb h hb cold n c0, length s = 32%nat -> length kb = (sk_size 6 + 4)%nat ->
  kes_keygen H ed_pk 6 kb s = Ok (k, hot, sb) -> ~ In ReloadFile h -> Z.of_nat (updates_in h) < 2 ^ 6 -> u64 n -> u64 c0 ->
  let cert := opcert_serialize (opcert_generate SK sign hot n c0 cold) in
  exists k' sig, kes_run H ed_pk 6 k h = Ok k' /\ kes_sign ed_sign 6 k' hb = Ok sig /\
    forall c, let id := H224 (pub cold) in let last := match ch_counter c id with Some m => m | None => 0 end in
      block_ok H H224 ed_verify c (c0 + Z.of_nat (updates_in h)) (pub cold) cert hb sig <->
      ch_pools c id /\ Z.of_nat (updates_in h) < ch_evolutions c /\ (n = last \/ n = last + 1).
Proof.
  intros H H224 ed_pk ed_sign ed_verify SK sign pub C B kb s k hot sb h hb cold n c0 Ls Lk G NF U Un Uc cert.
  destruct (sign_verifies H ed_pk ed_sign ed_verify C 6 kb s k hot sb h hb ltac:(lia) Ls Lk G NF U) as (k' & sig & R & S & V).
  destruct (sizes H ed_pk ed_sign ed_verify C 6 kb s k hot sb h hb ltac:(lia) Ls Lk G NF U) as (_ & k2 & sig2 & R2 & _ & S2 & L2).
  assert (k2 = k') by congruence. subst k2. assert (sig2 = sig) by congruence. subst sig2.
  destruct (C19_keygen_succeeds H ed_pk ed_sign ed_verify C 6 kb s Ls Lk) as (k0 & G0). assert (hot = vk H ed_pk 6 s) by congruence.
  pose proof (pub_bytes H ed_pk ed_sign ed_verify 5 s C (bc_H _ _ _ _ B)) as PB. rewrite <- H0 in PB.
  exists k', sig. split; [exact R|]. split; [exact S|]. intros c id last.
  assert (W : opcert_wf (opcert_generate SK sign hot n c0 cold)). { unfold opcert_wf, opcert_generate, opcert_sign, opcert_unsigned. cbn [oc_hot oc_seq oc_period oc_sigma]. split; [exact PB|]. split; [exact Un|]. split; [exact Uc|]. apply (bc_sign _ _ _ _ B). }
  destruct (C46_serialize _ hot W PB) as [D _]. unfold denotes in D. cbn [opcert_generate opcert_sign opcert_unsigned oc_hot oc_seq oc_period oc_sigma] in D. fold cert in D.
  unfold block_ok. fold id. fold last. split.
  - intros (hot' & n' & c0' & sigma & bn & bc & E & _ & _ & P & T & N & _). cbv zeta in N. rewrite D in E. assert (n' = n) by congruence. assert (c0' = c0) by congruence. subst n' c0'. split; [exact P|]. split; lia.
  - intros (P & T & N). exists hot, n, c0, (sign cold (opcert_message (opcert_unsigned hot n c0))), (pack_be 8 n), (pack_be 8 c0).
    split; [exact D|]. destruct PB as [_ LB]. split; [unfold zlen in LB; lia|]. pose proof (proj2 (bc_sign _ _ _ _ B cold (opcert_message (opcert_unsigned hot n c0)))) as LS. split; [unfold zlen in LS; lia|].
    split; [exact P|]. split; [lia|]. split; [cbv zeta; lia|]. split; [apply be8_pack, Un|]. split; [apply be8_pack, Uc|]. split.
    + replace (hot ++ pack_be 8 n ++ pack_be 8 c0) with (opcert_message (opcert_unsigned hot n c0)) by (unfold opcert_message, opcert_unsigned; cbn [oc_hot oc_seq oc_period]; symmetry; apply app_assoc). apply (bc_ok _ _ _ _ B).
    + replace (c0 + Z.of_nat (updates_in h) - c0) with (Z.of_nat (updates_in h)) by lia. apply verify_exact; [lia|exact L2|split; [lia|exact U]|exact V].
Qed.
Print Assumptions C73_block_accepted_iff.

(** C73: whatever header a node accepts from a pool whose cold key signed only the certificates [signed], all made for hot keys of the library: the certificate
    is one of those, or the cold key's signature was forged; and the header is signed by the hot key's leaf for the header's period, which is one of its 64 periods, or it breaks Blake2b on that key's own tree. *)
Theorem C73_block_authentic : forall H H224 ed_pk ed_sign ed_verify, kes_crypto H ed_pk ed_sign ed_verify ->
  forall cold signed seed c p cert hb sig, Forall opcert_wf signed -> (forall x, In x signed -> oc_hot x = vk H ed_pk 6 (seed x)) ->
  block_ok H H224 ed_verify c p cold cert hb sig ->
  (exists x g, In x signed /\ denotes cert (CArray [CBytes (oc_hot x); CUint (oc_seq x); CUint (oc_period x); CBytes g]) /\
     oc_period x <= p < oc_period x + 64 /\
     (breaks H ed_pk (seed x) 6 sig \/ ed_verify (ed_pk (seed_at H (seed x) (leaf_path 6 (p - oc_period x)))) hb (firstn 64 sig) = true)) \/
  (exists x, denotes cert (CArray [CBytes (oc_hot x); CUint (oc_seq x); CUint (oc_period x); CBytes (oc_sigma x)]) /\
     ~ In (opcert_message x) (map opcert_message signed) /\ ed_verify cold (opcert_message x) (oc_sigma x) = true).
Proof.
  intros H H224 ed_pk ed_sign ed_verify C cold signed seed c p cert hb sig W LK (hot & n & c0 & sigma & bn & bc & E & Lh & Lsg & _ & T & _ & B1 & B2 & V & KV).
  destruct (be8_is _ _ B1) as [Un ->]. destruct (be8_is _ _ B2) as [Uc ->].
  set (x := {| oc_hot := hot; oc_seq := n; oc_period := c0; oc_sigma := sigma |}).
  assert (M : hot ++ pack_be 8 n ++ pack_be 8 c0 = opcert_message x) by (unfold opcert_message; cbn [oc_hot oc_seq oc_period x]; apply app_assoc). rewrite M in V.
  destruct (in_dec (list_eq_dec Z.eq_dec) (opcert_message x) (map opcert_message signed)) as [I|N]; [left|right; exists x; split; [exact E|]; split; assumption].
  apply in_map_iff in I as (y & EM & I). pose proof (proj1 (Forall_forall _ _) W y I) as Wy.
  assert (Q : oc_hot y = hot /\ oc_seq y = n /\ oc_period y = c0).
  { destruct Wy as ((_ & Hl) & Sy & Py & _). unfold opcert_message in EM. rewrite <- !app_assoc in EM. unfold zlen, u64 in *. cbn [oc_hot oc_seq oc_period x] in EM.
    apply app_inv_length in EM as [E1 E2]; [|lia]. apply app_inv_length in E2 as [E2 E3]; [|rewrite !pack_be_length; reflexivity].
    apply pack_be_inj in E2; [|cbn; lia|cbn; lia]. apply pack_be_inj in E3; [|cbn; lia|cbn; lia]. auto. }
  destruct Q as (Q1 & Q2 & Q3). exists y, sigma. split; [exact I|]. rewrite Q1, Q2, Q3. split; [exact E|].
  assert (KL : p - c0 < 64). { clear -KV T. revert KV. generalize (p - c0). assert (G : forall d vk t, kes_valid H ed_verify d vk t hb sig -> t < 2 ^ Z.of_nat d). { clear. intros d. revert sig. induction d as [|e IH]; intros sig vk t K; cbn [kes_valid] in K; [destruct K as [-> _]; reflexivity|]. rewrite pow_S. destruct K as (sub & l & r & _ & _ & _ & _ & _ & K2). pose proof (pow_pos e). destruct (Z.lt_ge_cases t (2 ^ Z.of_nat e)) as [A|A]; [lia|]. apply K2, IH in A. lia. }
    intros t K. apply G in K. exact K. }
  split; [lia|]. rewrite <- Q1 in KV. rewrite (LK y I) in KV. apply (leaf_signed H ed_verify ed_pk ed_sign C) in KV. tauto.
Qed.
Print Assumptions C73_block_authentic.

(** The hypotheses can be met, and both outcomes occur. *)
Lemma toy_bytes x : bytes_ok (toy_H x). Proof. apply pack_be_ok. Qed.
Example C73_hypotheses_satisfiable : kes_crypto toy_H toy_pk toy_sign toy_verify /\ block_crypto toy_H toy_sign toy_pk toy_verify.
Proof.
  split; [exact C19_hypotheses_satisfiable|]. constructor; [exact toy_bytes| |].
  - intros sk m. unfold toy_sign. split; [apply Forall_app; split; apply toy_bytes|]. unfold zlen. rewrite app_length. unfold toy_pk, toy_H. rewrite !pack_be_length. reflexivity.
  - intros sk m. apply (sign_ok _ _ _ _ C19_hypotheses_satisfiable).
Qed.
Definition toy_chain (last : Z) : chain := {| ch_pools := fun id => id = toy_H [9]; ch_counter := fun _ => Some last; ch_evolutions := 62 |}.
Example C73_ex : let h := [Update; Reload; Update] in let cold := repeat 3 32 in
  match kes_keygen toy_H toy_pk 6 (zeros (sk_size 6 + 4)) (seq_bytes 32) with
  | Ok (k, hot, _) =>
      exists k' sig, kes_run toy_H toy_pk 6 k h = Ok k' /\ kes_sign toy_sign 6 k' [1; 2] = Ok sig /\
        block_ok toy_H (fun _ => toy_H [9]) toy_verify (toy_chain 3) 102 (toy_pk cold) (opcert_serialize (opcert_generate _ toy_sign hot 4 100 cold)) [1; 2] sig /\
        ~ block_ok toy_H (fun _ => toy_H [9]) toy_verify (toy_chain 2) 102 (toy_pk cold) (opcert_serialize (opcert_generate _ toy_sign hot 4 100 cold)) [1; 2] sig
  | _ => False
  end.
Proof.
  cbv zeta. destruct C73_hypotheses_satisfiable as [C B]. assert (L1 : length (seq_bytes 32) = 32%nat) by (vm_compute; reflexivity). assert (L2 : length (zeros (sk_size 6 + 4)) = (sk_size 6 + 4)%nat) by apply zeros_length.
  destruct (C19_keygen_succeeds _ _ _ _ C 6 _ _ L1 L2) as (k & G). rewrite G.
  assert (U : forall h : list kes_op, h = [Update; Reload; Update] -> Z.of_nat (updates_in h) = 2 /\ ~ In ReloadFile h). { intros h ->. split; [reflexivity|]. intros [|[|[|[]]]]; discriminate. }
  destruct (U _ eq_refl) as [Un NF].
  destruct (C73_block_accepted_iff toy_H (fun _ => toy_H [9]) toy_pk toy_sign toy_verify _ toy_sign toy_pk C B _ _ _ _ _ [Update; Reload; Update] [1; 2] (repeat 3 32) 4 100 L1 L2 G NF ltac:(rewrite Un; lia) ltac:(unfold u64; lia) ltac:(unfold u64; lia)) as (k' & sig & R & S & A).
  exists k', sig. split; [exact R|]. split; [exact S|]. rewrite Un in A. split.
  - apply (A (toy_chain 3)). cbn [ch_pools ch_counter ch_evolutions toy_chain]. split; [reflexivity|]. split; [lia|right; lia].
  - intros X. apply (A (toy_chain 2)) in X. cbn [ch_pools ch_counter ch_evolutions toy_chain] in X. destruct X as (_ & _ & [X|X]); lia.
Qed.
