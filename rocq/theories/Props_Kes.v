(** C19-C25, C53: key-evolving signatures.  [kes_keygen d buffer seed] returns the key, the public key
    and what is left in the caller's seed buffer; [kes_run d key history] applies a history of [Update],
    [Reload] (construct from the key's own [bytes()]) and [ReloadFile] (construct from what [saveToFile]
    writes).  Depths 0..7 are those the code can be instantiated at. *)
From Verif Require Import Base Model_Hex Model_Kes Spec_Kes Proof_KesHist Proof_KesMore.

(** A toy instance of the primitives, to show that the hypotheses below can be met. *)
Definition toy_H (x : list Z) : list Z := pack_be 32 (fold_left (fun a b => (a * 31 + b + 7) mod 65521) x 5).
Definition toy_pk (s : list Z) : list Z := toy_H (77 :: s).
Definition toy_sign (s m : list Z) : list Z := toy_pk s ++ toy_H (toy_pk s ++ m).
Definition toy_verify (pk m sig : list Z) : bool := zlist_eqb sig (pk ++ toy_H (pk ++ m)).
Theorem C19_hypotheses_satisfiable : kes_crypto toy_H toy_pk toy_sign toy_verify.
Proof.
  constructor; try reflexivity. intros s m. unfold toy_verify, toy_sign. apply BaseLemmas.zlist_eqb_refl.
Qed.
Print Assumptions C19_hypotheses_satisfiable.

(** C19: after any history with [u] < 2^d updates, with save/restore anywhere in between, the
    signature verifies at period [u] under the original public key. *)
Theorem C19_sign_verifies : forall H ed_pk ed_sign ed_verify, kes_crypto H ed_pk ed_sign ed_verify ->
  forall d kb s k pk sb h m, (d <= 7)%nat -> length s = 32%nat -> length kb = (sk_size d + 4)%nat ->
  kes_keygen H ed_pk d kb s = Ok (k, pk, sb) -> ~ In ReloadFile h ->
  Z.of_nat (updates_in h) < 2 ^ Z.of_nat d ->
  exists k' sig, kes_run H ed_pk d k h = Ok k' /\ kes_sign ed_sign d k' m = Ok sig /\
    sig_verify H ed_verify d sig (Z.of_nat (updates_in h)) pk m = Ok true.
Proof. exact sign_verifies. Qed.
Print Assumptions C19_sign_verifies.

(** Key generation succeeds on every 32-byte seed, and its public key is the root of the tree. *)
Theorem C19_keygen_succeeds : forall H ed_pk ed_sign ed_verify, kes_crypto H ed_pk ed_sign ed_verify ->
  forall d kb s, length s = 32%nat -> length kb = (sk_size d + 4)%nat ->
  exists k, kes_keygen H ed_pk d kb s = Ok (k, vk H ed_pk d s, repeat 0 32).
Proof.
  exact (fun H ed_pk ed_sign ed_verify C d kb s Ls Lk =>
    ex_intro _ _ (Proof_Kes.keygen_spec H ed_pk ed_sign ed_verify C d kb s Lk Ls)).
Qed.
Print Assumptions C19_keygen_succeeds.

Definition seq_bytes (n : nat) : list Z := map Z.of_nat (seq 0 n).
Definition toy_run (d : nat) (h : list kes_op) : outcome kes_key :=
  let* (k, pk, _) := kes_keygen toy_H toy_pk d (zeros (sk_size d + 4)) (seq_bytes 32) in kes_run toy_H toy_pk d k h.
Definition toy_verdict (d : nat) (h : list kes_op) (q : Z) : outcome bool :=
  let* (k, pk, _) := kes_keygen toy_H toy_pk d (zeros (sk_size d + 4)) (seq_bytes 32) in
  let* k := kes_run toy_H toy_pk d k h in
  let* sig := kes_sign toy_sign d k [1; 2; 3] in
  sig_verify toy_H toy_verify d sig q pk [1; 2; 3].
Definition toy_verdict_compact (d : nat) (h : list kes_op) (q : Z) : outcome bool :=
  let* (k, pk, _) := kes_keygen toy_H toy_pk d (zeros (sk_size d + 4)) (seq_bytes 32) in
  let* k := kes_run toy_H toy_pk d k h in
  let* sig := kes_signCompact toy_pk toy_sign d k [1; 2; 3] in
  csig_verify toy_H toy_verify d sig q pk [1; 2; 3].
Example C19_nontrivial : map (toy_verdict 3 [Update; Reload; Update; Update; Reload; Update; Update]) [5; 4; 6] = [Ok true; Ok false; Throw].
Proof. vm_compute. reflexivity. Qed.

(** C20 *)
Theorem C20_public_key_constant : forall H ed_pk ed_sign ed_verify, kes_crypto H ed_pk ed_sign ed_verify ->
  forall e kb s k pk sb h, (S e <= 7)%nat -> length s = 32%nat -> length kb = (sk_size (S e) + 4)%nat ->
  kes_keygen H ed_pk (S e) kb s = Ok (k, pk, sb) -> ~ In ReloadFile h ->
  Z.of_nat (updates_in h) < 2 ^ Z.of_nat (S e) ->
  exists k', kes_run H ed_pk (S e) k h = Ok k' /\ kes_publicKey H (S e) k' = Ok pk.
Proof. exact publicKey_const. Qed.
Print Assumptions C20_public_key_constant.

(** C21: the period counts the updates; after 2^d - 1 of them the next one throws and leaves the key
    as it was; no history with more succeeds. *)
Theorem C21_lifetime : forall H ed_pk ed_sign ed_verify, kes_crypto H ed_pk ed_sign ed_verify ->
  forall d kb s k pk sb h, (d <= 7)%nat -> length s = 32%nat -> length kb = (sk_size d + 4)%nat ->
  kes_keygen H ed_pk d kb s = Ok (k, pk, sb) -> ~ In ReloadFile h ->
  (Z.of_nat (updates_in h) < 2 ^ Z.of_nat d ->
     exists k', kes_run H ed_pk d k h = Ok k' /\ kes_period d k' = Ok (Z.of_nat (updates_in h))) /\
  (Z.of_nat (updates_in h) = 2 ^ Z.of_nat d - 1 ->
     exists k', kes_run H ed_pk d k h = Ok k' /\ kes_update H ed_pk d k' = (k', Throw)) /\
  (2 ^ Z.of_nat d <= Z.of_nat (updates_in h) -> kes_run H ed_pk d k h = Throw).
Proof. exact lifetime. Qed.
Print Assumptions C21_lifetime.
Example C21_nontrivial : omap (fun _ => tt) (toy_run 2 [Update; Reload; Update; Update]) = Ok tt /\
  toy_run 2 [Update; Reload; Update; Update; Update] = Throw.
Proof. vm_compute. auto. Qed.

(** C22: the stored key of period [p] is a sequence of blocks, each erased, a public key of the tree
    or the seed of a subtree of periods >= [p]; a leaf seed of an earlier period obtained by
    expanding a stored block means that the block is zero or public, or two paths of the seed tree collide. *)
Theorem C22_forward_security : forall H ed_pk ed_sign ed_verify, kes_crypto H ed_pk ed_sign ed_verify ->
  forall d kb s k pk sb h, (d <= 7)%nat -> length s = 32%nat -> length kb = (sk_size d + 4)%nat ->
  kes_keygen H ed_pk d kb s = Ok (k, pk, sb) -> ~ In ReloadFile h ->
  let p := Z.of_nat (updates_in h) in p < 2 ^ Z.of_nat d ->
  sb = repeat 0 32 /\
  exists k' bs, kes_run H ed_pk d k h = Ok k' /\ prv k' = concat bs ++ pack_be 4 p /\ Forall (storable H ed_pk s d p) bs /\
    forall b r q, In b bs -> 0 <= q < p -> seed_at H b r = seed_at H s (leaf_path d q) ->
      b = repeat 0 32 \/ (exists path, (length path <= d)%nat /\ b = vk H ed_pk (d - length path) (seed_at H s path)) \/
      exists path, (length path <= d)%nat /\ path ++ r <> leaf_path d q /\ seed_at H s (path ++ r) = seed_at H s (leaf_path d q).
Proof. exact forward_secure. Qed.
Print Assumptions C22_forward_security.
(** C22: dropping a key zeroes every byte it stores, whatever the key. *)
Theorem C22_drop_erases : forall k, length (prv (kes_drop k)) = length (prv k) /\ Forall (fun b => b = 0) (prv (kes_drop k)).
Proof.
  intros k. unfold kes_drop. cbn [prv]. split; [unfold zeros; apply repeat_length|]. apply Forall_forall. intros b I. apply repeat_spec in I. exact I.
Qed.
Print Assumptions C22_drop_erases.
(** In the second half of a depth-1 key the left leaf seed is gone from the stored bytes. *)
Example C22_nontrivial : match toy_run 1 [Update] with
  | Ok k => firstn 64 (prv k) = rseed toy_H (seq_bytes 32) ++ repeat 0 32
  | _ => False end.
Proof. vm_compute. reflexivity. Qed.

(** C23 *)
Theorem C23_sizes : forall H ed_pk ed_sign ed_verify, kes_crypto H ed_pk ed_sign ed_verify ->
  forall d kb s k pk sb h m, (d <= 7)%nat -> length s = 32%nat -> length kb = (sk_size d + 4)%nat ->
  kes_keygen H ed_pk d kb s = Ok (k, pk, sb) -> ~ In ReloadFile h ->
  Z.of_nat (updates_in h) < 2 ^ Z.of_nat d ->
  length pk = 32%nat /\
  exists k' sig, kes_run H ed_pk d k h = Ok k' /\ length (prv k') = (32 + 96 * d + 4)%nat /\
    kes_sign ed_sign d k' m = Ok sig /\ length sig = (64 + 64 * d)%nat.
Proof. exact sizes. Qed.
Print Assumptions C23_sizes.
Theorem C23_signature_parsing : forall d b r, sig_of_bytes d b = Ok r <-> length b = (64 + 64 * d)%nat /\ r = b.
Proof. exact sig_of_bytes_iff. Qed.
Print Assumptions C23_signature_parsing.
Theorem C23_compact_parsing : forall d b r, csig_of_bytes d b = Ok r <-> length b = (64 + 32 * (d + 1))%nat /\ r = b.
Proof. exact csig_of_bytes_iff. Qed.
Print Assumptions C23_compact_parsing.
Theorem C23_key_parsing : forall d b k, kes_of_bytes d b = Ok k <->
  period_ k = 0 /\ ((length b = (32 + 96 * d)%nat /\ prv k = b ++ [0; 0; 0; 0]) \/ (length b = (32 + 96 * d + 4)%nat /\ prv k = b)).
Proof. exact key_of_bytes_iff. Qed.
Print Assumptions C23_key_parsing.
Example C23_nontrivial : is_ok (sig_of_bytes 6 (repeat 7 448)) = true /\ sig_of_bytes 6 (repeat 7 447) = Throw.
Proof. vm_compute. auto. Qed.

(** C24, the part that holds: depth >= 1, and the key has not been restored since its last update. *)
Theorem C24_compact_verifies : forall H ed_pk ed_sign ed_verify, kes_crypto H ed_pk ed_sign ed_verify ->
  forall e kb s k pk sb h m, (S e <= 7)%nat -> length s = 32%nat -> length kb = (sk_size (S e) + 4)%nat ->
  kes_keygen H ed_pk (S e) kb s = Ok (k, pk, sb) -> ~ In ReloadFile h ->
  ((forall o, In o h -> o = Update) \/ (exists h', h = h' ++ [Update])) ->
  Z.of_nat (updates_in h) < 2 ^ Z.of_nat (S e) ->
  exists k' sig, kes_run H ed_pk (S e) k h = Ok k' /\ kes_signCompact ed_pk ed_sign (S e) k' m = Ok sig /\
    length sig = (64 + 32 * (S e + 1))%nat /\
    csig_verify H ed_verify (S e) sig (Z.of_nat (updates_in h)) pk m = Ok true.
Proof. exact compact_ok. Qed.
Print Assumptions C24_compact_verifies.
Example C24_nontrivial : toy_verdict_compact 3 [Update; Update; Reload; Update; Update; Update] 5 = Ok true.
Proof. vm_compute. reflexivity. Qed.

(** C24 fails at depth 0: the signature is written past the end of its buffer, for every key and message. *)
Theorem C24_depth0_out_of_bounds_refuted : forall H ed_pk ed_sign ed_verify, kes_crypto H ed_pk ed_sign ed_verify ->
  forall kb s k pk sb m, length s = 32%nat -> length kb = (sk_size 0 + 4)%nat ->
  kes_keygen H ed_pk 0 kb s = Ok (k, pk, sb) -> kes_signCompact ed_pk ed_sign 0 k m = UB.
Proof. exact compact_depth0_UB. Qed.
Print Assumptions C24_depth0_out_of_bounds_refuted.

(** C24, exactly: a compact signature is always produced at depth >= 1 and has the documented length.  It
    verifies unless the key was restored from its bytes after its last update and is past period 0; in
    that case its verification would exhibit two different 64-byte strings with the same digest. *)
Theorem C24_compact_exact : forall H ed_pk ed_sign ed_verify, kes_crypto H ed_pk ed_sign ed_verify ->
  forall e kb s k pk sb h m, (S e <= 7)%nat -> length s = 32%nat -> length kb = (sk_size (S e) + 4)%nat ->
  kes_keygen H ed_pk (S e) kb s = Ok (k, pk, sb) -> ~ In ReloadFile h -> Z.of_nat (updates_in h) < 2 ^ Z.of_nat (S e) ->
  let restored := exists h', h = h' ++ [Reload] in
  exists k' sig, kes_run H ed_pk (S e) k h = Ok k' /\ kes_signCompact ed_pk ed_sign (S e) k' m = Ok sig /\
    length sig = (64 + 32 * (S e + 1))%nat /\
    ((~ restored \/ updates_in h = 0%nat) -> csig_verify H ed_verify (S e) sig (Z.of_nat (updates_in h)) pk m = Ok true) /\
    (restored -> updates_in h <> 0%nat -> all_siblings_distinct H ed_pk s (S e) ->
     csig_verify H ed_verify (S e) sig (Z.of_nat (updates_in h)) pk m = Ok true -> breaks_compact H ed_pk s (S e) sig).
Proof. exact compact_exact. Qed.
Print Assumptions C24_compact_exact.
Example C24_all_siblings_satisfiable : all_siblings_distinct toy_H toy_pk (seq_bytes 32) 2.
Proof.
  intros path e L. destruct path as [|b [|b' path]]; cbn [length] in L; [| |lia].
  - assert (e = 1%nat) as -> by lia. vm_compute. discriminate.
  - assert (e = 0%nat) as -> by lia. destruct b; vm_compute; discriminate.
Qed.

(** C24 fails for restored keys: in the second half of the lifetime, a compact signature of a key just
    restored from its bytes verifies only if two 64-byte strings with different first halves
    (unless the subtrees' keys coincide) have the same Blake2b-256 digest. *)
Theorem C24_restored_key_refuted : forall H ed_pk ed_sign ed_verify, kes_crypto H ed_pk ed_sign ed_verify ->
  forall e kb s k pk sb h m k' sig, (S e <= 7)%nat -> length s = 32%nat -> length kb = (sk_size (S e) + 4)%nat ->
  kes_keygen H ed_pk (S e) kb s = Ok (k, pk, sb) -> ~ In ReloadFile h ->
  2 ^ Z.of_nat e <= Z.of_nat (updates_in h) < 2 ^ Z.of_nat (S e) ->
  kes_run H ed_pk (S e) k (h ++ [Reload]) = Ok k' ->
  kes_signCompact ed_pk ed_sign (S e) k' m = Ok sig ->
  csig_verify H ed_verify (S e) sig (Z.of_nat (updates_in h)) pk m = Ok true ->
  exists x, H (vk H ed_pk e (rseed H s) ++ x) = H (vk H ed_pk e (lseed H s) ++ vk H ed_pk e (rseed H s)).
Proof. exact compact_reload_bad. Qed.
Print Assumptions C24_restored_key_refuted.
Example C24_restored_key_fails : toy_verdict_compact 2 [Update; Update; Reload] 2 = Ok false.
Proof. vm_compute. reflexivity. Qed.

(** C25 fails beyond the lifetime: the signature of the last period verifies at every later 32-bit period. *)
Theorem C25_beyond_lifetime_refuted : forall H ed_pk ed_sign ed_verify, kes_crypto H ed_pk ed_sign ed_verify ->
  forall d kb s k pk sb h q m, (d <= 7)%nat -> length s = 32%nat -> length kb = (sk_size d + 4)%nat ->
  kes_keygen H ed_pk d kb s = Ok (k, pk, sb) -> ~ In ReloadFile h ->
  Z.of_nat (updates_in h) = 2 ^ Z.of_nat d - 1 -> 2 ^ Z.of_nat d <= q < 2 ^ 32 ->
  exists k' sig, kes_run H ed_pk d k h = Ok k' /\ kes_sign ed_sign d k' m = Ok sig /\
    sig_verify H ed_verify d sig q pk m = Ok true.
Proof. exact beyond. Qed.
Print Assumptions C25_beyond_lifetime_refuted.
Example C25_beyond_nontrivial : toy_verdict 2 [Update; Update; Update] 1000 = Ok true.
Proof. vm_compute. reflexivity. Qed.

(** C25 within the lifetime: verifying at another period would be an Ed25519 signature of one leaf
    key accepted under another leaf's public key. *)
Theorem C25_within_lifetime : forall H ed_pk ed_sign ed_verify, kes_crypto H ed_pk ed_sign ed_verify ->
  forall d kb s k pk sb h q m k' sig, (d <= 7)%nat -> length s = 32%nat -> length kb = (sk_size d + 4)%nat ->
  kes_keygen H ed_pk d kb s = Ok (k, pk, sb) -> ~ In ReloadFile h ->
  let p := Z.of_nat (updates_in h) in
  p < 2 ^ Z.of_nat d -> 0 <= q < 2 ^ Z.of_nat d -> p <> q ->
  siblings_distinct H ed_pk s d ->
  kes_run H ed_pk d k h = Ok k' -> kes_sign ed_sign d k' m = Ok sig ->
  sig_verify H ed_verify d sig q pk m = Ok true ->
  ed_verify (ed_pk (seed_at H s (leaf_path d q))) m (ed_sign (seed_at H s (leaf_path d p)) m) = true.
Proof. exact other_period. Qed.
Print Assumptions C25_within_lifetime.
Example C25_siblings_satisfiable : siblings_distinct toy_H toy_pk (seq_bytes 32) 2.
Proof.
  intros path e L He. destruct path as [|b path]; cbn [length] in L; [|lia].
  assert (e = 1%nat) as -> by lia. vm_compute. discriminate.
Qed.
Example C25_within_nontrivial : map (toy_verdict 2 [Update; Reload; Update]) [0; 1; 2; 3] = [Throw; Throw; Ok true; Ok false].
Proof. vm_compute. reflexivity. Qed.

(** C25, exactly: a signature made at period [p] verifies at the 32-bit period [q] if [q], cut to the last
    period of the key's life, is [p]; verifying at any other [q] would be an Ed25519 signature of one leaf
    key accepted under another leaf's public key. *)
Theorem C25_period_bound : forall H ed_pk ed_sign ed_verify, kes_crypto H ed_pk ed_sign ed_verify ->
  forall d kb s k pk sb h q m, (d <= 7)%nat -> length s = 32%nat -> length kb = (sk_size d + 4)%nat ->
  kes_keygen H ed_pk d kb s = Ok (k, pk, sb) -> ~ In ReloadFile h ->
  let p := Z.of_nat (updates_in h) in let q' := Z.min q (2 ^ Z.of_nat d - 1) in
  p < 2 ^ Z.of_nat d -> 0 <= q < 2 ^ 32 ->
  exists k' sig, kes_run H ed_pk d k h = Ok k' /\ kes_sign ed_sign d k' m = Ok sig /\
    (p = q' -> sig_verify H ed_verify d sig q pk m = Ok true) /\
    (p <> q' -> siblings_distinct H ed_pk s d -> sig_verify H ed_verify d sig q pk m = Ok true ->
     ed_verify (ed_pk (seed_at H s (leaf_path d q'))) m (ed_sign (seed_at H s (leaf_path d p)) m) = true).
Proof. exact period_bound. Qed.
Print Assumptions C25_period_bound.
(** The same for compact signatures, where another period would mean a digest collision. *)
Theorem C25_compact_period_bound : forall H ed_pk ed_sign ed_verify, kes_crypto H ed_pk ed_sign ed_verify ->
  forall e kb s k pk sb h q m, (S e <= 7)%nat -> length s = 32%nat -> length kb = (sk_size (S e) + 4)%nat ->
  kes_keygen H ed_pk (S e) kb s = Ok (k, pk, sb) -> ~ In ReloadFile h ->
  let p := Z.of_nat (updates_in h) in let q' := Z.min q (2 ^ Z.of_nat (S e) - 1) in
  p < 2 ^ Z.of_nat (S e) -> 0 <= q < 2 ^ 32 -> (~ (exists h', h = h' ++ [Reload]) \/ p = 0) ->
  exists k' sig, kes_run H ed_pk (S e) k h = Ok k' /\ kes_signCompact ed_pk ed_sign (S e) k' m = Ok sig /\
    (p = q' -> csig_verify H ed_verify (S e) sig q pk m = Ok true) /\
    (p <> q' -> all_siblings_distinct H ed_pk s (S e) -> csig_verify H ed_verify (S e) sig q pk m = Ok true -> breaks_compact H ed_pk s (S e) sig).
Proof. exact compact_period_bound. Qed.
Print Assumptions C25_compact_period_bound.
Example C25_compact_nontrivial : map (toy_verdict_compact 2 [Update; Reload; Update]) [0; 1; 2; 3] = [Ok false; Ok false; Ok true; Ok false].
Proof. vm_compute. reflexivity. Qed.

(** C53, the part that holds: a file written at period 0 restores the key exactly. *)
Theorem C53_fresh_file : forall H ed_pk ed_sign ed_verify, kes_crypto H ed_pk ed_sign ed_verify ->
  forall d kb s k pk sb, (d <= 7)%nat -> length s = 32%nat -> length kb = (sk_size d + 4)%nat ->
  kes_keygen H ed_pk d kb s = Ok (k, pk, sb) -> kes_run H ed_pk d k [ReloadFile] = Ok k.
Proof. exact file_fresh. Qed.
Print Assumptions C53_fresh_file.

(** C53 fails later: the restored key reports period 0 although it signs for the period it was saved in. *)
Theorem C53_file_loses_period_refuted : forall H ed_pk ed_sign ed_verify, kes_crypto H ed_pk ed_sign ed_verify ->
  forall d kb s k pk sb h m, (d <= 7)%nat -> length s = 32%nat -> length kb = (sk_size d + 4)%nat ->
  kes_keygen H ed_pk d kb s = Ok (k, pk, sb) -> ~ In ReloadFile h ->
  Z.of_nat (updates_in h) < 2 ^ Z.of_nat d ->
  exists k' sig, kes_run H ed_pk d k (h ++ [ReloadFile]) = Ok k' /\ kes_period d k' = Ok 0 /\
    kes_sign ed_sign d k' m = Ok sig /\ sig_verify H ed_verify d sig (Z.of_nat (updates_in h)) pk m = Ok true.
Proof. exact file_late. Qed.
Print Assumptions C53_file_loses_period_refuted.

(** C53: saved in the middle of its life and restored, the key of depth e+1 holds, after 2^e further
    (successful) updates, the secret key generated from 32 zero bytes. *)
Theorem C53_file_zero_seed_refuted : forall H ed_pk ed_sign ed_verify, kes_crypto H ed_pk ed_sign ed_verify ->
  forall e kb s k pk sb h, (S e <= 7)%nat -> length s = 32%nat -> length kb = (sk_size (S e) + 4)%nat ->
  kes_keygen H ed_pk (S e) kb s = Ok (k, pk, sb) -> ~ In ReloadFile h ->
  Z.of_nat (updates_in h) = 2 ^ Z.of_nat e ->
  exists k', kes_run H ed_pk (S e) k (h ++ [ReloadFile] ++ repeat Update (Z.to_nat (2 ^ Z.of_nat e))) = Ok k' /\
    forall kb0, length kb0 = (sk_size e + 4)%nat ->
    exists k0 pk0 sb0, kes_keygen H ed_pk e kb0 (repeat 0 32) = Ok (k0, pk0, sb0) /\
      firstn (sk_size e) (prv k') = firstn (sk_size e) (prv k0).
Proof. exact file_zero_seed. Qed.
Print Assumptions C53_file_zero_seed_refuted.
Example C53_nontrivial : match toy_run 2 [Update; Update; ReloadFile; Update; Update] with
  | Ok k => firstn 32 (prv k) = lseed toy_H (repeat 0 32) | _ => False end.
Proof. vm_compute. reflexivity. Qed.

(** C53, exactly: a key read back from its file has the secret bytes of the saved key and period 0; it is
    the saved key if and only if that had never been updated. *)
Theorem C53_file_exact : forall H ed_pk ed_sign ed_verify, kes_crypto H ed_pk ed_sign ed_verify ->
  forall d kb s k pk sb h, (d <= 7)%nat -> length s = 32%nat -> length kb = (sk_size d + 4)%nat ->
  kes_keygen H ed_pk d kb s = Ok (k, pk, sb) -> ~ In ReloadFile h ->
  Z.of_nat (updates_in h) < 2 ^ Z.of_nat d ->
  exists k1 k2, kes_run H ed_pk d k h = Ok k1 /\ kes_run H ed_pk d k (h ++ [ReloadFile]) = Ok k2 /\
    prv k2 = firstn (sk_size d) (prv k1) ++ [0; 0; 0; 0] /\ kes_period d k2 = Ok 0 /\
    (k2 = k1 <-> updates_in h = 0%nat).
Proof. exact file_exact. Qed.
Print Assumptions C53_file_exact.
(** C53: every key saved after at least one update comes, some 2^j <= u successful updates after being
    read back, to sign with a leaf of the tree of 32 zero bytes. *)
Theorem C53_zero_seed_always : forall H ed_pk ed_sign ed_verify, kes_crypto H ed_pk ed_sign ed_verify ->
  forall d kb s k pk sb h, (d <= 7)%nat -> length s = 32%nat -> length kb = (sk_size d + 4)%nat ->
  kes_keygen H ed_pk d kb s = Ok (k, pk, sb) -> ~ In ReloadFile h ->
  let u := Z.of_nat (updates_in h) in 0 < u < 2 ^ Z.of_nat d ->
  exists j k', 2 ^ Z.of_nat j <= u /\
    kes_run H ed_pk d k (h ++ [ReloadFile] ++ repeat Update (Z.to_nat (2 ^ Z.of_nat j))) = Ok k' /\
    kes_period d k' = Ok (2 ^ Z.of_nat j) /\
    firstn 32 (prv k') = seed_at H (repeat 0 32) (repeat false j).
Proof. exact file_zero_seed_any. Qed.
Print Assumptions C53_zero_seed_always.
Example C53_zero_seed_nontrivial : match toy_run 3 [Update; Update; Update; ReloadFile; Update] with
  | Ok k => firstn 32 (prv k) = repeat 0 32 | _ => False end.
Proof. vm_compute. reflexivity. Qed.
