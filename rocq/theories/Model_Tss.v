(** Model of /repo/src/tss.cpp, /repo/include/cardano/tss.hpp and /repo/src/curve25519.cpp.
    A Scalar is represented by its value in [0, ell); its 32 bytes are [pack_le 32].  Point operations and
    hashes are section variables as in Model_Bip32.  Randomness (PrivateKey::generate, Scalar::random,
    GenerateEntropy) enters as arguments.  Not modelled: memory wiping, constant-time comparison,
    exhaustion of memory by [reserve]. *)
From Verif Require Import Base Model_Hex Spec_Ed25519 Spec_Tss Model_Bip32.

(** curve25519.cpp:116-128 addition modulo ell (Scalar::reduce, curve25519.cpp:52-72, is [sc_reduce]) *)
Definition sc_add (a b : Z) : Z := (a + b) mod ell.
(** curve25519.cpp:130-137 *)
Definition sc_sub (a b : Z) : Z := (a - b) mod ell.
(** curve25519.cpp:139-146 *)
Definition sc_mul (a b : Z) : Z := (a * b) mod ell.
(** curve25519.cpp:155-157.  crypto_core_ed25519_scalar_invert returns the inverse modulo ell (a libsodium function);
    here computed by the extended Euclidean algorithm. *)
Fixpoint inv_loop (fuel : nat) (r0 r1 t0 t1 : Z) : Z :=
  match fuel with
  | O => 0
  | S fuel => if r1 =? 0 then t0 else inv_loop fuel r1 (r0 mod r1) t1 (t0 - (r0 / r1) * t1)
  end.
(** curve25519.cpp:155-157 *)
Definition sc_inv (x : Z) : Z := inv_loop 1024 ell (x mod ell) 0 1 mod ell.
(** curve25519.cpp:148-162 operator/ *)
Definition sc_div (a b : Z) : outcome Z := if b =? 0 then Throw else Ok (sc_mul a (sc_inv b)).
(** curve25519.cpp:83-92 fromUint, of a uint64 *)
Definition sc_fromUint (v : Z) : Z := v.
(** curve25519.cpp:99-102 *)
Fixpoint pow_loop (k : nat) (result value : Z) : Z :=
  match k with O => result | S k => pow_loop k (sc_mul result value) value end.
(** curve25519.cpp:94-104; [p] multiplications less one *)
Definition sc_fromUintPow (v : Z) (p : nat) : Z :=
  match p with O => sc_fromUint 1 | S k => pow_loop k (sc_fromUint v) (sc_fromUint v) end.

(** include/cardano/tss.hpp:63-73 *)
Record keyshare := { ks_id : Z; ks_key : xprv }.
(** include/cardano/tss.hpp:52-56 *)
Inductive alg := Direct | Shamir.
(** include/cardano/tss.hpp:85-90 *)
Record dealer := { num_keys : Z; threshold : Z; algorithm : alg }.
(** include/cardano/tss.hpp:93-124, 144-149 (arguments are uint32) *)
Definition dealer2 (n t : Z) : outcome dealer :=
  if n <? 1 then Throw else if (t <? 1) || (n <? t) then Throw
  else Ok {| num_keys := n; threshold := t; algorithm := if t =? n then Direct else Shamir |}.
(** include/cardano/tss.hpp:154-159 *)
Definition dealer1 (n : Z) : outcome dealer :=
  if n <? 1 then Throw else Ok {| num_keys := n; threshold := n; algorithm := Direct |}.
(** include/cardano/tss.hpp:168-173 *)
Definition dealer3 (n t : Z) (a : alg) : outcome dealer :=
  if n <? 1 then Throw else if (t <? 1) || (n <? t) then Throw
  else match a with
       | Direct => if negb (t =? n) then Throw else Ok {| num_keys := n; threshold := t; algorithm := a |}
       | Shamir => Ok {| num_keys := n; threshold := t; algorithm := a |}
       end.

(** tss.cpp:113, 388 *)
Definition ext_tag : list Z := str "cardano-tss-key-extension-v1".

Section Tss.
(** tss.cpp:76, 89, 112, 387, 534, 552, 591: Botan's SHA-512 and SHA-256, abstract *)
Variable sha512 sha256 : list Z -> list Z.
(** curve25519.cpp:164-172: libsodium's encoding of a multiple of the base point, abstract *)
Variable enc : Z -> list Z.
(** curve25519.cpp:174-185: libsodium's point addition, abstract *)
Variable padd : list Z -> list Z -> option (list Z).

(** curve25519.cpp:164-172 Point::mulBasepoint: the status is ignored; the scalar 0 gives the identity *)
Definition pt_mul (s : Z) : list Z := enc s.
(** curve25519.cpp:174-185, 187-197 *)
Definition pt_add (a b : list Z) : outcome (list Z) := match padd a b with Some p => Ok p | None => Throw end.

(** tss.cpp:75-82, 88-95 *)
Definition chain_code_of (pks : list (list Z)) : list Z := sha256 (concat pks).
(** tss.cpp:72-83 *)
Definition make_cc (ks : list keyshare) : outcome (list Z) :=
  let* pks := mapM (fun s => omap pbytes (publicKey enc (ks_key s))) ks in Ok (chain_code_of pks).
(** tss.cpp:85-96 *)
Definition make_cc_pub (ks : list xpub) : list Z := chain_code_of (map pbytes ks).

(** tss.cpp:98-102 *)
Definition key_scalar (k : xprv) : Z := sc_reduce (firstn 32 (kbytes k)).
(** tss.cpp:104-117 *)
Definition extend_scalar (s : Z) : xprv :=
  xprv_of_bytes (pack_le 32 s ++ sha512 (ext_tag ++ pack_le 32 s)).

(** tss.cpp:129-143: the loop; [gen i] is the key the i-th call of PrivateKey::generate returns *)
Fixpoint direct_loop (gen : nat -> xprv) (i k : nat) (ss : Z) (ab : list Z) (keys : list keyshare) : outcome (Z * list Z * list keyshare) :=
  match k with
  | O => Ok (ss, ab, keys)
  | S k =>
      let ki := gen i in
      let ai := key_scalar ki in
      let* ab := match i with O => Ok (pt_mul ai) | _ => pt_add ab (pt_mul ai) end in
      direct_loop gen (S i) k (sc_sub ss ai) ab (keys ++ [{| ks_id := Z.of_nat i + 1; ks_key := ki |}])
  end.
(** tss.cpp:119-153 Ed25519DirectKeySplit; [n - 1] is uint32 arithmetic, n >= 1 *)
Definition direct_split (root : xprv) (n : Z) (gen : nat -> xprv) : outcome (xpub * list keyshare) :=
  let* r := direct_loop gen 0 (Z.to_nat ((n - 1) mod 2 ^ 32)) (key_scalar root) (pt_mul (sc_fromUint 1)) [] in
  let '(ss, ab, keys) := r in
  let keys := keys ++ [{| ks_id := n; ks_key := extend_scalar ss |}] in
  let* ab := pt_add ab (pt_mul ss) in
  let* cc := make_cc keys in
  Ok ({| pbytes := ab; pcc := cc |}, keys).

(** tss.cpp:186-190: the value of one share: [j] runs from 1 to t - 1 *)
Fixpoint share_loop (coefs : list Z) (xi : Z) (ai : Z) (j k : nat) : outcome Z :=
  match k with
  | O => Ok ai
  | S k =>
      let* c := get_ub coefs (j - 1) in
      share_loop coefs xi (sc_add ai (sc_mul c (sc_fromUintPow xi j))) (S j) k
  end.
(** tss.cpp:155-196 Ed25519ShamirKeySplit with given coefficients; [xi < n + 1] in uint32 arithmetic *)
Definition shamir_split (root : xprv) (n t : Z) (coefs : list Z) : outcome (xpub * list keyshare) :=
  let s := key_scalar root in
  if s =? 0 then Throw
  else if existsb (fun c => c =? 0) coefs then Throw
  else
    let* keys := mapM (fun x =>
        let xi := Z.of_nat x in
        let* ai := share_loop coefs xi s 1 (Z.to_nat (t - 1)) in
        Ok {| ks_id := xi; ks_key := extend_scalar ai |}) (seq 1 (Z.to_nat ((n + 1) mod 2 ^ 32 - 1))) in
    let* pk := publicKey enc root in
    Ok (pk, keys).

(** tss.cpp:215-231, and 424-441: one coefficient; [j] is the running index *)
Fixpoint lag_loop (i j : nat) (xi : Z) (ids : list Z) (num den : Z) : Z * Z :=
  match ids with
  | [] => (num, den)
  | xj :: r =>
      if Nat.eqb j i then lag_loop i (S j) xi r num den
      else lag_loop i (S j) xi r (sc_mul num xj) (sc_sub (sc_mul den xj) (sc_mul den xi))
  end.
(** tss.cpp:215-231, 425-441: all the coefficients *)
Fixpoint lag_all (ids : list Z) (i : nat) (rest : list Z) : outcome (list Z) :=
  match rest with
  | [] => Ok []
  | xi :: r =>
      let '(num, den) := lag_loop i 0 (sc_fromUint xi) ids (sc_fromUint 1) (sc_fromUint 1) in
      let* c := sc_div num den in
      let* cs := lag_all ids (S i) r in
      Ok (c :: cs)
  end.
(** tss.cpp:211-233, 424-442 *)
Definition lagrange (ids : list Z) : outcome (list Z) := lag_all ids 0 ids.

(** tss.cpp:235-260 Ed25519ShamirFilterKeyShares: [acc] is the vector built so far *)
Fixpoint filter_shares (acc : list keyshare) (ks : list keyshare) : list keyshare :=
  match ks with
  | [] => acc
  | k :: r =>
      if ks_id k =? 0 then filter_shares acc r
      else if existsb (fun f => (ks_id f =? ks_id k) && zlist_eqb (kbytes (ks_key k)) (kbytes (ks_key f))) acc
      then filter_shares acc r
      else filter_shares (acc ++ [k]) r
  end.
(** tss.cpp:276-283 *)
Fixpoint weighted_sum (cs : list Z) (ks : list keyshare) (s : Z) : Z :=
  match cs, ks with
  | c :: cs, k :: ks => weighted_sum cs ks (sc_add s (sc_mul c (key_scalar (ks_key k))))
  | _, _ => s
  end.
(** tss.cpp:262-286 Ed25519ShamirKeyReconstruction *)
Definition reconstruct (ks : list keyshare) (t : Z) : outcome xprv :=
  let valid := filter_shares [] ks in
  if Z.of_nat (length valid) <? t then Throw
  else
    let* cs := lagrange (map ks_id valid) in
    Ok (extend_scalar (weighted_sum cs valid 0)).

(** tss.cpp:303-313 splitRootKey; the random keys / coefficients drawn are arguments *)
Definition splitRootKey (d : dealer) (root : xprv) (gen : nat -> xprv) (coefs : list Z) : outcome (xpub * list keyshare) :=
  match algorithm d with
  | Direct => direct_split root (num_keys d) gen
  | Shamir => shamir_split root (num_keys d) (threshold d) coefs
  end.

(** tss.cpp:363-396 compositeSigningKey; [key_shares[0]] exists as the size is at least t >= 1 *)
Definition compositeSigningKey (d : dealer) (ks : list keyshare) : outcome xprv :=
  if Z.of_nat (length ks) <? threshold d then Throw
  else match algorithm d with
  | Direct =>
      match ks with
      | [] => UB
      | k :: r =>
          let ss := fold_left (fun s x => sc_add s (key_scalar (ks_key x))) r (key_scalar (ks_key k)) in
          let* cc := make_cc ks in
          Ok {| kbytes := pack_le 32 ss ++ sha256 (ext_tag ++ pack_le 32 ss); kcc := cc |}
      end
  | Shamir => reconstruct ks (threshold d)
  end.

(** tss.cpp:329-334, 353-356, 451-454 *)
Fixpoint sum_points (acc : list Z) (ps : list (list Z)) : outcome (list Z) :=
  match ps with [] => Ok acc | p :: r => let* acc := pt_add acc p in sum_points acc r end.
(** tss.cpp:315-339 compositeKey(KeyShares) *)
Definition compositeKey (d : dealer) (ks : list keyshare) : outcome xpub :=
  if Z.of_nat (length ks) <? threshold d then Throw
  else match algorithm d with
  | Direct =>
      let* pks := mapM (fun s => omap pbytes (publicKey enc (ks_key s))) ks in
      match pks with
      | [] => UB
      | p :: r => let* p := sum_points p r in Ok {| pbytes := p; pcc := chain_code_of pks |}
      end
  | Shamir => let* k := compositeSigningKey d ks in publicKey enc k
  end.
(** tss.cpp:341-361 compositeKey(PublicKeys) *)
Definition compositeKeyPub (d : dealer) (ks : list xpub) : outcome xpub :=
  if Z.of_nat (length ks) <? threshold d then Throw
  else match algorithm d with
  | Direct =>
      match map pbytes ks with
      | [] => UB
      | p :: r => let* p := sum_points p r in Ok {| pbytes := p; pcc := make_cc_pub ks |}
      end
  | Shamir => Throw
  end.

(** tss.cpp:411: std::ranges::sort, as insertion sort *)
Fixpoint insert_id (x : Z) (l : list Z) : list Z :=
  match l with [] => [x] | y :: r => if x <=? y then x :: l else y :: insert_id x r end.
(** tss.cpp:411 *)
Definition sort_ids (l : list Z) : list Z := fold_right insert_id [] l.
(** tss.cpp:416-422 *)
Fixpoint adjacent_equal (l : list Z) : bool :=
  match l with x :: ((y :: _) as r) => (y =? x) || adjacent_equal r | _ => false end.
(** tss.cpp:398-443 *)
Definition computeLagrangeCoefficients (ids : list Z) : outcome (list (list Z)) :=
  match sort_ids ids with
  | [] => Ok []
  | (x :: _) as sorted =>
      if x =? 0 then Throw else if adjacent_equal sorted then Throw
      else let* cs := lagrange ids in Ok (map (pack_le 32) cs)
  end.

(** tss.cpp:445-456 aggregateCommitmentShares *)
Definition aggregateCommitmentShares (cs : list (list Z)) : outcome (list Z) :=
  match cs with [] => UB | c :: r => sum_points c r end.
(** tss.cpp:458-485 aggregateSignatureShares (64-byte arrays) *)
Definition aggregateSignatureShares (sigs : list (list Z)) : outcome (list Z) :=
  match sigs with
  | [] => UB
  | s0 :: _ =>
      if negb (forallb (fun s => zlist_eqb (firstn 32 s0) (firstn 32 s)) sigs) then Throw
      else
        let s_agg := fold_left (fun a s => sc_add a (sc_reduce (skipn 32 s))) sigs 0 in
        Ok (firstn 32 s0 ++ pack_le 32 s_agg)
  end.

(** tss.cpp:496-510 commitmentShareFromNonce: commitment and nonce *)
Definition commitmentShareFromNonce (nonce : list Z) : outcome (list Z * list Z) :=
  if negb (zlen nonce =? 32) && negb (zlen nonce =? 64) then Throw
  else let r := sc_reduce nonce in Ok (pt_mul r, pack_le 32 r).
(** tss.cpp:522-540 commitmentShareAndNonce(msg, sk), for the entropy drawn *)
Definition commitmentShareAndNonce (seed msg : list Z) (sk : keyshare) : outcome (list Z * list Z) :=
  commitmentShareFromNonce (sha512 (seed ++ skipn 32 (kbytes (ks_key sk)) ++ msg)).

(** tss.cpp:542-576 signatureShare without coefficient *)
Definition signatureShare0 (msg nonce commitment : list Z) (pk : xpub) (sk : keyshare) : list Z :=
  let s := sc_reduce (sha512 (commitment ++ pbytes pk ++ msg)) in
  let s := sc_mul s (key_scalar (ks_key sk)) in
  let s := sc_add (sc_reduce nonce) s in
  commitment ++ pack_le 32 s.
(** tss.cpp:578-610 signatureShare with coefficient *)
Definition signatureShare (msg nonce commitment coefficient : list Z) (pk : xpub) (sk : keyshare) : list Z :=
  let ci := sc_reduce coefficient in
  let k := sc_reduce (sha512 (commitment ++ pbytes pk ++ msg)) in
  let si := key_scalar (ks_key sk) in
  let ri := sc_reduce nonce in
  let s := sc_add ri (sc_mul (sc_mul k ci) si) in
  commitment ++ pack_le 32 s.

(** include/cardano/tss.hpp:339-344 *)
Record signer := { sg_msg : list Z; sg_coef : list Z; sg_nonce : list Z; sg_vkey : xpub; sg_key : keyshare }.
(** include/cardano/tss.hpp:351-361 *)
Definition signer_new (msg : list Z) (vkey : xpub) (key : keyshare) : signer :=
  {| sg_msg := msg; sg_coef := 1 :: repeat 0 31; sg_nonce := repeat 0 32; sg_vkey := vkey; sg_key := key |}.
(** include/cardano/tss.hpp:368-379 *)
Definition signer_new_coef (msg : list Z) (vkey : xpub) (key : keyshare) (coef : list Z) : signer :=
  {| sg_msg := msg; sg_coef := coef; sg_nonce := repeat 0 32; sg_vkey := vkey; sg_key := key |}.
(** tss.cpp:621-627 *)
Definition signer_commit (g : signer) (seed : list Z) : outcome (signer * list Z) :=
  let* r := commitmentShareAndNonce seed (sg_msg g) (sg_key g) in
  Ok ({| sg_msg := sg_msg g; sg_coef := sg_coef g; sg_nonce := snd r; sg_vkey := sg_vkey g; sg_key := sg_key g |}, fst r).
(** tss.cpp:629-641 *)
Definition signer_sign (g : signer) (agg : list Z) : list Z :=
  signatureShare (sg_msg g) (sg_nonce g) agg (sg_coef g) (sg_vkey g) (sg_key g).
(** tss.cpp:643-656 *)
Definition signer_sign_coef (g : signer) (agg coef : list Z) : list Z :=
  signatureShare (sg_msg g) (sg_nonce g) agg coef (sg_vkey g) (sg_key g).
(** tss.cpp:621-656: one call on a signer: commitmentShare() with the entropy it draws, or one of the two forms of
    signatureShare(), which are const *)
Definition signer_step (g : signer) (c : signer_call) : outcome (signer * list Z) :=
  match c with
  | Commit seed => signer_commit g seed
  | Sign agg => Ok (g, signer_sign g agg)
  | SignWith agg coef => Ok (g, signer_sign_coef g agg coef)
  end.
(** tss.cpp:621-656: a history of calls; returns the signer and what each call returned *)
Fixpoint signer_run (g : signer) (h : list signer_call) : outcome (signer * list (list Z)) :=
  match h with
  | [] => Ok (g, [])
  | c :: h => let* r := signer_step g c in let* q := signer_run (fst r) h in Ok (fst q, snd r :: snd q)
  end.
End Tss.
