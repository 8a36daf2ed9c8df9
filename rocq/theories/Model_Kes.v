(** Model of the key-evolving signatures, /repo/include/cardano/kes.hpp and /repo/src/kes.cpp.
    Buffers are byte lists; [first]/[last]/[subspan] outside a buffer and copies past its end
    are [UB].  The template parameter [Depth] is a [nat] argument (the code admits 0..7).
    Blake2b-256 (Botan) and Ed25519 (libsodium, wrapped by /repo/src/ed25519.cpp:32-82 and
    /repo/include/cardano/ed25519.hpp:49-111) are section variables:
    [ed_pk seed], [ed_sign seed msg], [ed_verify pk msg sig].
    [KesDepth::total]/[half] (kes.hpp:121-132) use [lround(pow(2, d))], exact for d < 32.
    Not modelled: mlock failures of [SecureByteArray], wiping of destroyed temporaries. *)
From Verif Require Import Base Model_Hex.

Section Kes.
(** kes.cpp:38-44, 52-55: Botan's Blake2b(256), abstract *)
Variable blake2b_256 : list Z -> list Z.
(** ed25519.cpp:62-68, called at kes.hpp:479, 654, 727, 738, 933; abstract *)
Variable ed_pk : list Z -> list Z.
(** ed25519.cpp:70-82, called at kes.hpp:632, 655, 880, 934; abstract *)
Variable ed_sign : list Z -> list Z -> list Z.
(** ed25519.cpp:39-47, called at kes.hpp:242, 338, 380; abstract *)
Variable ed_verify : list Z -> list Z -> list Z -> bool.

(** kes.hpp:421-422 *)
Definition sk_size (d : nat) : nat := (32 + d * (32 + 32 * 2))%nat.
(** kes.hpp:208 *)
Definition sig_size (d : nat) : nat := (64 + d * (32 * 2))%nat.
(** kes.hpp:304 *)
Definition csig_size (d : nat) : nat := (64 + (d + 1) * 32)%nat.
(** kes.hpp:121-124 *)
Definition kd_total (d : nat) : Z := 2 ^ Z.of_nat d mod 2 ^ 32.
(** kes.hpp:128-132 (only called with depth > 0) *)
Definition kd_half (d : nat) : Z := 2 ^ (Z.of_nat d - 1) mod 2 ^ 32.

(** kes.hpp:254-257, 336-337, 559-561, 773, 907: [span.subspan(off, n)] and the like *)
Definition sub_ub (buf : list Z) (off n : nat) : outcome (list Z) :=
  if (length buf <? off + n)%nat then UB else Ok (firstn n (skipn off buf)).
(** kes.hpp:485-491, 780-809, 897-917: [std::copy] of [data] to [buf.begin() + off] *)
Definition blit (buf : list Z) (off : nat) (data : list Z) : outcome (list Z) :=
  if (length buf <? off + length data)%nat then UB
  else Ok (firstn off buf ++ data ++ skipn (off + length data) buf).
(** kes.hpp:482, 722, 736: what secure_scrub_memory leaves *)
Definition zeros (n : nat) : list Z := repeat 0 n.

(** kes.cpp:29-47 [KesSeed::split]: the left half, 39-41; the scrubbing of the input is done by the callers below *)
Definition seed_left (seed : list Z) : list Z := blake2b_256 ([1] ++ seed).
(** kes.cpp:42-44 *)
Definition seed_right (seed : list Z) : list Z := blake2b_256 ([2] ++ seed).
(** kes.cpp:49-57 [KesPublicKey::hash_pair] *)
Definition hash_pair (a b : list Z) : list Z := blake2b_256 (a ++ b).

(** kes.hpp:705-812 [keygen_buffer], both overloads.  Returns the buffer and the public key.
    With [Some seed] the seed is the caller's (scrubbed by the callee, see [kes_keygen]); with
    [None] it is the tail of the buffer, which is overwritten with zeros.
    The call of [keygen] for the right subtree (kes.hpp:787-795) works on a temporary buffer of
    which only the public key is used. *)
Fixpoint keygen_buffer (d : nat) (buf : list Z) (op_seed : option (list Z)) : outcome (list Z * list Z) :=
  match d with
  | O =>
      match op_seed with
      | Some seed =>
          if negb (length seed =? sk_size 0)%nat then Throw
          else let* buf := blit buf 0 seed in Ok (buf, ed_pk seed)
      | None =>
          if negb (length buf =? sk_size 0 + 32)%nat then Throw
          else
            let* seed := sub_ub buf (length buf - 32) 32 in
            let* buf := blit buf (length buf - 32) (zeros 32) in
            let* buf := blit buf 0 seed in
            Ok (buf, ed_pk seed)
      end
  | S e =>
      let* (r0, seed, buf) :=
        match op_seed with
        | Some s =>
            if negb (length buf =? sk_size (S e))%nat then Throw
            else if negb (length s =? 32)%nat then Throw
            else Ok (seed_left s, seed_right s, buf)
        | None =>
            if negb (length buf =? sk_size (S e) + 32)%nat then Throw
            else
              let* s := sub_ub buf (sk_size (S e)) 32 in
              let* buf := blit buf (sk_size (S e)) (zeros 32) in
              Ok (seed_left s, seed_right s, buf)
        end in
      let* buf := blit buf (sk_size e) seed in
      let* sub := sub_ub buf 0 (sk_size e) in
      let* (sub, pk_0) := keygen_buffer e sub (Some r0) in
      let* buf := blit buf 0 sub in
      let* (_, pk_1) := keygen_buffer e (zeros (sk_size e)) (Some seed) in
      let* buf := blit buf (sk_size e + 32) pk_0 in
      let* buf := blit buf (sk_size e + 32 + 32) pk_1 in
      Ok (buf, hash_pair pk_0 pk_1)
  end.

(** kes.hpp:998-999: a [SumKesPrivateKey<d>] object *)
Record kes_key := { prv : list Z; period_ : Z }.

(** kes.hpp:431-451, the constructor.  [period_] keeps its default member initialiser 0. *)
Definition kes_of_bytes (d : nat) (bytes : list Z) : outcome kes_key :=
  if negb (length bytes =? sk_size d)%nat && negb (length bytes =? sk_size d + 4)%nat then Throw
  else Ok {| prv := if (length bytes =? sk_size d)%nat then bytes ++ zeros 4 else bytes; period_ := 0 |}.

(** kes.hpp:462-524 [keygen], both overloads.  [key_buffer] has [sk_size d + 4] bytes.
    Returns the key, the public key and what is left in the caller's seed buffer. *)
Definition kes_keygen (d : nat) (key_buffer seed : list Z) : outcome (kes_key * list Z * list Z) :=
  if negb (length key_buffer =? sk_size d + 4)%nat then Throw
  else if negb (length seed =? 32)%nat then Throw
  else
    let* (kb, pk) :=
      match d with
      | O => let* kb := blit key_buffer 0 seed in Ok (kb, ed_pk seed)
      | S _ =>
          let* main := sub_ub key_buffer 0 (sk_size d) in
          let* (main, pk) := keygen_buffer d main (Some seed) in
          let* kb := blit key_buffer 0 main in
          Ok (kb, pk)
      end in
    let* kb := blit kb (sk_size d) (pack_be 4 0) in
    let* k := kes_of_bytes d kb in
    Ok (k, pk, zeros 32).

(** kes.hpp:549-564 (only for depth > 0) *)
Definition kes_publicKey (d : nat) (k : kes_key) : outcome (list Z) :=
  let* pk0 := sub_ub (prv k) (sk_size d - 2 * 32) 32 in
  let* pk1 := sub_ub (prv k) (sk_size d - 2 * 32 + 32) 32 in
  Ok (hash_pair pk0 pk1).

(** kes.hpp:567-570 [drop] *)
Definition kes_drop (k : kes_key) : kes_key := {| prv := zeros (length (prv k)); period_ := period_ k |}.

(** kes.hpp:608-620 [period] *)
Definition kes_period (d : nat) (k : kes_key) : outcome Z :=
  match d with
  | O => Ok 0
  | S _ => let* b := sub_ub (prv k) (length (prv k) - 4) 4 in Ok (unpack_be 4 b)
  end.

(** kes.hpp:814-864 [update_buffer], both overloads.  The buffer is updated in place, so the
    result carries the buffer as it is when the call ends, normally ([Ok tt]) or not. *)
Fixpoint update_buffer (d : nat) (buf : list Z) (period : Z) : list Z * outcome unit :=
  match d with
  | O => (buf, Throw)
  | S e =>
      let next_period := (period + 1) mod 2 ^ 32 in
      if next_period =? kd_total (S e) then (buf, Throw)
      else if next_period <? kd_half (S e) then
        if (length buf <? sk_size e)%nat then (buf, UB)
        else let '(sub, r) := update_buffer e (firstn (sk_size e) buf) period in
             (sub ++ skipn (sk_size e) buf, r)
      else if next_period =? kd_half (S e) then
        if (length buf <? sk_size e + 32)%nat then (buf, UB)
        else match keygen_buffer e (firstn (sk_size e + 32) buf) None with
             | Ok (sub, _) => (sub ++ skipn (sk_size e + 32) buf, Ok tt)
             | Throw => (buf, Throw)
             | UB => (buf, UB)
             end
      else
        if (length buf <? sk_size e)%nat then (buf, UB)
        else let '(sub, r) := update_buffer e (firstn (sk_size e) buf) ((period - kd_half (S e)) mod 2 ^ 32) in
             (sub ++ skipn (sk_size e) buf, r)
  end.

(** kes.hpp:585-605 [update]: the object after the call and how the call ended. *)
Definition kes_update (d : nat) (k : kes_key) : kes_key * outcome unit :=
  match d with
  | O => (k, Throw)
  | S _ =>
      match kes_period d k with
      | Ok cur =>
          let '(buf, r) := update_buffer d (prv k) (cur mod 2 ^ 32) in
          match r with
          | Ok _ =>
              match blit buf (sk_size d) (pack_be 4 ((cur + 1) mod 2 ^ 32)) with
              | Ok buf' => ({| prv := buf'; period_ := (cur + 1) mod 2 ^ 32 |}, Ok tt)
              | Throw => ({| prv := buf; period_ := (cur + 1) mod 2 ^ 32 |}, Throw)
              | UB => ({| prv := buf; period_ := (cur + 1) mod 2 ^ 32 |}, UB)
              end
          | Throw => ({| prv := buf; period_ := period_ k |}, Throw)
          | UB => ({| prv := buf; period_ := period_ k |}, UB)
          end
      | Throw => (k, Throw)
      | UB => (k, UB)
      end
  end.

(** kes.hpp:212-221 *)
Definition sig_of_bytes (d : nat) (b : list Z) : outcome (list Z) :=
  if negb (length b =? sig_size d)%nat then Throw else Ok b.
(** kes.hpp:308-317 *)
Definition csig_of_bytes (d : nat) (b : list Z) : outcome (list Z) :=
  if negb (length b =? csig_size d)%nat then Throw else Ok b.

(** kes.hpp:866-920 [sign_from_buffer] *)
Fixpoint sign_from_buffer (d : nat) (buf msg : list Z) : outcome (list Z) :=
  match d with
  | O => if negb (length buf =? 32)%nat then Throw else sig_of_bytes 0 (ed_sign (firstn 32 buf) msg)
  | S e =>
      let sig := zeros (sig_size (S e)) in
      let* sub := sub_ub buf 0 (sk_size e) in
      let* sigma := sign_from_buffer e sub msg in
      let* sig := blit sig 0 sigma in
      let* pk0 := sub_ub buf (sk_size (S e) - 2 * 32) 32 in
      let* pk1 := sub_ub buf (sk_size (S e) - 2 * 32 + 32) 32 in
      let* sig := blit sig (sig_size (S e) - 2 * 32) pk0 in
      let* sig := blit sig (sig_size (S e) - 32) pk1 in
      sig_of_bytes (S e) sig
  end.
(** kes.hpp:625-641 [sign] *)
Definition kes_sign (d : nat) (k : kes_key) (msg : list Z) : outcome (list Z) :=
  match d with
  | O => let* sk := sub_ub (prv k) 0 32 in sig_of_bytes 0 (ed_sign sk msg)
  | S _ => sign_from_buffer d (prv k) msg
  end.

(** kes.hpp:922-996 [sign_compact_from_buffer] *)
Fixpoint sign_compact_from_buffer (d : nat) (buf msg : list Z) (period : Z) : outcome (list Z) :=
  match d with
  | O =>
      let* sk := sub_ub buf 0 32 in
      let sig := zeros (csig_size 0) in
      let* sig := blit sig 64 (ed_pk sk) in
      let* sig := blit sig 0 (ed_sign sk msg) in
      csig_of_bytes 0 sig
  | S e =>
      let t0 := kd_half (S e) in
      let sig := zeros (csig_size (S e)) in
      let pk_offset := (sk_size e + 32)%nat in
      if period <? t0 then
        let* pk := sub_ub buf (pk_offset + 32) 32 in
        let* sig := blit sig (csig_size e) pk in
        let* sub := sub_ub buf 0 (sk_size e) in
        let* sigma := sign_compact_from_buffer e sub msg period in
        let* sig := blit sig 0 sigma in
        csig_of_bytes (S e) sig
      else
        let* pk := sub_ub buf pk_offset 32 in
        let* sig := blit sig (csig_size e) pk in
        let* sub := sub_ub buf 0 (sk_size e) in
        let* sigma := sign_compact_from_buffer e sub msg ((period - t0) mod 2 ^ 32) in
        let* sig := blit sig 0 sigma in
        csig_of_bytes (S e) sig
  end.
(** kes.hpp:647-673 [signCompact].  At depth 0 the buffer is a [ByteArray<SumKesSignature<0>::size>],
    i.e. 64 bytes, although 96 are written (kes.hpp:656-662). *)
Definition kes_signCompact (d : nat) (k : kes_key) (msg : list Z) : outcome (list Z) :=
  match d with
  | O =>
      let* sk := sub_ub (prv k) 0 32 in
      let sig := zeros (sig_size 0) in
      let* sig := blit sig 64 (ed_pk sk) in
      let* sig := blit sig 0 (ed_sign sk msg) in
      csig_of_bytes 0 sig
  | S _ => sign_compact_from_buffer d (prv k) msg (period_ k)
  end.

(** kes.hpp:234-275 [SumKesSignature::verify] *)
Fixpoint sig_verify (d : nat) (sig : list Z) (period : Z) (pk msg : list Z) : outcome bool :=
  match d with
  | O => Ok (ed_verify pk msg sig)
  | S e =>
      let* lhs := sub_ub sig (length sig - 2 * 32) 32 in
      let* rhs := sub_ub sig (length sig - 32) 32 in
      if negb (zlist_eqb (hash_pair lhs rhs) pk) then Throw
      else
        let* sub := sub_ub sig 0 (sig_size e) in
        let* sigma := sig_of_bytes e sub in
        let t0 := kd_half (S e) in
        if period <? t0 then sig_verify e sigma period lhs msg
        else sig_verify e sigma ((period - t0) mod 2 ^ 32) rhs msg
  end.

(** kes.hpp:330-364 [recompute] *)
Fixpoint csig_recompute (d : nat) (sig : list Z) (period : Z) (msg : list Z) : outcome (list Z) :=
  match d with
  | O =>
      let* s := sub_ub sig 0 64 in
      let* pk := sub_ub sig (length sig - 32) 32 in
      if negb (ed_verify pk msg s) then Throw else Ok pk
  | S e =>
      let* pk := sub_ub sig (length sig - 32) 32 in
      let* sub := sub_ub sig 0 (csig_size e) in
      let* sigma := csig_of_bytes e sub in
      let t0 := kd_half (S e) in
      if period <? t0 then
        let* r := csig_recompute e sigma period msg in Ok (hash_pair r pk)
      else
        let* r := csig_recompute e sigma ((period - t0) mod 2 ^ 32) msg in Ok (hash_pair pk r)
  end.
(** kes.hpp:370-392 [SumKesCompactSignature::verify] *)
Definition csig_verify (d : nat) (sig : list Z) (period : Z) (pk msg : list Z) : outcome bool :=
  match d with
  | O => let* s := sub_ub sig 0 64 in Ok (ed_verify pk msg s)
  | S _ => let* r := csig_recompute d sig period msg in Ok (zlist_eqb pk r)
  end.

(** kes.hpp:585-605: [u] successful calls of update in a row *)
Fixpoint kes_updates (u : nat) (d : nat) (k : kes_key) : outcome kes_key :=
  match u with
  | O => Ok k
  | S u =>
      let* k := kes_updates u d k in
      match kes_update d k with
      | (k', Ok _) => Ok k'
      | (_, Throw) => Throw
      | (_, UB) => UB
      end
  end.

(** /repo/src/stake_pool.cpp:438-447 [KesSigningKey::saveToFile]: the bytes put in the file (as a CBOR
    byte string in hex, not modelled here) are the first [size] bytes of [bytes()]. *)
Definition kes_file_bytes (d : nat) (k : kes_key) : list Z := firstn (sk_size d) (prv k).

(** kes.hpp:431-451, 577-581, 585-605; stake_pool.cpp:438-447: what a client does with a key: evolve it, store [bytes()] and construct a key from them, or
    write it with [saveToFile] and construct a key from the bytes of the file *)
Inductive kes_op := Update | Reload | ReloadFile.
(** kes.hpp:431-451, 585-605: a history of such operations *)
Fixpoint kes_run (d : nat) (k : kes_key) (h : list kes_op) : outcome kes_key :=
  match h with
  | [] => Ok k
  | Update :: h =>
      match kes_update d k with
      | (k', Ok _) => kes_run d k' h
      | (_, Throw) => Throw
      | (_, UB) => UB
      end
  | Reload :: h => let* k' := kes_of_bytes d (prv k) in kes_run d k' h
  | ReloadFile :: h => let* k' := kes_of_bytes d (kes_file_bytes d k) in kes_run d k' h
  end.
(** kes.hpp:594-605: the operation evolves the key *)
Definition is_update (o : kes_op) : bool := match o with Update => true | _ => false end.
(** kes.hpp:594-605: number of updates in a history *)
Definition updates_in (h : list kes_op) : nat := length (filter is_update h).
End Kes.
