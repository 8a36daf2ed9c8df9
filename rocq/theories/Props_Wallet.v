(** C71: a wallet seen from outside.  The owner derives private keys from the mnemonic's root key; a watch-only wallet holds one public key, that of the account. *)
From Verif Require Import Base BaseLemmas Model_Hex Proof_Hex Spec_Ed25519 Model_Bip32 Spec_Bip32 Proof_Bip32 Proof_Bip32b Props_Bip32 Model_Bech32 Spec_Bech32 Model_Address Spec_Address Proof_Address Props_Address.
Local Open Scope list_scope.
Ltac Zify.zify_post_hook ::= idtac.

(** ** Specification (CIP-1852): m / 1852' / 1815' / account' / role / index; role 2, index 0 is the stake key *)
Definition hardened (i : Z) : Z := 2 ^ 31 + i.
Definition account_path (account : Z) : list Z := [hardened 1852; hardened 1815; hardened account].
Section Wallet.
Variables (sha512 : list Z -> list Z) (hmac512 : list Z -> list Z -> list Z) (pbkdf2 : Z -> nat -> list Z -> list Z -> list Z) (enc : Z -> list Z) (padd : list Z -> list Z -> option (list Z)).
Definition root (entropy passphrase : list Z) : xprv := prv_fromMnemonic pbkdf2 entropy passphrase.
(** what the owner holds: the private key at a path below the root, and its public key *)
Definition owner_key (entropy passphrase : list Z) (path : list Z) (k : xprv) (pk : xpub) : Prop :=
  prv_derivePath hmac512 enc (root entropy passphrase) path V2 = Ok k /\ publicKey enc k = Ok pk.
(** The public derivation refuses at a soft index exactly when the tweak is a multiple of the group order: the first 28 bytes of an HMAC-SHA512 are zero. *)
Definition bad_luck (entropy passphrase : list Z) (path : list Z) : Prop :=
  exists pre i post k pk, path = pre ++ i :: post /\ soft i /\ owner_key entropy passphrase pre k pk /\ lev 256 (firstn 28 (z_soft hmac512 pk i V2)) = 0.
End Wallet.

(** ** Lemmas *)
Lemma derive_app hmac512 enc p : forall k q m, prv_derivePath hmac512 enc k (p ++ q) m = let* c := prv_derivePath hmac512 enc k p m in prv_derivePath hmac512 enc c q m.
Proof. induction p as [|i p IH]; intros k q m; cbn [app prv_derivePath bind]; [reflexivity|]. destruct (prv_deriveChild hmac512 enc k i m); cbn [bind]; [apply IH|reflexivity|reflexivity]. Qed.
Lemma small_path (l : list Z) : Z.of_nat (length l) <= 2 ^ 25 -> (length l <= Z.to_nat (2 ^ 25))%nat.
Proof. intros H. apply Nat2Z.inj_le. rewrite Z2Nat.id by lia. exact H. Qed.

(** ** Theorems *)
(** C71: every wallet has every account, and below it every key; and the keys a watch-only wallet derives from the account's public key are the owner's. *)
Theorem C71_watch_only_keys : forall sha512 sha256 hmac512 pbkdf2 enc padd, hashes_ok sha512 sha256 hmac512 pbkdf2 -> ed_group enc padd ->
  forall entropy passphrase account, 0 <= account < 2 ^ 31 ->
  exists acct watch, owner_key hmac512 pbkdf2 enc entropy passphrase (account_path account) acct watch /\
  forall role index, soft role -> soft index ->
  exists k pk, owner_key hmac512 pbkdf2 enc entropy passphrase (account_path account ++ [role; index]) k pk /\ wf_prv k /\
    (pub_derivePath hmac512 enc padd watch [role; index] V2 = Ok pk \/
     pub_derivePath hmac512 enc padd watch [role; index] V2 = Throw /\ bad_luck hmac512 pbkdf2 enc entropy passphrase (account_path account ++ [role; index])).
Proof.
  intros s5 s2 hm pb enc padd HO EG e p a HA. destruct (mnemonic_root _ _ _ _ HO e p) as [W C].
  destruct (v2_total _ _ _ _ _ _ HO EG (account_path a) _ W C) as (acct & watch & D & P & Wa & Ca); [apply small_path; cbn; lia|].
  exists acct, watch. split; [split; assumption|]. intros r i HR HI.
  destruct (v2_total _ _ _ _ _ _ HO EG (account_path a ++ [r; i]) _ W C) as (k & pk & Dk & Pk & Wk & Ck); [apply small_path; cbn; lia|].
  exists k, pk. split; [split; assumption|]. split; [exact Wk|]. rewrite derive_app in Dk. unfold root in D. rewrite D in Dk. cbn [bind] in Dk.
  destruct (soft_path _ _ _ _ _ _ HO EG [r; i] acct watch V2 k pk Wa) as [E|(E & pre & j & post & k' & pk' & SP & Dp & Pp & T)].
  - constructor; [exact HR|]. constructor; [exact HI|constructor].
  - intros _. destruct Ca as [_ Ca]. cbn [length]. lia.
  - exact P.
  - exact Dk.
  - exact Pk.
  - left. exact E.
  - right. split; [exact E|]. exists (account_path a ++ pre), j, post, k', pk'. split; [rewrite <- app_assoc, SP; reflexivity|].
    assert (SJ : soft j). { assert (I : In j [r; i]) by (rewrite SP; apply in_or_app; right; left; reflexivity). destruct I as [<-|[<-|[]]]; assumption. }
    split; [exact SJ|]. split; [split; [|exact Pp]; rewrite derive_app; unfold root; rewrite D; exact Dp|].
    apply tweak_v2_zero in T; [exact T| |].
    + unfold z_soft. apply (hmac_ok _ _ _ _ HO).
    + unfold z_soft. apply (hmac_ok _ _ _ _ HO).
Qed.
Print Assumptions C71_watch_only_keys.

(** C71: so the addresses it shows are the owner's: the CIP-19 base address of the payment and the stake key, whose text reads back, and from which only those two
    hashes are taken; and whatever the owner signs with the payment key verifies under the key the watch-only wallet derived. *)
Theorem C71_watch_only_address : forall sha512 sha256 hmac512 pbkdf2 enc padd verify H224, hashes_ok sha512 sha256 hmac512 pbkdf2 -> ed_group enc padd -> ed_verifies enc sha512 verify -> (forall x, hash28 (H224 x)) ->
  forall entropy passphrase account role index n, 0 <= account < 2 ^ 31 -> soft role -> soft index ->
  exists pay payment stake staking watch acct,
    owner_key hmac512 pbkdf2 enc entropy passphrase (account_path account) acct watch /\
    owner_key hmac512 pbkdf2 enc entropy passphrase (account_path account ++ [role; index]) pay payment /\
    owner_key hmac512 pbkdf2 enc entropy passphrase (account_path account ++ [2; 0]) stake staking /\
    (exists text, BaseAddress_toBech32 (BaseAddress_fromKeys H224 (nid_of n) (pbytes payment) (pbytes staking)) = Ok text /\
       is_bech32 (cip5_addr n) (cip19_header TYPE_BASE n :: H224 (pbytes payment) ++ H224 (pbytes staking)) text /\
       BaseAddress_fromBech32 text = Ok (BaseAddress_fromKeys H224 (nid_of n) (pbytes payment) (pbytes staking))) /\
    (forall q s, pub_derivePath hmac512 enc padd watch [role; index] V2 = Ok q -> pub_derivePath hmac512 enc padd watch [2; 0] V2 = Ok s ->
       BaseAddress_fromKeys H224 (nid_of n) (pbytes q) (pbytes s) = BaseAddress_fromKeys H224 (nid_of n) (pbytes payment) (pbytes staking) /\
       RewardsAddress_fromKey H224 (nid_of n) (pbytes s) = RewardsAddress_fromKey H224 (nid_of n) (pbytes staking) /\
       forall m sig, sign sha512 enc pay m = Ok sig -> length sig = 64%nat /\ verify (pbytes q) m sig = true) /\
    (pub_derivePath hmac512 enc padd watch [role; index] V2 = Ok payment \/ bad_luck hmac512 pbkdf2 enc entropy passphrase (account_path account ++ [role; index])) /\
    (pub_derivePath hmac512 enc padd watch [2; 0] V2 = Ok staking \/ bad_luck hmac512 pbkdf2 enc entropy passphrase (account_path account ++ [2; 0])).
Proof.
  intros s5 s2 hm pb enc padd verify H HO EG EV HH e p a r i n HA HR HI. destruct (C71_watch_only_keys s5 s2 hm pb enc padd HO EG e p a HA) as (acct & watch & OA & K).
  destruct (K r i HR HI) as (pay & payment & OP & WP & DP). destruct (K 2 0) as (stake & staking & OS & WS & DS); [split; [lia|reflexivity]|split; [lia|reflexivity]|].
  exists pay, payment, stake, staking, watch, acct. split; [exact OA|]. split; [exact OP|]. split; [exact OS|]. split; [apply C12_base_round_trip; apply HH|]. split.
  - intros q s Eq Es. destruct DP as [DP|[DP _]]; [|congruence]. destruct DS as [DS|[DS _]]; [|congruence]. assert (q = payment) by congruence. assert (s = staking) by congruence. subst q s. split; [reflexivity|]. split; [reflexivity|].
    intros m sig S. exact (C35_signature_verifies s5 enc padd verify EG EV pay m sig payment S (proj2 OP)).
  - split; [destruct DP as [DP|[_ B]]|destruct DS as [DS|[_ B]]]; [left; exact DP|right; exact B|left; exact DS|right; exact B].
Qed.
Print Assumptions C71_watch_only_address.

(** C71: the account's public key does not lead out of the account: no hardened step is ever possible with it, at any depth. *)
Theorem C71_watch_only_confined : forall hmac512 enc padd watch path q, Forall (fun i => 0 <= i < 2 ^ 32) path -> pub_derivePath hmac512 enc padd watch path V2 = Ok q -> Forall soft path.
Proof.
  intros hm enc padd watch path. revert watch. induction path as [|i path IH]; intros w q F E; [constructor|]. inversion F as [|? ? Fi Fp]; subst. cbn [pub_derivePath] in E. apply bind_ok in E as (c & Ec & E). constructor; [|exact (IH c q Fp E)].
  unfold soft. destruct (Z.ltb_spec i (2 ^ 31)); [lia|]. rewrite (C32_hardened_public_throws hm enc padd w i V2) in Ec by lia. discriminate.
Qed.
Print Assumptions C71_watch_only_confined.

(** Not vacuous: a wallet over the toy primitives: account 0, payment key 7; the watch-only wallet has the owner's key and the owner can sign. *)
Example C71_case : match prv_derivePath toy_hmac toy_enc (root toy_pbkdf2 (str "entropy") (str "")) (account_path 0) V2,
    prv_derivePath toy_hmac toy_enc (root toy_pbkdf2 (str "entropy") (str "")) (account_path 0 ++ [0; 7]) V2 with
  | Ok acct, Ok pay => match publicKey toy_enc acct, publicKey toy_enc pay with
    | Ok watch, Ok payment => match pub_derivePath toy_hmac toy_enc toy_padd watch [0; 7] V2, sign (toy_h 64) toy_enc pay (str "id") with
      | Ok q, Ok sig => zlist_eqb (pbytes q) (pbytes payment) && negb (zlist_eqb (pbytes watch) (pbytes payment)) | _, _ => false end
    | _, _ => false end
  | _, _ => false end = true.
Proof. vm_compute. reflexivity. Qed.
Example C71_hash_case : forall x, hash28 (toy_h 28 x).
Proof. intros x. split; [apply pack_le_ok|apply pack_le_length]. Qed.
