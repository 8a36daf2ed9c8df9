(** C79: a threshold signing session run by many signers, in any order of their calls. *)
From Verif Require Import Base BaseLemmas Model_Hex Proof_Hex Spec_Ed25519 Prime Model_Bip32 Spec_Bip32 Proof_Bip32 Proof_Bip32b
  Model_Tss Spec_Tss Proof_Poly Proof_Tss Proof_Tss2 Props_Bip32 Props_Tss Model_TssNet.
Ltac Zify.zify_post_hook ::= idtac.
Opaque sc_inv.

(** ** Vocabulary *)
(** the calls of a history that went to signer [i] *)
Definition calls_of (i : nat) (tr : list (nat * signer_call)) : list signer_call :=
  map snd (filter (fun e => Nat.eqb (fst e) i) tr).
(** what the calls that went to signer [i] returned *)
Definition returned_to (i : nat) (tr : list (nat * signer_call)) (outs : list (list Z)) : list (list Z) :=
  map snd (filter (fun p => Nat.eqb (fst (fst p)) i) (combine tr outs)).
(** A member of a signing session: which signer object it is, its key share, the place in the history of the call
    whose commitment it sent to the others, and the place of the call whose signature share it sent. *)
Record seat := { st_who : nat; st_key : keyshare; st_commit : nat; st_sign : nat }.
(** the nonce a member holds after the first [k] calls of the history *)
Definition held (sha512 : list Z -> list Z) (msg : list Z) (tr : list (nat * signer_call)) (st : seat) (k : nat) : Z :=
  nonce_in_use sha512 msg (st_key st) (calls_of (st_who st) (firstn k tr)).
(** The member's object was made for this message and group key; it was asked to commit, and it was asked to sign under
    the aggregate commitment [R], with the coefficient [c] given at its construction or in the call. *)
Definition takes_part (net : list signer) (tr : list (nat * signer_call)) (msg : list Z) (pk : xpub) (R : list Z) (st : seat) (c : list Z) : Prop :=
  (exists seed, nth_error tr (st_commit st) = Some (st_who st, Commit seed)) /\
  exists c0, nth_error net (st_who st) = Some (signer_new_coef msg pk (st_key st) c0) /\
    (nth_error tr (st_sign st) = Some (st_who st, SignWith R c) \/
     c0 = c /\ nth_error tr (st_sign st) = Some (st_who st, Sign R)).
(** it signed after it committed, and it did not commit again in between *)
Definition steady (tr : list (nat * signer_call)) (st : seat) : Prop :=
  (st_commit st < st_sign st)%nat /\
  forall k seed, (st_commit st < k < st_sign st)%nat -> nth_error tr k <> Some (st_who st, Commit seed).
(** the commitments and the signature shares the members sent *)
Definition commitments (outs : list (list Z)) (seats : list seat) := map (fun st => nth (st_commit st) outs []) seats.
Definition shares (outs : list (list Z)) (seats : list seat) := map (fun st => nth (st_sign st) outs []) seats.
(** the coefficient of a member of a direct group: one *)
Definition one_coef : list Z := 1 :: repeat 0 31.

(** ** One signer among many *)
Lemma put_same {A} i (x : A) : forall l y, nth_error l i = Some y -> nth_error (put i x l) i = Some x.
Proof. induction i as [|i IH]; intros [|a l] y H; try discriminate; cbn [put nth_error] in *; [reflexivity|eapply IH; exact H]. Qed.
Lemma put_other {A} i j (x : A) : i <> j -> forall l, nth_error (put i x l) j = nth_error l j.
Proof. revert j. induction i as [|i IH]; intros [|j] N [|a l]; try reflexivity; [congruence|]. cbn [put nth_error]. apply IH. congruence. Qed.
Lemma put_length {A} i (x : A) : forall l, length (put i x l) = length l.
Proof. induction i as [|i IH]; intros [|a l]; try reflexivity. cbn [put length]. rewrite IH. reflexivity. Qed.

Lemma calls_of_cons i e tr : calls_of i (e :: tr) = if Nat.eqb (fst e) i then snd e :: calls_of i tr else calls_of i tr.
Proof. unfold calls_of. cbn [filter]. destruct (Nat.eqb _ _); reflexivity. Qed.
Lemma returned_cons i e tr o outs : returned_to i (e :: tr) (o :: outs) = if Nat.eqb (fst e) i then o :: returned_to i tr outs else returned_to i tr outs.
Proof. unfold returned_to. cbn [combine filter fst]. destruct (Nat.eqb _ _); reflexivity. Qed.

Lemma latest_app a b : latest_seed (a ++ b) = match latest_seed b with Some s => Some s | None => latest_seed a end.
Proof. induction a as [|c a IH]; cbn [app latest_seed]; [destruct (latest_seed b); reflexivity|]. rewrite IH. destruct (latest_seed b); [reflexivity|]. reflexivity. Qed.
Lemma calls_app i a b : calls_of i (a ++ b) = calls_of i a ++ calls_of i b.
Proof. unfold calls_of. rewrite filter_app, map_app. reflexivity. Qed.
Lemma firstn_S_error {A} (l : list A) : forall k x, nth_error l k = Some x -> firstn (S k) l = firstn k l ++ [x].
Proof. induction l as [|a l IH]; intros [|k] x H; try discriminate; cbn [nth_error] in H; [assert (a = x) as -> by congruence; reflexivity|]. cbn [firstn app]. f_equal. exact (IH k x H). Qed.
Lemma steady_held sha512 msg tr st seed : nth_error tr (st_commit st) = Some (st_who st, Commit seed) -> steady tr st ->
  held sha512 msg tr st (st_sign st) = held sha512 msg tr st (S (st_commit st)).
Proof.
  intros E [LT NO]. unfold held, nonce_in_use.
  assert (A : firstn (st_sign st) tr = firstn (S (st_commit st)) tr ++ skipn (S (st_commit st)) (firstn (st_sign st) tr)).
  { rewrite <- (firstn_skipn (S (st_commit st)) (firstn (st_sign st) tr)) at 1. f_equal. rewrite firstn_firstn. f_equal. lia. }
  rewrite A, calls_app, latest_app. 
  replace (latest_seed (calls_of (st_who st) (skipn (S (st_commit st)) (firstn (st_sign st) tr)))) with (@None (list Z)); [reflexivity|].
  assert (B : forall l, (forall sd, ~ In (st_who st, Commit sd) l) -> latest_seed (calls_of (st_who st) l) = None).
  { induction l as [|[i c] l IH]; intros X; [reflexivity|]. rewrite calls_of_cons. cbn [fst snd].
    assert (latest_seed (calls_of (st_who st) l) = None) as Y by (apply IH; intros sd I; apply (X sd); right; exact I).
    destruct (Nat.eqb_spec i (st_who st)) as [->|]; [|exact Y]. cbn [latest_seed]. rewrite Y. destruct c as [sd| |]; try reflexivity. exfalso. apply (X sd). left. reflexivity. }
  symmetry. apply B. intros sd I. apply In_nth_error in I as (k & Ek).
  assert (D : nth_error tr (S (st_commit st) + k) = Some (st_who st, Commit sd) /\ (S (st_commit st) + k < st_sign st)%nat).
  { clear - Ek. revert Ek. generalize (S (st_commit st)) (st_sign st). intros a b Ek. 
    assert (Y : nth_error (firstn b tr) (a + k) = Some (st_who st, Commit sd)).
    { revert Ek. generalize (firstn b tr). clear. intros l. revert l. induction a as [|a IH]; intros l Ek; [exact Ek|]. destruct l as [|x l]; [destruct k; discriminate|]. cbn [skipn] in Ek. cbn [plus nth_error]. exact (IH l Ek). }
    assert (Lk : (a + k < length (firstn b tr))%nat) by (apply nth_error_Some; congruence).
    rewrite firstn_length in Lk. split; [|lia]. rewrite <- (firstn_skipn b tr). rewrite nth_error_app1 by (rewrite firstn_length; exact Lk). exact Y. }
  destruct D as [D1 D2]. apply (NO (S (st_commit st) + k)%nat sd); [lia|exact D1].
Qed.
Lemma Forall2_in_l {A B} (P : A -> B -> Prop) l m : Forall2 P l m -> forall x, In x l -> exists y, P x y.
Proof. induction 1 as [|x y l m H F IH]; intros z I; [destruct I|]. destruct I as [->|I]; [exists y; exact H|apply IH, I]. Qed.

Section Net.
Variables (sha512 sha256 : list Z -> list Z) (enc : Z -> list Z) (padd : list Z -> list Z -> option (list Z)).

Lemma net_at tr : forall net net' outs, net_run sha512 enc net tr = Ok (net', outs) ->
  length outs = length tr /\ length net' = length net /\
  (forall i g, nth_error net i = Some g -> exists g', nth_error net' i = Some g' /\ signer_run sha512 enc g (calls_of i tr) = Ok (g', returned_to i tr outs)) /\
  (forall k i c, nth_error tr k = Some (i, c) -> exists g gk ok g2, nth_error net i = Some g /\
     signer_run sha512 enc g (calls_of i (firstn k tr)) = Ok (gk, ok) /\ signer_step sha512 enc gk c = Ok (g2, nth k outs [])).
Proof.
  induction tr as [|e tr IH]; intros net net' outs H; cbn [net_run] in H.
  - assert (net' = net /\ outs = []) as [-> ->] by (split; congruence). split; [reflexivity|]. split; [reflexivity|]. split.
    + intros i g G. exists g. split; [exact G|reflexivity].
    + intros [|k] i c E; discriminate E.
  - apply bind_ok in H as ((net1 & o) & E1 & H). apply bind_ok in H as ((net2 & os) & E2 & H). cbn [fst snd] in *.
    assert (net' = net2 /\ outs = o :: os) as [-> ->] by (split; congruence). clear H.
    unfold net_step in E1. destruct (nth_error net (fst e)) as [g0|] eqn:G0; [|discriminate]. apply bind_ok in E1 as ((g1 & o1) & S1 & E1). cbn [fst snd] in *.
    assert (net1 = put (fst e) g1 net /\ o1 = o) as [-> ->] by (split; congruence). clear E1.
    destruct (IH _ _ _ E2) as (L1 & L2 & R & K). rewrite put_length in L2.
    split; [cbn [length]; rewrite L1; reflexivity|]. split; [exact L2|]. split.
    + intros i g G. rewrite calls_of_cons, returned_cons. destruct (Nat.eqb_spec (fst e) i) as [Ei|Ei].
      * subst i. assert (g0 = g) as -> by congruence. destruct (R (fst e) g1 (put_same _ _ _ _ G0)) as (g' & G' & RR).
        exists g'. split; [exact G'|]. cbn [signer_run]. rewrite S1. cbn [bind fst snd]. rewrite RR. reflexivity.
      * destruct (R i g ltac:(rewrite put_other by exact Ei; exact G)) as (g' & G' & RR). exists g'. split; [exact G'|exact RR].
    + intros [|k] i c E.
      * cbn [nth_error] in E. assert (e = (i, c)) as -> by congruence. cbn [fst snd firstn nth] in *. exists g0, g0, [], g1. split; [exact G0|]. split; [reflexivity|exact S1].
      * cbn [nth_error] in E. cbn [firstn nth]. destruct (K k i c E) as (g & gk & ok & g2 & G & RR & SS). rewrite calls_of_cons. destruct (Nat.eqb_spec (fst e) i) as [Ei|Ei].
        -- subst i. rewrite (put_same _ _ _ _ G0) in G. assert (g = g1) as -> by congruence.
           exists g0, gk, (o :: ok), g2. split; [exact G0|]. split; [|exact SS]. cbn [signer_run]. rewrite S1. cbn [bind fst snd]. rewrite RR. reflexivity.
        -- rewrite put_other in G by exact Ei. exists g, gk, ok, g2. split; [exact G|]. split; [exact RR|exact SS].
Qed.

Hypothesis HL : forall x, length (sha512 x) = 64%nat.
Lemma step_total g c : exists g' o, signer_step sha512 enc g c = Ok (g', o).
Proof using HL.
  destruct (run_state sha512 enc HL [c] g) as (g' & out & R & _). cbn [signer_run] in R. apply bind_ok in R as ((g1 & o) & E & _). exists g1, o. exact E.
Qed.
Lemma net_total tr : forall net, (forall e, In e tr -> (fst e < length net)%nat) -> exists net' outs, net_run sha512 enc net tr = Ok (net', outs).
Proof using HL.
  induction tr as [|e tr IH]; intros net H; [exists net, []; reflexivity|]. cbn [net_run]. unfold net_step.
  destruct (nth_error net (fst e)) as [g|] eqn:G; [|apply nth_error_None in G; specialize (H e (or_introl eq_refl)); lia].
  destruct (step_total g (snd e)) as (g' & o & S). rewrite S. cbn [bind fst snd].
  destruct (IH (put (fst e) g' net)) as (net' & outs & R).
  - intros x I. rewrite put_length. apply H. right. exact I.
  - rewrite R. cbn [bind fst snd]. eauto.
Qed.

(** ** The algebra of a session *)

(** what a member sent as its commitment, and as its share *)
Lemma sent_commitment net tr net' outs msg pk R st c : net_run sha512 enc net tr = Ok (net', outs) -> takes_part net tr msg pk R st c ->
  nth (st_commit st) outs [] = enc (held sha512 msg tr st (S (st_commit st))).
Proof using HL.
  intros H ((seed & E) & c0 & G & _). destruct (net_at tr net net' outs H) as (_ & _ & _ & K).
  destruct (K _ _ _ E) as (g & gk & ok & g2 & G1 & RR & SS). assert (g = signer_new_coef msg pk (st_key st) c0) as -> by congruence. clear G1.
  destruct (run_state sha512 enc HL (calls_of (st_who st) (firstn (st_commit st) tr)) (signer_new_coef msg pk (st_key st) c0)) as (g' & out & R' & _ & M & _ & _ & KK & _).
  assert (g' = gk) as -> by congruence. cbn [signer_new_coef sg_msg sg_key] in M, KK.
  cbn [signer_step] in SS. destruct (C30_commit sha512 enc gk seed g2 _ HL SS) as (N & C & _). rewrite C. f_equal. rewrite N, M, KK.
  unfold held. rewrite (firstn_S_error tr _ _ E). rewrite calls_app. unfold calls_of at 2. cbn [filter fst]. rewrite Nat.eqb_refl. cbn [map snd].
  unfold nonce_in_use. rewrite latest_app. reflexivity.
Qed.
Lemma sent_share net tr net' outs msg pk R st c : length R = 32%nat -> net_run sha512 enc net tr = Ok (net', outs) -> takes_part net tr msg pk R st c ->
  nth (st_sign st) outs [] = R ++ pack_le 32 ((held sha512 msg tr st (st_sign st) + lev 256 (sha512 (R ++ pbytes pk ++ msg)) * lev 256 c * kL (ks_key (st_key st))) mod ell).
Proof using HL.
  intros LR H (_ & c0 & G & E). destruct (net_at tr net net' outs H) as (_ & _ & _ & K).
  destruct (C30_history sha512 enc HL msg pk (st_key st) c0 (calls_of (st_who st) (firstn (st_sign st) tr))) as (g' & out & R' & _ & S).
  destruct (S R c LR) as [S1 S2]. destruct E as [E|[EC E]]; destruct (K _ _ _ E) as (g & gk & ok & g2 & G1 & RR & SS);
    assert (g = signer_new_coef msg pk (st_key st) c0) as EGg by congruence; rewrite EGg in RR;
    assert (g' = gk) as -> by congruence; cbn [signer_step] in SS.
  - assert (nth (st_sign st) outs [] = signer_sign_coef sha512 gk R c) as -> by congruence. exact S2.
  - assert (nth (st_sign st) outs [] = signer_sign sha512 gk R) as -> by congruence. rewrite <- EC. exact S1.
Qed.

Hypothesis EG : ed_group enc padd.
Variable verify : list Z -> list Z -> list Z -> bool.
Hypothesis EV : ed_verifies enc sha512 verify.
Let eqm_add' := eqm_add ell prime_ell.
Let eqm_mul' := eqm_mul ell prime_ell.


Lemma session net tr net' outs msg pk a R seats lcs : net_run sha512 enc net tr = Ok (net', outs) -> seats <> [] ->
  pbytes pk = enc a -> eqm ell (sumz (map (fun p => lev 256 (snd p) * kL (ks_key (st_key (fst p)))) (combine seats lcs))) a ->
  aggregateCommitmentShares padd (commitments outs seats) = Ok R -> Forall2 (takes_part net tr msg pk R) seats lcs ->
  R = enc (total (map (fun st => held sha512 msg tr st (S (st_commit st))) seats)) /\
  exists sig, aggregateSignatureShares (shares outs seats) = Ok sig /\ length sig = 64%nat /\ bytes_ok sig /\
   (verify (pbytes pk) msg sig = true <-> R <> enc 0 /\ pbytes pk <> enc 0 /\
     total (map (fun st => held sha512 msg tr st (st_sign st)) seats) mod ell = total (map (fun st => held sha512 msg tr st (S (st_commit st))) seats) mod ell).
Proof using sha256 HL EG EV.
  intros H NE PK SA AC F. set (r := total (map (fun st => held sha512 msg tr st (S (st_commit st))) seats)).
  assert (ER : R = enc r).
  { assert (E : commitments outs seats = map enc (map (fun st => held sha512 msg tr st (S (st_commit st))) seats)).
    { unfold commitments. rewrite map_map. apply map_ext_in. intros st I. destruct (Forall2_in_l _ _ _ F st I) as (c & T). exact (sent_commitment _ _ _ _ _ _ _ _ _ H T). }
    rewrite E in AC. unfold r. destruct seats as [|s0 ss]; [congruence|]. cbn [map aggregateCommitmentShares] in AC. rewrite (sum_points_enc enc padd EG) in AC. 
    assert (X : forall u v, @Ok (list Z) u = Ok v -> u = v) by (intros; congruence). apply X in AC. symmetry. exact AC. }
  split; [exact ER|].
  assert (LR : length R = 32%nat) by (rewrite ER; apply (enc_len _ _ EG)).
  set (k := lev 256 (sha512 (R ++ pbytes pk ++ msg))).
  assert (SH : shares outs seats = map (fun s => R ++ pack_le 32 s) (map (fun p => (held sha512 msg tr (fst p) (st_sign (fst p)) + k * lev 256 (snd p) * kL (ks_key (st_key (fst p)))) mod ell) (combine seats lcs))).
  { unfold shares. clear - F H LR HL. induction F as [|st c ss cs T F IH]; [reflexivity|]. cbn [map combine fst snd]. f_equal; [|exact IH]. exact (sent_share _ _ _ _ _ _ _ _ _ LR H T). }
  rewrite SH. rewrite (aggregate_ok sha512 R).
  2: exact LR.
  2: { inversion F; subst; [congruence|discriminate]. }
  2: { intros s I. apply in_map_iff in I as (p & <- & _). apply mod_range. }
  eexists. split; [reflexivity|].
  split. { rewrite app_length, pack_le_length. lia. }
  split. { apply bytes_ok_app. split; [rewrite ER; apply (enc_bytes _ _ EG)|apply pack_le_ok]. }
  set (S := sumz _). set (u := total (map (fun st => held sha512 msg tr st (st_sign st)) seats)).
  assert (ES : eqm ell S (u + k * a)).
  { apply (eqm_trans ell _ (u + k * sumz (map (fun p => lev 256 (snd p) * kL (ks_key (st_key (fst p)))) (combine seats lcs)))).
    - unfold S, u. clear - F eqm_add'. induction F as [|st c ss cs T F IH]; [unfold total, sumz; cbn; rewrite Z.mul_0_r; apply eqm_ref|].
      unfold sumz, total in *; cbn [map combine fst snd fold_right].
      match goal with |- eqm _ (?x mod _ + ?y) (?h + ?t + ?kk * (?v + ?w)) => replace (h + t + kk * (v + w)) with ((h + kk * v) + (t + kk * w)) by ring end.
      apply eqm_add'; [|exact IH]. rewrite <- Z.mul_assoc. apply eqm_mod_l.
    - apply eqm_add'; [apply eqm_ref|]. apply eqm_mul'; [apply eqm_ref|exact SA]. }
  rewrite PK, ER. rewrite (EV a r (S mod ell) msg) by (pose proof ell_bounds; pose proof (mod_range S); lia).
  assert (Z0 : forall x, x mod ell <> 0 <-> enc x <> enc 0).
  { intros x. split; intros N X; apply N; [apply (enc_inj _ _ EG) in X; rewrite X; reflexivity|]. apply (enc_eqm enc padd EG). unfold eqm. rewrite X. reflexivity. }
  rewrite <- !Z0. replace (lev 256 (sha512 (enc r ++ enc a ++ msg))) with k by (unfold k; rewrite ER, PK; reflexivity).
  change (u mod ell = r mod ell) with (eqm ell u r).
  assert (C : S mod ell = (r + k * a) mod ell <-> eqm ell u r).
  { split; intros X.
    - apply (eqm_trans ell _ ((u + k * a) + - (k * a))); [replace (u + k * a + - (k * a)) with u by ring; apply eqm_ref|].
      apply (eqm_trans ell _ ((r + k * a) + - (k * a))); [|replace (r + k * a + - (k * a)) with r by ring; apply eqm_ref].
      apply eqm_add'; [|apply eqm_ref]. apply (eqm_trans ell _ S); [apply eqm_sym, ES|exact X].
    - apply (eqm_trans ell _ _ _ ES). apply eqm_add'; [exact X|apply eqm_ref]. }
  rewrite C. pose proof (mod_range S). tauto.
Qed.
End Net.

Lemma shamir_weights sha512 sha256 enc padd (EG : ed_group enc padd) root n t gen coefs pk keys ks lcs :
  1 <= t <= n -> n < 2 ^ 32 - 1 -> length coefs = Z.to_nat (t - 1) ->
  splitRootKey sha512 sha256 enc padd (shamir_dealer n t) root gen coefs = Ok (pk, keys) ->
  incl ks keys -> NoDup (map ks_id ks) -> t <= zlen ks -> computeLagrangeCoefficients (map ks_id ks) = Ok lcs ->
  pbytes pk = enc (kL root) /\ usable (kL root) /\ length lcs = length ks /\
  eqm ell (sumz (map (fun p => lev 256 (snd p) * kL (ks_key (fst p))) (combine ks lcs))) (kL root).
Proof.
  intros Ht Hn Lc SP I ND LG EC. unfold splitRootKey in SP; cbn [algorithm num_keys threshold shamir_dealer] in SP.
  destruct (shamir_split_ok sha512 enc padd EG root n t coefs pk keys ltac:(lia) Lc SP) as (S0 & C0 & -> & ->). cbn [pbytes].
  split; [reflexivity|]. split; [exact S0|]. unfold zlen in LG.
  set (s := key_scalar root) in *.
  destruct (weighted_shares sha512 s coefs (Z.to_nat n) ks (key_scalar_range _) ltac:(lia) I ND ltac:(lia)) as (cs & EL & LL & RC & SUM).
  destruct (compute_ok sha512 (map ks_id ks) ND) as (cs' & E1 & E2).
  { intros Z0. apply in_map_iff in Z0 as (k & E & Ik). apply I in Ik. apply in_map_iff in Ik as (x & <- & Hx). apply in_seq in Hx. cbn in E. lia. }
  { intros y Iy. apply in_map_iff in Iy as (k & <- & Ik). apply I in Ik. apply in_map_iff in Ik as (x & <- & Hx). apply in_seq in Hx. cbn [the_share ks_id].
    pose proof ell_bounds. assert (2 ^ 32 < 2 ^ 252) by reflexivity. lia. }
  unfold ids in EL. assert (cs' = cs) as -> by congruence. assert (lcs = map (pack_le 32) cs) as -> by congruence.
  split; [rewrite map_length; exact LL|].
  apply (eqm_trans ell _ s); [|apply eqm_mod_l].
  rewrite <- (map_length (fun k => key_scalar (ks_key k)) ks) in SUM, LL. rewrite (sumn_dot sha512 (map (fun k => key_scalar (ks_key k)) ks) cs LL) in SUM.
  apply eqm_trans with (2 := SUM). clear - RC. revert cs RC. induction ks as [|k ks IH]; intros [|c cs] RC; try apply eqm_ref.
  unfold sumz in *. cbn [map combine fst snd fold_right]. apply (eqm_add ell prime_ell); [|apply IH; intros x Ix; apply RC; right; exact Ix].
  rewrite pack_le_value. change (256 ^ Z.of_nat 32) with (2 ^ 256). rewrite Z.mod_small by (pose proof ell_bounds; pose proof (RC c (or_introl eq_refl)); lia).
  apply (eqm_mul ell prime_ell); [apply eqm_ref|]. apply eqm_sym, eqm_mod_l.
Qed.
Lemma seats_keys seats (lcs : list (list Z)) : map (fun p => lev 256 (snd p) * kL (ks_key (st_key (fst p)))) (combine seats lcs) = map (fun p => lev 256 (snd p) * kL (ks_key (fst p))) (combine (map st_key seats) lcs).
Proof. rewrite combine_map_l, map_map. reflexivity. Qed.

(** ** C79 *)
(** Every history of calls on existing signers succeeds, and every signer ends and answers exactly as if its own calls
    had been made alone: the other signers, and the order in which the calls of different signers come, do not matter. *)
Theorem C79_isolated : forall sha512 enc, (forall x, length (sha512 x) = 64%nat) -> forall net tr,
  (forall e, In e tr -> (fst e < length net)%nat) ->
  exists net' outs, net_run sha512 enc net tr = Ok (net', outs) /\ length outs = length tr /\ length net' = length net /\
    forall i g, nth_error net i = Some g ->
      exists g', nth_error net' i = Some g' /\ signer_run sha512 enc g (calls_of i tr) = Ok (g', returned_to i tr outs).
Proof.
  intros sha512 enc HL net tr H. destruct (net_total sha512 enc HL tr net H) as (net' & outs & R). exists net', outs.
  destruct (net_at sha512 enc tr net net' outs R) as (A & B & C & _). auto.
Qed.

(** A quorum of a Shamir group, exactly: whatever else happens before, between and after (other sessions, other
    messages, signers that commit many times), the shares always aggregate, and the signature is good if and only if the
    nonces the members held when they signed add up to the nonces they had committed to. *)
Theorem C79_shamir_exact : forall sha512 sha256 enc padd verify, (forall x, length (sha512 x) = 64%nat) -> ed_group enc padd -> ed_verifies enc sha512 verify ->
  forall root n t gen coefs pk keys, 1 <= t <= n -> n < 2 ^ 32 - 1 -> length coefs = Z.to_nat (t - 1) ->
  splitRootKey sha512 sha256 enc padd (shamir_dealer n t) root gen coefs = Ok (pk, keys) ->
  forall net tr net' outs, net_run sha512 enc net tr = Ok (net', outs) ->
  forall msg seats lcs R, incl (map st_key seats) keys -> NoDup (map (fun st => ks_id (st_key st)) seats) -> t <= zlen seats ->
  computeLagrangeCoefficients (map (fun st => ks_id (st_key st)) seats) = Ok lcs ->
  aggregateCommitmentShares padd (commitments outs seats) = Ok R ->
  Forall2 (takes_part net tr msg pk R) seats lcs ->
  exists sig, aggregateSignatureShares (shares outs seats) = Ok sig /\ length sig = 64%nat /\ bytes_ok sig /\
    (verify (pbytes pk) msg sig = true <-> R <> enc 0 /\
      total (map (fun st => held sha512 msg tr st (st_sign st)) seats) mod ell =
      total (map (fun st => held sha512 msg tr st (S (st_commit st))) seats) mod ell).
Proof.
  intros sha512 sha256 enc padd verify HL EG EV root n t gen coefs pk keys Ht Hn Lc SP net tr net' outs RUN msg seats lcs R I ND LG EC AC F.
  rewrite <- (map_map st_key ks_id) in ND, EC.
  destruct (shamir_weights sha512 sha256 enc padd EG root n t gen coefs pk keys (map st_key seats) lcs Ht Hn Lc SP I ND) as (PK & U & LL & SUM); [unfold zlen in *; rewrite map_length; exact LG|exact EC|].
  rewrite <- seats_keys in SUM.
  destruct (session sha512 sha256 enc padd HL EG verify EV net tr net' outs msg pk (kL root) R seats lcs RUN) as (_ & sig & SG & L64 & BS & V); auto.
  { intros ->. unfold zlen in LG; cbn in LG. lia. }
  exists sig. split; [exact SG|]. split; [exact L64|]. split; [exact BS|]. rewrite V. assert (pbytes pk <> enc 0).
  { rewrite PK. intros X. apply (enc_inj _ _ EG) in X. apply U. rewrite X. reflexivity. }
  tauto.
Qed.
Lemma steady_totals sha512 net tr msg pk R seats lcs : Forall2 (takes_part net tr msg pk R) seats lcs -> (forall st, In st seats -> steady tr st) ->
  total (map (fun st => held sha512 msg tr st (st_sign st)) seats) = total (map (fun st => held sha512 msg tr st (S (st_commit st))) seats).
Proof.
  intros F ST. f_equal. apply map_ext_in. intros st I. destruct (Forall2_in_l _ _ _ F st I) as (c & (seed & E) & _). exact (steady_held sha512 msg tr st seed E (ST st I)).
Qed.
(** So a quorum whose members sign after they committed, without committing again, makes a good signature in every
    schedule. *)
Theorem C79_shamir : forall sha512 sha256 enc padd verify, (forall x, length (sha512 x) = 64%nat) -> ed_group enc padd -> ed_verifies enc sha512 verify ->
  forall root n t gen coefs pk keys, 1 <= t <= n -> n < 2 ^ 32 - 1 -> length coefs = Z.to_nat (t - 1) ->
  splitRootKey sha512 sha256 enc padd (shamir_dealer n t) root gen coefs = Ok (pk, keys) ->
  forall net tr net' outs, net_run sha512 enc net tr = Ok (net', outs) ->
  forall msg seats lcs R, incl (map st_key seats) keys -> NoDup (map (fun st => ks_id (st_key st)) seats) -> t <= zlen seats ->
  computeLagrangeCoefficients (map (fun st => ks_id (st_key st)) seats) = Ok lcs ->
  aggregateCommitmentShares padd (commitments outs seats) = Ok R ->
  Forall2 (takes_part net tr msg pk R) seats lcs -> (forall st, In st seats -> steady tr st) -> R <> enc 0 ->
  exists sig, aggregateSignatureShares (shares outs seats) = Ok sig /\ verify (pbytes pk) msg sig = true.
Proof.
  intros sha512 sha256 enc padd verify HL EG EV root n t gen coefs pk keys Ht Hn Lc SP net tr net' outs RUN msg seats lcs R I ND LG EC AC F ST NR.
  destruct (C79_shamir_exact sha512 sha256 enc padd verify HL EG EV root n t gen coefs pk keys Ht Hn Lc SP net tr net' outs RUN msg seats lcs R I ND LG EC AC F) as (sig & SG & _ & _ & V).
  exists sig. split; [exact SG|]. apply V. split; [exact NR|]. rewrite (steady_totals sha512 net tr msg pk R seats lcs F ST). reflexivity.
Qed.
(** One member that commits again, to another nonce, before it signs spoils the signature; nobody is told: every call
    succeeds, and so does the aggregation. *)
Lemma total_app a b : total (a ++ b) = total a + total b.
Proof. unfold total. induction a as [|x a IH]; cbn [app fold_right]; [reflexivity|rewrite IH; ring]. Qed.
Theorem C79_recommit_spoils : forall sha512 sha256 enc padd verify, (forall x, length (sha512 x) = 64%nat) -> ed_group enc padd -> ed_verifies enc sha512 verify ->
  forall root n t gen coefs pk keys, 1 <= t <= n -> n < 2 ^ 32 - 1 -> length coefs = Z.to_nat (t - 1) ->
  splitRootKey sha512 sha256 enc padd (shamir_dealer n t) root gen coefs = Ok (pk, keys) ->
  forall net tr net' outs, net_run sha512 enc net tr = Ok (net', outs) ->
  forall msg before st after lcs R, let seats := before ++ st :: after in
  incl (map st_key seats) keys -> NoDup (map (fun st => ks_id (st_key st)) seats) -> t <= zlen seats ->
  computeLagrangeCoefficients (map (fun st => ks_id (st_key st)) seats) = Ok lcs ->
  aggregateCommitmentShares padd (commitments outs seats) = Ok R ->
  Forall2 (takes_part net tr msg pk R) seats lcs -> (forall st, In st (before ++ after) -> steady tr st) ->
  held sha512 msg tr st (st_sign st) <> held sha512 msg tr st (S (st_commit st)) ->
  exists sig, aggregateSignatureShares (shares outs seats) = Ok sig /\ verify (pbytes pk) msg sig = false.
Proof.
  intros sha512 sha256 enc padd verify HL EG EV root n t gen coefs pk keys Ht Hn Lc SP net tr net' outs RUN msg before st after lcs R seats I ND LG EC AC F ST NH.
  destruct (C79_shamir_exact sha512 sha256 enc padd verify HL EG EV root n t gen coefs pk keys Ht Hn Lc SP net tr net' outs RUN msg seats lcs R I ND LG EC AC F) as (sig & SG & _ & _ & V).
  exists sig. split; [exact SG|]. destruct (verify (pbytes pk) msg sig) eqn:E; [|reflexivity]. exfalso. destruct (proj1 V eq_refl) as [_ T]. apply NH.
  assert (same : forall x, In x (before ++ after) -> held sha512 msg tr x (st_sign x) = held sha512 msg tr x (S (st_commit x))).
  { intros x Ix. assert (In x seats) as Is by (unfold seats; apply in_app_or in Ix as [?|?]; apply in_or_app; [left|right; right]; assumption).
    destruct (Forall2_in_l _ _ _ F x Is) as (c & (seed & Ex) & _). exact (steady_held sha512 msg tr x seed Ex (ST x Ix)). }
  unfold seats in T. rewrite !map_app, !total_app in T. cbn [map] in T.
  rewrite (map_ext_in (fun st => held sha512 msg tr st (st_sign st)) (fun st => held sha512 msg tr st (S (st_commit st))) before) in T by (intros x Ix; apply same, in_or_app; left; exact Ix).
  unfold total at 2 4 in T. cbn [fold_right] in T. fold (total (map (fun st => held sha512 msg tr st (st_sign st)) after)) in T. fold (total (map (fun st => held sha512 msg tr st (S (st_commit st))) after)) in T.
  rewrite (map_ext_in (fun st => held sha512 msg tr st (st_sign st)) (fun st => held sha512 msg tr st (S (st_commit st))) after) in T by (intros x Ix; apply same, in_or_app; right; exact Ix).
  set (a := total (map _ before)) in T. set (b := total (map _ after)) in T.
  assert (RG : forall k, 0 <= held sha512 msg tr st k < ell).
  { intros k. unfold held, nonce_in_use. destruct (latest_seed _); [apply mod_range|pose proof ell_pos; lia]. }
  apply eqm_small; [apply RG|apply RG|].
  set (x := held sha512 msg tr st (st_sign st)) in *. set (y := held sha512 msg tr st (S (st_commit st))) in *.
  apply (eqm_trans ell _ ((a + (x + b)) + - (a + b))); [replace (a + (x + b) + - (a + b)) with x by ring; apply eqm_ref|].
  apply (eqm_trans ell _ ((a + (y + b)) + - (a + b))); [|replace (a + (y + b) + - (a + b)) with y by ring; apply eqm_ref].
  apply (eqm_add ell prime_ell); [exact T|apply eqm_ref].
Qed.

(** Direct groups, likewise: all n members, with coefficient one (which is what a signer made without coefficient has). *)
Theorem C79_direct : forall sha512 sha256 enc padd verify, (forall x, length (sha512 x) = 64%nat) -> ed_group enc padd -> ed_verifies enc sha512 verify ->
  forall n net tr net' outs, 1 <= n -> net_run sha512 enc net tr = Ok (net', outs) ->
  forall msg pk seats R, compositeKey sha512 sha256 enc padd (direct_dealer n) (map st_key seats) = Ok pk -> pbytes pk <> enc 0 ->
  aggregateCommitmentShares padd (commitments outs seats) = Ok R ->
  Forall2 (takes_part net tr msg pk R) seats (map (fun _ => one_coef) seats) ->
  exists sig, aggregateSignatureShares (shares outs seats) = Ok sig /\ length sig = 64%nat /\ bytes_ok sig /\
    (verify (pbytes pk) msg sig = true <-> R <> enc 0 /\
      total (map (fun st => held sha512 msg tr st (st_sign st)) seats) mod ell =
      total (map (fun st => held sha512 msg tr st (S (st_commit st))) seats) mod ell) /\
    ((forall st, In st seats -> steady tr st) -> R <> enc 0 -> verify (pbytes pk) msg sig = true).
Proof.
  intros sha512 sha256 enc padd verify HL EG EV n net tr net' outs Hn RUN msg pk seats R CK NP AC F.
  assert (NE : seats <> []) by (intros ->; unfold compositeKey in CK; cbn [map length threshold direct_dealer algorithm] in CK; destruct (Z.ltb_spec (Z.of_nat 0) n); [discriminate|lia]).
  set (a := sumz (map kl (map st_key seats))).
  assert (PK : pbytes pk = enc a).
  { assert (T : threshold (direct_dealer n) <= zlen (map st_key seats) /\ forall k, In k (map st_key seats) -> usable (kl k)).
    { unfold compositeKey in CK. unfold zlen. destruct (Z.ltb_spec (Z.of_nat (length (map st_key seats))) (threshold (direct_dealer n))); [discriminate|]. split; [lia|].
      cbn [algorithm direct_dealer] in CK. apply bind_ok in CK as (l & Hl & _). eapply (pubs_inv enc padd EG); exact Hl. }
    rewrite (direct_compositeKey sha512 sha256 enc padd EG (direct_dealer n) (map st_key seats) eq_refl (proj2 T)) in CK; [|destruct seats; [congruence|discriminate]|apply T]. injection CK as <-. reflexivity. }
  destruct (session sha512 sha256 enc padd HL EG verify EV net tr net' outs msg pk a R seats (map (fun _ => one_coef) seats) RUN NE PK) as (_ & sig & SG & L64 & BS & V); auto.
  { unfold a. clear. induction seats as [|st ss IH]; [apply eqm_ref|]. unfold sumz in *. cbn [map combine fst snd fold_right]. apply (eqm_add ell prime_ell); [|exact IH].
    replace (lev 256 one_coef) with 1 by (vm_compute; reflexivity). rewrite Z.mul_1_l. apply eqm_ref. }
  exists sig. split; [exact SG|]. split; [exact L64|]. split; [exact BS|]. assert (V' : verify (pbytes pk) msg sig = true <-> R <> enc 0 /\ total (map (fun st => held sha512 msg tr st (st_sign st)) seats) mod ell = total (map (fun st => held sha512 msg tr st (S (st_commit st))) seats) mod ell) by tauto.
  split; [exact V'|]. intros ST NR. apply V'. split; [exact NR|]. rewrite (steady_totals sha512 net tr msg pk R seats _ F ST). reflexivity.
Qed.
(** a signer made without a coefficient has the coefficient one *)
Theorem C79_default_is_one : forall msg pk k, signer_new msg pk k = signer_new_coef msg pk k one_coef.
Proof. reflexivity. Qed.

(** The dealer's own entry points: a split of any seed, or of any random root key, into a Shamir group succeeds as long
    as the coefficients drawn are not zero, and the group's key is the key of that seed. *)
Theorem C79_dealt : forall sha512 sha256 hmac512 pbkdf2 enc padd, hashes_ok sha512 sha256 hmac512 pbkdf2 -> ed_group enc padd ->
  forall n t gen coefs, 1 <= t <= n -> n < 2 ^ 32 - 1 -> length coefs = Z.to_nat (t - 1) -> ~ In 0 coefs ->
  (forall seed, exists pk keys, dealer_splitSeed sha512 sha256 enc padd (shamir_dealer n t) seed gen coefs = Ok (pk, keys) /\
     publicKey enc (prv_fromSeed sha512 sha256 seed) = Ok pk /\ map ks_id keys = map Z.of_nat (seq 1 (Z.to_nat n))) /\
  (forall random, exists pk keys, dealer_generate sha512 sha256 pbkdf2 enc padd (shamir_dealer n t) random gen coefs = Ok (pk, keys) /\
     publicKey enc (prv_generate pbkdf2 random) = Ok pk /\ map ks_id keys = map Z.of_nat (seq 1 (Z.to_nat n))).
Proof.
  intros sha512 sha256 hmac512 pbkdf2 enc padd HO EG n t gen coefs Ht Hn Lc C0.
  assert (G : forall root, usable (kL root) -> exists pk keys, splitRootKey sha512 sha256 enc padd (shamir_dealer n t) root gen coefs = Ok (pk, keys) /\ publicKey enc root = Ok pk /\ map ks_id keys = map Z.of_nat (seq 1 (Z.to_nat n))).
  { intros root U. destruct (C26_split_total sha512 sha256 enc padd EG root n t gen coefs Ht Hn Lc U C0) as ([pk keys] & E). exists pk, keys. split; [exact E|].
    destruct (C26_reconstruct sha512 sha256 enc padd EG root n t gen coefs pk keys Ht Hn Lc E) as (A & B & _). auto. }
  split; intros x; apply G.
  - apply clamped_usable. exact (proj2 (seed_root sha512 sha256 hmac512 pbkdf2 HO x)).
  - apply clamped3_usable. exact (proj2 (generate_root sha512 sha256 hmac512 pbkdf2 HO x)).
Qed.

(** ** Examples: a quorum of three of four, and a fourth signer busy with another message.  Member 0 commits twice before
    the commitments are collected, member 1 signs another aggregate in between and is asked with an explicit coefficient. *)
Transparent sc_inv.
Definition ex79_keys : list keyshare := Eval vm_compute in pick ex_shamir [3; 0; 1]%nat.
Definition ex79_all : list keyshare := Eval vm_compute in pick ex_shamir [0; 1; 2; 3]%nat.
Definition ex79_pk : xpub := Eval vm_compute in match ex_shamir with Ok (p, _) => p | _ => {| pbytes := []; pcc := [] |} end.
Definition ex79_lcs : list (list Z) := Eval vm_compute in match computeLagrangeCoefficients (map ks_id ex79_keys) with Ok l => l | _ => [] end.
Definition ex79_key (i : nat) : keyshare := nth i ex79_keys {| ks_id := 0; ks_key := toy_root |}.
Definition ex79_net : list signer :=
  [signer_new_coef (str "pay") ex79_pk (ex79_key 0) (nth 0 ex79_lcs []);
   signer_new_coef (str "pay") ex79_pk (ex79_key 1) (repeat 7 32);
   signer_new_coef (str "pay") ex79_pk (ex79_key 2) (nth 2 ex79_lcs []);
   signer_new (str "other") ex79_pk (nth 2 ex79_all (ex79_key 0))].
Definition ex79_tr0 : list (nat * signer_call) :=
  [(0%nat, Commit [1]); (3%nat, Commit [5]); (2%nat, Commit [2]); (0%nat, Commit [3]); (1%nat, Commit [4])].
Definition ex79_outs0 : list (list Z) := Eval vm_compute in match net_run (toy_h 64) toy_enc ex79_net ex79_tr0 with Ok r => snd r | _ => [] end.
Definition ex79_seats : list seat :=
  [{| st_who := 0; st_key := ex79_key 0; st_commit := 3; st_sign := 7 |};
   {| st_who := 1; st_key := ex79_key 1; st_commit := 4; st_sign := 9 |};
   {| st_who := 2; st_key := ex79_key 2; st_commit := 2; st_sign := 6 |}]%nat.
Definition ex79_R : list Z := Eval vm_compute in match aggregateCommitmentShares toy_padd (commitments ex79_outs0 ex79_seats) with Ok r => r | _ => [] end.
Definition ex79_tr : list (nat * signer_call) := ex79_tr0 ++
  [(1%nat, Sign (toy_enc 77)); (2%nat, Sign ex79_R); (0%nat, Sign ex79_R); (2%nat, Commit [8]); (1%nat, SignWith ex79_R (nth 1 ex79_lcs [])); (3%nat, Sign ex79_R)].
(** the same, where member 2 commits again before it signs *)
Definition ex79_bad : list (nat * signer_call) := ex79_tr0 ++
  [(2%nat, Commit [8]); (2%nat, Sign ex79_R); (0%nat, Sign ex79_R); (1%nat, Sign (toy_enc 77)); (1%nat, SignWith ex79_R (nth 1 ex79_lcs [])); (3%nat, Sign ex79_R)].
Definition ex79_outs : list (list Z) := Eval vm_compute in match net_run (toy_h 64) toy_enc ex79_net ex79_tr with Ok r => snd r | _ => [] end.
Definition ex79_bad_outs : list (list Z) := Eval vm_compute in match net_run (toy_h 64) toy_enc ex79_net ex79_bad with Ok r => snd r | _ => [] end.

Example C79_nontrivial :
  (exists net', net_run (toy_h 64) toy_enc ex79_net ex79_tr = Ok (net', ex79_outs)) /\
  (exists keys, ex_shamir = Ok (ex79_pk, keys) /\ incl (map st_key ex79_seats) keys) /\
  NoDup (map (fun st => ks_id (st_key st)) ex79_seats) /\ zlen ex79_seats = 3 /\
  computeLagrangeCoefficients (map (fun st => ks_id (st_key st)) ex79_seats) = Ok ex79_lcs /\
  aggregateCommitmentShares toy_padd (commitments ex79_outs ex79_seats) = Ok ex79_R /\ ex79_R <> toy_enc 0 /\
  Forall2 (takes_part ex79_net ex79_tr (str "pay") ex79_pk ex79_R) ex79_seats ex79_lcs /\
  (forall st, In st ex79_seats -> steady ex79_tr st).
Proof.
  split; [eexists; vm_compute; reflexivity|].
  split. { eexists. split; [vm_compute; reflexivity|]. intros x I. vm_compute in I. destruct I as [<-|[<-|[<-|[]]]]; vm_compute; auto 8. }
  split. { vm_compute. repeat (constructor; [intros X; cbn [In] in X; repeat (destruct X as [X|X]; [discriminate X|]); exact X|]). constructor. }
  split; [reflexivity|]. split; [vm_compute; reflexivity|]. split; [vm_compute; reflexivity|]. split; [vm_compute; discriminate|].
  split.
  - repeat constructor; unfold takes_part.
    + eexists. reflexivity.
    + eexists. split; [reflexivity|]. right. split; reflexivity.
    + eexists. reflexivity.
    + eexists. split; [reflexivity|]. left. reflexivity.
    + eexists. reflexivity.
    + eexists. split; [reflexivity|]. right. split; reflexivity.
  - intros st [<-|[<-|[<-|[]]]]; (split; [cbn [st_commit st_sign]; lia|]); intros k seed B; cbn [st_commit st_sign st_who] in *;
      (do 12 (destruct k as [|k]; [try lia; cbn; discriminate|])); lia.
Qed.
(** the theorem applies to it; and the spoilt session aggregates to a bad signature *)
Example C79_applied : exists sig, aggregateSignatureShares (shares ex79_outs ex79_seats) = Ok sig /\ toy_verify (pbytes ex79_pk) (str "pay") sig = true.
Proof.
  destruct C79_nontrivial as ((net' & R) & (keys & SP & I) & ND & L & LC & AC & NR & F & ST).
  exact (C79_shamir (toy_h 64) (toy_h 32) toy_enc toy_padd toy_verify (fun x => proj1 (sha512_ok _ _ _ _ toy_hashes x)) toy_group toy_verifies toy_root 4 3 ex_gen [12345; 67890] ex79_pk keys
    ltac:(lia) ltac:(lia) eq_refl SP ex79_net ex79_tr net' ex79_outs R (str "pay") ex79_seats ex79_lcs ex79_R I ND ltac:(lia) LC AC F ST NR).
Qed.
Example C79_spoilt : exists sig, aggregateSignatureShares (shares ex79_bad_outs ex79_seats) = Ok sig /\ toy_verify (pbytes ex79_pk) (str "pay") sig = false /\
  held (toy_h 64) (str "pay") ex79_bad (nth 2 ex79_seats {| st_who := 0; st_key := ex79_key 0; st_commit := 0; st_sign := 0 |}) 6 <>
  held (toy_h 64) (str "pay") ex79_bad (nth 2 ex79_seats {| st_who := 0; st_key := ex79_key 0; st_commit := 0; st_sign := 0 |}) 3.
Proof. eexists. split; [vm_compute; reflexivity|]. split; [vm_compute; reflexivity|]. vm_compute. discriminate. Qed.
Example C79_direct_nontrivial :
  exists pk, compositeKey (toy_h 64) (toy_h 32) toy_enc toy_padd (direct_dealer 3) (pick ex_direct [2; 0; 1]%nat) = Ok pk /\ pbytes pk <> toy_enc 0.
Proof. eexists. split; [vm_compute; reflexivity|]. vm_compute. discriminate. Qed.

Print Assumptions C79_isolated. Print Assumptions C79_shamir_exact. Print Assumptions C79_shamir. Print Assumptions C79_recommit_spoils.
Print Assumptions C79_direct. Print Assumptions C79_default_is_one. Print Assumptions C79_dealt.
