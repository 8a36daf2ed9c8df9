(** C83: a pool that runs for ever.  An operator evolves the hot key period by period, stores and restores it, renews key and certificate with the issue counter, and makes blocks; the chain
    goes on around him.  At every moment of every such history a header made with the library is accepted exactly if the pool is registered, the certificate is not older than allowed, and its number is
    that of the pool's last block or one more. *)
From Verif Require Import Base BaseLemmas Model_Hex Proof_Hex Spec_Cbor Model_Cbor Spec_Ledger Model_Kes Spec_Kes Proof_Kes Proof_KesHist Proof_KesMore Props_Kes Props_Ledger Model_Tx Model_Pool Props_Pool Spec_Block Props_Block.
Ltac Zify.zify_post_hook ::= idtac.

(** The pool and the chain around it. *)
Record pool := {
  po_key : kes_key;          (* the hot key *)
  po_cert : list Z;          (* the certificate in use, as it is sent *)
  po_count : Z;              (* the issue counter *)
  po_period : Z;             (* the KES period the chain is in *)
  po_chain : chain;
  po_age : Z;                (* periods since the certificate was issued *)
  po_ahead : Z               (* the certificate's number less that of the pool's last block *)
}.
(** The number of the pool's last block (0 before the first). *)
Definition last_number (c : chain) (id : list Z) : Z := match ch_counter c id with Some m => m | None => 0 end.

(** A new hot key and a certificate for it, from the present period on, with the counter's number. *)
Definition issues {SK} (H : list Z -> list Z) (ed_pk : list Z -> list Z) (sign : SK -> list Z -> list Z) (cold : SK) (count period : Z) (key : kes_key) (cert : list Z) : Prop :=
  exists kb seed hot sb, length seed = 32%nat /\ length kb = (sk_size 6 + 4)%nat /\ kes_keygen H ed_pk 6 kb seed = Ok (key, hot, sb) /\
    cert = opcert_serialize (opcert_generate SK sign hot count period cold).

(** What may happen next; renewals are labelled with the calls made on the counter. *)
Inductive step {SK} (H H224 : list Z -> list Z) (ed_pk : list Z -> list Z) (ed_sign : list Z -> list Z -> list Z) (ed_verify : list Z -> list Z -> list Z -> bool)
  (sign : SK -> list Z -> list Z) (pub : SK -> list Z) (cold : SK) : option (list counter_op) -> pool -> pool -> Prop :=
(** a period ends, and the operator updates the key (if the key refuses, it is as the refused call left it) *)
| a_period_ends s k r : kes_update H ed_pk 6 (po_key s) = (k, r) ->
    step H H224 ed_pk ed_sign ed_verify sign pub cold None s {| po_key := k; po_cert := po_cert s; po_count := po_count s; po_period := po_period s + 1; po_chain := po_chain s; po_age := po_age s + 1; po_ahead := po_ahead s |}
(** the key is stored and made again from its bytes *)
| restarts s k : kes_of_bytes 6 (prv (po_key s)) = Ok k ->
    step H H224 ed_pk ed_sign ed_verify sign pub cold None s {| po_key := k; po_cert := po_cert s; po_count := po_count s; po_period := po_period s; po_chain := po_chain s; po_age := po_age s; po_ahead := po_ahead s |}
(** the operator sets the counter by the calls [ops] and issues a new key and certificate *)
| renews s ops k cert : let count := fold_left counter_step ops (po_count s) in u64 (po_period s) ->
    issues H ed_pk sign cold count (po_period s) k cert ->
    step H H224 ed_pk ed_sign ed_verify sign pub cold (Some ops) s {| po_key := k; po_cert := cert; po_count := count; po_period := po_period s; po_chain := po_chain s; po_age := 0; po_ahead := po_ahead s + (count - po_count s) |}
(** the operator makes a block, and the chain takes it *)
| makes_block s hb sig c' : kes_sign ed_sign 6 (po_key s) hb = Ok sig ->
    block_ok H H224 ed_verify (po_chain s) (po_period s) (pub cold) (po_cert s) hb sig -> ch_counter c' (H224 (pub cold)) = Some (po_count s) ->
    step H H224 ed_pk ed_sign ed_verify sign pub cold None s {| po_key := po_key s; po_cert := po_cert s; po_count := po_count s; po_period := po_period s; po_chain := c'; po_age := po_age s; po_ahead := 0 |}
(** anything else happens on the chain (pools come and go, this one too); it is no block of this pool *)
| others_go_on s c' : ch_counter c' (H224 (pub cold)) = ch_counter (po_chain s) (H224 (pub cold)) ->
    step H H224 ed_pk ed_sign ed_verify sign pub cold None s {| po_key := po_key s; po_cert := po_cert s; po_count := po_count s; po_period := po_period s; po_chain := c'; po_age := po_age s; po_ahead := po_ahead s |}.
(** The first certificate. *)
Definition starts {SK} H (H224 : list Z -> list Z) ed_pk (sign : SK -> list Z -> list Z) (pub : SK -> list Z) (cold : SK) (s : pool) : Prop :=
  u64 (po_count s) /\ u64 (po_period s) /\ issues H ed_pk sign cold (po_count s) (po_period s) (po_key s) (po_cert s) /\ po_age s = 0 /\ po_ahead s = po_count s - last_number (po_chain s) (H224 (pub cold)).
Inductive steps {A} (R : A -> A -> Prop) (s : A) : A -> Prop :=
| no_step : steps R s s
| more s1 s2 : steps R s s1 -> R s1 s2 -> steps R s s2.

(** ** The invariant *)
Section Invariant.
Context {SK : Type}.
Variables (H H224 : list Z -> list Z) (ed_pk : list Z -> list Z) (ed_sign : list Z -> list Z -> list Z) (ed_verify : list Z -> list Z -> list Z -> bool).
Variables (sign : SK -> list Z -> list Z) (pub : SK -> list Z) (cold : SK).
Hypothesis C : kes_crypto H ed_pk ed_sign ed_verify.
Hypothesis B : block_crypto H sign pub ed_verify.
Notation id := (H224 (pub cold)).
Definition inv (s : pool) : Prop :=
  exists kb seed k0 hot sb h c0, length seed = 32%nat /\ length kb = (sk_size 6 + 4)%nat /\ kes_keygen H ed_pk 6 kb seed = Ok (k0, hot, sb) /\ kes_run H ed_pk 6 k0 h = Ok (po_key s) /\ ~ In ReloadFile h /\
    Z.of_nat (updates_in h) = Z.min (po_age s) 63 /\ po_cert s = opcert_serialize (opcert_generate SK sign hot (po_count s) c0 cold) /\
    0 <= po_age s /\ po_period s = c0 + po_age s /\ po_count s = last_number (po_chain s) id + po_ahead s /\ u64 (po_count s) /\ u64 c0.
Lemma updates_app h o : updates_in (h ++ [o]) = (updates_in h + (if is_update o then 1 else 0))%nat.
Proof. unfold updates_in. rewrite filter_app, app_length. destruct o; reflexivity. Qed.
Lemma fresh count period key cert : issues H ed_pk sign cold count period key cert -> u64 count -> u64 period ->
  forall c a, count = last_number c id + a -> inv {| po_key := key; po_cert := cert; po_count := count; po_period := period; po_chain := c; po_age := 0; po_ahead := a |}.
Proof.
  intros (kb & seed & hot & sb & L1 & L2 & G & E) U1 U2 c a EA. exists kb, seed, key, hot, sb, [], period. cbn [po_key po_cert po_count po_period po_chain po_age po_ahead].
  split; [exact L1|]. split; [exact L2|]. split; [exact G|]. split; [reflexivity|]. split; [intros []|]. split; [reflexivity|]. split; [exact E|]. split; [lia|]. split; [lia|]. split; [exact EA|]. split; assumption.
Qed.
Lemma inv_step o s s' : inv s -> step H H224 ed_pk ed_sign ed_verify sign pub cold o s s' -> inv s'.
Proof using C B.
  intros (kb & seed & k0 & hot & sb & h & c0 & L1 & L2 & G & R & NF & UP & CE & AG & PE & CO & U1 & U2) ST.
  destruct ST as [s k r UD|s k RE|s ops k cert count UPD IS|s hb sig c' SG BO CN|s c' CN]; cbn [po_key po_cert po_count po_period po_chain po_age po_ahead] in *.
  - destruct (C21_lifetime H ed_pk ed_sign ed_verify C 6 kb seed k0 hot sb h ltac:(lia) L1 L2 G NF) as (_ & LT & _). change (2 ^ Z.of_nat 6) with 64 in LT.
    destruct (Z.ltb_spec (po_age s) 63) as [Y|O].
    + destruct (C21_lifetime H ed_pk ed_sign ed_verify C 6 kb seed k0 hot sb (h ++ [Update]) ltac:(lia) L1 L2 G) as (X & _ & _).
      { rewrite in_app_iff. intros [I|[I|[]]]; [exact (NF I)|discriminate I]. }
      change (2 ^ Z.of_nat 6) with 64 in X. assert (UN : Z.of_nat (updates_in (h ++ [Update])) = po_age s + 1) by (rewrite updates_app; cbn [is_update]; lia).
      rewrite UN in X. destruct (X ltac:(lia)) as (k' & R' & _). assert (KK : k' = k). { rewrite run_app, R in R'. cbn [bind kes_run] in R'. rewrite UD in R'. destruct r; congruence. } subst k'.
      exists kb, seed, k0, hot, sb, (h ++ [Update]), c0. cbn [po_key po_cert po_count po_period po_chain po_age po_ahead].
      split; [exact L1|]. split; [exact L2|]. split; [exact G|]. split; [exact R'|]. split; [rewrite in_app_iff; intros [I|[I|[]]]; [exact (NF I)|discriminate I]|].
      split; [lia|]. split; [exact CE|]. split; [lia|]. split; [lia|]. split; [exact CO|]. split; assumption.
    + destruct (LT ltac:(lia)) as (k' & R' & T). assert (k' = po_key s) by congruence. subst k'. assert (k = po_key s) by congruence. subst k.
      exists kb, seed, k0, hot, sb, h, c0. cbn [po_key po_cert po_count po_period po_chain po_age po_ahead].
      split; [exact L1|]. split; [exact L2|]. split; [exact G|]. split; [exact R|]. split; [exact NF|].
      split; [lia|]. split; [exact CE|]. split; [lia|]. split; [lia|]. split; [exact CO|]. split; assumption.
  - exists kb, seed, k0, hot, sb, (h ++ [Reload]), c0. cbn [po_key po_cert po_count po_period po_chain po_age po_ahead].
    split; [exact L1|]. split; [exact L2|]. split; [exact G|]. split; [rewrite run_app, R; cbn [bind kes_run]; rewrite RE; reflexivity|]. split; [rewrite in_app_iff; intros [I|[I|[]]]; [exact (NF I)|discriminate I]|].
    split; [rewrite updates_app; cbn [is_update]; lia|]. split; [exact CE|]. split; [lia|]. split; [lia|]. split; [exact CO|]. split; assumption.
  - apply fresh; [exact IS| |exact UPD|fold count; lia]. apply (C46_counter ops _ U1).
  - exists kb, seed, k0, hot, sb, h, c0. cbn [po_key po_cert po_count po_period po_chain po_age po_ahead].
    split; [exact L1|]. split; [exact L2|]. split; [exact G|]. split; [exact R|]. split; [exact NF|]. split; [exact UP|]. split; [exact CE|]. split; [exact AG|]. split; [exact PE|].
    split; [unfold last_number; rewrite CN; lia|]. split; assumption.
  - exists kb, seed, k0, hot, sb, h, c0. cbn [po_key po_cert po_count po_period po_chain po_age po_ahead].
    split; [exact L1|]. split; [exact L2|]. split; [exact G|]. split; [exact R|]. split; [exact NF|]. split; [exact UP|]. split; [exact CE|]. split; [exact AG|]. split; [exact PE|].
    split; [unfold last_number in *; rewrite CN; exact CO|]. split; assumption.
Qed.
Lemma inv_starts s : starts H H224 ed_pk sign pub cold s -> inv s.
Proof. intros (U1 & U2 & IS & AG & AH). destruct s as [key cert count period c age a]. cbn [po_key po_cert po_count po_period po_chain po_age po_ahead] in *. subst age. apply fresh; try assumption. lia. Qed.
Lemma valid_below d : forall vk t m sig, kes_valid H ed_verify d vk t m sig -> t < 2 ^ Z.of_nat d.
Proof.
  induction d as [|e IH]; intros vk t m sig K; cbn [kes_valid] in K; [destruct K as [-> _]; reflexivity|]. rewrite Nat2Z.inj_succ, Z.pow_succ_r by lia. destruct K as (sub & l & r & _ & _ & _ & _ & K1 & K2).
  destruct (Z.ltb_spec t (2 ^ Z.of_nat e)) as [Y|O]; [lia|]. apply K2, IH in O. lia.
Qed.
Lemma inv_accepts s hb : inv s -> exists sig, kes_sign ed_sign 6 (po_key s) hb = Ok sig /\
  (block_ok H H224 ed_verify (po_chain s) (po_period s) (pub cold) (po_cert s) hb sig <-> ch_pools (po_chain s) id /\ po_age s < ch_evolutions (po_chain s) /\ po_age s < 64 /\ 0 <= po_ahead s <= 1).
Proof using C B.
  intros (kb & seed & k0 & hot & sb & h & c0 & L1 & L2 & G & R & NF & UP & CE & AG & PE & CO & U1 & U2).
  destruct (C73_block_accepted_iff H H224 ed_pk ed_sign ed_verify SK sign pub C B kb seed k0 hot sb h hb cold (po_count s) c0 L1 L2 G NF ltac:(change (2 ^ 6) with 64; lia) U1 U2) as (k' & sig & R' & SG & A).
  assert (k' = po_key s) by congruence. subst k'. exists sig. split; [exact SG|]. destruct (Z.ltb_spec (po_age s) 64) as [Y|O].
  - assert (E : Z.of_nat (updates_in h) = po_age s) by lia. rewrite E in A. rewrite CE, PE. specialize (A (po_chain s)). cbv zeta in A. fold (last_number (po_chain s) id) in A. rewrite A, CO. clear -Y. split; intros (X1 & X2 & X3); (split; [exact X1|split; [exact X2|]]); lia.
  - split; [|lia]. intros (hot' & n & c0' & sigma & bn & bc & E & _ & _ & _ & _ & _ & _ & _ & _ & K). exfalso.
    assert (EC : c0' = c0).
    { destruct (C19_keygen_succeeds H ed_pk ed_sign ed_verify C 6 kb seed L1 L2) as (k1 & G1). assert (HV : hot = vk H ed_pk 6 seed) by congruence.
      pose proof (pub_bytes H ed_pk ed_sign ed_verify 5 seed C (bc_H _ _ _ _ B)) as PB. rewrite <- HV in PB.
      assert (W : opcert_wf (opcert_generate SK sign hot (po_count s) c0 cold)). { unfold opcert_wf, opcert_generate, opcert_sign, opcert_unsigned. cbn [oc_hot oc_seq oc_period oc_sigma]. split; [exact PB|]. split; [exact U1|]. split; [exact U2|]. apply (bc_sign _ _ _ _ B). }
      destruct (C46_serialize _ hot W PB) as [D _]. unfold denotes in D. cbn [opcert_generate opcert_sign opcert_unsigned oc_hot oc_seq oc_period oc_sigma] in D. rewrite CE in E. congruence. }
    subst c0'. apply valid_below in K. change (2 ^ Z.of_nat 6) with 64 in K. lia.
Qed.
End Invariant.

(** ** Theorems *)
(** C83: at every moment of every history: the key signs, and the header is accepted exactly if the pool is registered, the certificate is neither older than the chain nor than the key allows, and its number is
    that of the pool's last block or one more. *)
Theorem C83_at_every_moment : forall SK H H224 ed_pk ed_sign ed_verify (sign : SK -> list Z -> list Z) pub cold s0 s,
  kes_crypto H ed_pk ed_sign ed_verify -> block_crypto H sign pub ed_verify ->
  starts H H224 ed_pk sign pub cold s0 -> steps (fun s s' => exists o, step H H224 ed_pk ed_sign ed_verify sign pub cold o s s') s0 s ->
  po_count s = last_number (po_chain s) (H224 (pub cold)) + po_ahead s /\
  forall hb, exists sig, kes_sign ed_sign 6 (po_key s) hb = Ok sig /\
    (block_ok H H224 ed_verify (po_chain s) (po_period s) (pub cold) (po_cert s) hb sig <->
     ch_pools (po_chain s) (H224 (pub cold)) /\ po_age s < ch_evolutions (po_chain s) /\ po_age s < 64 /\ (po_ahead s = 0 \/ po_ahead s = 1)).
Proof.
  intros SK H H224 ed_pk ed_sign ed_verify sign pub cold s0 s C B S0 SS.
  assert (I : inv H H224 ed_pk sign pub cold s). { induction SS as [|s1 s2 _ IH (o & ST)]; [apply inv_starts, S0|]. exact (inv_step _ _ _ _ _ _ _ _ C B _ _ _ IH ST). }
  split; [destruct I as (kb & seed & k0 & hot & sb & h & c0 & _ & _ & _ & _ & _ & _ & _ & _ & _ & CO & _); exact CO|].
  intros hb. destruct (inv_accepts H H224 ed_pk ed_sign ed_verify sign pub cold C B s hb I) as (sig & SG & A). exists sig. split; [exact SG|]. rewrite A. clear. split; intros (X1 & X2 & X3 & X4); (split; [exact X1|split; [exact X2|split; [exact X3|lia]]]).
Qed.
Print Assumptions C83_at_every_moment.

(** An operator who increments the counter once per renewal, and renews only when the present certificate has made a block, is never refused while the pool is registered and the certificate young enough. *)
Definition prudent {SK} H H224 ed_pk ed_sign ed_verify (sign : SK -> list Z -> list Z) pub cold (s s' : pool) : Prop :=
  exists o, step H H224 ed_pk ed_sign ed_verify sign pub cold o s s' /\ (forall ops, o = Some ops -> ops = [Increment] /\ po_ahead s = 0 /\ u64 (po_count s + 1)).
Theorem C83_never_refused : forall SK H H224 ed_pk ed_sign ed_verify (sign : SK -> list Z -> list Z) pub cold s0 s,
  kes_crypto H ed_pk ed_sign ed_verify -> block_crypto H sign pub ed_verify ->
  starts H H224 ed_pk sign pub cold s0 -> po_ahead s0 = 0 \/ po_ahead s0 = 1 -> steps (prudent H H224 ed_pk ed_sign ed_verify sign pub cold) s0 s ->
  ch_pools (po_chain s) (H224 (pub cold)) -> po_age s < ch_evolutions (po_chain s) -> po_age s < 64 ->
  forall hb, exists sig, kes_sign ed_sign 6 (po_key s) hb = Ok sig /\ block_ok H H224 ed_verify (po_chain s) (po_period s) (pub cold) (po_cert s) hb sig.
Proof.
  intros SK H H224 ed_pk ed_sign ed_verify sign pub cold s0 s C B S0 A0 SS P1 P2 P3 hb.
  assert (G : steps (fun s s' => exists o, step H H224 ed_pk ed_sign ed_verify sign pub cold o s s') s0 s /\ (po_ahead s = 0 \/ po_ahead s = 1)).
  { clear P1 P2 P3. induction SS as [|s1 s2 _ [IH A1] (o & ST & PR)]; [split; [apply no_step|exact A0]|]. split; [eapply more; [exact IH|exists o; exact ST]|].
    destruct ST as [s k r UD|s k RE|s ops k cert count UPD IS|s hb' sig c' SG BO CN|s c' CN]; cbn [po_ahead]; try exact A1; [|left; reflexivity].
    destruct (PR ops eq_refl) as (-> & Z0 & U). right. unfold count. cbn [fold_left counter_step]. unfold to_u64. rewrite Z.mod_small by exact U. lia. }
  destruct G as [G A]. destruct (C83_at_every_moment SK H H224 ed_pk ed_sign ed_verify sign pub cold s0 s C B S0 G) as (_ & X). destruct (X hb) as (sig & SG & E). exists sig. split; [exact SG|]. apply E. repeat (split; [assumption|]). exact A.
Qed.
Print Assumptions C83_never_refused.

(** An operator who has got two numbers ahead of the pool's last block, and only ever increments the counter, is refused for ever, whatever else happens. *)
Definition onwards {SK} H H224 ed_pk ed_sign ed_verify (sign : SK -> list Z -> list Z) pub cold (s s' : pool) : Prop :=
  exists o, step H H224 ed_pk ed_sign ed_verify sign pub cold o s s' /\ (forall ops, o = Some ops -> Forall (eq Increment) ops /\ u64 (po_count s + zlen ops)).
Lemma increments ops : forall c, u64 c -> Forall (eq Increment) ops -> u64 (c + zlen ops) -> fold_left counter_step ops c = c + zlen ops.
Proof.
  induction ops as [|o r IH]; intros c U F UE; [unfold zlen; cbn; lia|]. inversion F as [|x y E F']. subst o. rewrite zlen_cons in *. pose proof (zlen_nonneg r). cbn [fold_left counter_step].
  assert (U1 : u64 (c + 1)) by (unfold u64 in *; lia). unfold to_u64. rewrite Z.mod_small by exact U1. rewrite IH; [lia|exact U1|exact F'|]. replace (c + 1 + zlen r) with (c + (zlen r + 1)) by lia. exact UE.
Qed.
Theorem C83_locked_out : forall SK H H224 ed_pk ed_sign ed_verify (sign : SK -> list Z -> list Z) pub cold s0 s s',
  kes_crypto H ed_pk ed_sign ed_verify -> block_crypto H sign pub ed_verify ->
  starts H H224 ed_pk sign pub cold s0 -> steps (fun s s' => exists o, step H H224 ed_pk ed_sign ed_verify sign pub cold o s s') s0 s -> 2 <= po_ahead s ->
  steps (onwards H H224 ed_pk ed_sign ed_verify sign pub cold) s s' ->
  forall hb sig, kes_sign ed_sign 6 (po_key s') hb = Ok sig -> ~ block_ok H H224 ed_verify (po_chain s') (po_period s') (pub cold) (po_cert s') hb sig.
Proof.
  intros SK H H224 ed_pk ed_sign ed_verify sign pub cold s0 s s' C B S0 SS A0 ON.
  assert (G : steps (fun s s' => exists o, step H H224 ed_pk ed_sign ed_verify sign pub cold o s s') s0 s' /\ 2 <= po_ahead s').
  { induction ON as [|s1 s2 _ [IH A1] (o & ST & PR)]; [split; assumption|]. split; [eapply more; [exact IH|exists o; exact ST]|].
    destruct ST as [s2 k r UD|s2 k RE|s2 ops k cert count UPD IS|s2 hb' sig' c' SG BO CN|s2 c' CN]; cbn [po_ahead]; try exact A1.
    - destruct (PR ops eq_refl) as (F & U). assert (U0 : u64 (po_count s2)).
      { assert (I : inv H H224 ed_pk sign pub cold s2). { clear -C B S0 IH. induction IH as [|s1 s2 _ IH (o & ST)]; [apply inv_starts, S0|]. exact (inv_step _ _ _ _ _ _ _ _ C B _ _ _ IH ST). }
        destruct I as (kb & seed & k0 & hot & sb & h & c0 & _ & _ & _ & _ & _ & _ & _ & _ & _ & _ & UC & _). exact UC. }
      unfold count. rewrite increments by assumption. pose proof (zlen_nonneg ops). lia.
    - exfalso. destruct (C83_at_every_moment SK H H224 ed_pk ed_sign ed_verify sign pub cold s0 s2 C B S0 IH) as (_ & X). destruct (X hb') as (sig2 & SG2 & E). assert (sig2 = sig') by congruence. subst sig2. apply E in BO. lia. }
  destruct G as [G A]. intros hb sig SG BO. destruct (C83_at_every_moment SK H H224 ed_pk ed_sign ed_verify sign pub cold s0 s' C B S0 G) as (_ & X). destruct (X hb) as (sig2 & SG2 & E). assert (sig2 = sig) by congruence. subst sig2. apply E in BO. lia.
Qed.
Print Assumptions C83_locked_out.

(** The way back: the counter set to one more than the number of the pool's last block, and a renewal. *)
Theorem C83_way_back : forall SK H H224 ed_pk ed_sign ed_verify (sign : SK -> list Z -> list Z) pub cold s0 s s',
  kes_crypto H ed_pk ed_sign ed_verify -> block_crypto H sign pub ed_verify ->
  starts H H224 ed_pk sign pub cold s0 -> steps (fun s s' => exists o, step H H224 ed_pk ed_sign ed_verify sign pub cold o s s') s0 s ->
  let next := last_number (po_chain s) (H224 (pub cold)) + 1 in u64 next ->
  step H H224 ed_pk ed_sign ed_verify sign pub cold (Some [SetCount next]) s s' ->
  forall hb, exists sig, kes_sign ed_sign 6 (po_key s') hb = Ok sig /\
    (block_ok H H224 ed_verify (po_chain s') (po_period s') (pub cold) (po_cert s') hb sig <-> ch_pools (po_chain s') (H224 (pub cold)) /\ 0 < ch_evolutions (po_chain s')).
Proof.
  intros SK H H224 ed_pk ed_sign ed_verify sign pub cold s0 s s' C B S0 SS next U ST hb.
  destruct (C83_at_every_moment SK H H224 ed_pk ed_sign ed_verify sign pub cold s0 s C B S0 SS) as (CO & _).
  assert (SS' : steps (fun s s' => exists o, step H H224 ed_pk ed_sign ed_verify sign pub cold o s s') s0 s') by (eapply more; [exact SS|eexists; exact ST]).
  destruct (C83_at_every_moment SK H H224 ed_pk ed_sign ed_verify sign pub cold s0 s' C B S0 SS') as (CO' & X). destruct (X hb) as (sig & SG & E). exists sig. split; [exact SG|]. rewrite E.
  assert (Q : po_age s' = 0 /\ po_ahead s' = 1).
  { clear -ST U CO. remember (Some [SetCount next]) as o eqn:EO. destruct ST as [s k r UD|s k RE|s ops k cert count UPD IS|s hb' sig c' SG BO CN|s c' CN]; try discriminate EO.
    assert (ops = [SetCount next]) by congruence. subst ops. cbn [po_age po_ahead]. split; [reflexivity|]. unfold count. cbn [fold_left counter_step]. unfold to_u64. rewrite Z.mod_small by exact U. fold next in CO. lia. }
  destruct Q as [Q1 Q2]. rewrite Q1, Q2. clear. split; [intros (X1 & X2 & _); split; assumption|]. intros (X1 & X2). split; [exact X1|]. split; [exact X2|]. split; lia.
Qed.
Print Assumptions C83_way_back.

(** ** A pool in operation *)
(** A new certificate can always be issued, an update never gets stuck, and a stored key can be restored: the steps above are always possible. *)
Lemma can_issue {SK} H ed_pk ed_sign ed_verify (sign : SK -> list Z -> list Z) cold count period : kes_crypto H ed_pk ed_sign ed_verify -> exists k cert, issues H ed_pk sign cold count period k cert.
Proof.
  intros C. assert (L1 : length (seq_bytes 32) = 32%nat) by (vm_compute; reflexivity). assert (L2 : length (zeros (sk_size 6 + 4)) = (sk_size 6 + 4)%nat) by apply zeros_length.
  destruct (C19_keygen_succeeds _ _ _ _ C 6 _ _ L1 L2) as (k & G). eexists k, _. do 4 eexists. split; [exact L1|]. split; [exact L2|]. split; [exact G|reflexivity].
Qed.
Notation "a ~> b" := (prudent toy_H (fun _ => toy_H [9]) toy_pk toy_sign toy_verify toy_sign toy_pk (repeat 3 32) a b) (at level 70).
Notation "a ~~> b" := (onwards toy_H (fun _ => toy_H [9]) toy_pk toy_sign toy_verify toy_sign toy_pk (repeat 3 32) a b) (at level 70).
Definition op_chain (last : option Z) : chain := {| ch_pools := fun id => id = toy_H [9]; ch_counter := fun _ => last; ch_evolutions := 62 |}.
(** A new pool (counter 0, period 100) makes a block, a period ends, the operator renews, makes a block with certificate 1, restarts: all prudent, and the next header is accepted.  He then renews twice: from there on
    every header is refused. *)
Example C83_ex : exists s0 s1 s2, starts toy_H (fun _ => toy_H [9]) toy_pk toy_sign toy_pk (repeat 3 32) s0 /\ po_ahead s0 = 0 /\ po_period s0 = 100 /\
  steps (fun a b => a ~> b) s0 s1 /\ po_count s1 = 1 /\ po_period s1 = 101 /\ ch_counter (po_chain s1) (toy_H [9]) = Some 1 /\
  (forall hb, exists sig, kes_sign toy_sign 6 (po_key s1) hb = Ok sig /\ block_ok toy_H (fun _ => toy_H [9]) toy_verify (po_chain s1) 101 (toy_pk (repeat 3 32)) (po_cert s1) hb sig) /\
  steps (fun a b => a ~~> b) s1 s2 /\ po_ahead s2 = 2 /\ ch_pools (po_chain s2) (toy_H [9]).
Proof.
  destruct C73_hypotheses_satisfiable as [C B].
  assert (U0 : u64 0) by (split; [lia|reflexivity]). assert (U100 : u64 100) by (split; [lia|reflexivity]).
  destruct (can_issue toy_H toy_pk toy_sign toy_verify toy_sign (repeat 3 32) 0 100 C) as (k0 & cert0 & I0).
  destruct (can_issue toy_H toy_pk toy_sign toy_verify toy_sign (repeat 3 32) 1 101 C) as (k2 & cert2 & I2).
  destruct (can_issue toy_H toy_pk toy_sign toy_verify toy_sign (repeat 3 32) 3 101 C) as (k4 & cert4 & I4).
  set (s0 := {| po_key := k0; po_cert := cert0; po_count := 0; po_period := 100; po_chain := op_chain None; po_age := 0; po_ahead := 0 |}).
  assert (S0 : starts toy_H (fun _ => toy_H [9]) toy_pk toy_sign toy_pk (repeat 3 32) s0) by (split; [exact U0|]; split; [exact U100|]; split; [exact I0|]; split; reflexivity).
  assert (NR : forall s, steps (fun a b => a ~> b) s0 s -> po_age s < 62 -> ch_pools (po_chain s) (toy_H [9]) -> ch_evolutions (po_chain s) = 62 ->
    forall hb, exists sig, kes_sign toy_sign 6 (po_key s) hb = Ok sig /\ block_ok toy_H (fun _ => toy_H [9]) toy_verify (po_chain s) (po_period s) (toy_pk (repeat 3 32)) (po_cert s) hb sig).
  { intros s SS A P E. assert (A2 : po_age s < 64) by (clear -A; lia). apply (C83_never_refused _ _ _ _ _ _ _ _ _ _ _ C B S0 (or_introl eq_refl) SS); [exact P|rewrite E; exact A|exact A2]. }
  (* a block with certificate 0 *)
  destruct (NR s0 (no_step _ _) ltac:(reflexivity) eq_refl eq_refl [1; 2]) as (sig0 & SG0 & BO0).
  set (s1 := {| po_key := k0; po_cert := cert0; po_count := 0; po_period := 100; po_chain := op_chain (Some 0); po_age := 0; po_ahead := 0 |}).
  assert (T1 : s0 ~> s1) by (exists None; split; [exact (makes_block toy_H (fun _ => toy_H [9]) toy_pk toy_sign toy_verify toy_sign toy_pk (repeat 3 32) s0 [1; 2] sig0 (op_chain (Some 0)) SG0 BO0 eq_refl)|discriminate]).
  (* a period ends *)
  destruct (kes_update toy_H toy_pk 6 k0) as [k1 r1] eqn:U1.
  set (s2 := {| po_key := k1; po_cert := cert0; po_count := 0; po_period := 101; po_chain := op_chain (Some 0); po_age := 1; po_ahead := 0 |}).
  assert (T2 : s1 ~> s2) by (exists None; split; [exact (a_period_ends toy_H (fun _ => toy_H [9]) toy_pk toy_sign toy_verify toy_sign toy_pk (repeat 3 32) s1 k1 r1 U1)|discriminate]).
  (* renewal *)
  set (s3 := {| po_key := k2; po_cert := cert2; po_count := 1; po_period := 101; po_chain := op_chain (Some 0); po_age := 0; po_ahead := 1 |}).
  assert (U101 : u64 101) by (split; [lia|reflexivity]). assert (U1' : u64 (0 + 1)) by (split; [lia|reflexivity]).
  assert (T3 : s2 ~> s3). { exists (Some [Increment]). split; [exact (renews toy_H (fun _ => toy_H [9]) toy_pk toy_sign toy_verify toy_sign toy_pk (repeat 3 32) s2 [Increment] k2 cert2 U101 I2)|]. intros ops E. assert (ops = [Increment]) by congruence. split; [assumption|]. split; [reflexivity|exact U1']. }
  assert (SS3 : steps (fun a b => a ~> b) s0 s3) by (eapply more; [eapply more; [eapply more; [apply no_step|exact T1]|exact T2]|exact T3]).
  destruct (NR s3 SS3 ltac:(reflexivity) eq_refl eq_refl [3]) as (sig3 & SG3 & BO3).
  set (s4 := {| po_key := k2; po_cert := cert2; po_count := 1; po_period := 101; po_chain := op_chain (Some 1); po_age := 0; po_ahead := 0 |}).
  assert (T4 : s3 ~> s4) by (exists None; split; [exact (makes_block toy_H (fun _ => toy_H [9]) toy_pk toy_sign toy_verify toy_sign toy_pk (repeat 3 32) s3 [3] sig3 (op_chain (Some 1)) SG3 BO3 eq_refl)|discriminate]).
  assert (SS4 : steps (fun a b => a ~> b) s0 s4) by (eapply more; [exact SS3|exact T4]).
  set (s6 := {| po_key := k4; po_cert := cert4; po_count := 3; po_period := 101; po_chain := op_chain (Some 1); po_age := 0; po_ahead := 2 |}).
  assert (U3 : u64 (1 + zlen [Increment; Increment])) by (split; [unfold zlen; cbn; lia|reflexivity]).
  assert (T5 : s4 ~~> s6). { exists (Some [Increment; Increment]). split; [exact (renews toy_H (fun _ => toy_H [9]) toy_pk toy_sign toy_verify toy_sign toy_pk (repeat 3 32) s4 [Increment; Increment] k4 cert4 U101 I4)|]. intros ops E. assert (ops = [Increment; Increment]) by congruence. subst ops. split; [repeat constructor|exact U3]. }
  exists s0, s4, s6. split; [exact S0|]. split; [reflexivity|]. split; [reflexivity|]. split; [exact SS4|]. split; [reflexivity|]. split; [reflexivity|]. split; [reflexivity|].
  split; [exact (NR s4 SS4 ltac:(reflexivity) eq_refl eq_refl)|]. split; [eapply more; [apply no_step|exact T5]|]. split; reflexivity.
Qed.
