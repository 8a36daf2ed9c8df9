(** C85: an operator who is late or early.  Time passes on the chain whether or not the operator updates the hot key; he may update it when he likes and issue certificates for any first period.
    At every moment the header made with the library is accepted exactly if the number of updates since the certificate was issued is the number of periods since the certificate's first one. *)
From Verif Require Import Base BaseLemmas Model_Hex Proof_Hex Spec_Cbor Model_Cbor Spec_Ledger Model_Kes Spec_Kes Proof_Kes Proof_KesHist Proof_KesMore Props_Kes Props_Ledger Model_Tx Model_Pool Props_Pool Spec_Block Props_Block Props_Operator.
Ltac Zify.zify_post_hook ::= idtac.

Record desk := {
  dk_key : kes_key;          (* the hot key *)
  dk_cert : list Z;          (* the certificate in use, as it is sent *)
  dk_count : Z;              (* the issue counter: the certificate's number *)
  dk_start : Z;              (* the certificate's first period *)
  dk_seed : list Z;          (* the seed the hot key was made from *)
  dk_updates : Z;            (* updates since then that the key did not refuse *)
  dk_period : Z;             (* the KES period the chain is in *)
  dk_chain : chain
}.
(** A new hot key from [seed] and a certificate for it with number [count] and first period [start]. *)
Definition issues_for {SK} (H : list Z -> list Z) (ed_pk : list Z -> list Z) (sign : SK -> list Z -> list Z) (cold : SK) (count start : Z) (seed : list Z) (key : kes_key) (cert : list Z) : Prop :=
  exists kb hot sb, length seed = 32%nat /\ length kb = (sk_size 6 + 4)%nat /\ kes_keygen H ed_pk 6 kb seed = Ok (key, hot, sb) /\ cert = opcert_serialize (opcert_generate SK sign hot count start cold).

Definition with_key (s : desk) k n : desk := {| dk_key := k; dk_cert := dk_cert s; dk_count := dk_count s; dk_start := dk_start s; dk_seed := dk_seed s; dk_updates := n; dk_period := dk_period s; dk_chain := dk_chain s |}.
Definition at_time (s : desk) p c : desk := {| dk_key := dk_key s; dk_cert := dk_cert s; dk_count := dk_count s; dk_start := dk_start s; dk_seed := dk_seed s; dk_updates := dk_updates s; dk_period := p; dk_chain := c |}.
(** What the operator does with the key he has: *)
Inductive handles (H ed_pk : list Z -> list Z) : desk -> desk -> Prop :=
(** he updates it (a refused call leaves whatever it leaves, and does not count) *)
| updates s k r : kes_update H ed_pk 6 (dk_key s) = (k, r) -> handles H ed_pk s (with_key s k (dk_updates s + (if is_ok r then 1 else 0)))
(** he makes it again from its bytes *)
| reloads s k : kes_of_bytes 6 (prv (dk_key s)) = Ok k -> handles H ed_pk s (with_key s k (dk_updates s))
(** he reads it back from its file, if it was never updated *)
| rereads s k : dk_updates s = 0 -> kes_of_bytes 6 (kes_file_bytes 6 (dk_key s)) = Ok k -> handles H ed_pk s (with_key s k (dk_updates s)).
(** What may happen at all. *)
Inductive goes_on {SK} (H ed_pk : list Z -> list Z) (sign : SK -> list Z -> list Z) (cold : SK) : desk -> desk -> Prop :=
| handled s s' : handles H ed_pk s s' -> goes_on H ed_pk sign cold s s'
(** the chain goes on: any time may pass, pools come and go, blocks are made *)
| chain_moves s p c : dk_period s <= p -> goes_on H ed_pk sign cold s (at_time s p c)
(** the operator works on the counter and issues a certificate with it, for any first period, past, present or future *)
| reissues s ops start seed k cert : let count := fold_left counter_step ops (dk_count s) in u64 start ->
    issues_for H ed_pk sign cold count start seed k cert ->
    goes_on H ed_pk sign cold s {| dk_key := k; dk_cert := cert; dk_count := count; dk_start := start; dk_seed := seed; dk_updates := 0; dk_period := dk_period s; dk_chain := dk_chain s |}.
Definition opens {SK} H ed_pk (sign : SK -> list Z -> list Z) (cold : SK) (s : desk) : Prop :=
  u64 (dk_count s) /\ u64 (dk_start s) /\ dk_updates s = 0 /\ issues_for H ed_pk sign cold (dk_count s) (dk_start s) (dk_seed s) (dk_key s) (dk_cert s).

(** The keys of the tree are told apart: no two neighbouring subtrees share a verification key, and the signature of one leaf does not verify under the key of another. *)
Definition told_apart (H ed_pk : list Z -> list Z) (ed_sign : list Z -> list Z -> list Z) (ed_verify : list Z -> list Z -> list Z -> bool) (seed hb : list Z) : Prop :=
  siblings_distinct H ed_pk seed 6 /\
  forall p q, 0 <= p < 64 -> 0 <= q < 64 -> p <> q -> ed_verify (ed_pk (seed_at H seed (leaf_path 6 q))) hb (ed_sign (seed_at H seed (leaf_path 6 p)) hb) = false.

Section Invariant.
Context {SK : Type}.
Variables (H H224 : list Z -> list Z) (ed_pk : list Z -> list Z) (ed_sign : list Z -> list Z -> list Z) (ed_verify : list Z -> list Z -> list Z -> bool).
Variables (sign : SK -> list Z -> list Z) (pub : SK -> list Z) (cold : SK).
Hypothesis C : kes_crypto H ed_pk ed_sign ed_verify.
Hypothesis B : block_crypto H sign pub ed_verify.
Notation id := (H224 (pub cold)).
Definition keeps (s : desk) : Prop :=
  exists kb k0 hot sb h, length (dk_seed s) = 32%nat /\ length kb = (sk_size 6 + 4)%nat /\ kes_keygen H ed_pk 6 kb (dk_seed s) = Ok (k0, hot, sb) /\ kes_run H ed_pk 6 k0 h = Ok (dk_key s) /\ ~ In ReloadFile h /\
    Z.of_nat (updates_in h) = dk_updates s /\ dk_updates s <= 63 /\ dk_cert s = opcert_serialize (opcert_generate SK sign hot (dk_count s) (dk_start s) cold) /\ u64 (dk_count s) /\ u64 (dk_start s).
Lemma keeps_issue s : u64 (dk_count s) -> u64 (dk_start s) -> dk_updates s = 0 -> issues_for H ed_pk sign cold (dk_count s) (dk_start s) (dk_seed s) (dk_key s) (dk_cert s) -> keeps s.
Proof using Type.
  intros U1 U2 E (kb & hot & sb & L1 & L2 & G & CE). exists kb, (dk_key s), hot, sb, []. split; [exact L1|]. split; [exact L2|]. split; [exact G|]. split; [reflexivity|]. split; [intros []|].
  split; [rewrite E; reflexivity|]. split; [rewrite E; discriminate|]. split; [exact CE|]. split; assumption.
Qed.
Lemma keeps_handles s s' : keeps s -> handles H ed_pk s s' -> keeps s'.
Proof using C H224.
  intros (kb & k0 & hot & sb & h & L1 & L2 & G & R & NF & UP & LE & CE & U1 & U2) ST. destruct ST as [s k r UD|s k RE|s k Z0 RE].
  - destruct (C21_lifetime H ed_pk ed_sign ed_verify C 6 kb (dk_seed s) k0 hot sb h ltac:(lia) L1 L2 G NF) as (_ & LT & _). change (2 ^ Z.of_nat 6) with 64 in LT.
    destruct (Z.ltb_spec (dk_updates s) 63) as [Y|O].
    + destruct (C21_lifetime H ed_pk ed_sign ed_verify C 6 kb (dk_seed s) k0 hot sb (h ++ [Update]) ltac:(lia) L1 L2 G) as (X & _ & _).
      { rewrite in_app_iff. intros [I|[I|[]]]; [exact (NF I)|discriminate I]. }
      change (2 ^ Z.of_nat 6) with 64 in X. assert (UN : Z.of_nat (updates_in (h ++ [Update])) = dk_updates s + 1) by (rewrite updates_app; cbn [is_update]; lia).
      rewrite UN in X. destruct (X ltac:(lia)) as (k' & R' & _).
      assert (KK : k' = k /\ is_ok r = true). { rewrite run_app, R in R'. cbn [bind kes_run] in R'. rewrite UD in R'. destruct r; try discriminate R'. split; [congruence|reflexivity]. } destruct KK as [-> ->].
      exists kb, k0, hot, sb, (h ++ [Update]). cbn [with_key dk_key dk_cert dk_count dk_start dk_seed dk_updates].
      split; [exact L1|]. split; [exact L2|]. split; [exact G|]. split; [exact R'|]. split; [rewrite in_app_iff; intros [I|[I|[]]]; [exact (NF I)|discriminate I]|].
      split; [exact UN|]. split; [lia|]. split; [exact CE|]. split; assumption.
    + destruct (LT ltac:(lia)) as (k' & R' & T). assert (k' = dk_key s) by congruence. subst k'. assert (k = dk_key s) by congruence. assert (r = Throw) by congruence. subst k r.
      exists kb, k0, hot, sb, h. cbn [with_key dk_key dk_cert dk_count dk_start dk_seed dk_updates is_ok].
      split; [exact L1|]. split; [exact L2|]. split; [exact G|]. split; [exact R|]. split; [exact NF|]. split; [lia|]. split; [lia|]. split; [exact CE|]. split; assumption.
  - exists kb, k0, hot, sb, (h ++ [Reload]). cbn [with_key dk_key dk_cert dk_count dk_start dk_seed dk_updates].
    split; [exact L1|]. split; [exact L2|]. split; [exact G|]. split; [rewrite run_app, R; cbn [bind kes_run]; rewrite RE; reflexivity|]. split; [rewrite in_app_iff; intros [I|[I|[]]]; [exact (NF I)|discriminate I]|].
    split; [rewrite updates_app; cbn [is_update]; lia|]. split; [exact LE|]. split; [exact CE|]. split; assumption.
  - assert (U0 : updates_in h = 0%nat) by lia.
    destruct (C53_file_exact H ed_pk ed_sign ed_verify C 6 kb (dk_seed s) k0 hot sb h ltac:(lia) L1 L2 G NF) as (k1 & k2 & R1 & R2 & _ & _ & EQ); [rewrite U0; reflexivity|].
    assert (k1 = dk_key s) by congruence. subst k1. apply EQ in U0. subst k2.
    assert (k = dk_key s). { rewrite run_app, R in R2. cbn [bind kes_run] in R2. rewrite RE in R2. cbn [bind] in R2. congruence. } subst k.
    exists kb, k0, hot, sb, h. cbn [with_key dk_key dk_cert dk_count dk_start dk_seed dk_updates].
    split; [exact L1|]. split; [exact L2|]. split; [exact G|]. split; [exact R|]. split; [exact NF|]. split; [exact UP|]. split; [exact LE|]. split; [exact CE|]. split; assumption.
Qed.
Lemma keeps_goes s s' : keeps s -> goes_on H ed_pk sign cold s s' -> keeps s'.
Proof using C H224.
  intros K ST. destruct ST as [s s' HA|s p c LE|s ops start seed k cert count US IS].
  - exact (keeps_handles s s' K HA).
  - exact K.
  - apply keeps_issue; cbn [dk_key dk_cert dk_count dk_start dk_seed dk_updates]; [|exact US|reflexivity|exact IS].
    destruct K as (kb & k0 & hot & sb & h & _ & _ & _ & _ & _ & _ & _ & _ & U1 & _). apply (C46_counter ops _ U1).
Qed.
Lemma keeps_all s0 s : opens H ed_pk sign cold s0 -> steps (goes_on H ed_pk sign cold) s0 s -> keeps s.
Proof using C H224.
  intros (U1 & U2 & E & IS) SS. induction SS as [|s1 s2 _ IH ST]; [apply keeps_issue; assumption|exact (keeps_goes _ _ IH ST)].
Qed.
Lemma cert_fields s hot n c0 sigma : (exists kb k0 sb, length (dk_seed s) = 32%nat /\ length kb = (sk_size 6 + 4)%nat /\ kes_keygen H ed_pk 6 kb (dk_seed s) = Ok (k0, hot, sb)) -> u64 (dk_count s) -> u64 (dk_start s) ->
  dk_cert s = opcert_serialize (opcert_generate SK sign hot (dk_count s) (dk_start s) cold) -> forall hot', cbor_read (dk_cert s) = Some (CArray [CBytes hot'; CUint n; CUint c0; CBytes sigma], []) -> hot' = hot /\ n = dk_count s /\ c0 = dk_start s.
Proof using C B.
  intros (kb & k0 & sb & L1 & L2 & G) U1 U2 CE hot' E.
  destruct (C19_keygen_succeeds H ed_pk ed_sign ed_verify C 6 kb _ L1 L2) as (k1 & G1). assert (HV : hot = vk H ed_pk 6 (dk_seed s)) by congruence.
  pose proof (pub_bytes H ed_pk ed_sign ed_verify 5 (dk_seed s) C (bc_H _ _ _ _ B)) as PB. rewrite <- HV in PB.
  assert (W : opcert_wf (opcert_generate SK sign hot (dk_count s) (dk_start s) cold)). { unfold opcert_wf, opcert_generate, opcert_sign, opcert_unsigned. cbn [oc_hot oc_seq oc_period oc_sigma]. split; [exact PB|]. split; [exact U1|]. split; [exact U2|]. apply (bc_sign _ _ _ _ B). }
  destruct (C46_serialize _ hot W PB) as [D _]. unfold denotes in D. cbn [opcert_generate opcert_sign opcert_unsigned oc_hot oc_seq oc_period oc_sigma] in D. rewrite CE in E. split; [|split]; congruence.
Qed.
Lemma keeps_accepts s hb : keeps s -> exists sig, kes_sign ed_sign 6 (dk_key s) hb = Ok sig /\ let last := last_number (dk_chain s) id in
  (block_ok H H224 ed_verify (dk_chain s) (dk_period s) (pub cold) (dk_cert s) hb sig -> ch_pools (dk_chain s) id /\ dk_start s <= dk_period s < dk_start s + Z.min (ch_evolutions (dk_chain s)) 64 /\ last <= dk_count s <= last + 1 /\
     (told_apart H ed_pk ed_sign ed_verify (dk_seed s) hb -> dk_period s = dk_start s + dk_updates s)) /\
  (ch_pools (dk_chain s) id -> dk_period s = dk_start s + dk_updates s -> dk_updates s < ch_evolutions (dk_chain s) -> last <= dk_count s <= last + 1 -> block_ok H H224 ed_verify (dk_chain s) (dk_period s) (pub cold) (dk_cert s) hb sig).
Proof using C B.
  intros (kb & k0 & hot & sb & h & L1 & L2 & G & R & NF & UP & LE & CE & U1 & U2).
  assert (UL : Z.of_nat (updates_in h) < 2 ^ 6) by (change (2 ^ 6) with 64; lia).
  destruct (C73_block_accepted_iff H H224 ed_pk ed_sign ed_verify SK sign pub C B kb (dk_seed s) k0 hot sb h hb cold (dk_count s) (dk_start s) L1 L2 G NF UL U1 U2) as (k' & sig & R' & SG & A).
  assert (k' = dk_key s) by congruence. subst k'. exists sig. split; [exact SG|]. intros last. split.
  - intros (hot' & n & c0 & sigma & bn & bc & E & _ & _ & P & T & N & _ & _ & _ & K). destruct (cert_fields s hot n c0 sigma) with (hot' := hot') as (-> & -> & ->); [exists kb, k0, sb; auto|assumption..|].
    assert (KB : dk_period s - dk_start s < 2 ^ Z.of_nat 6) by (apply (valid_below H H224 ed_verify _ _ _ _ _ K)). change (2 ^ Z.of_nat 6) with 64 in KB.
    split; [exact P|]. split; [lia|]. split; [exact N|]. intros (SD & AP). destruct (Z.eq_dec (dk_period s) (dk_start s + dk_updates s)) as [Q|Q]; [exact Q|exfalso].
    destruct (sizes H ed_pk ed_sign ed_verify C 6 kb (dk_seed s) k0 hot sb h hb ltac:(lia) L1 L2 G NF UL) as (_ & k2 & sig2 & R2 & _ & S2 & LS). assert (k2 = dk_key s) by congruence. subst k2. assert (sig2 = sig) by congruence. subst sig2.
    assert (V : sig_verify H ed_verify 6 sig (dk_period s - dk_start s) hot hb = Ok true) by (apply verify_exact; [lia|exact LS|change (2 ^ Z.of_nat 6) with 64; lia|exact K]).
    pose proof (C25_within_lifetime H ed_pk ed_sign ed_verify C 6 kb (dk_seed s) k0 hot sb h (dk_period s - dk_start s) hb (dk_key s) sig ltac:(lia) L1 L2 G NF) as F. cbv zeta in F. change (2 ^ Z.of_nat 6) with 64 in F.
    specialize (F ltac:(lia) ltac:(lia) ltac:(lia) SD R SG V). rewrite (AP (Z.of_nat (updates_in h)) (dk_period s - dk_start s)) in F by lia. discriminate F.
  - intros P Q EV N. rewrite CE, Q, <- UP. apply (A (dk_chain s)). split; [exact P|]. split; [lia|]. fold (last_number (dk_chain s) id). fold last. clear -N. lia.
Qed.
End Invariant.

(** ** Theorems *)
(** C85: at every moment the key signs.  A header that is accepted is in the certificate's span, is no further than 63 periods into it, and has a number that fits; in step with the chain, that is enough; and where the
    keys of the tree are told apart, being in step is necessary too. *)
Theorem C85_at_every_moment : forall SK H H224 ed_pk ed_sign ed_verify (sign : SK -> list Z -> list Z) pub cold s0 s,
  kes_crypto H ed_pk ed_sign ed_verify -> block_crypto H sign pub ed_verify ->
  opens H ed_pk sign cold s0 -> steps (goes_on H ed_pk sign cold) s0 s ->
  0 <= dk_updates s < 64 /\ kes_period 6 (dk_key s) = Ok (dk_updates s) /\
  forall hb, exists sig, kes_sign ed_sign 6 (dk_key s) hb = Ok sig /\
    let accepted := block_ok H H224 ed_verify (dk_chain s) (dk_period s) (pub cold) (dk_cert s) hb sig in
    let last := last_number (dk_chain s) (H224 (pub cold)) in
    let in_order := ch_pools (dk_chain s) (H224 (pub cold)) /\ dk_updates s < ch_evolutions (dk_chain s) /\ (dk_count s = last \/ dk_count s = last + 1) in
    (accepted -> ch_pools (dk_chain s) (H224 (pub cold)) /\ dk_start s <= dk_period s < dk_start s + Z.min (ch_evolutions (dk_chain s)) 64 /\ (dk_count s = last \/ dk_count s = last + 1)) /\
    (dk_period s = dk_start s + dk_updates s -> in_order -> accepted) /\
    (told_apart H ed_pk ed_sign ed_verify (dk_seed s) hb -> (accepted <-> dk_period s = dk_start s + dk_updates s /\ in_order)).
Proof.
  intros SK H H224 ed_pk ed_sign ed_verify sign pub cold s0 s C B O SS. pose proof (keeps_all _ H224 _ _ _ _ _ C _ _ O SS) as K. split.
  { destruct K as (kb & k0 & hot & sb & h & _ & _ & _ & _ & _ & UP & LE & _). lia. }
  split.
  { destruct K as (kb & k0 & hot & sb & h & L1 & L2 & G & R & NF & UP & LE & _). destruct (C21_lifetime H ed_pk ed_sign ed_verify C 6 kb (dk_seed s) k0 hot sb h ltac:(lia) L1 L2 G NF) as (X & _ & _).
    change (2 ^ Z.of_nat 6) with 64 in X. destruct (X ltac:(lia)) as (k' & R' & P). assert (k' = dk_key s) by congruence. subst k'. rewrite UP in P. exact P. }
  intros hb. destruct (keeps_accepts H H224 ed_pk ed_sign ed_verify sign pub cold C B s hb K) as (sig & SG & F1 & F2). cbv zeta in F1, F2. exists sig. split; [exact SG|]. cbv zeta. split; [|split].
  - intros A. destruct (F1 A) as (X1 & X2 & X3 & _). split; [exact X1|]. split; [exact X2|]. clear -X3. lia.
  - intros E (X1 & X2 & X3). apply F2; try assumption. clear -X3. lia.
  - intros TA. split.
    + intros A. destruct (F1 A) as (X1 & X2 & X3 & X4). specialize (X4 TA). split; [exact X4|]. split; [exact X1|]. split; [clear -X2 X4; lia|clear -X3; lia].
    + intros (E & X1 & X2 & X3). apply F2; try assumption. clear -X3. lia.
Qed.
Print Assumptions C85_at_every_moment.

Lemma steps_app {A} (R : A -> A -> Prop) s s1 : steps R s s1 -> forall s2, steps R s1 s2 -> steps R s s2.
Proof. intros S1 s2 S2. induction S2 as [|a b _ IH ST]; [exact S1|]. eapply more; [exact IH|exact ST]. Qed.
Lemma handles_go {SK} H ed_pk (sign : SK -> list Z -> list Z) cold s s' : steps (handles H ed_pk) s s' -> steps (goes_on H ed_pk sign cold) s s'.
Proof. intros SS. induction SS as [|a b _ IH ST]; [apply no_step|]. eapply more; [exact IH|apply handled, ST]. Qed.
(** Handling the key changes nothing else, and the updates only ever grow. *)
Lemma handles_same H ed_pk s s' : steps (handles H ed_pk) s s' ->
  dk_cert s' = dk_cert s /\ dk_count s' = dk_count s /\ dk_start s' = dk_start s /\ dk_seed s' = dk_seed s /\ dk_period s' = dk_period s /\ dk_chain s' = dk_chain s /\ dk_updates s <= dk_updates s'.
Proof.
  intros SS. induction SS as [|a b _ (X1 & X2 & X3 & X4 & X5 & X6 & X7) ST]; [repeat split; lia|]. destruct ST as [a k r UD|a k RE|a k Z0 RE]; cbn [with_key dk_cert dk_count dk_start dk_seed dk_period dk_chain dk_updates];
    (do 6 (split; [assumption|])); try exact X7. destruct (is_ok r); lia.
Qed.
(** The operator's [n] updates one after the other. *)
Fixpoint updated (H ed_pk : list Z -> list Z) (n : nat) (k : kes_key) : option kes_key :=
  match n with O => Some k | S m => match kes_update H ed_pk 6 k with (k', Ok _) => updated H ed_pk m k' | _ => None end end.
Lemma updated_steps H ed_pk n : forall s k, updated H ed_pk n (dk_key s) = Some k -> steps (handles H ed_pk) s (with_key s k (dk_updates s + Z.of_nat n)).
Proof.
  induction n as [|m IH]; intros s k U; cbn [updated] in U.
  - assert (dk_key s = k) by congruence. subst k. replace (with_key s (dk_key s) (dk_updates s + Z.of_nat 0)) with s by (destruct s; unfold with_key; cbn [dk_key dk_cert dk_count dk_start dk_seed dk_updates dk_period dk_chain]; f_equal; lia). apply no_step.
  - destruct (kes_update H ed_pk 6 (dk_key s)) as [k1 r] eqn:E. destruct r as [u| |]; try discriminate U.
    pose proof (updates H ed_pk s k1 (Ok u) E) as ST. cbn [is_ok] in ST. pose proof (IH (with_key s k1 (dk_updates s + 1)) k) as X. cbn [with_key dk_key dk_updates] in X. specialize (X U).
    eapply steps_app; [eapply more; [apply no_step|exact ST]|]. replace (dk_updates s + Z.of_nat (S m)) with (dk_updates s + 1 + Z.of_nat m) by lia. exact X.
Qed.
(** C85: an operator who has fallen behind catches up by exactly the missing updates, none of which is refused: then every header is accepted, if pool, age and number are in order; after fewer, where the keys are told apart, none is. *)
Theorem C85_catching_up : forall SK H H224 ed_pk ed_sign ed_verify (sign : SK -> list Z -> list Z) pub cold s0 s,
  kes_crypto H ed_pk ed_sign ed_verify -> block_crypto H sign pub ed_verify ->
  opens H ed_pk sign cold s0 -> steps (goes_on H ed_pk sign cold) s0 s ->
  let behind := dk_period s - (dk_start s + dk_updates s) in let last := last_number (dk_chain s) (H224 (pub cold)) in
  0 <= behind -> dk_period s < dk_start s + 64 -> dk_period s < dk_start s + ch_evolutions (dk_chain s) -> ch_pools (dk_chain s) (H224 (pub cold)) -> (dk_count s = last \/ dk_count s = last + 1) ->
  forall n, Z.of_nat n <= behind -> exists k, updated H ed_pk n (dk_key s) = Some k /\
    forall hb, exists sig, kes_sign ed_sign 6 k hb = Ok sig /\
      let accepted := block_ok H H224 ed_verify (dk_chain s) (dk_period s) (pub cold) (dk_cert s) hb sig in
      (Z.of_nat n = behind -> accepted) /\ (Z.of_nat n < behind -> told_apart H ed_pk ed_sign ed_verify (dk_seed s) hb -> ~ accepted).
Proof.
  intros SK H H224 ed_pk ed_sign ed_verify sign pub cold s0 s C B O SS behind last B0 B1 B2 P N n LN.
  assert (U : exists k, updated H ed_pk n (dk_key s) = Some k).
  { clear last N P B2. pose proof (C85_at_every_moment SK H H224 ed_pk ed_sign ed_verify sign pub cold s0 s C B O SS) as ((UB & _) & _). unfold behind in *. clear behind B0. revert s SS UB B1 LN. induction n as [|m IH]; intros s SS UB B1 LN; [eexists; reflexivity|]. cbn [updated].
    pose proof (keeps_all _ H224 _ _ _ _ _ C _ _ O SS) as (kb & k0 & hot & sb & h & L1 & L2 & G & R & NF & UP & LE & _).
    destruct (C21_lifetime H ed_pk ed_sign ed_verify C 6 kb (dk_seed s) k0 hot sb (h ++ [Update]) ltac:(lia) L1 L2 G) as (X & _ & _).
    { rewrite in_app_iff. intros [I|[I|[]]]; [exact (NF I)|discriminate I]. }
    change (2 ^ Z.of_nat 6) with 64 in X. rewrite updates_app in X. cbn [is_update] in X. destruct (X ltac:(lia)) as (k' & R' & _). rewrite run_app, R in R'. cbn [bind kes_run] in R'.
    destruct (kes_update H ed_pk 6 (dk_key s)) as [k1 r] eqn:E. destruct r as [u| |]; try discriminate R'.
    pose proof (updates H ed_pk s k1 (Ok u) E) as ST. cbn [is_ok] in ST.
    apply (IH (with_key s k1 (dk_updates s + 1))); cbn [with_key dk_updates dk_period dk_start]; try lia. eapply more; [exact SS|apply handled, ST]. }
  destruct U as (k & U). exists k. split; [exact U|]. intros hb. pose proof (updated_steps H ed_pk n s k U) as HS. pose proof (steps_app _ _ _ SS _ (handles_go H ed_pk sign cold _ _ HS)) as SS'.
  destruct (C85_at_every_moment SK H H224 ed_pk ed_sign ed_verify sign pub cold s0 _ C B O SS') as (_ & _ & X). destruct (X hb) as (sig & SG & _ & F2 & F3). cbn [with_key dk_key dk_cert dk_count dk_start dk_seed dk_updates dk_period dk_chain] in *.
  exists sig. split; [exact SG|]. cbv zeta. split.
  - intros E. apply F2; [unfold behind in E; lia|]. split; [exact P|]. split; [unfold behind in E; lia|exact N].
  - intros LT TA A. apply (F3 TA) in A as (Q & _). unfold behind in LT. lia.
Qed.
Print Assumptions C85_catching_up.

(** C85: who has updated too often cannot go back: whatever he does with the key and however the chain changes, where the keys are told apart, no header is accepted before the chain reaches the key's period. *)
Theorem C85_too_early : forall SK H H224 ed_pk ed_sign ed_verify (sign : SK -> list Z -> list Z) pub cold s0 s,
  kes_crypto H ed_pk ed_sign ed_verify -> block_crypto H sign pub ed_verify ->
  opens H ed_pk sign cold s0 -> steps (goes_on H ed_pk sign cold) s0 s ->
  forall s', steps (handles H ed_pk) s s' -> forall p c, dk_period s <= p < dk_start s + dk_updates s ->
  forall hb sig, told_apart H ed_pk ed_sign ed_verify (dk_seed s) hb -> kes_sign ed_sign 6 (dk_key s') hb = Ok sig ->
  ~ block_ok H H224 ed_verify c p (pub cold) (dk_cert s') hb sig.
Proof.
  intros SK H H224 ed_pk ed_sign ed_verify sign pub cold s0 s C B O SS s' HS p c LP hb sig TA SG A.
  destruct (handles_same _ _ _ _ HS) as (X1 & X2 & X3 & X4 & X5 & X6 & X7).
  assert (S2 : steps (goes_on H ed_pk sign cold) s0 (at_time s' p c)) by (eapply more; [exact (steps_app _ _ _ SS _ (handles_go _ _ sign cold _ _ HS))|apply chain_moves; lia]).
  destruct (C85_at_every_moment SK H H224 ed_pk ed_sign ed_verify sign pub cold s0 _ C B O S2) as (_ & _ & X). destruct (X hb) as (sig' & SG' & _ & _ & F3). cbn [at_time dk_key dk_cert dk_count dk_start dk_seed dk_updates dk_period dk_chain] in *.
  assert (sig' = sig) by congruence. subst sig'. rewrite X4 in F3. apply (F3 TA) in A as (Q & _). lia.
Qed.
Print Assumptions C85_too_early.

(** C85: a certificate issued now for the present period, with a number that fits, always helps: every header of this period is accepted from a registered pool. *)
Theorem C85_reissue_helps : forall SK H H224 ed_pk ed_sign ed_verify (sign : SK -> list Z -> list Z) pub cold s0 s ops seed k cert,
  kes_crypto H ed_pk ed_sign ed_verify -> block_crypto H sign pub ed_verify ->
  opens H ed_pk sign cold s0 -> steps (goes_on H ed_pk sign cold) s0 s ->
  let count := fold_left counter_step ops (dk_count s) in let last := last_number (dk_chain s) (H224 (pub cold)) in
  u64 (dk_period s) -> issues_for H ed_pk sign cold count (dk_period s) seed k cert ->
  ch_pools (dk_chain s) (H224 (pub cold)) -> 0 < ch_evolutions (dk_chain s) -> (count = last \/ count = last + 1) ->
  forall hb, exists sig, kes_sign ed_sign 6 k hb = Ok sig /\ block_ok H H224 ed_verify (dk_chain s) (dk_period s) (pub cold) cert hb sig.
Proof.
  intros SK H H224 ed_pk ed_sign ed_verify sign pub cold s0 s ops seed k cert C B O SS count last U IS P E N hb.
  pose proof (more _ _ _ _ SS (reissues H ed_pk sign cold s ops (dk_period s) seed k cert U IS)) as S2. cbv zeta in S2. fold count in S2.
  destruct (C85_at_every_moment SK H H224 ed_pk ed_sign ed_verify sign pub cold s0 _ C B O S2) as (_ & _ & X). destruct (X hb) as (sig & SG & _ & F2 & _). cbn [dk_key dk_cert dk_count dk_start dk_seed dk_updates dk_period dk_chain] in *.
  exists sig. split; [exact SG|]. apply F2; [lia|]. split; [exact P|]. split; [exact E|exact N].
Qed.
Print Assumptions C85_reissue_helps.

(** ** An operator at work *)
(** The tree of a seed, each node computed once: its verification key, whether all siblings down to the leaves differ, and the keys of the leaves. *)
Fixpoint grown (H ed_pk : list Z -> list Z) (d : nat) (s : list Z) : list Z * bool * list (list Z) :=
  match d with
  | O => let v := ed_pk s in (v, true, [v])
  | S e => let '(v1, b1, l1) := grown H ed_pk e (lseed H s) in let '(v2, b2, l2) := grown H ed_pk e (rseed H s) in (H (v1 ++ v2), b1 && b2 && negb (zlist_eqb v1 v2), l1 ++ l2)
  end.
Lemma grown_vk H ed_pk d : forall s, fst (fst (grown H ed_pk d s)) = vk H ed_pk d s.
Proof.
  induction d as [|e IH]; intros s; [reflexivity|]. cbn [grown vk]. rewrite <- (IH (lseed H s)), <- (IH (rseed H s)). destruct (grown H ed_pk e (lseed H s)) as [[v1 b1] l1], (grown H ed_pk e (rseed H s)) as [[v2 b2] l2]. reflexivity.
Qed.
Lemma grown_siblings H ed_pk d : forall s, snd (fst (grown H ed_pk d s)) = true -> siblings_distinct H ed_pk s d.
Proof.
  induction d as [|e IH]; intros s G path n L1 L2; [lia|]. cbn [grown] in G. pose proof (grown_vk H ed_pk e (lseed H s)) as V1. pose proof (grown_vk H ed_pk e (rseed H s)) as V2. pose proof (IH (lseed H s)) as I1. pose proof (IH (rseed H s)) as I2.
  destruct (grown H ed_pk e (lseed H s)) as [[v1 b1] l1], (grown H ed_pk e (rseed H s)) as [[v2 b2] l2]. cbn [fst snd] in *. apply andb_prop in G as [G N]. apply andb_prop in G as [G1 G2].
  destruct path as [|b path]; cbn [length app seed_at] in *.
  - assert (n = e) by lia. subst n. rewrite <- V1, <- V2. intros E. rewrite E, zlist_eqb_refl in N. discriminate N.
  - destruct b; [apply (I2 G2)|apply (I1 G1)]; lia.
Qed.
Lemma grown_leaves H ed_pk d : forall s p, 0 <= p < 2 ^ Z.of_nat d -> nth_error (snd (grown H ed_pk d s)) (Z.to_nat p) = Some (ed_pk (seed_at H s (leaf_path d p))).
Proof.
  assert (LL : forall d s, length (snd (grown H ed_pk d s)) = Z.to_nat (2 ^ Z.of_nat d)).
  { clear d. induction d as [|e IH]; intros s; [reflexivity|]. cbn [grown]. pose proof (IH (lseed H s)) as I1. pose proof (IH (rseed H s)) as I2. destruct (grown H ed_pk e (lseed H s)) as [[v1 b1] l1], (grown H ed_pk e (rseed H s)) as [[v2 b2] l2]. cbn [snd] in *. rewrite app_length, I1, I2, pow_S. pose proof (pow_pos e). lia. }
  induction d as [|e IH]; intros s p B.
  - change (2 ^ Z.of_nat 0) with 1 in B. assert (p = 0) by lia. subst p. reflexivity.
  - rewrite pow_S in B. pose proof (pow_pos e) as PP. cbn [grown leaf_path]. pose proof (LL e (lseed H s)) as L1. pose proof (IH (lseed H s) p) as I1. pose proof (IH (rseed H s) (p - 2 ^ Z.of_nat e)) as I2.
    destruct (grown H ed_pk e (lseed H s)) as [[v1 b1] l1], (grown H ed_pk e (rseed H s)) as [[v2 b2] l2]. cbn [snd] in *. destruct (Z.ltb_spec p (2 ^ Z.of_nat e)) as [T|T]; cbn [seed_at].
    + rewrite nth_error_app1 by lia. apply I1. lia.
    + rewrite nth_error_app2 by lia. rewrite L1. replace (Z.to_nat p - Z.to_nat (2 ^ Z.of_nat e))%nat with (Z.to_nat (p - 2 ^ Z.of_nat e)) by lia. apply I2. lia.
Qed.
Fixpoint all_differ (l : list (list Z)) : bool := match l with [] => true | x :: r => forallb (fun y => negb (zlist_eqb x y)) r && all_differ r end.
Lemma all_differ_spec l : all_differ l = true -> NoDup l.
Proof.
  induction l as [|x r IH]; intros E; constructor; cbn [all_differ] in E; apply andb_prop in E as [E1 E2].
  - intros I. rewrite forallb_forall in E1. specialize (E1 x I). rewrite zlist_eqb_refl in E1. discriminate E1.
  - apply IH, E2.
Qed.
(** A toy instance whose trees have 64 different leaves. *)
Definition late_H (x : list Z) : list Z := pack_be 32 (fold_left (fun a b => Z.land (4001 * a + b + 7) 4294967295) x 5).
Definition late_pk (s : list Z) : list Z := late_H (77 :: s).
Definition late_sign (s m : list Z) : list Z := late_pk s ++ late_H (late_pk s ++ m).
Definition late_verify (pk m sig : list Z) : bool := zlist_eqb sig (pk ++ late_H (pk ++ m)).
Example C85_hypotheses_satisfiable : kes_crypto late_H late_pk late_sign late_verify /\ block_crypto late_H late_sign late_pk late_verify.
Proof.
  assert (BY : forall x, bytes_ok (late_H x)) by (intros x; apply pack_be_ok). split; [constructor; try reflexivity; intros s m; unfold late_verify, late_sign; apply zlist_eqb_refl|]. constructor; [exact BY| |].
  - intros sk m. unfold late_sign. split; [apply Forall_app; split; apply BY|]. unfold zlen. rewrite app_length. unfold late_pk, late_H. rewrite !pack_be_length. reflexivity.
  - intros sk m. unfold late_verify, late_sign. apply zlist_eqb_refl.
Qed.
Example C85_tree : let t := grown late_H late_pk 6 (seq_bytes 32) in snd (fst t) && all_differ (map (@rev Z) (snd t)) = true.
Proof. vm_compute. reflexivity. Qed.
Example C85_told_apart hb : told_apart late_H late_pk late_sign late_verify (seq_bytes 32) hb.
Proof.
  pose proof C85_tree as E. cbv zeta in E. apply andb_prop in E as [E1 E2]. split; [exact (grown_siblings _ _ _ _ E1)|]. intros p q BP BQ N.
  pose proof (grown_leaves late_H late_pk 6 (seq_bytes 32) p BP) as NP. pose proof (grown_leaves late_H late_pk 6 (seq_bytes 32) q BQ) as NQ. apply all_differ_spec, NoDup_map_inv in E2. clear E1.
  set (l := snd (grown late_H late_pk 6 (seq_bytes 32))) in *. clearbody l. unfold late_sign, late_verify. set (sp := seed_at late_H (seq_bytes 32) (leaf_path 6 p)) in *. set (sq := seed_at late_H (seq_bytes 32) (leaf_path 6 q)) in *. clearbody sp sq.
  destruct (zlist_eqb (late_pk sp ++ late_H (late_pk sp ++ hb)) (late_pk sq ++ late_H (late_pk sq ++ hb))) eqn:E; [|reflexivity]. exfalso. apply zlist_eqb_spec in E.
  apply app_inv_length in E as [E _]; [|unfold late_pk, late_H; rewrite !pack_be_length; reflexivity]. rewrite <- E, <- NP in NQ. apply N.
  assert (X : Z.to_nat q = Z.to_nat p). { symmetry. apply (proj1 (NoDup_nth_error l) E2); [apply nth_error_Some; rewrite NP; discriminate|]. rewrite NP, NQ. exact NP || (symmetry; exact NP) || reflexivity. }
  clear -X BP BQ. lia.
Qed.
Definition late_chain : chain := {| ch_pools := fun id => id = late_H [9]; ch_counter := fun _ => None; ch_evolutions := 62 |}.
(** A certificate for period 100 on, and the operator oversleeps until 103: his headers are refused; after one update and after two they still are; after the third they are accepted; after a fourth they are refused again, until 104. *)
Example C85_ex : exists s k1 k2 k3 k4, opens late_H late_pk late_sign (repeat 3 32) s /\ dk_period s = 100 /\ dk_start s = 100 /\
  updated late_H late_pk 1 (dk_key s) = Some k1 /\ updated late_H late_pk 2 (dk_key s) = Some k2 /\ updated late_H late_pk 3 (dk_key s) = Some k3 /\ updated late_H late_pk 4 (dk_key s) = Some k4 /\
  let accepted k p hb := exists sig, kes_sign late_sign 6 k hb = Ok sig /\ block_ok late_H (fun _ => late_H [9]) late_verify late_chain p (late_pk (repeat 3 32)) (dk_cert s) hb sig in
  forall hb, accepted (dk_key s) 100 hb /\ ~ accepted (dk_key s) 103 hb /\ ~ accepted k1 103 hb /\ ~ accepted k2 103 hb /\ accepted k3 103 hb /\ ~ accepted k4 103 hb /\ accepted k4 104 hb.
Proof.
  destruct C85_hypotheses_satisfiable as [C B]. assert (U0 : u64 0) by (split; [lia|reflexivity]). assert (U100 : u64 100) by (split; [lia|reflexivity]).
  assert (L1 : length (seq_bytes 32) = 32%nat) by (vm_compute; reflexivity). assert (L2 : length (zeros (sk_size 6 + 4)) = (sk_size 6 + 4)%nat) by apply zeros_length.
  destruct (C19_keygen_succeeds _ _ _ _ C 6 _ _ L1 L2) as (key & G).
  set (s := {| dk_key := key; dk_cert := opcert_serialize (opcert_generate _ late_sign (vk late_H late_pk 6 (seq_bytes 32)) 0 100 (repeat 3 32)); dk_count := 0; dk_start := 100; dk_seed := seq_bytes 32; dk_updates := 0; dk_period := 100; dk_chain := late_chain |}).
  assert (O : opens late_H late_pk late_sign (repeat 3 32) s) by (split; [exact U0|]; split; [exact U100|]; split; [reflexivity|]; do 3 eexists; split; [exact L1|]; split; [exact L2|]; split; [exact G|reflexivity]).
  set (at_ p := at_time s p late_chain).
  assert (SS : forall p, 100 <= p -> steps (goes_on late_H late_pk late_sign (repeat 3 32)) s (at_ p)) by (intros p LE; eapply more; [apply no_step|apply chain_moves; exact LE]).
  assert (UP : forall n, (n <= 4)%nat -> exists k, updated late_H late_pk n key = Some k).
  { intros n LN. destruct (C85_catching_up _ late_H (fun _ => late_H [9]) _ _ _ _ _ _ s (at_ 104) C B O (SS 104 ltac:(lia))) with (n := n) as (k & U & _);
      cbn [at_ at_time s dk_key dk_cert dk_count dk_start dk_seed dk_updates dk_period dk_chain late_chain ch_pools ch_evolutions last_number ch_counter]; try lia; [reflexivity|]. exists k. exact U. }
  destruct (UP 1%nat ltac:(lia)) as (k1 & E1). destruct (UP 2%nat ltac:(lia)) as (k2 & E2). destruct (UP 3%nat ltac:(lia)) as (k3 & E3). destruct (UP 4%nat ltac:(lia)) as (k4 & E4).
  exists s, k1, k2, k3, k4. split; [exact O|]. split; [reflexivity|]. split; [reflexivity|]. split; [exact E1|]. split; [exact E2|]. split; [exact E3|]. split; [exact E4|]. cbv zeta. intros hb.
  (* a key after n updates is accepted at 100 + n and at no other period from 100 on *)
  assert (Q : forall n k p, updated late_H late_pk n key = Some k -> Z.of_nat n < 62 -> 100 <= p ->
    (exists sig, kes_sign late_sign 6 k hb = Ok sig /\ block_ok late_H (fun _ => late_H [9]) late_verify late_chain p (late_pk (repeat 3 32)) (dk_cert s) hb sig) <-> p = 100 + Z.of_nat n).
  { intros n k p U LN LP. assert (SP : steps (goes_on late_H late_pk late_sign (repeat 3 32)) s (with_key (at_ p) k (0 + Z.of_nat n))).
    { eapply steps_app; [exact (SS p LP)|]. apply handles_go. exact (updated_steps late_H late_pk n (at_ p) k U). }
    destruct (C85_at_every_moment _ late_H (fun _ => late_H [9]) _ _ _ _ _ _ _ _ C B O SP) as (_ & _ & X). destruct (X hb) as (sig & SG & _ & _ & F). specialize (F (C85_told_apart hb)).
    cbn [with_key at_ at_time s dk_key dk_cert dk_count dk_start dk_seed dk_updates dk_period dk_chain late_chain ch_pools ch_evolutions last_number ch_counter] in SG, F. split.
    - intros (sig' & SG' & A). assert (sig' = sig) by congruence. subst sig'. apply F in A as (Y & _). exact Y.
    - intros Y. exists sig. split; [exact SG|]. apply F. split; [exact Y|]. split; [reflexivity|]. split; [exact LN|left; reflexivity]. }
  split; [apply (Q 0%nat key 100 eq_refl); lia|]. split; [intros A; apply (Q 0%nat key 103 eq_refl) in A; lia|]. split; [intros A; apply (Q 1%nat k1 103 E1) in A; lia|]. split; [intros A; apply (Q 2%nat k2 103 E2) in A; lia|].
  split; [apply (Q 3%nat k3 103 E3); lia|]. split; [intros A; apply (Q 4%nat k4 103 E4) in A; lia|]. apply (Q 4%nat k4 104 E4); lia.
Qed.
