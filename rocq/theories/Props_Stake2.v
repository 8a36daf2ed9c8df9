(** C81, continued: from the pool registration calls to a pool on the ledger that makes blocks. *)
From Verif Require Import Base BaseLemmas Spec_Cbor Model_Cbor Proof_Cbor Model_Address Spec_Ledger Model_Ledger Proof_Ledger Proof_Ledger2 Model_Util Model_Tx Spec_Tx Proof_Tx Proof_Tx2 Proof_Tx3 Model_Pool Spec_Kes Model_Kes Spec_Block
  Props_Ledger Props_Tx Props_Wire Props_History Spec_Util Props_Util Props_Pool Props_Kes Props_Block Spec_Node Props_Node Props_Fund Props_Fund2 Spec_Stake Props_Stake.
From Coq Require Import Permutation Sorted QArith.
Local Open Scope Z_scope.
Ltac Zify.zify_post_hook ::= idtac.

(** ** Registrations made with the API *)
(** A call with a value the ledger has room for. *)
Definition reg_fits (o : reg_op) : Prop :=
  match o with
  | SetOperatorKey _ | SetOperatorId _ | AddRelayV6 _ _ => False
  | SetVrfKey _ => True
  | SetPledge n => u64 n
  | SetCost n => 170000000 <= n < 2 ^ 64
  | SetMargin f => margin_supported f
  | SetRewardAccount a | AddOwner a => account_ok a
  | AddRelayMulti d => bytes_ok d /\ zlen d <= 64
  | AddRelayName d p => bytes_ok d /\ zlen d <= 64 /\ port_ok p
  | AddRelayV4 ip p => bytesN 4 ip /\ port_ok p
  | SetMetadata u h => bytes_ok u /\ zlen u <= 64 /\ bytes_ok h /\ 32 <= zlen h
  end.
Definition is_owner (o : reg_op) : bool := match o with AddOwner _ => true | _ => false end.
Definition is_relay (o : reg_op) : bool := match o with AddRelayMulti _ | AddRelayName _ _ | AddRelayV4 _ _ => true | _ => false end.
Definition is_metadata (o : reg_op) : bool := match o with SetMetadata _ _ => true | _ => false end.

Record sound (k : Z) (id : list Z) (p : pool_params) : Prop := {
  so_id : pp_operator p = id; so_vrf : bytesN 32 (pp_vrf p); so_pledge : u64 (pp_pledge p); so_cost : 170000000 <= pp_cost p < 2 ^ 64;
  so_margin : 0 <= rnum (pp_margin p) <= rden (pp_margin p) /\ 1 <= rden (pp_margin p) <= 4096; so_account : bytesN 29 (pp_account p);
  so_owners : Forall (bytesN 28) (pp_owners p) /\ zlen (pp_owners p) <= k; so_sorted : StronglySorted (fun a b => lex_lt a b = true) (pp_owners p);
  so_relays : Forall (fun x => relay_wf x /\ good_relay x /\ short_relay x) (pp_relays p) /\ zlen (pp_relays p) <= k;
  so_meta : opt (fun m => pm_wf m /\ zlen (pm_url m) <= 64) (pp_metadata p) }.
Lemma account_bytes a : account_ok a -> bytesN 29 (RewardsAddress_toBytes a).
Proof. intros (A & B & C). split; [constructor; assumption|]. unfold RewardsAddress_toBytes, zlen in *. cbn [length]. lia. Qed.
Lemma short_text_ok d : bytes_ok d -> zlen d <= 64 -> text_ok d.
Proof. intros A B. split; [exact A|]. lia. Qed.
Lemma insert_len x l : zlen (set_insert lex_lt x l) <= zlen l + 1.
Proof. induction l as [|y l IH]; [unfold zlen; cbn; lia|]. cbn [set_insert]. repeat (destruct (lex_lt _ _)); unfold zlen in *; cbn [length]; lia. Qed.
Lemma insert_ne x l : set_insert lex_lt x l <> [].
Proof. destruct l as [|y l]; [discriminate|]. cbn [set_insert]. repeat (destruct (lex_lt _ _)); discriminate. Qed.
Lemma sound_step H224 H256 fuel k id p o : (forall x, bytes_ok (H256 x)) -> (forall x, length (H256 x) = 32%nat) -> (62 <= fuel)%nat -> sound k id p -> reg_fits o ->
  (reg_step H224 H256 fuel p o = Some Throw /\ is_owner o = false /\ is_relay o = false /\ is_metadata o = false) \/
  exists q, reg_step H224 H256 fuel p o = Some (Ok q) /\ sound (k + 1) id q /\
    (pp_owners p <> [] \/ is_owner o = true -> pp_owners q <> []) /\ (pp_relays p <> [] \/ is_relay o = true -> pp_relays q <> []) /\ (pp_metadata p <> None \/ is_metadata o = true -> pp_metadata q <> None).
Proof.
  intros HB HL F [S1 S2 S3 S4 S5 S6 [S7 S7'] S8 [S9 S9'] S10] RF.
  assert (K7 : zlen (pp_owners p) <= k + 1) by lia. assert (K9 : zlen (pp_relays p) <= k + 1) by lia.
  assert (RL : forall x, relay_wf x -> good_relay x -> short_relay x -> Forall (fun x => relay_wf x /\ good_relay x /\ short_relay x) (pp_relays p ++ [x]) /\ zlen (pp_relays p ++ [x]) <= k + 1).
  { intros x A B C. split; [apply Forall_app; split; [exact S9|constructor; [auto|constructor]]|]. unfold zlen in *. rewrite app_length. cbn [length]. lia. }
  assert (NE : forall (x : relay), pp_relays p ++ [x] <> []) by (intros x Q; apply app_eq_nil in Q as [_ Q]; discriminate).
  destruct o; cbn [reg_fits] in RF; try contradiction; cbn [reg_step is_owner is_relay is_metadata].
  - right. eexists. split; [reflexivity|]. cbn [pp_owners pp_relays pp_metadata]. split; [constructor; cbn [pp_operator pp_vrf pp_pledge pp_cost pp_margin pp_account pp_owners pp_relays pp_metadata rnum rden opt]; auto|split; [|split]; intros [?|?]; congruence].
    unfold vrf_key_hash. rewrite firstn_all2 by (rewrite HL; lia). split; [apply HB|unfold zlen; rewrite HL; reflexivity].
  - right. eexists. split; [reflexivity|]. cbn [pp_owners pp_relays pp_metadata]. split; [constructor; cbn [pp_operator pp_vrf pp_pledge pp_cost pp_margin pp_account pp_owners pp_relays pp_metadata rnum rden opt]; auto|split; [|split]; intros [?|?]; congruence].
  - right. eexists. split; [reflexivity|]. cbn [pp_owners pp_relays pp_metadata]. split; [constructor; cbn [pp_operator pp_vrf pp_pledge pp_cost pp_margin pp_account pp_owners pp_relays pp_metadata rnum rden opt]; auto|split; [|split]; intros [?|?]; congruence].
  - destruct (checked_margin_ok fuel f RF F) as [->|(m & e & a & b & _ & -> & _ & A & B & _)]; [left; auto|]. right. eexists. split; [reflexivity|]. cbn [pp_owners pp_relays pp_metadata]. split; [constructor; cbn [pp_operator pp_vrf pp_pledge pp_cost pp_margin pp_account pp_owners pp_relays pp_metadata rnum rden opt]; auto|split; [|split]; intros [?|?]; congruence].
  - right. eexists. split; [reflexivity|]. cbn [pp_owners pp_relays pp_metadata]. split; [constructor; cbn [pp_operator pp_vrf pp_pledge pp_cost pp_margin pp_account pp_owners pp_relays pp_metadata rnum rden opt]; auto; apply account_bytes, RF|split; [|split]; intros [?|?]; congruence].
  - right. unfold make_array, RewardsAddress_toBytesRaw. destruct RF as (_ & RB & RL'). assert (LN : length (ra_hash a) = 28%nat) by (unfold zlen in RL'; lia). rewrite LN. cbn [Nat.ltb Nat.leb lift rbind]. eexists. split; [reflexivity|].
    cbn [pp_owners pp_relays pp_metadata]. rewrite firstn_all2 by lia. split; [constructor; cbn [pp_operator pp_vrf pp_pledge pp_cost pp_margin pp_account pp_owners pp_relays pp_metadata rnum rden opt]; auto|split; [intros _; apply insert_ne|split; intros [?|?]; congruence]].
    + split; [|pose proof (insert_len (ra_hash a) (pp_owners p)); lia]. apply Forall_forall. intros x I. apply (insert_in lex_lt lex_st) in I as [->|I]; [split; [exact RB|exact RL']|]. exact (proj1 (Forall_forall _ _) S7 _ I).
    + apply insert_sorted; [exact lex_st|exact S8].
  - right. eexists. split; [reflexivity|]. cbn [pp_owners pp_relays pp_metadata]. split; [constructor; cbn [pp_operator pp_vrf pp_pledge pp_cost pp_margin pp_account pp_owners pp_relays pp_metadata rnum rden opt]; auto; apply RL; [apply short_text_ok; apply RF|exact I|apply RF]|split; [intros [?|?]; congruence|split; [intros _; apply NE|intros [?|?]; congruence]]].
  - right. eexists. split; [reflexivity|]. cbn [pp_owners pp_relays pp_metadata]. destruct RF as (R1 & R2 & R3). split; [constructor; cbn [pp_operator pp_vrf pp_pledge pp_cost pp_margin pp_account pp_owners pp_relays pp_metadata rnum rden opt]; auto; apply RL; [split; [apply short_text_ok; assumption|exact R3]|exact I|exact R2]|split; [intros [?|?]; congruence|split; [intros _; apply NE|intros [?|?]; congruence]]].
  - right. eexists. split; [reflexivity|]. cbn [pp_owners pp_relays pp_metadata]. destruct RF as (R1 & R2). split; [constructor; cbn [pp_operator pp_vrf pp_pledge pp_cost pp_margin pp_account pp_owners pp_relays pp_metadata rnum rden opt]; auto; apply RL; [split; [exact R1|split; [exact I|exact R2]]|exact I|exact I]|split; [intros [?|?]; congruence|split; [intros _; apply NE|intros [?|?]; congruence]]].
  - right. destruct RF as (R1 & R2 & R3 & R4). unfold make_array. destruct (Nat.ltb_spec (length hash) 32) as [L|L]; [unfold zlen in R4; lia|]. cbn [lift rbind]. eexists. split; [reflexivity|].
    cbn [pp_owners pp_relays pp_metadata]. split; [constructor; cbn [pp_operator pp_vrf pp_pledge pp_cost pp_margin pp_account pp_owners pp_relays pp_metadata rnum rden opt]; auto|split; [intros [?|?]; congruence|split; [intros [?|?]; congruence|discriminate]]].
    split; [|exact R2]. split; [apply short_text_ok; assumption|]. split; [apply Forall_forall; intros x I; apply (proj1 (Forall_forall _ _) R3); rewrite <- (firstn_skipn 32 hash); apply in_or_app; left; exact I|]. cbn [pm_hash]. unfold zlen. rewrite firstn_length_le by exact L. reflexivity.
Qed.
Lemma sound_run H224 H256 fuel id : (forall x, bytes_ok (H256 x)) -> (forall x, length (H256 x) = 32%nat) -> (62 <= fuel)%nat -> forall ops k p, sound k id p -> Forall reg_fits ops ->
  exists q, reg_run H224 H256 fuel p ops = Some (Ok q) /\ sound (k + zlen ops) id q /\
    (pp_owners p <> [] \/ existsb is_owner ops = true -> pp_owners q <> []) /\ (pp_relays p <> [] \/ existsb is_relay ops = true -> pp_relays q <> []) /\ (pp_metadata p <> None \/ existsb is_metadata ops = true -> pp_metadata q <> None).
Proof.
  intros HB HL F. induction ops as [|o ops IH]; intros k p S RF.
  { exists p. split; [reflexivity|]. split; [replace (k + zlen []) with k by (unfold zlen; cbn; lia); exact S|]. cbn [existsb]. split; [|split]; (intros [?|?]; [assumption|discriminate]). }
  inversion RF as [|? ? R1 R2]; subst. cbn [reg_run existsb]. destruct (sound_step H224 H256 fuel k id p o HB HL F S R1) as [(E & A & B & C)|(q & E & S' & A & B & C)]; rewrite E.
  - destruct (IH k p S R2) as (q & E' & S' & X & Y & W). exists q. split; [exact E'|]. rewrite A, B, C. cbn [orb]. split; [|auto]. destruct S' as [S1 S2 S3 S4 S5 S6 [S7 S7'] S8 [S9 S9'] S10]. constructor; auto; split; auto; unfold zlen in *; cbn [length]; lia.
  - destruct (IH (k + 1) q S' R2) as (q' & E' & S'' & X & Y & W). exists q'. split; [exact E'|]. split; [replace (k + zlen (o :: ops)) with (k + 1 + zlen ops) by (unfold zlen; cbn [length]; lia); exact S''|].
    split; [intros Q; apply X|split; [intros Q; apply Y|intros Q; apply W]]; (destruct Q as [Q|Q]; [auto|]); apply Bool.orb_true_iff in Q as [Q|Q]; auto.
Qed.

(** C81: a pool registered with the API, from values that the ledger has room for and with an owner, a relay and metadata, is written as the ledger wants it, and
    within its limits exactly if its cost is at least the ledger's minimum. *)
Theorem C81_registration_fits : forall H224 H256 fuel vkey vrf pledge cost m e account ops, (forall x, bytesN 28 (H224 x)) -> (forall x, bytesN 32 (H256 x)) -> (62 <= fuel)%nat ->
  - 62 <= e -> (0 <= q_of m e <= 1)%Q -> u64 pledge -> 170000000 <= cost < 2 ^ 64 -> account_ok account ->
  Forall reg_fits ops -> existsb is_owner ops = true -> existsb is_relay ops = true -> existsb is_metadata ops = true -> zlen ops < 2 ^ 64 ->
  exists p0 p, registration_new H224 H256 fuel vkey vrf pledge cost (DFin m e) account = Some (Ok p0) /\ reg_run H224 H256 fuel p0 ops = Some (Ok p) /\
    pp_operator p = H224 vkey /\ pool_wf p /\ conforming (PoolReg p) /\ (forall r, pool_fits r p <-> ru_min_cost r <= pp_cost p).
Proof.
  intros H224 H256 fuel vkey vrf pledge cost m e account ops HA HB F EB IN UP UC AC RF O1 O2 O3 LN.
  assert (L32 : forall x, length (H256 x) = 32%nat) by (intros x; destruct (HB x) as [_ L]; unfold zlen in L; lia).
  destruct (C51_constructor H224 H256 fuel vkey vrf pledge cost (DFin m e) account F (or_introl EB)) as [(m' & e' & p0 & EF & _ & _ & E & V & _)|(_ & [C|C])]; [|lia|destruct (C m e eq_refl IN)].
  destruct V as (V1 & V2 & V3).
  assert (P0 : pp_operator p0 = H224 vkey /\ pp_vrf p0 = H256 vrf /\ pp_pledge p0 = pledge /\ pp_cost p0 = cost /\ pp_account p0 = RewardsAddress_toBytes account /\ pp_owners p0 = [] /\ pp_relays p0 = [] /\ pp_metadata p0 = None).
  { unfold registration_new in E. destruct (d_neg _ || d_gt1 _); [discriminate|]. destruct (cost <? _); [discriminate|]. apply rbind_ok in E as (nd & _ & E). unfold lift in E. assert (p0 = _) by (symmetry; exact (ok_inj _ _ (f_equal (fun o => match o with Some x => x | None => Throw end) E))). subst p0. cbn [pp_operator pp_vrf pp_pledge pp_cost pp_margin pp_account pp_owners pp_relays pp_metadata].
    unfold pool_id, vrf_key_hash. rewrite firstn_all2 by (destruct (HA vkey) as [_ L]; unfold zlen in L; lia). rewrite firstn_all2 by (rewrite L32; lia). repeat split; reflexivity. }
  destruct P0 as (P1 & P2 & P3 & P4 & P5 & P6 & P7 & P8).
  assert (S0 : sound 0 (H224 vkey) p0).
  { constructor; rewrite ?P2, ?P3, ?P4, ?P5, ?P6, ?P7, ?P8; auto; try (split; [constructor|reflexivity]); try constructor; try apply account_bytes, AC. }
  destruct (sound_run H224 H256 fuel (H224 vkey) (fun x => proj1 (HB x)) L32 F ops 0 p0 S0 RF) as (p & R & [S1 S2 S3 S4 S5 S6 [S7 S7'] S8 [S9 S9'] S10] & X1 & X2 & X3).
  exists p0, p. split; [exact E|]. split; [exact R|]. split; [exact S1|].
  split. { unfold pool_wf. split; [rewrite S1; apply HA|]. split; [exact S2|]. split; [exact S3|]. split; [unfold u64; lia|]. split; [unfold rational_wf, u64; lia|]. split; [destruct S6; split; [assumption|lia]|].
    split; [split; [exact S7|lia]|]. split; [exact S8|]. split; [split; [eapply Forall_impl; [|exact S9]; intros x (Q & _); exact Q|lia]|]. destruct (pp_metadata p); [apply S10|exact I]. }
  split. { cbn [conforming]. split; [apply X1; auto|]. split; [apply X2; auto|]. split; [|apply X3; auto]. eapply Forall_impl; [|exact S9]. intros x (_ & Q & _). exact Q. }
  intros r. unfold pool_fits. split; [intros (Q & _); exact Q|]. intros Q. split; [exact Q|]. split; [lia|]. split; [apply S6|]. split; [eapply Forall_impl; [|exact S9]; intros x (_ & _ & Q'); exact Q'|]. destruct (pp_metadata p); [apply S10|exact I].
Qed.
Print Assumptions C81_registration_fits.

(** What lies outside: names of more than 64 bytes, and margins below 1/4096, are taken by the API, serialised, and refused by the ledger. *)
Lemma unfit H224 H256 fuel p ops q : reg_run H224 H256 fuel p ops = Some (Ok q) -> pool_wf q -> conforming (PoolReg q) -> (forall r, ~ pool_fits r q) ->
  exists s c, registration_serialize q = Ok s /\ denotes s c /\ forall r st, enact r st c = None.
Proof.
  intros R W C NF. destruct (cert_conforms _ C) as (x & E1 & E2). exists (cbor_encode x), x. split; [unfold registration_serialize, serialize; rewrite E1; reflexivity|]. split; [apply encode_denotes, (cert_ok (PoolReg q) _ W E1)|].
  intros r st. destruct (enact_pool r st q x W E2) as [_ N]. destruct (enact r st x); [|reflexivity]. destruct (NF r). apply N. discriminate.
Qed.
Theorem C81_long_name_refuted : forall H224 H256 fuel p d, pool_wf p -> conforming (PoolReg p) -> zlen (pp_relays p) + 1 < 2 ^ 64 -> text_ok d -> 64 < zlen d ->
  exists q s c, reg_run H224 H256 fuel p [AddRelayMulti d] = Some (Ok q) /\ registration_serialize q = Ok s /\ denotes s c /\ forall r st, enact r st c = None.
Proof.
  intros H224 H256 fuel p d W C LR T L. eexists. match goal with |- exists s c, ?x = Some (Ok ?q) /\ _ => assert (R : x = Some (Ok q)) by reflexivity end.
  apply (fun w c n => let '(ex_intro _ s (ex_intro _ c (conj A B))) := unfit _ _ _ _ _ _ R w c n in ex_intro _ s (ex_intro _ c (conj R (conj A B)))).
  - destruct W as (W1 & W2 & W3 & W4 & W5 & W6 & W7 & W8 & (W9 & W9') & W10). unfold pool_wf. cbn [pp_operator pp_vrf pp_pledge pp_cost pp_margin pp_account pp_owners pp_relays pp_metadata].
    repeat (split; [assumption|]). split; [|exact W10]. split; [apply Forall_app; split; [exact W9|constructor; [exact T|constructor]]|]. unfold zlen in *. rewrite app_length. cbn [length]. lia.
  - cbn [conforming pp_owners pp_relays pp_metadata] in *. destruct C as (C1 & C2 & C3 & C4). split; [exact C1|]. split; [intros Q; apply app_eq_nil in Q as [_ Q]; discriminate|]. split; [|exact C4]. apply Forall_app. split; [exact C3|repeat constructor].
  - intros r (_ & _ & _ & F & _). cbn [pp_relays] in F. apply Forall_app in F as [_ F]. inversion F as [|? ? F1 _]; subst. cbn [short_relay] in F1. lia.
Qed.
Print Assumptions C81_long_name_refuted.
Theorem C81_small_margin_refuted : forall H224 H256 p, pool_wf p -> conforming (PoolReg p) ->
  exists q s c, reg_run H224 H256 63 p [SetMargin (DFin 6456360425798343 (- 63))] = Some (Ok q) /\ registration_serialize q = Ok s /\ denotes s c /\ forall r st, enact r st c = None.
Proof.
  intros H224 H256 p W C. assert (E : checked_margin 63 (DFin 6456360425798343 (- 63)) = Some (Ok {| rnum := 2 ^ 64 - 1; rden := 1429 |})) by (vm_compute; reflexivity).
  assert (R : exists q, reg_run H224 H256 63 p [SetMargin (DFin 6456360425798343 (- 63))] = Some (Ok q) /\ pp_margin q = {| rnum := 2 ^ 64 - 1; rden := 1429 |} /\ pp_operator q = pp_operator p /\ pp_vrf q = pp_vrf p /\ pp_pledge q = pp_pledge p /\ pp_cost q = pp_cost p /\ pp_account q = pp_account p /\
     pp_owners q = pp_owners p /\ pp_relays q = pp_relays p /\ pp_metadata q = pp_metadata p).
  { cbn [reg_run reg_step]. rewrite E. cbn [rbind]. eexists. split; [reflexivity|]. repeat split; reflexivity. }
  destruct R as (q & R & Q1 & Q2 & Q3 & Q4 & Q5 & Q6 & Q7 & Q8 & Q9). exists q.
  destruct (unfit _ _ _ _ _ _ R) as (s & c & A & B).
  - unfold pool_wf in *. rewrite Q1, Q2, Q3, Q4, Q5, Q6, Q7, Q8, Q9. destruct W as (W1 & W2 & W3 & W4 & W5 & W6). repeat (split; [assumption|]). split; [|exact W6]. unfold rational_wf, u64. cbn [rnum rden]. lia.
  - cbn [conforming] in *. rewrite Q7, Q8, Q9. exact C.
  - intros r (_ & F & _). rewrite Q1 in F. cbn [rnum rden] in F. lia.
  - exists s, c. auto.
Qed.
Print Assumptions C81_small_margin_refuted.

(** ** Launching a pool *)
Lemma certs_app {key} (a b : list (@call key)) : certs_in (a ++ b) = certs_in a ++ certs_in b.
Proof. unfold certs_in. rewrite map_app, concat_app. reflexivity. Qed.
Lemma quiet_all {key} (l : list (@call key)) : certs_in l = [] -> forall x, balances x l = [] /\ delegations x l = [] /\ registrations x l = [] /\ retirements x l = [].
Proof.
  induction l as [|c l IH]; intros Q x; [repeat split; reflexivity|]. change (c :: l) with ([c] ++ l) in Q. rewrite certs_app in Q. apply app_eq_nil in Q as [Q1 Q2]. destruct (IH Q2 x) as (E1 & E2 & E3 & E4).
  unfold balances, delegations, registrations, retirements in *. destruct c; try discriminate Q1; cbn [map concat app]; auto.
Qed.
Lemma drawn_same {key} st (l : list (@call key)) x : (st_balance (drawn st l) x = None <-> st_balance st x = None) /\ st_delegated (drawn st l) x = st_delegated st x /\ st_pool (drawn st l) x = st_pool st x /\ st_next (drawn st l) x = st_next st x /\ st_retiring (drawn st l) x = st_retiring st x.
Proof. split; [|repeat split; reflexivity]. cbn. destruct (st_balance st x); [|tauto]. destruct (existsb _ _); split; discriminate. Qed.
(** Calls without certificates, then: register the account, register the pool, delegate to it. *)
Definition launch {key} (l0 : list (@call key)) (a : rewards_address) (kd : Z) (p : pool_params) (pd : Z) : list (@call key) :=
  l0 ++ [AddStakeReg a kd; AddPoolReg p pd; AddStakeDeleg a (pp_operator p)].
Lemma launch_fine {key} r st (l0 : list (@call key)) a kd p pd : certs_in l0 = [] -> (all_fine r st (launch l0 a kd p pd) <-> st_balance st (ra_hash a) = None /\ pool_fits r p).
Proof.
  intros Q. unfold launch. change [AddStakeReg a kd; AddPoolReg p pd; AddStakeDeleg a (pp_operator p)] with (([@AddStakeReg key a kd] ++ [AddPoolReg p pd]) ++ [AddStakeDeleg a (pp_operator p)]). rewrite !app_assoc, !all_fine_snoc.
  assert (F0 : all_fine r st l0).
  { intros l1 c l2 E. assert (QC : certs_in [c] = []). { rewrite E in Q. change (c :: l2) with ([c] ++ l2) in Q. rewrite !certs_app in Q. apply app_eq_nil in Q as [_ Q]. apply app_eq_nil in Q as [Q _]. exact Q. } destruct c; try exact I; discriminate QC. }
  cbn [fine]. destruct (quiet_all l0 Q (ra_hash a)) as (B & _). destruct (quiet_all l0 Q (pp_operator p)) as (_ & _ & G & _).
  assert (E1 : balance_after st l0 (ra_hash a) = st_balance st (ra_hash a)) by (unfold balance_after; rewrite B; reflexivity).
  assert (E2 : balance_after st ((l0 ++ [AddStakeReg a kd]) ++ [AddPoolReg p pd]) (ra_hash a) = Some 0). { unfold balance_after, balances in *. rewrite !hist_app, B, mine_same. reflexivity. }
  assert (E3 : pool_after st ((l0 ++ [AddStakeReg a kd]) ++ [AddPoolReg p pd]) (pp_operator p) <> None). { intros N. apply pool_after_none in N as [_ N]. unfold registrations in *. rewrite !hist_app, G, mine_same in N. discriminate. }
  rewrite E1, E2. split; [intros (((_ & X) & Y) & _); auto|]. intros [X Y]. split; [|split; [discriminate|exact E3]]. auto.
Qed.
Lemma launch_effect {key} st (l0 : list (@call key)) a kd p pd st' : certs_in l0 = [] -> described st (launch l0 a kd p pd) st' ->
  st_balance st' (ra_hash a) = Some 0 /\ st_delegated st' (ra_hash a) = Some (pp_operator p) /\
  (st_pool st (pp_operator p) = None -> st_pool st' (pp_operator p) = Some (told p)) /\
  (st_pool st (pp_operator p) <> None -> st_pool st' (pp_operator p) = st_pool st (pp_operator p) /\ st_next st' (pp_operator p) = Some (told p) /\ st_retiring st' (pp_operator p) = None) /\
  (forall x, x <> ra_hash a -> st_balance st' x = st_balance st x /\ st_delegated st' x = st_delegated st x) /\
  (forall x, x <> pp_operator p -> st_pool st' x = st_pool st x /\ st_next st' x = st_next st x /\ st_retiring st' x = st_retiring st x).
Proof.
  intros Q D.
  assert (E : forall x, balances x (launch l0 a kd p pd) = mine x (ra_hash a) (Some 0) /\ delegations x (launch l0 a kd p pd) = mine x (ra_hash a) (Some (pp_operator p)) /\
     registrations x (launch l0 a kd p pd) = mine x (pp_operator p) (told p) /\ retirements x (launch l0 a kd p pd) = mine x (pp_operator p) None).
  { intros x. destruct (quiet_all l0 Q x) as (B & C & G & R). unfold launch, balances, delegations, registrations, retirements in *. rewrite !map_app, !concat_app, B, C, G, R. cbn [map concat app]. rewrite !app_nil_r. auto. }
  unfold described, balance_after, delegated_after, pool_after, next_after, retiring_after, later in D.
  destruct (D (ra_hash a)) as (D1 & D2 & _). destruct (E (ra_hash a)) as (E1 & E2 & _). rewrite E1, mine_same in D1. rewrite E2, mine_same in D2. cbn [last] in D1, D2.
  destruct (D (pp_operator p)) as (_ & _ & D3 & D4 & D5). destruct (E (pp_operator p)) as (_ & _ & E3 & E4). rewrite E3, mine_same in D3, D4. rewrite E4, mine_same in D5.
  split; [exact D1|]. split; [exact D2|]. split; [intros N; rewrite N in D3; exact D3|]. split; [intros N; destruct (st_pool st (pp_operator p)); [auto|congruence]|]. split.
  - intros x NE. destruct (D x) as (X1 & X2 & _). destruct (E x) as (Y1 & Y2 & _). rewrite Y1, mine_other in X1 by congruence. rewrite Y2, mine_other in X2 by congruence. auto.
  - intros x NE. destruct (D x) as (_ & _ & X3 & X4 & X5). destruct (E x) as (_ & _ & Y3 & Y4). rewrite Y3, mine_other in X3, X4 by congruence. rewrite Y4, mine_other in X5 by congruence. destruct (st_pool st x); auto.
Qed.

(** C81: such a transaction, funded and signed, is taken exactly if the account is new and the pool within the limits; afterwards the pool is on the ledger as it was told, the
    account delegates to it, and nothing else has changed. *)
Theorem C81_pool_launch : forall key H256 H224 verifies (pub : key -> list Z) sgn fuel l0 a kd p pd dummies ks n r st, let l := launch l0 a kd p pd in certs_in l0 = [] ->
  (forall k m, verifies (pub k) m (sgn k m) = true) -> (forall k, bytesN 32 (pub k)) -> (forall k m, bytesN 64 (sgn k m)) ->
  (7 <= fuel)%nat -> length dummies = length ks -> Forall vkey_wf dummies -> NoDup (map pub ks) ->
  Forall building l -> Forall call_ok l -> Forall (truthful n) l -> zlen l + zlen ks < 2 ^ 59 ->
  inputs_in l <> [] -> NoDup (map (fun u => (u_id u, u_index u)) (inputs_in l)) -> NoDup (map (fun w => RewardsAddress_toBytes (fst w)) (withdrawals_in l)) ->
  n_slot n <= last (ttls_in l) 0 -> last (min_fees_in l) (44, 155381) = (n_fee_a n, n_fee_b n) -> 0 <= n_fee_a n -> 2 ^ 16 <= n_fee_b n -> 0 <= n_min_utxo n <= 1000000 ->
  (forall h, must_sign n l h -> exists k, In k ks /\ H224 (pub k) = h) ->
  Forall (fun x => 0 <= x) (deposits_in l) -> Forall (fun x => 0 <= x) (map u_value (inputs_in l) ++ map snd (withdrawals_in l)) ->
  let money := total (map u_value (inputs_in l)) + total (map snd (withdrawals_in l)) in money < 2 ^ 62 ->
  exists b0 n0, do_calls H256 pub sgn fuel new_builder l = Some (Ok b0) /\ sized b0 dummies (outputs_in l) n0 /\
  (total (map to_amount (outputs_in l)) + total (deposits_in l) + (n_fee_a n * n0 + n_fee_b n) <= money ->
   1000000 + n_fee_a n * (n0 + zlen (b_change b0) + 40) + n_fee_b n < 2 ^ 32 ->
   exists b s, do_calls H256 pub sgn fuel new_builder (l ++ [Balance dummies true] ++ map Sign ks) = Some (Ok b) /\ serialize (tx_ser (b_tx b)) = Ok s /\
     (zlen s <= n_max_size n -> n_fee_a n * (n_max_size n + 8) + n_fee_b n < 2 ^ 64 ->
       ((exists st', admits H256 H224 verifies r n st s st') <-> st_balance st (ra_hash a) = None /\ pool_fits r p) /\
       forall st', admits H256 H224 verifies r n st s st' ->
         st_balance st' (ra_hash a) = Some 0 /\ st_delegated st' (ra_hash a) = Some (pp_operator p) /\
         (st_pool st (pp_operator p) = None -> st_pool st' (pp_operator p) = Some (told p)) /\
         (st_pool st (pp_operator p) <> None -> st_pool st' (pp_operator p) = st_pool st (pp_operator p) /\ st_next st' (pp_operator p) = Some (told p) /\ st_retiring st' (pp_operator p) = None) /\
         (forall x, x <> ra_hash a -> st_delegated st' x = st_delegated st x /\ ((forall w v, In (AddWithdrawal w v) l -> ra_hash w <> x) -> st_balance st' x = st_balance st x)) /\
         (forall x, x <> pp_operator p -> st_pool st' x = st_pool st x /\ st_next st' x = st_next st x /\ st_retiring st' x = st_retiring st x))).
Proof.
  intros key H256 H224 verifies pub sgn fuel l0 a kd p pd d ks n r st l Q VF PB SG FU LD WD ND BU OK T LL NI N1 N2 TTL FE A B MU MS DP IP money MO.
  assert (NDR : forall x, ~ In (AddStakeDereg x) l).
  { intros x I. unfold l, launch in I. apply in_app_iff in I as [I|I]; [|cbn [In] in I; repeat (destruct I as [I|I]; [discriminate I|]); destruct I].
    apply in_split in I as (u & v & ->). change (AddStakeDereg x :: v) with ([@AddStakeDereg key x] ++ v) in Q. rewrite !certs_app in Q. apply app_eq_nil in Q as [_ Q]. discriminate Q. }
  destruct (C81_admitted_iff key H256 H224 verifies pub sgn fuel l d ks n r st VF PB SG FU LD WD ND BU OK T NDR LL NI N1 N2 TTL FE A B MU MS DP IP MO) as (b0 & n0 & R0 & Z0 & G).
  exists b0, n0. split; [exact R0|]. split; [exact Z0|]. intros PAY SM. destruct (G PAY SM) as (b & s & R & ES & AD). exists b, s. split; [exact R|]. split; [exact ES|]. intros SZ MX. destruct (AD SZ MX) as [X Y].
  split; [rewrite X; unfold l at 2; rewrite launch_fine by exact Q; rewrite (proj1 (drawn_same st l (ra_hash a))); reflexivity|].
  intros st' AM. destruct (launch_effect _ _ _ _ _ _ _ Q (Y st' AM)) as (L1 & L2 & L3 & L4 & L5 & L6).
  split; [exact L1|]. split; [exact L2|]. split; [exact L3|]. split; [exact L4|]. split; [|exact L6]. intros x NE. destruct (L5 x NE) as [M1 M2]. split; [exact M2|]. intros NW. rewrite M1. cbn. destruct (st_balance st x); [|reflexivity].
  destruct (existsb _ _) eqn:EX; [|reflexivity]. apply existsb_exists in EX as (w & I & EW). apply in_map_iff in I as ([w' v] & <- & I). apply in_withdrawals in I. cbn [fst] in EW. match type of EW with (if ?b then _ else _) = _ => destruct b as [EQ|NQ] end; [|discriminate EW]. destruct (NW w' v I EQ).
Qed.
Print Assumptions C81_pool_launch.

(** C81: a pool whose registration the ledger took makes blocks: with a hot key of the library certified by the key the pool is named after, a node that follows the ledger
    accepts its headers as long as the key is not used for too long and the certificate's number is that of the last block or the next. *)
Theorem C81_pool_makes_blocks : forall H H224 ed_pk ed_sign ed_verify SK (sign : SK -> list Z -> list Z) pub, kes_crypto H ed_pk ed_sign ed_verify -> block_crypto H sign pub ed_verify ->
  forall key r st (l : list (@Model_Tx.call key)) cs st' p d cold, Forall Props_Node.call_ok l -> Forall call_fits l -> all_some (map cddl_cert (certs_in l)) = Some cs -> enact_all r st cs = Some st' -> In (AddPoolReg p d) l -> pp_operator p = H224 (pub cold) ->
  forall kb s k hot sb h hb n c0, length s = 32%nat -> length kb = (sk_size 6 + 4)%nat ->
  kes_keygen H ed_pk 6 kb s = Ok (k, hot, sb) -> ~ In ReloadFile h -> Z.of_nat (updates_in h) < 2 ^ 6 -> u64 n -> u64 c0 ->
  let cert := opcert_serialize (opcert_generate SK sign hot n c0 cold) in
  exists k' sig, kes_run H ed_pk 6 k h = Ok k' /\ kes_sign ed_sign 6 k' hb = Ok sig /\
    forall c, (forall id, ch_pools c id <-> st_pool st' id <> None) -> let last := match ch_counter c (H224 (pub cold)) with Some m => m | None => 0 end in
      block_ok H H224 ed_verify c (c0 + Z.of_nat (updates_in h)) (pub cold) cert hb sig <-> Z.of_nat (updates_in h) < ch_evolutions c /\ (n = last \/ n = last + 1).
Proof.
  intros H H224 ed_pk ed_sign ed_verify SK sign pub KC BC key r st l cs st' p d cold OK CF E R I ID kb s k hot sb h hb n c0 Ls Lk G NF U Un Uc cert.
  destruct (C73_block_accepted_iff H H224 ed_pk ed_sign ed_verify SK sign pub KC BC kb s k hot sb h hb cold n c0 Ls Lk G NF U Un Uc) as (k' & sig & KR & KS & A). exists k', sig. split; [exact KR|]. split; [exact KS|]. intros c CH last.
  destruct (C81_certificates_exact key r st l cs OK CF E) as [_ D]. specialize (D st' R).
  assert (SP : ch_pools c (H224 (pub cold))).
  { apply CH. destruct (D (H224 (pub cold))) as (_ & _ & -> & _). intros N. apply pool_after_none in N as [_ N]. rewrite <- ID in N. apply in_split in I as (u & v & ->). unfold registrations in N. rewrite map_app, concat_app in N. cbn [map concat] in N. rewrite mine_same in N. apply app_eq_nil in N as [_ N]. discriminate. }
  specialize (A c). cbv zeta in A. fold last in A. unfold cert. rewrite A. tauto.
Qed.
Print Assumptions C81_pool_makes_blocks.

(** ** The hypotheses are met *)
Definition empty_stake : stake := {| st_balance := fun _ => None; st_delegated := fun _ => None; st_pool := fun _ => None; st_next := fun _ => None; st_retiring := fun _ => None |}.
Definition ex_rules (c : Z) : rules := {| ru_epoch := 400; ru_max_ahead := 18; ru_min_cost := c |}.
Definition ex_l0 : list (@Model_Tx.call Z) := [AddInput (ex_utxo 1 600000000); AddInput (ex_utxo 2 7000000); AddOutput ex_addr 3000000; SetTtl 1000000; SetChange ex_addr].
Definition ex_launch : list (@Model_Tx.call Z) := launch ex_l0 ex_account9 2000000 ex_pool 500000000.
Example C81_ex_args : Forall Props_Node.call_ok ex_launch /\ Forall (truthful ex_node) ex_launch /\ forall h, must_sign ex_node ex_launch h -> exists k, In k [1; 2; 9] /\ ex_H224 (ex_pub1 k) = h.
Proof.
  destruct C70_ex_args as [A1 A2]. rewrite Forall_forall in A1, A2.
  assert (S : forall c, In c ex_launch -> In c ex_l \/ c = AddStakeDeleg ex_account9 (pp_operator ex_pool)).
  { intros c I. unfold ex_launch, launch, ex_l0 in I. cbn [app In] in I. unfold ex_l. cbn [In]. intuition. }
  split; [|split].
  - apply Forall_forall. intros c I. destruct (S c I) as [J| ->]; [exact (A1 c J)|]. split; [split; [unfold byte_ok; cbn; lia|apply bytesN_b; reflexivity]|apply bytesN_b; reflexivity].
  - apply Forall_forall. intros c I. destruct (S c I) as [J| ->]; [exact (A2 c J)|exact Logic.I].
  - intros h M. unfold must_sign, ex_launch, launch, ex_l0 in M. cbn [app In] in M.
    destruct M as [(u & v & I & U)|[(a & v & I & ->)|[(a & p & I & ->)|[(a & I & _)|[(p & e & I & _)|(p & d & I & J)]]]]].
    + destruct I as [I|[I|I]]; [injection I as <-; vm_compute in U; injection U as _ <-; exists 1; split; [left; reflexivity|reflexivity]|injection I as <-; vm_compute in U; injection U as _ <-; exists 2; split; [right; left; reflexivity|reflexivity]|repeat (destruct I as [I|I]; [discriminate I|]); destruct I].
    + repeat (destruct I as [I|I]; [discriminate I|]); destruct I.
    + do 7 (destruct I as [I|I]; [discriminate I|]). destruct I as [I|[]]. injection I as <- _. exists 9. split; [cbn; tauto|reflexivity].
    + repeat (destruct I as [I|I]; [discriminate I|]); destruct I.
    + repeat (destruct I as [I|I]; [discriminate I|]); destruct I.
    + do 6 (destruct I as [I|I]; [discriminate I|]). destruct I as [I|I]; [injection I as <- _|repeat (destruct I as [I|I]; [discriminate I|]); destruct I]. destruct J as [->|[<-|[]]]; [exists 9; split; [cbn; tauto|reflexivity]|exists 2; split; [cbn; tauto|reflexivity]].
Qed.
Example C81_ex_launch : exists b s, do_calls ex_H ex_pub1 ex_sgn1 10 new_builder (ex_launch ++ [Balance (ex_dummies 3) true] ++ map Sign [1; 2; 9]) = Some (Ok b) /\ serialize (tx_ser (b_tx b)) = Ok s /\
  (zlen s <= n_max_size ex_node ->
    (exists st', admits ex_H ex_H224 ex_verifies (ex_rules 340000000) ex_node empty_stake s st' /\ st_pool st' (repeat 9 28) = Some (told ex_pool) /\ st_delegated st' (repeat 9 28) = Some (repeat 9 28))).
Proof.
  destruct C70_ex_keys as (K1 & K2 & K3). destruct C81_ex_args as (A1 & A2 & A3).
  destruct (C81_pool_launch Z ex_H ex_H224 ex_verifies ex_pub1 ex_sgn1 10%nat ex_l0 ex_account9 2000000 ex_pool 500000000 (ex_dummies 3) [1; 2; 9] ex_node (ex_rules 340000000) empty_stake eq_refl K1 K2 K3) as (b0 & n0 & R0 & Z0 & G); try assumption.
  - lia.
  - reflexivity.
  - do 3 (constructor; [split; apply bytesN_b; reflexivity|]). constructor.
  - repeat (constructor; [cbn [In map]; intros Q; repeat (destruct Q as [Q|Q]; [discriminate Q|]); exact Q|]). constructor.
  - unfold launch, ex_l0. cbn [app]. repeat (apply Forall_cons; [exact I|]). apply Forall_nil.
  - reflexivity.
  - discriminate.
  - constructor; [|repeat constructor; intros []]. intros [I|[]]. discriminate I.
  - constructor.
  - vm_compute. discriminate.
  - reflexivity.
  - cbn; lia.
  - cbn; lia.
  - cbn; lia.
  - cbv [launch ex_l0 deposits_in map concat app]. repeat constructor; lia.
  - cbv [launch ex_l0 inputs_in withdrawals_in map concat app u_value ex_utxo snd]. repeat constructor; lia.
  - vm_compute. reflexivity.
  - fold ex_launch in R0, Z0, G. assert (E0 : n0 <= 2000 /\ zlen (b_change b0) = 29).
    { destruct (do_calls ex_H ex_pub1 ex_sgn1 10 new_builder ex_launch) as [[b0'| |]|] eqn:E; try discriminate R0. assert (b0' = b0) by congruence. subst b0'. vm_compute in E. injection E as <-.
      split; [|reflexivity]. destruct Z0 as (s & S & <-). vm_compute in S. injection S as <-. vm_compute. discriminate. }
    destruct E0 as [E0 E1]. destruct G as (b & s & R & S & AC).
    + cbn [ex_node n_fee_a n_fee_b]. change (total (map to_amount (outputs_in ex_launch))) with 3000000. change (total (deposits_in ex_launch)) with 502000000. change (total (map u_value (inputs_in ex_launch)) + total (map snd (withdrawals_in ex_launch))) with 607000000. lia.
    + cbn [ex_node n_fee_a n_fee_b]. rewrite E1. lia.
    + exists b, s. split; [exact R|]. split; [exact S|]. intros L. destruct (AC L eq_refl) as [X Y].
      assert (F : pool_fits (ex_rules 340000000) ex_pool). { unfold pool_fits, ex_pool, ex_rules. cbn [ru_min_cost pp_cost pp_margin pp_account pp_relays pp_metadata rnum rden opt pm_url]. split; [lia|]. split; [lia|]. split; [reflexivity|]. split; [constructor; [exact I|constructor]|]. vm_compute. discriminate. }
      destruct (proj2 X (conj eq_refl F)) as (st' & AD). exists st'. split; [exact AD|]. destruct (Y st' AD) as (_ & D & P & _). split; [exact (P eq_refl)|exact D].
Qed.
(** what the ledger refuses: a second registration of the account, a delegation before the pool exists, a cost below the minimum, a retirement that is too late *)
Example C81_ex_refused :
  ~ all_fine (ex_rules 340000000) empty_stake (ex_launch ++ [AddStakeReg ex_account9 2000000]) /\ ~ all_fine (ex_rules 340000000) empty_stake (AddStakeReg ex_account9 2000000 :: AddStakeDeleg ex_account9 (repeat 9 28) :: ex_launch) /\
  ~ all_fine (ex_rules 340000001) empty_stake ex_launch /\ ~ all_fine (ex_rules 340000000) empty_stake (ex_launch ++ [AddPoolRetire (repeat 9 28) 419]) /\
  all_fine (ex_rules 340000000) empty_stake ([AddStakeReg ex_account9 2000000; AddStakeDereg ex_account9; AddStakeReg ex_account9 2000000] : list (@Model_Tx.call Z)).
Proof.
  split; [|split; [|split; [|split]]].
  - intros F. specialize (F ex_launch _ [] eq_refl). cbn [fine] in F. vm_compute in F. discriminate.
  - intros F. specialize (F [AddStakeReg ex_account9 2000000] _ ex_launch eq_refl). cbn [fine] in F. destruct F as [_ F]. apply F. reflexivity.
  - intros F. apply (launch_fine (ex_rules 340000001) empty_stake ex_l0 ex_account9 2000000 ex_pool 500000000 eq_refl) in F as [_ (F & _)]. cbn in F. lia.
  - intros F. specialize (F ex_launch _ [] eq_refl). cbn [fine] in F. destruct F as [_ F]. cbn in F. lia.
  - change [AddStakeReg ex_account9 2000000; AddStakeDereg ex_account9; @AddStakeReg Z ex_account9 2000000] with ((([] ++ [AddStakeReg ex_account9 2000000]) ++ [AddStakeDereg ex_account9]) ++ [@AddStakeReg Z ex_account9 2000000]).
    rewrite !all_fine_snoc. split; [split; [split|]|]; [|reflexivity|reflexivity|reflexivity]. intros l1 c l2 E. destruct l1; discriminate.
Qed.
(** a pool made with the API: 3% margin, two relays, an owner and metadata *)
Definition ex_regs : list reg_op :=
  [AddOwner ex_account9; AddRelayMulti (str "relays.example.com"); AddRelayV4 [127; 0; 0; 1] 3001; SetMetadata (str "https://example.com/p.json") (repeat 7 32); SetCost 340000000].
Example C81_ex_registration : exists p0 p, registration_new ex_H224 (fun x => repeat (hd 0 x mod 256) 32) 62 (repeat 9 32) (repeat 8 32) 1000 170000000 (DFin 8646911284551352 (- 58)) ex_account9 = Some (Ok p0) /\
  reg_run ex_H224 (fun x => repeat (hd 0 x mod 256) 32) 62 p0 ex_regs = Some (Ok p) /\ po_margin (told p) = (3, 100) /\ po_relays (told p) = [At_service (str "relays.example.com"); At_address (Some [127; 0; 0; 1]) None (Some 3001)] /\
  (forall r, pool_fits r p <-> ru_min_cost r <= 340000000).
Proof.
  assert (X : exists p0 p, registration_new (fun x => repeat (hd 0 x mod 256) 28) (fun x => repeat (hd 0 x mod 256) 32) 62 (repeat 9 32) (repeat 8 32) 1000 170000000 (DFin 8646911284551352 (- 58)) ex_account9 = Some (Ok p0) /\
    reg_run (fun x => repeat (hd 0 x mod 256) 28) (fun x => repeat (hd 0 x mod 256) 32) 62 p0 ex_regs = Some (Ok p) /\ forall r, pool_fits r p <-> ru_min_cost r <= pp_cost p).
  { destruct (C81_registration_fits (fun x => repeat (hd 0 x mod 256) 28) (fun x => repeat (hd 0 x mod 256) 32) 62 (repeat 9 32) (repeat 8 32) 1000 170000000 8646911284551352 (- 58) ex_account9 ex_regs) as (p0 & p & A & B & _ & _ & _ & C); [..|exists p0, p; auto]; try reflexivity.
    - intros x. apply (repeat_bytesN _ 28), ex_hash_ok.
    - intros x. apply (repeat_bytesN _ 32), ex_hash_ok.
    - lia.
    - split; vm_compute; discriminate.
    - unfold u64; lia.
    - lia.
    - split; [unfold byte_ok; cbn; lia|apply bytesN_b; reflexivity].
    - unfold ex_regs. repeat (apply Forall_cons; [|]); try apply Forall_nil; cbn [reg_fits].
      + split; [unfold byte_ok; cbn; lia|apply bytesN_b; reflexivity].
      + split; [apply text_b; reflexivity|vm_compute; discriminate].
      + split; [apply bytesN_b; reflexivity|unfold port_ok; lia].
      + split; [apply text_b; reflexivity|]. split; [vm_compute; discriminate|]. split; [apply (text_b (repeat 7 32)); reflexivity|vm_compute; discriminate].
      + lia. }
  destruct X as (p0 & p & A & B & C). vm_compute in A. assert (p0 = _) by (symmetry; exact (ok_inj _ _ (f_equal (fun o => match o with Some x => x | None => Throw end) A))). subst p0. vm_compute in B.
  assert (p = _) by (symmetry; exact (ok_inj _ _ (f_equal (fun o => match o with Some x => x | None => Throw end) B))). subst p. eexists _, _. split; [vm_compute; reflexivity|]. split; [vm_compute; reflexivity|]. split; [reflexivity|]. split; [reflexivity|exact C].
Qed.
Example C81_ex_blocks : exists st', enact_all (ex_rules 340000000) empty_stake (match all_some (map cddl_cert (certs_in ex_launch)) with Some cs => cs | None => [] end) = Some st' /\ st_pool st' (repeat 9 28) <> None /\ st_pool st' (repeat 8 28) = None.
Proof. eexists. split; [vm_compute; reflexivity|]. split; [vm_compute; discriminate|vm_compute; reflexivity]. Qed.
Example C81_ex_header : exists st' k hot sb k' sig, enact_all (ex_rules 340000000) empty_stake (match all_some (map cddl_cert (certs_in ex_launch)) with Some cs => cs | None => [] end) = Some st' /\
  kes_keygen toy_H toy_pk 6 (zeros (sk_size 6 + 4)) (seq_bytes 32) = Ok (k, hot, sb) /\ kes_run toy_H toy_pk 6 k [Update] = Ok k' /\ kes_sign toy_sign 6 k' [1; 2] = Ok sig /\
  block_ok toy_H (fun _ => repeat 9 28) toy_verify {| ch_pools := fun id => st_pool st' id <> None; ch_counter := fun _ => None; ch_evolutions := 62 |} 101 (toy_pk (repeat 3 32)) (opcert_serialize (opcert_generate _ toy_sign hot 0 100 (repeat 3 32))) [1; 2] sig.
Proof.
  destruct C73_hypotheses_satisfiable as [C B]. assert (L1 : length (seq_bytes 32) = 32%nat) by (vm_compute; reflexivity). assert (L2 : length (zeros (sk_size 6 + 4)) = (sk_size 6 + 4)%nat) by (vm_compute; reflexivity).
  destruct (C19_keygen_succeeds _ _ _ _ C 6 _ _ L1 L2) as (k & G). destruct C81_ex_args as (A1 & A2 & _).
  destruct (all_some (map cddl_cert (certs_in ex_launch))) as [cs|] eqn:E; [|exfalso; vm_compute in E; discriminate E].
  assert (CF : Forall call_fits ex_launch). { eapply Forall_impl; [|exact A2]. intros c TC. destruct c; try exact Logic.I. exact (proj1 TC). }
  destruct (enact_all (ex_rules 340000000) empty_stake cs) as [st'|] eqn:R; [|exfalso; vm_compute in E; injection E as <-; vm_compute in R; discriminate R].
  destruct (C81_pool_makes_blocks toy_H (fun _ => repeat 9 28) toy_pk toy_sign toy_verify _ toy_sign toy_pk C B Z (ex_rules 340000000) empty_stake ex_launch cs st' ex_pool 500000000 (repeat 3 32) A1 CF E R ltac:(unfold ex_launch, launch, ex_l0; cbn [app In]; tauto) eq_refl
    _ _ _ _ _ [Update] [1; 2] 0 100 L1 L2 G ltac:(intros [|[]]; discriminate) ltac:(cbn; lia) ltac:(unfold u64; lia) ltac:(unfold u64; lia)) as (k' & sig & KR & KS & A).
  do 6 eexists. split; [reflexivity|]. split; [exact G|]. split; [exact KR|]. split; [exact KS|]. change 101 with (100 + Z.of_nat (updates_in [Update])). apply A; [intros id; reflexivity|]. cbn. split; [reflexivity|left; reflexivity].
Qed.
