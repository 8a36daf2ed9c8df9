(** Property C86: a registered pool leads exactly the slots that its VRF key wins; the owner knows them beforehand, and no other value can be had for a slot. *)
From Verif Require Import Base BaseLemmas Proof_Hex Spec_Cbor Model_Cbor Proof_Cbor Model_Address Spec_Ledger Model_Ledger Proof_Ledger Model_Util Model_Tx Proof_Tx Model_Pool Spec_Kes Model_Kes Spec_Block
  Props_Ledger Props_Tx Props_Wire Props_History Spec_Util Props_Util Props_Pool Props_Kes Props_Block Spec_Node Props_Node Spec_Stake Props_Stake Props_Stake2 Spec_Leader.
Local Open Scope Z_scope.
Ltac Zify.zify_post_hook ::= idtac.

(** ** Registered keys *)
(** The VRF key given last, [first] being the constructor's. *)
Fixpoint last_vrf (first : list Z) (ops : list reg_op) : list Z :=
  match ops with [] => first | SetVrfKey k :: r => last_vrf k r | _ :: r => last_vrf first r end.
Definition renames (o : reg_op) : bool := match o with SetOperatorKey _ | SetOperatorId _ => true | _ => false end.
Lemma last_vrf_set (H256 : list Z -> list Z) : (forall x, length (H256 x) = 32%nat) -> forall ops first, last_set (fun o => match o with SetVrfKey k => Some (firstn 32 (H256 k)) | _ => None end) (H256 first) ops = H256 (last_vrf first ops).
Proof.
  intros L. induction ops as [|o ops IH]; intros first; [reflexivity|]. destruct o; cbn [last_set last_vrf]; try apply IH. rewrite firstn_all2 by (rewrite L; lia). apply IH.
Qed.
Lemma never_renamed (H224 : list Z -> list Z) : forall ops id, existsb renames ops = false -> last_set (fun o => match o with SetOperatorKey k => Some (firstn 28 (H224 k)) | SetOperatorId i => Some i | _ => None end) id ops = id.
Proof. induction ops as [|o ops IH]; intros id E; [reflexivity|]. cbn [existsb] in E. apply orb_false_iff in E as [E1 E2]. destruct o; cbn [renames] in E1; try discriminate; cbn [last_set]; apply IH, E2. Qed.

(** C86: a pool registered through the API, whatever is set between, stands on the ledger under the hash of its cold key with the hash of the VRF key given last: at once when the
    pool is new, and announced for the next epoch when it is not. *)
Theorem C86_registered : forall H224 H256, (forall x, length (H224 x) = 28%nat) -> (forall x, length (H256 x) = 32%nat) ->
  forall fuel cold vrf pledge cost margin account p0 ops p, registration_new H224 H256 fuel cold vrf pledge cost margin account = Some (Ok p0) ->
  reg_run H224 H256 fuel p0 ops = Some (Ok p) -> existsb renames ops = false ->
  forall key r st (l1 l2 : list (@Model_Tx.call key)) d cs st', let l := l1 ++ AddPoolReg p d :: l2 in
  (forall q d', In (AddPoolReg q d') (l1 ++ l2) -> pp_operator q <> H224 cold) ->
  Forall Props_Node.call_ok l -> Forall call_fits l -> all_some (map cddl_cert (certs_in l)) = Some cs -> enact_all r st cs = Some st' ->
  exists q, po_vrf q = H256 (last_vrf vrf ops) /\
    (st_pool st (H224 cold) = None -> st_pool st' (H224 cold) = Some q) /\
    (st_pool st (H224 cold) <> None -> st_pool st' (H224 cold) = st_pool st (H224 cold) /\ st_next st' (H224 cold) = Some q).
Proof.
  intros H224 H256 L28 L32 fuel cold vrf pledge cost margin account p0 ops p E0 R NR key r st l1 l2 d cs st' l NO OK CF E EN.
  assert (P0 : pp_operator p0 = H224 cold /\ pp_vrf p0 = H256 vrf).
  { unfold registration_new in E0. destruct (d_neg _ || d_gt1 _); [discriminate|]. destruct (cost <? _); [discriminate|]. apply rbind_ok in E0 as (nd & _ & E0). unfold lift in E0.
    assert (p0 = _) by (symmetry; exact (ok_inj _ _ (f_equal (fun o => match o with Some x => x | None => Throw end) E0))). subst p0. cbn [pp_operator pp_vrf].
    unfold pool_id, vrf_key_hash. rewrite (firstn_all2 (H224 cold)) by (rewrite L28; lia). rewrite (firstn_all2 (H256 vrf)) by (rewrite L32; lia). split; reflexivity. }
  destruct P0 as [P1 P2]. destruct (C51_fields H224 H256 fuel ops p0 p R) as (F1 & F2 & _). rewrite P1, never_renamed in F1 by exact NR. rewrite P2, last_vrf_set in F2 by exact L32.
  destruct (C81_certificates_exact key r st l cs OK CF E) as [_ D]. specialize (D st' EN (H224 cold)). destruct D as (_ & _ & D3 & D4 & _).
  assert (NONE : forall l' : list (@Model_Tx.call key), (forall q d', In (AddPoolReg q d') l' -> pp_operator q <> H224 cold) -> registrations (H224 cold) l' = []).
  { induction l' as [|c l' IH]; intros N; [reflexivity|]. unfold registrations in *. cbn [map concat]. rewrite IH by (intros q d' I; apply (N q d'); right; exact I).
    destruct c; try reflexivity. rewrite mine_other; [reflexivity|]. first [exact (N _ _ (or_introl eq_refl)) | exact (not_eq_sym (N _ _ (or_introl eq_refl)))]. }
  assert (RG : registrations (H224 cold) l = [told p]).
  { unfold l. unfold registrations. rewrite map_app, concat_app. cbn [map concat]. fold (registrations (H224 cold) l1). fold (registrations (H224 cold) l2).
    rewrite !NONE by (intros q d' I; apply (NO q d'); apply in_app_iff; auto). rewrite <- F1, mine_same. reflexivity. }
  exists (told p). split; [exact F2|]. unfold pool_after, next_after, later in D3, D4. rewrite RG in D3, D4. split; [intros N; rewrite N in D3; exact D3|].
  intros N. destruct (st_pool st (H224 cold)) as [q|]; [|congruence]. split; [exact D3|exact D4].
Qed.
Print Assumptions C86_registered.

(** ** Slots *)
Section Slots.
Context {SK : Type}.
Variables (H H224 : list Z -> list Z) (ed_pk : list Z -> list Z) (ed_sign : list Z -> list Z -> list Z) (ed_verify : list Z -> list Z -> list Z -> bool).
Variables (sign : SK -> list Z -> list Z) (pub : SK -> list Z).
Variables (prove : list Z -> list Z -> option (list Z)) (vverify : list Z -> list Z -> list Z -> bool) (to_hash : list Z -> option (list Z)).
Definition pool_crypto_ok : Prop := kes_crypto H ed_pk ed_sign ed_verify /\ block_crypto H sign pub ed_verify /\ vrf_scheme ed_pk prove vverify to_hash.
End Slots.

(** C86: for every slot the owner computes a value and a proof beforehand.  A header for the slot that carries them, the certificate of a hot key of the library in step with the slot's
    period, and that key's signature, is accepted exactly if the value wins, the hot key is not used for too long, and the certificate's number is that of the pool's last block or the next. *)
Theorem C86_leads_exactly : forall SK H H224 ed_pk ed_sign ed_verify (sign : SK -> list Z -> list Z) pub prove vverify to_hash, pool_crypto_ok H ed_pk ed_sign ed_verify sign pub prove vverify to_hash ->
  forall cold vsk st q, length vsk = 64%nat -> vrf_isValid ed_pk vsk = true -> st_pool st (H224 (pub cold)) = Some q -> po_vrf q = H (vrf_publicKey vsk) ->
  forall ne slot, exists value proof, vrf_hash prove to_hash vsk (ne_input ne slot) = Ok value /\ vrf_constructProof prove vsk (ne_input ne slot) = Ok proof /\
  forall kb s k hot sb h n c0 hb item, length s = 32%nat -> length kb = (sk_size 6 + 4)%nat ->
  kes_keygen H ed_pk 6 kb s = Ok (k, hot, sb) -> ~ In ReloadFile h -> Z.of_nat (updates_in h) < 2 ^ 6 -> u64 n -> u64 c0 -> ne_period ne slot = c0 + Z.of_nat (updates_in h) ->
  denotes (opcert_serialize (opcert_generate SK sign hot n c0 cold)) item -> body_says hb slot (pub cold) (vrf_publicKey vsk) value proof item ->
  exists k' sig, kes_run H ed_pk 6 k h = Ok k' /\ kes_sign ed_sign 6 k' hb = Ok sig /\
    let last := match ne_counter ne (H224 (pub cold)) with Some m => m | None => 0 end in
    (header_ok H H224 ed_verify vverify to_hash st ne hb sig <->
     ne_wins ne (H224 (pub cold)) value /\ Z.of_nat (updates_in h) < ne_evolutions ne /\ (n = last \/ n = last + 1)).
Proof.
  intros SK H H224 ed_pk ed_sign ed_verify sign pub prove vverify to_hash (KC & BC & VS) cold vsk st q L64 VV SP PV ne slot.
  destruct (C57_proofs ed_pk prove vverify to_hash (pk_len _ _ _ _ KC) VS vsk (ne_input ne slot) L64 VV) as (proof & value & E1 & L80 & _ & E3 & E4 & UN).
  exists value, proof. split; [exact E4|]. split; [exact E1|]. intros kb s k hot sb h n c0 hb item Ls Lk G NF U Un Uc PE DI BS.
  destruct (C73_block_accepted_iff H H224 ed_pk ed_sign ed_verify SK sign pub KC BC kb s k hot sb h hb cold n c0 Ls Lk G NF U Un Uc) as (k' & sig & KR & KS & A). exists k', sig. split; [exact KR|]. split; [exact KS|]. intros last.
  assert (V1 : vverify (vrf_publicKey vsk) (ne_input ne slot) proof = true).
  { unfold vrf_pk_verifyProof in E3. rewrite L80 in E3. change (80 <? 80)%nat with false in E3. cbn beta iota in E3. rewrite firstn_all2 in E3 by lia. congruence. }
  assert (V2 : to_hash proof = Some value). { specialize (UN proof L80 E3). unfold vrf_proofToHash, want in UN. destruct (to_hash proof) as [x|]; congruence. }
  set (ch := {| ch_pools := fun id => st_pool st id <> None; ch_counter := ne_counter ne; ch_evolutions := ne_evolutions ne |}). specialize (A ch). cbv zeta in A. change (ch_counter ch (H224 (pub cold))) with (ne_counter ne (H224 (pub cold))) in A. fold last in A.
  split.
  - intros (slot' & cold' & vrf' & value' & proof' & item' & cert' & BS' & DC' & (q' & Q1 & Q2 & Q3 & Q4 & Q5 & Q6) & BO).
    destruct BS as (b1 & b2 & b3 & b4 & b5 & BS). destruct BS' as (b1' & b2' & b3' & b4' & b5' & BS'). rewrite BS in BS'. assert (X : slot = slot' /\ pub cold = cold' /\ vrf_publicKey vsk = vrf' /\ value = value' /\ proof = proof' /\ item = item') by (repeat split; congruence).
    destruct X as (<- & <- & <- & <- & <- & <-). split; [exact Q6|].
    assert (BO' : block_ok H H224 ed_verify ch (c0 + Z.of_nat (updates_in h)) (pub cold) (opcert_serialize (opcert_generate SK sign hot n c0 cold)) hb sig).
    { rewrite <- PE. destruct BO as (hot1 & n1 & c1 & sg & bn & bc & R & BO). exists hot1, n1, c1, sg, bn, bc. split; [|exact BO]. unfold denotes in DI. rewrite DI. rewrite DC' in R. exact R. }
    apply A in BO'. destruct BO' as (_ & B1 & B2). split; assumption.
  - intros (W & B1 & B2). exists slot, (pub cold), (vrf_publicKey vsk), value, proof, item, (opcert_serialize (opcert_generate SK sign hot n c0 cold)). split; [exact BS|]. split; [exact DI|]. split.
    + exists q. repeat (split; [assumption|]). exact W.
    + rewrite PE. apply A. split; [cbn [ch_pools ch]; rewrite SP; discriminate|]. split; assumption.
Qed.
Print Assumptions C86_leads_exactly.

(** C86: whoever made it, an accepted header for the pool carries the very value that the owner's key has for its slot (so that value wins, and nobody can try for a better one),
    or else its VRF key is another one with the same hash. *)
Theorem C86_one_value : forall SK H H224 ed_pk ed_sign ed_verify (sign : SK -> list Z -> list Z) pub prove vverify to_hash, pool_crypto_ok H ed_pk ed_sign ed_verify sign pub prove vverify to_hash ->
  forall cold vsk st q, length vsk = 64%nat -> vrf_isValid ed_pk vsk = true -> st_pool st (H224 (pub cold)) = Some q -> po_vrf q = H (vrf_publicKey vsk) ->
  forall ne hb sig slot vrf value proof item, header_ok H H224 ed_verify vverify to_hash st ne hb sig -> body_says hb slot (pub cold) vrf value proof item ->
  (vrf = vrf_publicKey vsk /\ vrf_hash prove to_hash vsk (ne_input ne slot) = Ok value /\ ne_wins ne (H224 (pub cold)) value) \/
  (vrf <> vrf_publicKey vsk /\ H vrf = H (vrf_publicKey vsk)).
Proof.
  intros SK H H224 ed_pk ed_sign ed_verify sign pub prove vverify to_hash (KC & BC & VS) cold vsk st q L64 VV SP PV ne hb sig slot vrf value proof item HO BS.
  destruct HO as (slot' & cold' & vrf' & value' & proof' & item' & cert' & BS' & DC' & (q' & Q1 & Q2 & Q3 & Q4 & Q5 & Q6) & BO).
  destruct BS as (b1 & b2 & b3 & b4 & b5 & BS). destruct BS' as (b1' & b2' & b3' & b4' & b5' & BS'). rewrite BS in BS'. assert (X : slot = slot' /\ pub cold = cold' /\ vrf = vrf' /\ value = value' /\ proof = proof') by (repeat split; congruence).
  destruct X as (<- & <- & <- & <- & <-). rewrite SP in Q1. assert (q' = q) by congruence. subst q'. destruct (list_eq_dec Z.eq_dec vrf (vrf_publicKey vsk)) as [->|NE]; [left|right; split; [exact NE|congruence]].
  split; [reflexivity|]. split; [|exact Q6]. destruct (C57_proofs ed_pk prove vverify to_hash (pk_len _ _ _ _ KC) VS vsk (ne_input ne slot) L64 VV) as (p & v & _ & _ & _ & _ & E4 & UN).
  rewrite E4. symmetry. rewrite <- (UN proof Q3).
  - unfold vrf_proofToHash. rewrite Q5. reflexivity.
  - unfold vrf_pk_verifyProof. rewrite Q3. change (80 <? 80)%nat with false. cbn beta iota. rewrite firstn_all2 by lia. rewrite Q4. reflexivity.
Qed.
Print Assumptions C86_one_value.

(** C86: hence a slot whose value does not win is closed to the pool, whatever its owner or anyone holding its keys signs, unless a second key with the registered hash is found. *)
Theorem C86_lost_slot : forall SK H H224 ed_pk ed_sign ed_verify (sign : SK -> list Z -> list Z) pub prove vverify to_hash, pool_crypto_ok H ed_pk ed_sign ed_verify sign pub prove vverify to_hash ->
  forall cold vsk st q, length vsk = 64%nat -> vrf_isValid ed_pk vsk = true -> st_pool st (H224 (pub cold)) = Some q -> po_vrf q = H (vrf_publicKey vsk) ->
  forall ne slot value, vrf_hash prove to_hash vsk (ne_input ne slot) = Ok value -> ~ ne_wins ne (H224 (pub cold)) value ->
  forall hb sig vrf value' proof item, body_says hb slot (pub cold) vrf value' proof item -> header_ok H H224 ed_verify vverify to_hash st ne hb sig ->
  vrf <> vrf_publicKey vsk /\ H vrf = H (vrf_publicKey vsk).
Proof.
  intros SK H H224 ed_pk ed_sign ed_verify sign pub prove vverify to_hash PC cold vsk st q L64 VV SP PV ne slot value E NW hb sig vrf value' proof item BS HO.
  destruct (C86_one_value SK H H224 ed_pk ed_sign ed_verify sign pub prove vverify to_hash PC cold vsk st q L64 VV SP PV ne hb sig slot vrf value' proof item HO BS) as [(_ & E' & W)|X]; [|exact X].
  exfalso. assert (value' = value) by congruence. subst value'. exact (NW W).
Qed.
Print Assumptions C86_lost_slot.

(** ** The hypotheses are met, and both outcomes occur *)
(** A body that says all this exists, for any values of the right sizes. *)
Definition short (b : list Z) : Prop := bytes_ok b /\ zlen b < 2 ^ 64.
Lemma body_of slot cold vrf value proof item : u64 slot -> short cold -> short vrf -> short value -> short proof -> cbor_ok item ->
  body_says (cbor_encode (CArray [CUint 7; CUint slot; CNull; CBytes cold; CBytes vrf; CArray [CBytes value; CBytes proof]; CUint 3; CBytes [5]; item; CArray [CUint 8; CUint 0]])) slot cold vrf value proof item.
Proof.
  intros U [A1 A2] [B1 B2] [C1 C2] [D1 D2] OK. exists 7, CNull, 3, [5], (CArray [CUint 8; CUint 0]).
  apply (encode_denotes (CArray _)). unfold u64 in U.
  cbn [cbor_ok fold_right]. unfold zlen in *. cbn [length]. repeat split; try assumption; try lia. repeat constructor; lia.
Qed.
(** a lottery in which the slot's number decides: below 3 wins *)
Definition lv_mix (m : list Z) : list Z := repeat (hd 0 m mod 256) 48.
Definition lv_prove (sk m : list Z) : option (list Z) := Some (skipn 32 sk ++ lv_mix m).
Definition lv_verify (pk m p : list Z) : bool := zlist_eqb p (pk ++ lv_mix m).
Definition lv_hash (p : list Z) : option (list Z) := Some p.
Lemma lv_scheme : vrf_scheme toy_pk lv_prove lv_verify lv_hash.
Proof.
  intros seed m L. exists (toy_pk seed ++ lv_mix m), (toy_pk seed ++ lv_mix m). unfold lv_prove, lv_verify, lv_hash. rewrite (skipn_app_exact seed (toy_pk seed) 32 (eq_sym L)).
  split; [reflexivity|]. split; [rewrite app_length, (pk_len _ _ _ _ C19_hypotheses_satisfiable); reflexivity|]. split; [apply zlist_eqb_refl|]. split; [reflexivity|]. intros p' _ V. apply zlist_eqb_spec in V. subst p'. reflexivity.
Qed.
Example C86_crypto : pool_crypto_ok toy_H toy_pk toy_sign toy_verify toy_sign toy_pk lv_prove lv_verify lv_hash.
Proof. destruct C73_hypotheses_satisfiable as [C B]. split; [exact C|]. split; [exact B|exact lv_scheme]. Qed.
Definition lv_sk : list Z := vrf_fromSeed toy_pk (repeat 4 32).
Definition lv_id (x : list Z) : list Z := firstn 28 (toy_H x).
Definition lv_net : network := {| ne_input := fun slot => [slot]; ne_wins := fun _ v => nth 40 v 255 < 3; ne_period := fun slot => 100 + slot / 2; ne_counter := fun _ => None; ne_evolutions := 62 |}.
Definition lv_regs : list reg_op := SetVrfKey (repeat 1 32) :: ex_regs ++ [SetVrfKey (vrf_publicKey lv_sk)].
(** A pool is registered with one VRF key, given another, then the right one; the ledger takes it. *)
Example C86_ex_registered : exists p0 p cs st' q, registration_new lv_id toy_H 62 (toy_pk (repeat 3 32)) (repeat 8 32) 1000 170000000 (DFin 8646911284551352 (- 58)) ex_account9 = Some (Ok p0) /\
  reg_run lv_id toy_H 62 p0 lv_regs = Some (Ok p) /\ all_some (map cddl_cert (certs_in [@AddPoolReg Z p 500000000])) = Some cs /\ enact_all (ex_rules 340000000) empty_stake cs = Some st' /\
  st_pool st' (lv_id (toy_pk (repeat 3 32))) = Some q /\ po_vrf q = toy_H (vrf_publicKey lv_sk).
Proof.
  assert (B32 : forall x, bytesN 32 (toy_H x)) by (intros x; split; [apply pack_be_ok|unfold zlen, toy_H; rewrite pack_be_length; reflexivity]).
  assert (B28 : forall x, bytesN 28 (lv_id x)). { intros x. destruct (B32 x) as [A L]. split; [apply Forall_forall; intros y I; apply (proj1 (Forall_forall _ _) A); rewrite <- (firstn_skipn 28 (toy_H x)); apply in_or_app; left; exact I|]. unfold lv_id, zlen in *. rewrite firstn_length. lia. }
  destruct (C81_registration_fits lv_id toy_H 62 (toy_pk (repeat 3 32)) (repeat 8 32) 1000 170000000 8646911284551352 (- 58) ex_account9 lv_regs B28 B32) as (p0 & p & A & R & ID & W & CF & PF); try reflexivity.
  - lia.
  - split; vm_compute; discriminate.
  - unfold u64; lia.
  - lia.
  - split; [unfold byte_ok; cbn; lia|apply bytesN_b; reflexivity].
  - unfold lv_regs, ex_regs. cbn [app]. repeat (apply Forall_cons; [|]); try apply Forall_nil; cbn [reg_fits]; try exact Logic.I.
    + split; [unfold byte_ok; cbn; lia|apply bytesN_b; reflexivity].
    + split; [apply text_b; reflexivity|vm_compute; discriminate].
    + split; [apply bytesN_b; reflexivity|unfold port_ok; lia].
    + split; [apply text_b; reflexivity|]. split; [vm_compute; discriminate|]. split; [apply (text_b (repeat 7 32)); reflexivity|vm_compute; discriminate].
    + lia.
  - destruct (cert_conforms _ CF) as (x & _ & E). assert (EA : all_some (map cddl_cert (certs_in [@AddPoolReg Z p 500000000])) = Some [x]). { cbn [certs_in map concat app]. cbn [all_some map]. rewrite E. reflexivity. }
    assert (OK : Forall Props_Node.call_ok [@AddPoolReg Z p 500000000]) by (constructor; [exact W|constructor]). assert (CFs : Forall call_fits [@AddPoolReg Z p 500000000]) by (constructor; [exact CF|constructor]).
    destruct (C81_certificates_exact Z (ex_rules 340000000) empty_stake [AddPoolReg p 500000000] [x] OK CFs EA) as [AF _].
    assert (COST : pp_cost p = 340000000). { destruct (C51_fields lv_id toy_H 62 lv_regs p0 p R) as (_ & _ & _ & Q & _). rewrite Q. reflexivity. }
    assert (NN : enact_all (ex_rules 340000000) empty_stake [x] <> None). { apply AF. intros [|c l1] c' l2 Q; [|destruct l1; discriminate Q]. assert (c' = AddPoolReg p 500000000) by (cbn [app] in Q; congruence). subst c'. cbn [fine]. apply PF. rewrite COST. cbn. lia. }
    destruct (enact_all (ex_rules 340000000) empty_stake [x]) as [st'|] eqn:EN; [|congruence].
    destruct (C86_registered lv_id toy_H (fun x => ltac:(pose proof (proj2 (B28 x)); unfold zlen in *; lia)) (fun x => ltac:(pose proof (proj2 (B32 x)); unfold zlen in *; lia)) 62 _ _ _ _ _ _ p0 lv_regs p A R eq_refl
      Z (ex_rules 340000000) empty_stake [] [] 500000000 [x] st' ltac:(intros ? ? []) OK CFs EA EN) as (q & PV & NEW & _).
    exists p0, p, [x], st', q. split; [exact A|]. split; [exact R|]. split; [exact EA|]. split; [exact EN|]. split; [apply NEW; reflexivity|exact PV].
Qed.
(** Its owner, with a hot key evolved once and certified from period 100 on, makes a header for slot 2 that is accepted; slot 9 it does not lead. *)
Example C86_ex : forall st q, st_pool st (lv_id (toy_pk (repeat 3 32))) = Some q -> po_vrf q = toy_H (vrf_publicKey lv_sk) ->
  (exists hb sig value, header_ok toy_H lv_id toy_verify lv_verify lv_hash st lv_net hb sig /\ vrf_hash lv_prove lv_hash lv_sk [2] = Ok value) /\
  (exists value, vrf_hash lv_prove lv_hash lv_sk [9] = Ok value /\ ~ ne_wins lv_net (lv_id (toy_pk (repeat 3 32))) value).
Proof.
  intros st q SP PV. destruct C86_crypto as (KC & BC & VS). assert (L64 : length lv_sk = 64%nat) by reflexivity. assert (VV : vrf_isValid toy_pk lv_sk = true) by (vm_compute; reflexivity).
  split; [|eexists; split; [reflexivity|]; vm_compute; intros Q; discriminate Q].
  destruct (C86_leads_exactly _ toy_H lv_id toy_pk toy_sign toy_verify toy_sign toy_pk lv_prove lv_verify lv_hash C86_crypto (repeat 3 32) lv_sk st q L64 VV SP PV lv_net 2) as (value & proof & E1 & E2 & A).
  cbn [ne_input lv_net] in E1, E2. assert (VE : value = toy_pk (repeat 4 32) ++ repeat 2 48) by (apply ok_inj; rewrite <- E1; reflexivity). assert (PE : proof = toy_pk (repeat 4 32) ++ repeat 2 48) by (apply ok_inj; rewrite <- E2; reflexivity). clear E2.
  assert (L1 : length (seq_bytes 32) = 32%nat) by (vm_compute; reflexivity). assert (L2 : length (zeros (sk_size 6 + 4)) = (sk_size 6 + 4)%nat) by (vm_compute; reflexivity).
  destruct (C19_keygen_succeeds _ _ _ _ KC 6 _ _ L1 L2) as (k & G). pose proof (pub_bytes _ _ _ _ 5 (seq_bytes 32) KC (bc_H _ _ _ _ BC)) as PB. revert G PB. generalize (vk toy_H toy_pk 6 (seq_bytes 32)). intros hot G PB.
  set (cert := opcert_generate (list Z) toy_sign hot 0 100 (repeat 3 32)).
  assert (U0 : u64 0) by (split; [lia|reflexivity]). assert (U100 : u64 100) by (split; [lia|reflexivity]).
  assert (W : opcert_wf cert). { split; [exact PB|]. split; [exact U0|]. split; [exact U100|]. apply (bc_sign _ _ _ _ BC). }
  destruct (C46_serialize cert (repeat 7 32) W ltac:(apply bytesN_b; reflexivity)) as [DC _].
  assert (S80 : short (toy_pk (repeat 4 32) ++ repeat 2 48)) by (split; [apply text_b; vm_compute; reflexivity|vm_compute; reflexivity]).
  assert (IO : cbor_ok (CArray [CBytes (oc_hot cert); CUint (oc_seq cert); CUint (oc_period cert); CBytes (oc_sigma cert)])).
  { destruct W as ((HO & HL) & S & P & (GO & GL)). cbn [cbor_ok fold_right]. rewrite HL, GL. unfold u64, zlen in *. cbn [length]. repeat split; solve [assumption|lia]. }
  pose proof (body_of 2 (toy_pk (repeat 3 32)) (vrf_publicKey lv_sk) value proof _ ltac:(split; [lia|reflexivity]) ltac:(split; [apply toy_bytes|vm_compute; reflexivity]) ltac:(split; [apply text_b; vm_compute; reflexivity|vm_compute; reflexivity]) ltac:(rewrite VE; exact S80) ltac:(rewrite PE; exact S80) IO) as BS.
  destruct (A _ _ _ _ _ [Update] 0 100 _ _ L1 L2 G ltac:(intros [|[]]; discriminate) ltac:(cbn; lia) U0 U100 ltac:(reflexivity) DC BS) as (k' & sig & _ & _ & HO).
  eexists _, sig, value. split; [|exact E1]. apply HO. split; [rewrite VE; vm_compute; reflexivity|]. cbn [ne_evolutions ne_counter lv_net updates_in]. split; [vm_compute; reflexivity|left; reflexivity].
Qed.
