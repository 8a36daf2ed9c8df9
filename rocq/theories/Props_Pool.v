(** Properties C46 (operational certificates), C50 (VRF keys), C51 (pool registrations), C57 (VRF proofs). *)
From Coq Require Import ZArith QArith Qabs Qpower Lia Sorted.
From Verif Require Import Base BaseLemmas Model_Hex Proof_Hex Spec_Cbor Model_Cbor Proof_Cbor Spec_Ledger Model_Ledger Proof_Ledger Proof_Ledger2 Props_Ledger Model_Tx Model_Util Spec_Util Proof_Util Props_Util Model_Address Model_Pool.
Open Scope Z_scope.
Ltac Zify.zify_post_hook ::= idtac.

(** ** C46 *)
Definition opcert_wf (c : opcert) : Prop := bytesN 32 (oc_hot c) /\ u64 (oc_seq c) /\ u64 (oc_period c) /\ bytesN 64 (oc_sigma c).
(** the three fields an operational certificate certifies *)
Definition certified (c : opcert) : list Z * Z * Z := (oc_hot c, oc_seq c, oc_period c).
(** a signature scheme whose signatures verify *)
Definition scheme_correct {SK} (sign : SK -> list Z -> list Z) (pub : SK -> list Z) (verify : list Z -> list Z -> list Z -> bool) : Prop :=
  forall sk m, verify (pub sk) m (sign sk m) = true.

(** A generated certificate carries the fields given and verifies under the cold key that signed it. *)
Theorem C46_generated_verifies : forall SK (sign : SK -> list Z -> list Z) pub verify, scheme_correct sign pub verify ->
  forall hot count period sk, let c := opcert_generate SK sign hot count period sk in
  opcert_verify verify c (pub sk) = true /\ certified c = (hot, count, period).
Proof. intros SK sign pub verify H hot count period sk. split; [apply H|reflexivity]. Qed.
Print Assumptions C46_generated_verifies.
(** The signed message: the hot key, then the two numbers as 8 bytes each, most significant first. *)
Theorem C46_message_layout : forall c, opcert_wf c ->
  exists s p, opcert_message c = oc_hot c ++ s ++ p /\ length (oc_hot c) = 32%nat /\ length s = 8%nat /\ length p = 8%nat /\ bytes_ok s /\ bytes_ok p /\
    bev 256 s = oc_seq c /\ bev 256 p = oc_period c.
Proof.
  intros c (H & S & P & _). exists (pack_be 8 (oc_seq c)), (pack_be 8 (oc_period c)). unfold opcert_message. rewrite <- app_assoc. destruct H as [_ HL]. unfold u64 in *. unfold zlen in HL.
  rewrite !pack_be_length, !pack_be_value, !Z.mod_small by (cbn; lia). repeat split; try lia; apply pack_be_ok.
Qed.
Print Assumptions C46_message_layout.
Lemma app_inv_length {A} (a b c d : list A) : a ++ b = c ++ d -> length a = length c -> a = c /\ b = d.
Proof. revert c. induction a as [|x a IH]; intros [|y c] E L; try discriminate; [auto|]. injection E as -> E. injection L as L. destruct (IH c E L) as [-> ->]. auto. Qed.
Lemma opcert_message_inj c c' : opcert_wf c -> opcert_wf c' -> opcert_message c = opcert_message c' -> certified c = certified c'.
Proof.
  intros (H & S & P & _) (H' & S' & P' & _) E. unfold opcert_message in E. rewrite <- !app_assoc in E. destruct H as [_ HL], H' as [_ HL']. unfold zlen, u64 in *.
  apply app_inv_length in E as [E1 E]; [|lia]. apply app_inv_length in E as [E2 E3]; [|rewrite !pack_be_length; reflexivity].
  apply pack_be_inj in E2; [|cbn; lia|cbn; lia]. apply pack_be_inj in E3; [|cbn; lia|cbn; lia]. unfold certified. congruence.
Qed.
(** Different fields, different messages; so if the owner of the cold key signed only the certificates [signed], any other certificate
    that verifies exhibits a signature on a message never signed. *)
Theorem C46_message_binds : forall c c', opcert_wf c -> opcert_wf c' -> opcert_message c = opcert_message c' <-> certified c = certified c'.
Proof. intros c c' W W'. split; [apply opcert_message_inj; assumption|]. unfold certified, opcert_message. intros E. injection E as E1 E2 E3. congruence. Qed.
Theorem C46_tampering_is_forgery : forall verify vk signed c, Forall opcert_wf signed -> opcert_wf c -> ~ In (certified c) (map certified signed) -> opcert_verify verify c vk = true ->
  ~ In (opcert_message c) (map opcert_message signed) /\ verify vk (opcert_message c) (oc_sigma c) = true.
Proof.
  intros verify vk signed c WS W N V. split; [|exact V]. intros I. apply in_map_iff in I as (c' & E & I). apply N. apply in_map_iff. exists c'. split; [|exact I].
  apply opcert_message_inj; [exact (proj1 (Forall_forall _ _) WS c' I)|exact W|exact E].
Qed.
Print Assumptions C46_tampering_is_forgery.
(** The CBOR forms: [hot key, sequence number, period, signature], and the pair with the cold key; both determine everything in them. *)
Theorem C46_serialize : forall c vkey, opcert_wf c -> bytesN 32 vkey ->
  denotes (opcert_serialize c) (CArray [CBytes (oc_hot c); CUint (oc_seq c); CUint (oc_period c); CBytes (oc_sigma c)]) /\
  denotes (opcert_serialize_with c vkey) (CArray [CArray [CBytes (oc_hot c); CUint (oc_seq c); CUint (oc_period c); CBytes (oc_sigma c)]; CBytes vkey]).
Proof.
  intros c vkey (H & S & P & G) V. unfold bytesN, u64 in *. destruct H as [HL HB], G as [GL GB], V as [VL VB].
  assert (O : cbor_ok (opcert_item c)).
  { unfold opcert_item. cbn [cbor_ok fold_right]. split; [unfold zlen; cbn [length]; lia|]. repeat split; solve [assumption|lia]. }
  split; apply encode_denotes; [exact O|]. cbn [cbor_ok fold_right]. split; [unfold zlen; cbn [length]; lia|]. split; [exact O|]. repeat split; solve [assumption|lia].
Qed.
Print Assumptions C46_serialize.
Theorem C46_serialize_injective : forall c c' vkey vkey', opcert_wf c -> opcert_wf c' -> bytesN 32 vkey -> bytesN 32 vkey' ->
  (opcert_serialize c = opcert_serialize c' -> c = c') /\ (opcert_serialize_with c vkey = opcert_serialize_with c' vkey' -> c = c' /\ vkey = vkey').
Proof.
  intros c c' vkey vkey' W W' V V'. destruct (C46_serialize c vkey W V) as [A B], (C46_serialize c' vkey' W' V') as [A' B'].
  split; intros E; [rewrite E in A; unfold denotes in *; rewrite A in A'; injection A'; clear|rewrite E in B; unfold denotes in *; rewrite B in B'; injection B'; clear]; destruct c, c'; cbn; intros; subst; auto.
Qed.
(** The issue counter: last value set plus the increments minus the decrements since, modulo 2^64; its CBOR form is [count, cold key]. *)
Fixpoint counter_spec (c : Z) (h : list counter_op) : Z :=
  match h with [] => c | Increment :: r => counter_spec (c + 1) r | Decrement :: r => counter_spec (c - 1) r | SetCount n :: r => counter_spec n r end.
Theorem C46_counter : forall h c, u64 c -> u64 (fold_left counter_step h c) /\ fold_left counter_step h c = counter_spec c h mod 2 ^ 64.
Proof.
  assert (G : forall h c c', c = c' mod 2 ^ 64 -> fold_left counter_step h c = counter_spec c' h mod 2 ^ 64).
  { induction h as [|o h IH]; intros c c' E; [exact E|]. cbn [fold_left]. destruct o; cbn [counter_spec counter_step]; apply IH; unfold to_u64; [rewrite E, Zplus_mod_idemp_l; reflexivity|rewrite E, Zminus_mod_idemp_l; reflexivity|reflexivity]. }
  intros h c U. rewrite (G h c c) by (rewrite Z.mod_small; [reflexivity|exact U]). split; [|reflexivity]. unfold u64. apply Z.mod_pos_bound. lia.
Qed.
Print Assumptions C46_counter.
Theorem C46_counter_serialize : forall count vkey, u64 count -> bytesN 32 vkey -> denotes (counter_serialize count vkey) (CArray [CUint count; CBytes vkey]).
Proof. intros count vkey U [B L]. unfold u64 in U. apply encode_denotes. cbn [cbor_ok fold_right]. split; [unfold zlen; cbn [length]; lia|]. repeat split; solve [assumption|lia]. Qed.
(** A certificate made without a key, then signed any number of times (by whichever cold keys): it certifies the same fields throughout, the last signature is the one it carries,
    over the message of those fields; never signed, it carries 64 zero bytes and serialises all the same. *)
Theorem C46_signings : forall SK (sign : SK -> list Z -> list Z) hot count period sks,
  let c := fold_left (opcert_sign SK sign) sks (opcert_unsigned hot count period) in
  certified c = (hot, count, period) /\
  (bytesN 32 hot -> u64 count -> u64 period -> exists m, length m = 48%nat /\ firstn 32 m = hot /\ bev 256 (firstn 8 (skipn 32 m)) = count /\ bev 256 (skipn 40 m) = period /\
     (sks = [] -> oc_sigma c = repeat 0 64 /\ denotes (opcert_serialize c) (CArray [CBytes hot; CUint count; CUint period; CBytes (repeat 0 64)])) /\
     forall earlier sk, sks = earlier ++ [sk] -> oc_sigma c = sign sk m /\
       (bytesN 64 (sign sk m) -> denotes (opcert_serialize c) (CArray [CBytes hot; CUint count; CUint period; CBytes (sign sk m)]))).
Proof.
  intros SK sign hot n p sks c. assert (C : certified c = (hot, n, p)).
  { subst c. generalize (opcert_unsigned hot n p) (eq_refl : certified (opcert_unsigned hot n p) = (hot, n, p)). induction sks as [|sk sks IH]; intros c E; [exact E|]. cbn [fold_left]. apply IH. exact E. }
  split; [exact C|]. intros [Hb Hl] Un Up. set (m := opcert_message (opcert_unsigned hot n p)). exists m. subst m. unfold opcert_message. cbn [oc_hot oc_seq oc_period opcert_unsigned]. unfold zlen in Hl. rewrite <- app_assoc.
  assert (L32 : length hot = 32%nat) by lia. assert (Ln : length (pack_be 8 n) = 8%nat) by apply pack_be_length. assert (Lp : length (pack_be 8 p) = 8%nat) by apply pack_be_length.
  split; [rewrite !app_length, L32, Ln, Lp; reflexivity|]. split; [apply firstn_app_exact; lia|].
  assert (S32 : skipn 32 (hot ++ pack_be 8 n ++ pack_be 8 p) = pack_be 8 n ++ pack_be 8 p) by (apply skipn_app_exact; lia).
  split; [rewrite S32, firstn_app_exact by lia; rewrite pack_be_value; apply Z.mod_small; unfold u64 in *; cbn; lia|].
  split; [rewrite app_assoc, skipn_app_exact by (rewrite app_length; lia); rewrite pack_be_value; apply Z.mod_small; unfold u64 in *; cbn; lia|].
  assert (D : forall s, bytesN 64 s -> oc_sigma c = s -> denotes (opcert_serialize c) (CArray [CBytes hot; CUint n; CUint p; CBytes s])).
  { intros s B E. injection C as C1 C2 C3. rewrite <- C1, <- C2, <- C3, <- E. apply (C46_serialize c hot); [|split; [assumption|unfold zlen; lia]].
    unfold opcert_wf. rewrite C1, C2, C3, E. repeat split; try assumption; try apply B; try (unfold zlen; lia); try apply Un; apply Up. }
  split.
  - intros E. assert (G : oc_sigma c = repeat 0 64) by (subst c; rewrite E; reflexivity). split; [exact G|]. apply D; [apply bytesN_b; reflexivity|exact G].
  - intros earlier sk E. assert (G : oc_sigma c = sign sk (hot ++ pack_be 8 n ++ pack_be 8 p)).
    { subst c. rewrite E, fold_left_app. cbn [fold_left]. 
      assert (C' : certified (fold_left (opcert_sign SK sign) earlier (opcert_unsigned hot n p)) = (hot, n, p)).
      { clear. generalize (opcert_unsigned hot n p) (eq_refl : certified (opcert_unsigned hot n p) = (hot, n, p)). induction earlier as [|k sks IH]; intros c E; [exact E|]. cbn [fold_left]. apply IH. exact E. }
      revert C'. generalize (fold_left (opcert_sign SK sign) earlier (opcert_unsigned hot n p)). intros d C'. unfold opcert_sign, opcert_message. cbn [oc_sigma]. f_equal. unfold certified in C'. injection C' as C1 C2 C3. rewrite C1, C2, C3, <- app_assoc. reflexivity. }
    split; [exact G|]. intros B. apply D; assumption.
Qed.
Print Assumptions C46_signings.
Example C46_ex : let c := opcert_generate (list Z) (fun sk m => firstn 64 (sk ++ m ++ repeat 0 64)) (repeat 7 32) 258 3 [1; 2] in
  opcert_wf c /\ opcert_message c = repeat 7 32 ++ [0; 0; 0; 0; 0; 0; 1; 2; 0; 0; 0; 0; 0; 0; 0; 3] /\
  fold_left counter_step [SetCount 5; Increment; Decrement; Decrement] 0 = 4 /\ fold_left counter_step [Decrement] 0 = 2 ^ 64 - 1.
Proof. split; [|split; [reflexivity|split; reflexivity]]. split; [apply bytesN_b; reflexivity|]. split; [unfold u64; cbn; lia|]. split; [unfold u64; cbn; lia|apply bytesN_b; reflexivity]. Qed.

(** ** C51 *)
(** What the API promises of every registration: a margin in [0,1] with a positive denominator (at most 4096) and a cost of at least 170 ADA. *)
Definition valid_registration (p : pool_params) : Prop :=
  (0 <= rnum (pp_margin p) <= rden (pp_margin p)) /\ 1 <= rden (pp_margin p) <= 4096 /\ 170000000 <= pp_cost p.
(** A margin the approximation can handle: out of [0,1] (rejected), or with at most 62 binary digits after the point. *)
Definition margin_supported (f : dbl) : Prop :=
  match f with DFin m e => - 62 <= e \/ ~ (0 <= q_of m e <= 1)%Q | DInf _ => True | DNaN => False end.
(** A well-behaved call: as above for margins, and a cost within the limit. *)
Definition call_ok (o : reg_op) : Prop :=
  match o with
  | SetCost n => 170000000 <= n
  | SetMargin f => margin_supported f
  | AddOwner a => length (ra_hash a) = 28%nat
  | SetMetadata _ h => (32 <= length h)%nat
  | _ => True
  end.
Lemma unit_bool m e : d_neg (DFin m e) || d_gt1 (DFin m e) = false <-> (0 <= q_of m e <= 1)%Q.
Proof.
  rewrite q_of_pair. cbn [d_neg d_gt1]. rewrite orb_false_iff. unfold Qle. cbn [Qnum Qden]. rewrite !Z2Pos.id by (apply Z.pow_pos_nonneg; lia). rewrite !Z.mul_1_r, !Z.mul_1_l, Z.mul_0_l.
  assert (P : 0 < 2 ^ Z.max 0 e) by (apply Z.pow_pos_nonneg; lia).
  assert (S : 0 <= m * 2 ^ Z.max 0 e <-> 0 <= m) by (split; intros; nia). rewrite S.
  destruct (Z.leb_spec 0 e) as [E|E]; [rewrite (Z.max_r 0 e), (Z.max_l 0 (- e)) by lia|rewrite (Z.max_l 0 e), (Z.max_r 0 (- e)) by lia]; rewrite Z.ltb_ge, Z.ltb_ge, ?Z.pow_0_r, ?Z.mul_1_r; tauto.
Qed.
Lemma checked_margin_ok fuel f : margin_supported f -> (62 <= fuel)%nat ->
  checked_margin fuel f = Some Throw \/
  exists m e p q, f = DFin m e /\ checked_margin fuel f = Some (Ok {| rnum := p; rden := q |}) /\ rational_approx fuel f 4096 = Some (Ok (p, q)) /\ 0 <= p <= q /\ 1 <= q <= 4096 /\ (Qabs (frac p q - q_of m e) <= frac 1 4096)%Q.
Proof.
  intros MS F. unfold checked_margin. destruct (d_neg f || d_gt1 f) eqn:C; [left; reflexivity|]. right. destruct f as [m e|[]|]; [|discriminate|discriminate|contradiction].
  apply unit_bool in C. destruct MS as [EB|]; [|contradiction]. assert (R : in_range m e).
  { split; [exact EB|]. rewrite q_of_pair in C. destruct C as [C0 C1]. unfold Qle in C0, C1. cbn [Qnum Qden] in C0, C1. rewrite Z2Pos.id in C1 by (apply Z.pow_pos_nonneg; lia).
    pose proof (Z.pow_pos_nonneg 2 (Z.max 0 e) ltac:(lia) ltac:(lia)). pose proof (Z.pow_le_mono_r 2 (Z.max 0 (- e)) 62 ltac:(lia) ltac:(lia)). assert (0 <= m) by nia. rewrite Z.abs_eq by assumption. lia. }
  destruct (C47_rational_bounded m e 4096 fuel R ltac:(lia) F) as (p & q & E & QB & _ & _ & _ & U). specialize (U C). destruct (C47_rational_accurate m e 4096 fuel R ltac:(lia) F) as (p' & q' & E' & _ & A & _).
  rewrite E in E'. assert (EQ : (p', q') = (p, q)) by congruence. injection EQ as -> ->.
  destruct U as [U0 U1]. unfold frac, Qle in U0, U1. cbn [Qnum Qden] in U0, U1. rewrite Z2Pos.id in U1 by lia.
  exists m, e, p, q. split; [reflexivity|]. rewrite E. cbn [rbind fst snd]. unfold lift, to_u64. rewrite !Z.mod_small by lia. repeat split; try reflexivity; try lia; exact A.
Qed.

(** Whatever sequence of well-behaved calls is made (exceptions being caught), the object stays valid, no call hangs or is undefined. *)
Theorem C51_registration_invariant : forall H224 H256 fuel p ops, (62 <= fuel)%nat -> valid_registration p -> Forall call_ok ops ->
  exists q, reg_run H224 H256 fuel p ops = Some (Ok q) /\ valid_registration q.
Proof.
  intros H1 H2 fuel p ops F V C. revert p V. induction C as [|o ops O C IH]; intros p V; [exists p; split; [reflexivity|exact V]|]. cbn [reg_run].
  assert (ST : (exists p', reg_step H1 H2 fuel p o = Some (Ok p') /\ valid_registration p') \/ reg_step H1 H2 fuel p o = Some Throw).
  { destruct o; cbn [reg_step]; try (left; eexists; split; [reflexivity|exact V]).
    - left. eexists. split; [reflexivity|]. destruct V as (V1 & V2 & V3). split; [exact V1|split; [exact V2|exact O]].
    - destruct (checked_margin_ok fuel f O F) as [E|(m & e & a & b & -> & E & _ & A & B & _)]; rewrite E; [right; reflexivity|]. left. eexists. split; [reflexivity|]. destruct V as (_ & _ & V3). split; [exact A|split; [exact B|exact V3]].
    - left. unfold make_array, RewardsAddress_toBytesRaw. cbn [call_ok] in O. rewrite O. cbn. eexists. split; [reflexivity|exact V].
    - left. unfold make_array. cbn [call_ok] in O. destruct (Nat.ltb_spec (length hash) 32); [lia|]. cbn. eexists. split; [reflexivity|exact V]. }
  destruct ST as [(p' & E & V')|E]; rewrite E; [exact (IH p' V')|exact (IH p V)].
Qed.
Print Assumptions C51_registration_invariant.
(** The constructor: rejects a margin outside [0,1] and a cost below the minimum, and otherwise builds a valid registration whose
    margin is within 1/4096 of the one asked for. *)
Theorem C51_constructor : forall H224 H256 fuel vkey vrf pledge cost f account, (62 <= fuel)%nat -> margin_supported f ->
  let r := registration_new H224 H256 fuel vkey vrf pledge cost f account in
  (exists m e q, f = DFin m e /\ (0 <= q_of m e <= 1)%Q /\ 170000000 <= cost /\ r = Some (Ok q) /\ valid_registration q /\
     (Qabs (frac (rnum (pp_margin q)) (rden (pp_margin q)) - q_of m e) <= frac 1 4096)%Q /\
     pp_pledge q = pledge /\ pp_cost q = cost /\ pp_owners q = [] /\ pp_relays q = [] /\ pp_metadata q = None) \/
  (r = Some Throw /\ (cost < 170000000 \/ forall m e, f = DFin m e -> ~ (0 <= q_of m e <= 1)%Q)).
Proof.
  intros H1 H2 fuel vkey vrf pledge cost f account F MS. cbn zeta. unfold registration_new. destruct (checked_margin_ok fuel f MS F) as [E|(m & e & p & q & -> & E & RA & A & B & AC)].
  - unfold checked_margin in E. destruct (d_neg f || d_gt1 f) eqn:C.
    + right. split; [reflexivity|]. right. intros m e -> U. apply unit_bool in U. congruence.
    + exfalso. destruct (rational_approx fuel f 4096) as [[[]| |]|] eqn:RA; try discriminate. destruct f as [m e|[]|]; [|discriminate|discriminate|contradiction]. apply unit_bool in C. destruct MS as [EB|]; [|contradiction].
      destruct (C47_rational_bounded m e 4096 fuel) as (p & q & E' & _); [|lia|exact F|congruence]. split; [exact EB|]. rewrite q_of_pair in C. destruct C as [C0 C1]. unfold Qle in C0, C1. cbn [Qnum Qden] in C0, C1. rewrite Z2Pos.id in C1 by (apply Z.pow_pos_nonneg; lia).
      pose proof (Z.pow_pos_nonneg 2 (Z.max 0 e) ltac:(lia) ltac:(lia)). pose proof (Z.pow_le_mono_r 2 (Z.max 0 (- e)) 62 ltac:(lia) ltac:(lia)). assert (0 <= m) by nia. rewrite Z.abs_eq by assumption. lia.
  - unfold checked_margin in E. destruct (d_neg (DFin m e) || d_gt1 (DFin m e)) eqn:C; [discriminate|]. unfold MIN_POOL_COST_LOVELACE. destruct (Z.ltb_spec cost 170000000) as [L|G].
    + right. split; [reflexivity|left; exact L].
    + left. rewrite RA. exists m, e. eexists. split; [reflexivity|]. split; [apply unit_bool, C|]. split; [exact G|]. split; [reflexivity|]. unfold valid_registration. cbn. unfold to_u64. rewrite !Z.mod_small by lia. repeat split; try lia; try exact AC.
Qed.
Print Assumptions C51_constructor.
Example C51_ex : margin_supported (DFin 5764607523034235 (- 59)) /\ (* 0.01 *)
  exists q, registration_new (fun b => b) (fun b => b) 62 (repeat 1 32) (repeat 2 32) 1000 340000000 (DFin 5764607523034235 (- 59)) {| ra_header := 225; ra_hash := repeat 3 28 |} = Some (Ok q) /\
    pp_margin q = {| rnum := 1; rden := 100 |}.
Proof. split; [left; lia|]. eexists. split; [vm_compute; reflexivity|reflexivity]. Qed.

(** Each field holds what the last call that sets it gave; relays and owners accumulate. *)
Fixpoint last_set {A} (pick : reg_op -> option A) (init : A) (ops : list reg_op) : A :=
  match ops with [] => init | o :: r => last_set pick (match pick o with Some a => a | None => init end) r end.
Definition relay_given (o : reg_op) : list relay :=
  match o with
  | AddRelayMulti d => [RMulti d] | AddRelayName d p => [RName d (Some p)]
  | AddRelayV4 i p => [RAddr (Some i) None (Some p)] | AddRelayV6 i p => [RAddr None (Some i) (Some p)] | _ => []
  end.
Theorem C51_fields : forall H224 H256 fuel ops p q, reg_run H224 H256 fuel p ops = Some (Ok q) ->
  pp_operator q = last_set (fun o => match o with SetOperatorKey k => Some (firstn 28 (H224 k)) | SetOperatorId i => Some i | _ => None end) (pp_operator p) ops /\
  pp_vrf q = last_set (fun o => match o with SetVrfKey k => Some (firstn 32 (H256 k)) | _ => None end) (pp_vrf p) ops /\
  pp_pledge q = last_set (fun o => match o with SetPledge n => Some n | _ => None end) (pp_pledge p) ops /\
  pp_cost q = last_set (fun o => match o with SetCost n => Some n | _ => None end) (pp_cost p) ops /\
  pp_account q = last_set (fun o => match o with SetRewardAccount a => Some (ra_header a :: ra_hash a) | _ => None end) (pp_account p) ops /\
  pp_metadata q = last_set (fun o => match o with SetMetadata u h => Some (Some {| pm_url := u; pm_hash := firstn 32 h |}) | _ => None end) (pp_metadata p) ops /\
  pp_relays q = pp_relays p ++ concat (map relay_given ops) /\
  (StronglySorted (fun a b => lex_lt a b = true) (pp_owners p) -> StronglySorted (fun a b => lex_lt a b = true) (pp_owners q) /\
   forall h, In h (pp_owners q) <-> In h (pp_owners p) \/ exists a, In (AddOwner a) ops /\ h = firstn 28 (ra_hash a)).
Proof.
  intros H1 H2 fuel ops. induction ops as [|o ops IH]; intros p q E.
  { cbn [reg_run] in E. unfold lift in E. assert (Q : q = p) by congruence. subst q. cbn. rewrite app_nil_r. repeat split; try tauto. intros [|(a & [] & _)]; assumption. }
  cbn [reg_run] in E. destruct (reg_step H1 H2 fuel p o) as [[p'| |]|] eqn:S; try discriminate.
  - specialize (IH p' q E). assert (X : forall (P : Prop), P -> P) by auto.
    destruct o; cbn [reg_step] in S; cbn [last_set map concat relay_given]; rewrite ?app_nil_l;
      try (unfold lift in S; assert (Q : p' = _) by (symmetry; exact (ok_inj _ _ (f_equal (fun o => match o with Some x => x | None => Throw end) S))); subst p'; cbn in IH; destruct IH as (I1 & I2 & I3 & I4 & I5 & I6 & I7 & I8);
           repeat (split; [first [assumption|rewrite I7, <- app_assoc; reflexivity]|]); intros SS; destruct (I8 SS) as [S1 S2]; split; [exact S1|]; intros h; rewrite S2; split; intros [?|(a' & IN & ->)]; [auto|right; exists a'; split; [right; exact IN|reflexivity]|auto|right; exists a'; split; [destruct IN as [IN|IN]; [discriminate IN|exact IN]|reflexivity]]).
    + destruct (checked_margin fuel f) as [[r| |]|]; try discriminate. cbn [rbind] in S. unfold lift in S. assert (Q : p' = _) by (symmetry; exact (ok_inj _ _ (f_equal (fun o => match o with Some x => x | None => Throw end) S))). subst p'. cbn in IH. destruct IH as (I1 & I2 & I3 & I4 & I5 & I6 & I7 & I8).
      repeat (split; [assumption|]). intros SS. destruct (I8 SS) as [S1 S2]. split; [exact S1|]. intros h. rewrite S2. split; intros [?|(a' & IN & ->)]; [auto|right; exists a'; split; [right; exact IN|reflexivity]|auto|right; exists a'; split; [destruct IN as [IN|IN]; [discriminate IN|exact IN]|reflexivity]].
    + unfold make_array in S. destruct (length (RewardsAddress_toBytesRaw a) <? 28)%nat; [discriminate|]. unfold lift in S. cbn [rbind] in S. assert (Q : p' = _) by (symmetry; exact (ok_inj _ _ (f_equal (fun o => match o with Some x => x | None => Throw end) S))). subst p'. cbn in IH. destruct IH as (I1 & I2 & I3 & I4 & I5 & I6 & I7 & I8).
      repeat (split; [assumption|]). intros SS. pose proof (insert_sorted lex_lt lex_st (firstn 28 (RewardsAddress_toBytesRaw a)) (pp_owners p) SS) as S0. assert (I0 : forall h, In h (set_insert lex_lt (firstn 28 (RewardsAddress_toBytesRaw a)) (pp_owners p)) <-> h = firstn 28 (RewardsAddress_toBytesRaw a) \/ In h (pp_owners p)) by (intros h; apply (insert_in lex_lt lex_st)). destruct (I8 S0) as [S1 S2]. split; [exact S1|]. intros h. rewrite S2, I0. unfold RewardsAddress_toBytesRaw.
      split; [intros [[->|?]|(a' & IN & ->)]; [right; exists a; split; [left; reflexivity|reflexivity]|auto|right; exists a'; split; [right; exact IN|reflexivity]]|intros [?|(a' & [IN|IN] & ->)]; [auto|injection IN as ->; auto|right; exists a'; auto]].
    + unfold make_array in S. destruct (length hash <? 32)%nat; [discriminate|]. unfold lift in S. cbn [rbind] in S. assert (Q : p' = _) by (symmetry; exact (ok_inj _ _ (f_equal (fun o => match o with Some x => x | None => Throw end) S))). subst p'. cbn in IH. destruct IH as (I1 & I2 & I3 & I4 & I5 & I6 & I7 & I8).
      repeat (split; [assumption|]). intros SS. destruct (I8 SS) as [S1 S2]. split; [exact S1|]. intros h. rewrite S2. split; intros [?|(a' & IN & ->)]; [auto|right; exists a'; split; [right; exact IN|reflexivity]|auto|right; exists a'; split; [destruct IN as [IN|IN]; [discriminate IN|exact IN]|reflexivity]].
  - (* only setMargin throws, and it sets none of these fields *)
    specialize (IH p q E). destruct o; cbn [reg_step] in S; try discriminate; cbn [last_set map concat relay_given app].
    + destruct IH as (I1 & I2 & I3 & I4 & I5 & I6 & I7 & I8). repeat (split; [assumption|]). intros SS. destruct (I8 SS) as [S1 S2]. split; [exact S1|]. intros h. rewrite S2. split; intros [?|(a' & IN & ->)]; [auto|right; exists a'; split; [right; exact IN|reflexivity]|auto|right; exists a'; split; [destruct IN as [IN|IN]; [discriminate IN|exact IN]|reflexivity]].
    + unfold make_array in S. destruct (_ <? _)%nat; discriminate.
    + unfold make_array in S. destruct (_ <? _)%nat; discriminate.
Qed.
Print Assumptions C51_fields.

(** Refuted as stated: setCost takes any cost ... *)
Theorem C51_low_cost_refuted : forall H224 H256 fuel p n, n < 170000000 -> exists q, reg_run H224 H256 fuel p [SetCost n] = Some (Ok q) /\ pp_cost q = n /\ ~ valid_registration q.
Proof. intros. eexists. split; [reflexivity|]. split; [reflexivity|]. unfold valid_registration. cbn. lia. Qed.
(** ... a NaN margin passes both checks and never returns ... *)
Theorem C51_nan_margin_refuted : forall H224 H256 fuel p, reg_run H224 H256 fuel p [SetMargin DNaN] = None.
Proof. intros. cbn [reg_run reg_step checked_margin d_neg d_gt1 orb]. rewrite C47_nan_never_returns_refuted by lia. reflexivity. Qed.
(** ... the margin 0.0003 (the nearest double) divides by zero ... *)
Theorem C51_small_margin_crashes_refuted : forall H224 H256 p, reg_run H224 H256 64 p [SetMargin (DFin 5534023222112865 (- 64))] = Some UB.
Proof. intros. cbn [reg_run reg_step]. assert (E : checked_margin 64 (DFin 5534023222112865 (- 64)) = Some UB) by (vm_compute; reflexivity). rewrite E. reflexivity. Qed.
(** ... and the margin 0.0007 (again the nearest double) is recorded as (2^64 - 1)/1429. *)
Theorem C51_small_margin_wrong_refuted : forall H224 H256 p, exists q, reg_run H224 H256 63 p [SetMargin (DFin 6456360425798343 (- 63))] = Some (Ok q) /\
  pp_margin q = {| rnum := 2 ^ 64 - 1; rden := 1429 |} /\ ~ valid_registration q.
Proof.
  intros. assert (E : checked_margin 63 (DFin 6456360425798343 (- 63)) = Some (Ok {| rnum := 2 ^ 64 - 1; rden := 1429 |})) by (vm_compute; reflexivity).
  cbn [reg_run reg_step]. rewrite E. cbn [rbind]. eexists. split; [reflexivity|]. split; [reflexivity|]. unfold valid_registration. cbn [pp_margin rden rnum]. intros (X & _). lia.
Qed.
Print Assumptions C51_small_margin_wrong_refuted.
(** A registration with an IPv6 relay cannot be serialised at all. *)
Theorem C51_ipv6_unserialisable_refuted : forall H224 H256 fuel p ip port ops q, reg_run H224 H256 fuel p (AddRelayV6 ip port :: ops) = Some (Ok q) -> registration_serialize q = Throw.
Proof.
  intros H1 H2 fuel p ip port ops q E. destruct (C51_fields _ _ _ _ _ _ E) as (_ & _ & _ & _ & _ & _ & R & _). unfold registration_serialize, serialize. cbn [cert_ser]. rewrite R. cbn [map concat relay_given].
  assert (G : forall l r, mapM relay_ser (l ++ RAddr None (Some ip) (Some port) :: r) = Throw).
  { induction l as [|x l IH]; intros r; [reflexivity|]. cbn [app mapM]. destruct x as [|[?|] [?|] ?|? ?|?]; cbn [relay_ser bind]; try reflexivity; rewrite IH; reflexivity. }
  cbn [app]. rewrite G. reflexivity.
Qed.
Print Assumptions C51_ipv6_unserialisable_refuted.

(** ** C50 *)
Section Vrf.
Variable ed_pub : list Z -> list Z.
Hypothesis ed_pub_len : forall s, length (ed_pub s) = 32%nat.
(** The key of any seed: the seed and then the public key; it is valid and its public key is that of the seed. *)
Theorem C50_from_seed : forall seed, length seed = 32%nat ->
  let sk := vrf_fromSeed ed_pub seed in length sk = 64%nat /\ firstn 32 sk = seed /\ vrf_publicKey sk = ed_pub seed /\ vrf_isValid ed_pub sk = true.
Proof.
  intros seed L sk. unfold sk, vrf_fromSeed, vrf_publicKey, vrf_isValid. assert (F : firstn 32 (seed ++ ed_pub seed) = seed) by (apply firstn_app_exact; symmetry; exact L).
  assert (S : skipn 32 (seed ++ ed_pub seed) = ed_pub seed) by (apply skipn_app_exact; symmetry; exact L).
  rewrite app_length, L, ed_pub_len. split; [reflexivity|]. split; [exact F|]. rewrite S. split; [apply firstn_all2; rewrite ed_pub_len; lia|]. change (32 + 32 - 32)%nat with 32%nat. rewrite S, F. apply zlist_eqb_refl.
Qed.
(** The public key of any 64 bytes is their trailing half; they are valid exactly when that is the public key of the leading half. *)
Theorem C50_valid_iff : forall seed pk, length seed = 32%nat -> length pk = 32%nat -> vrf_publicKey (seed ++ pk) = pk /\ (vrf_isValid ed_pub (seed ++ pk) = true <-> pk = ed_pub seed).
Proof.
  intros seed pk LS LP. unfold vrf_publicKey, vrf_isValid. rewrite app_length, LS, LP. change (32 + 32 - 32)%nat with 32%nat. rewrite firstn_app_exact, skipn_app_exact by (symmetry; exact LS). split; [apply firstn_all2; lia|]. apply zlist_eqb_spec.
Qed.
(** Hence the valid keys are exactly those fromSeed makes. *)
Theorem C50_valid_keys : forall sk, length sk = 64%nat -> (vrf_isValid ed_pub sk = true <-> exists seed, length seed = 32%nat /\ sk = vrf_fromSeed ed_pub seed).
Proof.
  intros sk L. split; [|intros (seed & LS & ->); apply C50_from_seed; exact LS]. intros V. exists (firstn 32 sk). assert (LF : length (firstn 32 sk) = 32%nat) by (rewrite firstn_length; lia). split; [exact LF|].
  rewrite <- (firstn_skipn 32 sk) in V. apply C50_valid_iff in V; [|exact LF|rewrite skipn_length; lia]. unfold vrf_fromSeed. rewrite <- V. symmetry. apply firstn_skipn.
Qed.
(** A valid key's signatures verify under its public key. *)
Theorem C50_signatures : forall (ed_sign : list Z -> list Z -> list Z) (ed_verify : list Z -> list Z -> list Z -> bool), (forall s m, ed_verify (ed_pub s) m (ed_sign s m) = true) ->
  forall sk m, length sk = 64%nat -> vrf_isValid ed_pub sk = true -> ed_verify (vrf_publicKey sk) m (vrf_sign ed_sign sk m) = true.
Proof. intros ed_sign ed_verify C sk m L V. apply C50_valid_keys in V as (seed & LS & ->); [|exact L]. destruct (C50_from_seed seed LS) as (_ & F & P & _). unfold vrf_sign. rewrite F, P. apply C. Qed.
End Vrf.
Print Assumptions C50_from_seed. Print Assumptions C50_valid_keys. Print Assumptions C50_signatures.
Example C50_ex : let pub := fun s => map (fun x => 255 - x) s in
  vrf_isValid pub (vrf_fromSeed pub (repeat 9 32)) = true /\ vrf_isValid pub (repeat 9 64) = false /\ vrf_publicKey (vrf_fromSeed pub (repeat 9 32)) = repeat 246 32.
Proof. repeat split. Qed.

(** ** C57 *)
Section VrfProofs.
Variables (ed_pub : list Z -> list Z) (prove : list Z -> list Z -> option (list Z)) (vverify : list Z -> list Z -> list Z -> bool) (to_hash : list Z -> option (list Z)).
Hypothesis ed_pub_len : forall s, length (ed_pub s) = 32%nat.
(** What is assumed of libsodium's VRF: for a key made from a seed, proofs exist, are 80 bytes, verify and have a hash; verified proofs of
    one message have one hash (uniqueness). *)
Definition vrf_scheme : Prop := forall seed m, length seed = 32%nat ->
  exists p h, prove (seed ++ ed_pub seed) m = Some p /\ length p = 80%nat /\ vverify (ed_pub seed) m p = true /\ to_hash p = Some h /\
    forall p', length p' = 80%nat -> vverify (ed_pub seed) m p' = true -> to_hash p' = Some h.
(** A valid key's proof verifies with both verifyProof functions, and any proof that verifies has the hash the key itself computes. *)
Theorem C57_proofs : vrf_scheme -> forall sk m, length sk = 64%nat -> vrf_isValid ed_pub sk = true ->
  exists p h, vrf_constructProof prove sk m = Ok p /\ length p = 80%nat /\ vrf_verifyProof vverify sk m p = Ok true /\ vrf_pk_verifyProof vverify (vrf_publicKey sk) m p = Ok true /\
    vrf_hash prove to_hash sk m = Ok h /\ forall p', length p' = 80%nat -> vrf_pk_verifyProof vverify (vrf_publicKey sk) m p' = Ok true -> vrf_proofToHash to_hash p' = Ok h.
Proof.
  intros VS sk m L V. apply (C50_valid_keys ed_pub ed_pub_len) in V as (seed & LS & ->); [|exact L]. destruct (C50_from_seed ed_pub ed_pub_len seed LS) as (_ & _ & P & _). unfold vrf_fromSeed in *.
  destruct (VS seed m LS) as (p & h & E1 & E2 & E3 & E4 & U). exists p, h. unfold vrf_constructProof, vrf_verifyProof, vrf_hash, vrf_proofToHash, vrf_constructProof, vrf_pk_verifyProof. rewrite E1, P, E2.
  cbn [want bind]. rewrite E4. change (80 <? 80)%nat with false. cbn [want]. cbn beta iota. assert (FP : firstn 80 p = p) by (apply firstn_all2; lia). rewrite FP, E3. do 5 (split; [reflexivity|]). intros p' L' V'. rewrite L' in V'. change (80 <? 80)%nat with false in V'. cbn beta iota in V'.
  rewrite firstn_all2 in V' by lia. apply ok_inj in V'. rewrite (U p' ltac:(lia) V'). reflexivity.
Qed.
(** Refuted for arbitrary byte strings: the public key's verifyProof reads past the end of a proof shorter than 80 bytes ... *)
Theorem C57_short_proof_refuted : forall pk m p, (length p < 80)%nat -> vrf_pk_verifyProof vverify pk m p = UB.
Proof. intros pk m p L. unfold vrf_pk_verifyProof. destruct (Nat.ltb_spec (length p) 80); [reflexivity|lia]. Qed.
(** ... and accepts any bytes after a valid proof. *)
Theorem C57_trailing_bytes_refuted : forall pk m p extra, length p = 80%nat -> vrf_pk_verifyProof vverify pk m (p ++ extra) = vrf_pk_verifyProof vverify pk m p.
Proof. intros pk m p extra L. unfold vrf_pk_verifyProof. rewrite app_length, L. destruct (Nat.ltb_spec (80 + length extra) 80); [lia|]. change (80 <? 80)%nat with false. cbn beta iota. rewrite firstn_app_exact by (symmetry; exact L). rewrite (firstn_all2 p) by lia. reflexivity. Qed.
End VrfProofs.
Print Assumptions C57_proofs. Print Assumptions C57_short_proof_refuted. Print Assumptions C57_trailing_bytes_refuted.
(** a toy scheme meeting the assumptions *)
Example C57_ex : vrf_scheme (fun s => firstn 32 (map (fun x => 255 - x) s ++ repeat 0 32)) (fun sk m => Some (skipn 32 sk ++ repeat 1 48 ++ skipn 64 sk)) (fun pk m p => zlist_eqb p (pk ++ repeat 1 48)) (fun p => Some (p ++ [0])).
Proof.
  intros seed m L. set (pk := firstn 32 (map (fun x => 255 - x) seed ++ repeat 0 32)). assert (LP : length pk = 32%nat) by (unfold pk; rewrite firstn_length, app_length, map_length, repeat_length; lia).
  exists (pk ++ repeat 1 48). eexists. rewrite (skipn_app_exact seed pk 32 (eq_sym L)). rewrite skipn_all2 with (n := 64%nat) by (rewrite app_length; lia). rewrite app_nil_r. split; [reflexivity|]. split; [rewrite app_length, repeat_length; lia|]. split; [apply zlist_eqb_refl|]. split; [reflexivity|].
  intros p' _ V. apply zlist_eqb_spec in V. subst p'. reflexivity.
Qed.
