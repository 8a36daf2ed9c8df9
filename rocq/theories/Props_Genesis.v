(** Property C49 (genesis files). *)
From Coq Require Import String SpecFloat.
From Verif Require Import Base BaseLemmas Spec_Genesis Model_Genesis Proof_Genesis Data_Genesis.
Local Open Scope list_scope.
Ltac Zify.zify_post_hook ::= idtac.

(** ** Reading: whatever value is a genesis file for the parameters is read as those parameters. *)
Theorem C49_byron_reads : forall p j, by_gp_ok p -> by_gp_file p j -> by_gp_from j = Ok p.
Proof. exact by_gp_read. Qed.
Theorem C49_alonzo_reads : forall p j, al_gp_ok p -> al_gp_file p j -> al_gp_from j = Ok p.
Proof. exact al_gp_read. Qed.
Theorem C49_conway_reads : forall p j, co_gp_ok p -> co_gp_file p j -> co_gp_from j = Ok p.
Proof. exact co_gp_read. Qed.
(** Shelley: every field but the slot length. *)
Theorem C49_shelley_reads : forall p j, sh_gp_ok p -> sh_gp_file p j -> exists q, sh_gp_from j = Ok q /\
  sh_gp_active_slots_coeff q = sh_gp_active_slots_coeff p /\ sh_gp_protocol_parameters q = sh_gp_protocol_parameters p /\ sh_gp_gen_delegs q = sh_gp_gen_delegs p /\
  sh_gp_update_quorum q = sh_gp_update_quorum p /\ sh_gp_network_id q = sh_gp_network_id p /\ sh_gp_max_lovelace_supply q = sh_gp_max_lovelace_supply p /\
  sh_gp_network_magic q = sh_gp_network_magic p /\ sh_gp_epoch_length q = sh_gp_epoch_length p /\ sh_gp_system_start q = sh_gp_system_start p /\
  sh_gp_slots_per_kes_period q = sh_gp_slots_per_kes_period p /\ sh_gp_max_kes_evolutions q = sh_gp_max_kes_evolutions p /\ sh_gp_security_param q = sh_gp_security_param p.
Proof. intros p j O H. exists (sh_as_read p). split; [exact (sh_gp_read p j O H)|]. repeat split. Qed.
(** The slot length that is read is the security parameter: wrong whenever the two differ, as on every public network (1 and 2160 on the main network). *)
Theorem C49_shelley_slot_length_refuted : forall p j, sh_gp_ok p -> sh_gp_file p j ->
  (exists q, sh_gp_from j = Ok q /\ sh_gp_slot_length q = sh_gp_security_param p) /\ (sh_gp_slot_length p <> sh_gp_security_param p -> sh_gp_from j <> Ok p).
Proof.
  intros p j O H. rewrite (sh_gp_read p j O H). split; [exists (sh_as_read p); split; reflexivity|]. intros N E. apply N. apply (f_equal (fun o => match o with Ok q => sh_gp_slot_length q | _ => 0 end)) in E. cbn in E. symmetry. exact E.
Qed.
Example C49_ex_mainnet : exists p, sh_gp_from shelley_mainnet = Ok p /\ sh_gp_slot_length p = 2160 /\ field shelley_mainnet "slotLength" (JUint 1) /\ sh_gp_security_param p = 2160 /\ sh_gp_epoch_length p = 432000.
Proof. eexists. split; [vm_compute; reflexivity|]. split; [reflexivity|]. split; [eexists; split; [reflexivity|vm_compute; reflexivity]|]. split; reflexivity. Qed.
Example C49_ex_others : is_ok (al_gp_from alonzo_mainnet) = true /\ is_ok (co_gp_from conway_mainnet) = true /\ is_ok (by_gp_from byron_mainnet) = true.
Proof. vm_compute. repeat split. Qed.
Print Assumptions C49_byron_reads. Print Assumptions C49_alonzo_reads. Print Assumptions C49_conway_reads. Print Assumptions C49_shelley_reads. Print Assumptions C49_shelley_slot_length_refuted.

(** ** Writing: the JSON written for the parameters is a genesis file for them (every era, Shelley included) ... *)
Theorem C49_writes : (forall p, by_gp_ok p -> by_gp_file p (by_gp_to p)) /\ (forall p, sh_gp_ok p -> sh_gp_file p (sh_gp_to p)) /\
  (forall p, al_gp_ok p -> al_gp_file p (al_gp_to p)) /\ (forall p, co_gp_ok p -> co_gp_file p (co_gp_to p)).
Proof.
  assert (N : forall l, fin false l) by (intros l E; discriminate).
  split; [|split; [|split]]; intros p O; [exact (by_gp_write false p O (N _))|exact (sh_gp_write false p O (N _))|exact (al_gp_write false p O (N _))|exact (co_gp_write false p O (N _))].
Qed.
(** ... and stays one when it goes through text, if its floating-point numbers are finite. *)
Definition all_finite (l : list F) : Prop := Forall (fun x => finite x = true) l.
Theorem C49_text_writes : (forall p, by_gp_ok p -> all_finite (by_gp_doubles p) -> by_gp_file p (reparse (by_gp_to p))) /\ (forall p, sh_gp_ok p -> all_finite (sh_gp_doubles p) -> sh_gp_file p (reparse (sh_gp_to p))) /\
  (forall p, al_gp_ok p -> all_finite (al_gp_doubles p) -> al_gp_file p (reparse (al_gp_to p))) /\ (forall p, co_gp_ok p -> all_finite (co_gp_doubles p) -> co_gp_file p (reparse (co_gp_to p))).
Proof.
  split; [|split; [|split]]; intros p O A; [exact (by_gp_write true p O (fun _ => A))|exact (sh_gp_write true p O (fun _ => A))|exact (al_gp_write true p O (fun _ => A))|exact (co_gp_write true p O (fun _ => A))].
Qed.
Print Assumptions C49_writes. Print Assumptions C49_text_writes.

(** ** Round trips, directly and through text *)
Theorem C49_byron_round_trip : forall p, by_gp_ok p -> by_gp_from (by_gp_to p) = Ok p /\ by_gp_from (reparse (by_gp_to p)) = Ok p.
Proof. intros p O. split; apply C49_byron_reads; try exact O; [apply C49_writes, O|]. apply C49_text_writes; [exact O|constructor]. Qed.
Theorem C49_alonzo_round_trip : forall p, al_gp_ok p -> al_gp_from (al_gp_to p) = Ok p /\ al_gp_from (reparse (al_gp_to p)) = Ok p.
Proof. intros p O. split; apply C49_alonzo_reads; try exact O; [apply C49_writes, O|]. apply C49_text_writes; [exact O|constructor]. Qed.
Theorem C49_conway_round_trip : forall p, co_gp_ok p -> co_gp_from (co_gp_to p) = Ok p /\ (all_finite (co_gp_doubles p) -> co_gp_from (reparse (co_gp_to p)) = Ok p).
Proof. intros p O. split; [apply C49_conway_reads; [exact O|apply C49_writes, O]|]. intros A. apply C49_conway_reads; [exact O|apply C49_text_writes; assumption]. Qed.
(** Shelley round-trips exactly when the slot length equals the security parameter. *)
Theorem C49_shelley_round_trip : forall p, sh_gp_ok p -> (sh_gp_from (sh_gp_to p) = Ok p <-> sh_gp_slot_length p = sh_gp_security_param p).
Proof.
  intros p O. destruct C49_writes as (_ & W & _). rewrite (sh_gp_read p _ O (W p O)). split.
  - intros E. apply (f_equal (fun o => match o with Ok q => sh_gp_slot_length q | _ => 0 end)) in E. cbn in E. symmetry. exact E.
  - intros E. destruct p. cbn in E. subst. reflexivity.
Qed.
Print Assumptions C49_byron_round_trip. Print Assumptions C49_alonzo_round_trip. Print Assumptions C49_conway_round_trip. Print Assumptions C49_shelley_round_trip.
(** The main network's parameters meet the hypotheses. *)
Example C49_ex_round_trip : exists p, co_gp_from conway_mainnet = Ok p /\ co_gp_from (reparse (co_gp_to p)) = Ok p /\ hd 0 (co_gp_plutus_v3_cost_model p) = 100788.
Proof. eexists. split; [vm_compute; reflexivity|]. split; vm_compute; reflexivity. Qed.
(** A number that is not finite does not survive the text: it is written as null, and reading throws. *)
Theorem C49_not_finite_refuted : forall p, finite (sh_gp_active_slots_coeff p) = false -> sh_gp_from (reparse (sh_gp_to p)) = Throw.
Proof. intros p H. unfold sh_gp_from. rewrite (at_field _ _ JNull); [reflexivity|]. replace JNull with (reparse (JFloat (sh_gp_active_slots_coeff p))) by (cbn [reparse]; rewrite H; reflexivity). apply (w_field true). reflexivity. Qed.
(** The Shelley initial funds are written as null, not as an object. *)
Theorem C49_initial_funds_refuted : forall p, field (sh_gp_to p) "initialFunds" JNull.
Proof. intros p. eexists. split; [reflexivity|vm_compute; reflexivity]. Qed.
Print Assumptions C49_not_finite_refuted. Print Assumptions C49_initial_funds_refuted.

(** ** Incomplete files are rejected *)
Lemma at_inv j k v : at_ j k = Ok v -> field j k v.
Proof. unfold at_. destruct j; try discriminate. destruct (lookup l (key k)) eqn:E; [|discriminate]. intros H. injection H as ->. eexists. eauto. Qed.
Ltac missing H I N := repeat (let v := fresh "v" in let A := fresh "A" in apply bind_ok in H as (v & A & H); try apply at_inv in A); clear H; cbn [In by_gp_keys sh_gp_keys al_gp_keys co_gp_keys] in I; decompose [or] I; subst; try contradiction; eapply N; eassumption.
Theorem C49_missing_field_rejected : forall j k,
  (forall v, ~ field j k v) ->
  (In k by_gp_keys -> is_ok (by_gp_from j) = false) /\ (In k al_gp_keys -> is_ok (al_gp_from j) = false) /\ (In k co_gp_keys -> is_ok (co_gp_from j) = false) /\
  (In k sh_gp_keys -> k <> "slotLength"%string -> is_ok (sh_gp_from j) = false).
Proof.
  intros j k N. split; [|split; [|split]].
  - intros I. destruct (by_gp_from j) as [p| |] eqn:H; try reflexivity. exfalso. unfold by_gp_from in H. missing H I N.
  - intros I. destruct (al_gp_from j) as [p| |] eqn:H; try reflexivity. exfalso. unfold al_gp_from in H. missing H I N.
  - intros I. destruct (co_gp_from j) as [p| |] eqn:H; try reflexivity. exfalso. unfold co_gp_from in H. missing H I N.
  - intros I NS. destruct (sh_gp_from j) as [p| |] eqn:H; try reflexivity. exfalso. unfold sh_gp_from in H. missing H I N.
Qed.
(** A file without a slot length is accepted. *)
Definition without (k : string) (j : json) : json := match j with JObj l => JObj (filter (fun e => negb (zlist_eqb (fst e) (key k))) l) | j => j end.
Theorem C49_missing_slot_length_refuted : is_ok (sh_gp_from (without "slotLength" shelley_mainnet)) = true /\ forall v, ~ field (without "slotLength" shelley_mainnet) "slotLength" v.
Proof. split; [vm_compute; reflexivity|]. intros v (l & E & L). injection E as <-. vm_compute in L. discriminate. Qed.
Example C49_ex_missing : is_ok (sh_gp_from (without "epochLength" shelley_mainnet)) = false /\ is_ok (sh_gp_from (without "epoch" shelley_mainnet)) = true. Proof. vm_compute. auto. Qed.
Print Assumptions C49_missing_field_rejected. Print Assumptions C49_missing_slot_length_refuted.

(** ** Numbers that do not fit are changed silently *)
(** a 32-bit field keeps the low 32 bits, a negative number wraps, and a fraction is cut off (a decentralisation parameter of 0.5 is read as 0) *)
Theorem C49_numbers_refuted :
  (forall n, get_u32 (JUint n) = Ok (n mod 2 ^ 32)) /\ (forall z, - 2 ^ 63 <= z < 0 -> get_u64 (JInt z) = Ok (z + 2 ^ 64)) /\
  (forall m e, - 52 <= e < 0 -> Z.pos m < 2 ^ 53 -> get_u64 (JFloat (S754_finite false m e)) = Ok (Z.pos m / 2 ^ (- e))) /\
  get_u64 (JFloat (S754_finite false 1 (-1))) = Ok 0.
Proof.
  split; [reflexivity|]. split; [intros z B; cbn [get_u64]; f_equal; symmetry; apply Z.mod_unique with (q := -1); lia|]. split; [|reflexivity].
  intros m e B M. cbn [get_u64 from_float trunc]. destruct (Z.ltb_spec e 0); [|lia]. assert (P : 0 < 2 ^ (- e)) by (apply Z.pow_pos_nonneg; lia). pose proof (Z.div_pos (Z.pos m) (2 ^ (- e)) ltac:(lia) P). assert (Z.pos m / 2 ^ (- e) <= Z.pos m) by (apply Z.div_le_upper_bound; nia).
  unfold from_float, trunc. destruct (Z.ltb_spec e 0); [|lia]. destruct (Z.leb_spec 0 (Z.pos m / 2 ^ (- e))); [|lia]. destruct (Z.ltb_spec (Z.pos m / 2 ^ (- e)) (2 ^ 64)); [reflexivity|lia].
Qed.
(** Exactly how a JSON value is read into an integer field of [w] bits that starts at [lo].  [cut f z]: z is what is left of the number f without its fraction. *)
Definition cut (f : F) (z : Z) : Prop :=
  match f with
  | S754_zero _ => z = 0
  | S754_finite s m e => exists a, z = (if s then - a else a) /\ 0 <= a /\ a * 2 ^ Z.max 0 (- e) <= Z.pos m * 2 ^ Z.max 0 e < (a + 1) * 2 ^ Z.max 0 (- e)
  | _ => False
  end.
Inductive read_as (lo w : Z) (bools : bool) : json -> outcome Z -> Prop :=
| ra_uint n z k : z = n + k * 2 ^ w -> lo <= z < lo + 2 ^ w -> read_as lo w bools (JUint n) (Ok z)
| ra_int n z k : z = n + k * 2 ^ w -> lo <= z < lo + 2 ^ w -> read_as lo w bools (JInt n) (Ok z)
| ra_float f z : cut f z -> lo <= z < lo + 2 ^ w -> read_as lo w bools (JFloat f) (Ok z)
| ra_undefined f : (forall z, cut f z -> ~ lo <= z < lo + 2 ^ w) -> read_as lo w bools (JFloat f) UB
| ra_bool b : bools = true -> read_as lo w bools (JBool b) (Ok (if b then 1 else 0))
| ra_no_bool b : bools = false -> read_as lo w bools (JBool b) Throw
| ra_null : read_as lo w bools JNull Throw
| ra_str s : read_as lo w bools (JStr s) Throw
| ra_arr l : read_as lo w bools (JArr l) Throw
| ra_obj l : read_as lo w bools (JObj l) Throw.
Lemma cut_unique f z z' : cut f z -> cut f z' -> z = z'.
Proof.
  destruct f as [s|s| |s m e]; cbn [cut]; [intros; subst; reflexivity|intros []|intros []|]. intros (a & -> & A0 & A1) (b & -> & B0 & B1).
  assert (P : 0 < 2 ^ Z.max 0 (- e)) by (apply Z.pow_pos_nonneg; lia). assert (a = b); [|subst; reflexivity]. generalize dependent (2 ^ Z.max 0 (- e)). intros q A1 B1 P. nia.
Qed.
Theorem C49_read_as_one : forall lo w bools j o o', 0 <= w -> read_as lo w bools j o -> read_as lo w bools j o' -> o = o'.
Proof.
  intros lo w bools j o o' W H H'. assert (P : 0 < 2 ^ w) by (apply Z.pow_pos_nonneg; lia).
  destruct H; inversion H'; subst; try congruence; try reflexivity.
  - f_equal. assert (k = k0) by nia. subst. reflexivity.
  - f_equal. assert (k = k0) by nia. subst. reflexivity.
  - f_equal. eapply cut_unique; eassumption.
  - exfalso. match goal with X : forall z, cut _ z -> ~ _ |- _ => eapply X; eassumption end.
  - exfalso. match goal with X : forall z, cut _ z -> ~ _ |- _ => eapply X; eassumption end.
Qed.
Lemma trunc_cut f lo hi : match trunc f lo hi with Some z => cut f z /\ (f = S754_zero true \/ f = S754_zero false \/ lo <= z < hi) | None => forall z, cut f z -> ~ lo <= z < hi end.
Proof.
  destruct f as [s|s| |s m e]; cbn [trunc cut]; [|intros z []|intros z []|].
  - split; [reflexivity|]. destruct s; tauto.
  - set (a := if e <? 0 then Z.pos m / 2 ^ (- e) else Z.pos m * 2 ^ e). assert (A : 0 <= a /\ a * 2 ^ Z.max 0 (- e) <= Z.pos m * 2 ^ Z.max 0 e < (a + 1) * 2 ^ Z.max 0 (- e)).
    { subst a. destruct (Z.ltb_spec e 0) as [N|N].
      - rewrite (Z.max_r 0 (- e)), (Z.max_l 0 e) by lia. assert (P : 0 < 2 ^ (- e)) by (apply Z.pow_pos_nonneg; lia). pose proof (Z.div_pos (Z.pos m) _ ltac:(lia) P).
        pose proof (Z.mul_div_le (Z.pos m) _ P). pose proof (Z.mul_succ_div_gt (Z.pos m) _ P). unfold Z.succ in *. generalize dependent (2 ^ (- e)). intros q. generalize (Z.pos m / q). intros d. rewrite Z.pow_0_r. nia.
      - rewrite (Z.max_l 0 (- e)), (Z.max_r 0 e) by lia. assert (P : 0 < 2 ^ e) by (apply Z.pow_pos_nonneg; lia). rewrite Z.pow_0_r. nia. }
    assert (C : cut (S754_finite s m e) (if s then - a else a)) by (exists a; split; [reflexivity|exact A]).
    destruct ((lo <=? (if s then - a else a)) && ((if s then - a else a) <? hi)) eqn:B; [|rename B into NB].
    + apply andb_prop in B as [B1 B2]. apply Z.leb_le in B1. apply Z.ltb_lt in B2. split; [exact C|]. right. right. split; assumption.
    + intros z Z0 B. rewrite (cut_unique (S754_finite s m e) _ _ Z0 C) in B. apply andb_false_iff in NB as [N|N]; [apply Z.leb_gt in N|apply Z.ltb_ge in N]; lia.
Qed.
Lemma float_read lo w bools f : 0 <= w -> lo <= 0 < lo + 2 ^ w -> read_as lo w bools (JFloat f) (from_float f lo (lo + 2 ^ w)).
Proof.
  intros W L. unfold from_float. pose proof (trunc_cut f lo (lo + 2 ^ w)) as T. destruct (trunc f lo (lo + 2 ^ w)) as [z|]; [|apply ra_undefined, T]. destruct T as [C B]. apply ra_float; [exact C|].
  destruct B as [->|[->|B]]; [cbn [cut] in C; subst; exact L..|exact B].
Qed.
(** the numbers a JSON library can hold *)
Definition held (j : json) : Prop := match j with JUint n => 0 <= n < 2 ^ 64 | JInt z => - 2 ^ 63 <= z < 2 ^ 63 | _ => True end.
Theorem C49_numbers_exactly : forall j, held j ->
  read_as 0 64 false j (get_u64 j) /\ read_as 0 32 true j (get_u32 j) /\ read_as 0 16 true j (get_u16 j) /\ read_as (- 2 ^ 63) 64 false j (get_i64 j).
Proof.
  assert (MU : forall n w, 0 < w -> n mod 2 ^ w = n + - (n / 2 ^ w) * 2 ^ w /\ 0 <= n mod 2 ^ w < 0 + 2 ^ w).
  { intros n w W. assert (P : 0 < 2 ^ w) by (apply Z.pow_pos_nonneg; lia). pose proof (Z.div_mod n (2 ^ w) ltac:(lia)). pose proof (Z.mod_pos_bound n _ P). split; lia. }
  assert (L64 : 0 <= 0 < 0 + 2 ^ 64) by (split; reflexivity || lia). assert (L32 : 0 <= 0 < 0 + 2 ^ 32) by lia. assert (L16 : 0 <= 0 < 0 + 2 ^ 16) by lia. assert (LI : - 2 ^ 63 <= 0 < - 2 ^ 63 + 2 ^ 64) by lia.
  intros j H. destruct j as [|b|n|z|f|s|l|l]; cbn [held] in H.
  1,2,6,7,8: unfold get_u64, get_u32, get_u16, get_uw, get_i64; repeat apply conj; try constructor; try reflexivity; destruct b; cbn [Z.b2z]; (apply (ra_bool _ _ _ true) || apply (ra_bool _ _ _ false)); reflexivity.
  - split; [apply (ra_uint _ _ _ n n 0); lia|]. split; [eapply ra_uint; apply MU; lia|]. split; [eapply ra_uint; apply MU; lia|].
    cbn [get_i64]. unfold to_i64. apply (ra_uint _ _ _ n _ (- ((n + 2 ^ 63) / 2 ^ 64))); pose proof (MU (n + 2 ^ 63) 64 ltac:(lia)); lia.
  - split; [eapply ra_int; apply MU; lia|]. split; [eapply ra_int; apply MU; lia|]. split; [eapply ra_int; apply MU; lia|]. apply (ra_int _ _ _ z z 0); lia.
  - split; [apply (float_read 0 64); [lia|exact L64]|]. split; [apply (float_read 0 32); [lia|exact L32]|]. split; [apply (float_read 0 16); [lia|exact L16]|].
    pose proof (float_read (- 2 ^ 63) 64 false f ltac:(lia) LI) as R. replace (- 2 ^ 63 + 2 ^ 64) with (2 ^ 63) in R by lia. exact R.
Qed.
Example C49_numbers_ex : cut (S754_finite true 5 (-1)) (-2) /\ get_i64 (JFloat (S754_finite true 5 (-1))) = Ok (-2) /\ get_u64 (JFloat (S754_finite true 5 (-1))) = UB /\
  get_u16 (JUint 65537) = Ok 1 /\ get_u16 (JBool true) = Ok 1 /\ get_u64 (JBool true) = Throw /\ get_i64 (JUint (2 ^ 64 - 3)) = Ok (-3).
Proof. split; [exists 2; split; [reflexivity|]; split; [lia|]; cbn; lia|]. split; [reflexivity|]. split; [reflexivity|]. split; [reflexivity|]. split; [reflexivity|]. split; reflexivity. Qed.
Print Assumptions C49_numbers_exactly. Print Assumptions C49_read_as_one.
(** The Conway cost model takes the first 251 numbers of a longer list, and rejects a shorter one. *)
Theorem C49_cost_model : forall l vs, Forall2 is_int l vs -> Forall (fun x => - 2 ^ 63 <= x < 2 ^ 63) l ->
  ((251 <= length l)%nat -> get_arr251 (JArr vs) = Ok (firstn 251 l)) /\ ((length l < 251)%nat -> get_arr251 (JArr vs) = Throw).
Proof.
  intros l vs H B. pose proof (F2_length _ _ _ H) as LE. split; intros L; cbn [get_arr251]; rewrite <- LE.
  - destruct (Nat.ltb_spec (length l) 251); [lia|]. clear L LE. generalize 251%nat. intros n. revert n. clear H0. induction H as [|x w l vs I H IH]; intros [|n]; try reflexivity. inversion B as [|? ? B1 B2]; subst. cbn [firstn mapM]. rewrite (r_i64 x w I B1). cbn [bind]. rewrite (IH B2 n). reflexivity.
  - destruct (Nat.ltb_spec (length l) 251); [reflexivity|lia].
Qed.
Print Assumptions C49_numbers_refuted. Print Assumptions C49_cost_model.
