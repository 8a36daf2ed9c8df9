(** Property C62: what a reader returns is what the bytes say.  An accepted item, its semantic tags removed, is exactly the item the
    writer produces for the value returned: no element is skipped, reordered, truncated or accepted in excess. *)
From Verif Require Import Base BaseLemmas Spec_Cbor Model_Cbor Proof_Cbor Spec_Ledger Model_Ledger Proof_Ledger Proof_Ledger2 Props_Readers.
Ltac Zify.zify_post_hook ::= idtac.

(** ** Specification: an item without its semantic tags, at any depth *)
Fixpoint untag (c : cbor) : cbor :=
  match c with
  | CArray l => CArray (map untag l)
  | CMap l => CMap (map (fun p => let '(a, b) := p in (untag a, untag b)) l)
  | CTag _ c => untag c
  | c => c
  end.
(** Bytes that parse to an item with the same content as [c], up to tags. *)
Definition says (s : list Z) (c : cbor) : Prop := exists i, cbor_parse s = Ok i /\ untag i = untag c.
(** A script without empty parts (kinds the reader does not know become empty). *)
Fixpoint ms_known (s : mscript) : Prop :=
  match s with
  | MNone => False | MPub _ => True
  | MAll l | MAny l | MNofK _ l => fold_right (fun x P => ms_known x /\ P) True l
  end.

(** ** Views *)
Lemma uint_untag c n : as_uint c = Some n -> untag c = CUint n.
Proof. induction c; cbn; intros E; try discriminate; [congruence|auto]. Qed.
Lemma bytes_untag c b : as_bytes c = Some b -> untag c = CBytes b.
Proof. induction c; cbn; intros E; try discriminate; [congruence|auto]. Qed.
Lemma text_untag c b : as_text c = Some b -> untag c = CText b.
Proof. induction c; cbn; intros E; try discriminate; [congruence|auto]. Qed.
Lemma array_untag c l : as_array c = Some l -> untag c = CArray (map untag l).
Proof. induction c as [| | | |l0|l0|t c IH| |]; intros E; cbn [as_array] in E; try discriminate; [injection E as <-; reflexivity|exact (IH E)]. Qed.
Lemma map_untag c l : as_map c = Some l -> untag c = CMap (map (fun p => (untag (fst p), untag (snd p))) l).
Proof.
  induction c as [| | | |l0|l0|t c IH| |]; intros E; cbn [as_map] in E; try discriminate; [|exact (IH E)]. injection E as <-. cbn [untag]. f_equal. apply map_ext. intros [a b]. reflexivity.
Qed.
Lemma get_ub_nth {A} (l : list A) i x : get_ub l i = Ok x -> nth_error l i = Some x.
Proof. unfold get_ub. destruct (nth_error l i); [congruence|discriminate]. Qed.
Ltac bnd2 H x E := apply bind_ok in H as (x & E & H).

(** ** Readers *)
Lemma rational_say t c r : rational_des t c = Ok r -> untag c = untag (rational_ser r) /\ t = 30.
Proof.
  unfold rational_des. intros H. destruct (Z.eqb_spec t 30) as [->|]; [|discriminate]. cbn [negb] in H. bnd2 H arr E. apply want_ok in E. destruct arr as [|a [|b [|? ?]]]; try discriminate.
  bnd2 H n En. bnd2 H d Ed. apply want_ok in En, Ed. destruct (d =? 0); [discriminate|]. injection H as <-. split; [|reflexivity].
  rewrite (array_untag _ _ E). cbn [map]. rewrite (uint_untag _ _ En), (uint_untag _ _ Ed). reflexivity.
Qed.
Lemma pm_say data m : pm_des data = Ok m -> untag (CArray data) = untag (pm_ser m).
Proof.
  intros H. destruct data as [|u [|h [|? ?]]]; try discriminate. cbn [pm_des] in H. bnd2 H url E1. bnd2 H b E2. bnd2 H b2 E3. apply want_ok in E1, E2. apply fixed_inv in E3 as [-> _]. injection H as <-.
  cbn [untag map]. rewrite (text_untag _ _ E1), (bytes_untag _ _ E2). reflexivity.
Qed.
Lemma cred_say data c : cred_des data = Ok c -> untag (CArray data) = untag (cred_ser c).
Proof.
  intros H. destruct data as [|t [|h [|? ?]]]; try discriminate. cbn [cred_des] in H. bnd2 H ty E1. bnd2 H b E2. bnd2 H ty2 E3. bnd2 H b2 E4. apply want_ok in E1, E2. apply fixed_inv in E4 as [-> _]. injection H as <-.
  cbn [untag map]. rewrite (uint_untag _ _ E1), (bytes_untag _ _ E2). cbn [cred_ser sc_type sc_hash untag map]. do 3 f_equal.
  destruct (Z.eqb_spec ty 0) as [->|]; [injection E3 as <-; reflexivity|]. destruct (Z.eqb_spec ty 1) as [->|]; [injection E3 as <-; reflexivity|discriminate].
Qed.
Lemma mapM_map {A B C} (f : A -> outcome B) (g : A -> C) (h : B -> C) l : (forall x y, In x l -> f x = Ok y -> g x = h y) -> forall r, mapM f l = Ok r -> map g l = map h r.
Proof.
  induction l as [|x l IH]; cbn [mapM]; intros K r H; [injection H as <-; reflexivity|]. bnd2 H y Ey. bnd2 H ys Eys. injection H as <-. cbn [map]. f_equal; [apply K; [left; reflexivity|exact Ey]|]. apply IH; [|exact Eys]. intros a b I. apply K. right. exact I.
Qed.
Lemma mir_say data m : mir_des [] data = Ok m -> untag (CArray data) = untag (mir_ser m).
Proof.
  intros H. destruct data as [|s [|q [|? ?]]]; try discriminate. cbn [mir_des] in H. bnd2 H src E1. bnd2 H mm E2. bnd2 H s2 E3. bnd2 H creds E4. apply want_ok in E1, E2. injection H as <-.
  cbn [untag map]. rewrite (uint_untag _ _ E1), (map_untag _ _ E2). unfold mir_ser. cbn [mir_source mir_creds app untag map]. f_equal. f_equal.
  - f_equal. destruct (Z.eqb_spec src 0) as [->|]; [injection E3 as <-; reflexivity|]. destruct (Z.eqb_spec src 1) as [->|]; [injection E3 as <-; reflexivity|discriminate].
  - f_equal. f_equal. rewrite map_map. apply (mapM_map mir_entry); [|exact E4]. intros [a b] [c n] _ E. unfold mir_entry in E. cbn [fst snd] in *. bnd2 E arr Ea. bnd2 E cc Ec. bnd2 E k Ek. apply deref_ok in Ea, Ek. injection E as <- <-.
    rewrite (array_untag _ _ Ea), (uint_untag _ _ Ek). f_equal. exact (cred_say _ _ Ec).
Qed.
Lemma txout_say data o : txout_des data = Ok o -> untag (CArray data) = untag (txout_ser o).
Proof.
  intros H. destruct data as [|a [|n [|? ?]]]; try discriminate. cbn [txout_des] in H. bnd2 H b E1. bnd2 H k E2. apply want_ok in E1, E2. injection H as <-. cbn [untag map]. rewrite (bytes_untag _ _ E1), (uint_untag _ _ E2). reflexivity.
Qed.
Lemma txin_say data o : txin_des data = Ok o -> untag (CArray data) = untag (txin_ser o).
Proof.
  intros H. destruct data as [|a [|n [|? ?]]]; try discriminate. cbn [txin_des] in H. bnd2 H b E1. bnd2 H k E2. bnd2 H b2 E3. apply want_ok in E1, E2. apply fixed_inv in E3 as [-> _]. injection H as <-.
  cbn [untag map]. rewrite (bytes_untag _ _ E1), (uint_untag _ _ E2). reflexivity.
Qed.
Lemma multi_say data d : relay_des data = Ok (RMulti d) -> untag (CArray data) = CArray [CUint 2; CText d].
Proof.
  intros H. unfold relay_des in H. destruct (zlen data <? 2); [discriminate|]. bnd2 H c0 E0. bnd2 H tag Et. apply want_ok in Et. destruct (tag =? 0).
  { destruct (negb _); [discriminate|]. bnd2 H c1 E1. bnd2 H c2 E2. destruct (as_bytes c2); [destruct (_ =? 4); [discriminate|destruct (_ =? 16); discriminate]|discriminate]. }
  destruct (tag =? 1); [destruct (negb _); [discriminate|]; bnd2 H c1 E1; bnd2 H c2 E2; bnd2 H c3 E3; discriminate|].
  destruct (Z.eqb_spec tag 2) as [->|]; [|discriminate]. destruct (Z.eqb_spec (zlen data) 2) as [L|]; [|discriminate]. cbn [negb] in H. bnd2 H c1 E1. bnd2 H dns E2. apply want_ok in E2. injection H as <-.
  destruct data as [|x [|y [|? ?]]]; unfold zlen in L; cbn [length] in L; try lia. apply get_ub_nth in E0, E1. cbn in E0, E1. injection E0 as ->. injection E1 as ->. cbn [untag map]. rewrite (uint_untag _ _ Et), (text_untag _ _ E2). reflexivity.
Qed.
Lemma name_say data d p : relay_des data = Ok (RName d p) -> exists q, untag (CArray data) = CArray [CUint 1; q; CText d] /\
  match p with Some p => exists n, q = CUint n /\ p = n mod 2 ^ 16 | None => forall n, q <> CUint n end.
Proof.
  intros H. unfold relay_des in H. destruct (zlen data <? 2); [discriminate|]. bnd2 H c0 E0. bnd2 H tag Et. apply want_ok in Et. destruct (tag =? 0).
  { destruct (negb _); [discriminate|]. bnd2 H c1 E1. bnd2 H c2 E2. destruct (as_bytes c2); [destruct (_ =? 4); [discriminate|destruct (_ =? 16); discriminate]|discriminate]. }
  destruct (Z.eqb_spec tag 1) as [->|]; [|destruct (tag =? 2); [|discriminate]; destruct (negb _); [discriminate|]; bnd2 H c1 E1; bnd2 H dns E2; discriminate].
  destruct (Z.eqb_spec (zlen data) 3) as [L|]; [|discriminate]. cbn [negb] in H. bnd2 H c2 E2. bnd2 H dns Ed. bnd2 H c1 E1. apply want_ok in Ed. injection H as <- <-.
  destruct data as [|x [|y [|z [|? ?]]]]; unfold zlen in L; cbn [length] in L; try lia. apply get_ub_nth in E0, E1, E2. cbn in E0, E1, E2. injection E0 as ->. injection E1 as ->. injection E2 as ->.
  exists (untag c1). split; [cbn [untag map]; rewrite (uint_untag _ _ Et), (text_untag _ _ Ed); reflexivity|]. unfold port_des. destruct (as_uint c1) as [n|] eqn:U.
  - exists n. split; [exact (uint_untag _ _ U)|reflexivity].
  - intros n C. clear - U C. induction c1; cbn in *; try discriminate. auto.
Qed.
Lemma ms_say c : forall s, ms_item c = Ok s -> ms_known s -> untag c = untag (ms_ser s).
Proof.
  set (Q := fun c : cbor => forall s, ms_item c = Ok s -> ms_known s -> untag c = untag (ms_ser s)).
  assert (D : forall c, Q c /\ (forall l, as_array c = Some l -> Forall Q l)); [|intros s; apply (proj1 (D c))].
  clear c. intros c. induction c as [n|n|b|b|l IH|l IH|t c IH|b|] using cbor_nested_ind; try (split; [intros s; cbn; discriminate|cbn; discriminate]).
  - assert (FL : Forall Q l) by (eapply Forall_impl; [|exact IH]; intros a [H _]; exact H). split; [|cbn; intros l0 E; injection E as <-; exact FL].
    intros s H K. destruct l as [|t [|a more]]; [discriminate|discriminate|]. inversion IH as [|? ? _ IH1]; subst. inversion IH1 as [|? ? (_ & IA) _]; subst.
    assert (G : forall r,
       (fix strip (a : cbor) : outcome (list mscript) :=
        match a with CTag _ a => strip a | CArray l => (fix go (l : list cbor) : outcome (list mscript) :=
        match l with [] => Ok [] | x :: r => let* y := ms_item x in let* ys := go r in Ok (y :: ys) end) l | _ => Throw end) a = Ok r ->
       fold_right (fun x P => ms_known x /\ P) True r -> untag a = CArray (map (fun s => untag (ms_ser s)) r)).
    { clear - IA. induction a as [| | | |l|l|t a IHa| |]; intros r E KR; try discriminate.
      - rewrite ms_go in E. pose proof (IA l eq_refl) as F. cbn [untag]. f_equal. clear IA. revert r E KR. induction F as [|x l Qx F IHF]; cbn [mapM]; intros r E KR; [injection E as <-; reflexivity|].
        bnd2 E y Ey. bnd2 E ys Eys. injection E as <-. cbn [fold_right] in KR. cbn [map]. f_equal; [apply Qx; [exact Ey|apply KR]|apply IHF; [exact Eys|apply KR]].
      - cbn [untag]. apply IHa; [exact IA|exact E|exact KR]. }
    cbn [ms_item] in H. destruct (as_uint t) as [tag|] eqn:Et; [|discriminate]. apply uint_untag in Et.
    destruct (Z.eqb_spec tag 0) as [->|].
    { destruct more; [|discriminate]. bnd2 H h Eh. bnd2 H h2 Ef. apply want_ok in Eh. apply fixed_inv in Ef as [-> _]. injection H as <-. cbn [untag map ms_ser]. rewrite Et, (bytes_untag _ _ Eh). reflexivity. }
    destruct (Z.eqb_spec tag 1) as [->|].
    { destruct more; [|discriminate]. bnd2 H r Er. injection H as <-. cbn [ms_known] in K. cbn [untag map ms_ser]. rewrite Et, (G r Er K), map_map. reflexivity. }
    destruct (Z.eqb_spec tag 2) as [->|].
    { destruct more; [|discriminate]. bnd2 H r Er. injection H as <-. cbn [ms_known] in K. cbn [untag map ms_ser]. rewrite Et, (G r Er K), map_map. reflexivity. }
    destruct (tag =? 3); [destruct more; [|discriminate]; bnd2 H r Er; discriminate|]. injection H as <-. contradiction K.
  - destruct IH as (I1 & I3). split; [|exact I3]. intros s E K. apply (I1 s E K).
Qed.
Definition strict_cert (c : cert) : Prop := match c with StakeReg _ | StakeDereg _ | StakeDeleg _ _ | PoolRetire _ _ => True | _ => False end.
Lemma cert_say data c : cert_des data = Ok c -> strict_cert c -> exists i, cert_ser c = Ok i /\ untag (CArray data) = untag i.
Proof.
  intros H S. unfold cert_des in H. destruct (zlen data <? 2); [discriminate|]. bnd2 H c0 E0. bnd2 H tag Et. apply want_ok in Et. pose proof (uint_untag _ _ Et) as Ut. apply get_ub_nth in E0.
  assert (SH2 : zlen data = 2 -> forall c1, get_ub data 1 = Ok c1 -> data = [c0; c1]).
  { intros L c1 E1. apply get_ub_nth in E1. destruct data as [|x [|y [|? ?]]]; unfold zlen in L; cbn [length] in L; try lia. cbn in E0, E1. congruence. }
  assert (SH3 : zlen data = 3 -> forall c1 c2, get_ub data 1 = Ok c1 -> get_ub data 2 = Ok c2 -> data = [c0; c1; c2]).
  { intros L c1 c2 E1 E2. apply get_ub_nth in E1, E2. destruct data as [|x [|y [|z [|? ?]]]]; unfold zlen in L; cbn [length] in L; try lia. cbn in E0, E1, E2. congruence. }
  destruct (Z.eqb_spec tag 0) as [->|].
  { destruct (Z.eqb_spec (zlen data) 2) as [L|]; [|discriminate]. cbn [negb] in H. bnd2 H c1 E1. bnd2 H a Ea. bnd2 H cc Ec. apply want_ok in Ea. injection H as <-. rewrite (SH2 L _ E1). eexists. split; [reflexivity|].
    cbn [untag map]. rewrite Ut, (array_untag _ _ Ea). do 3 f_equal. exact (cred_say _ _ Ec). }
  destruct (Z.eqb_spec tag 1) as [->|].
  { destruct (Z.eqb_spec (zlen data) 2) as [L|]; [|discriminate]. cbn [negb] in H. bnd2 H c1 E1. bnd2 H a Ea. bnd2 H cc Ec. apply want_ok in Ea. injection H as <-. rewrite (SH2 L _ E1). eexists. split; [reflexivity|].
    cbn [untag map]. rewrite Ut, (array_untag _ _ Ea). do 3 f_equal. exact (cred_say _ _ Ec). }
  destruct (Z.eqb_spec tag 2) as [->|].
  { destruct (Z.eqb_spec (zlen data) 3) as [L|]; [|discriminate]. cbn [negb] in H. bnd2 H c1 E1. bnd2 H a Ea. bnd2 H c2 E2. bnd2 H h Eh. bnd2 H cc Ec. bnd2 H h2 Ef. apply want_ok in Ea, Eh. apply fixed_inv in Ef as [-> _]. injection H as <-.
    rewrite (SH3 L _ _ E1 E2). eexists. split; [reflexivity|]. cbn [untag map]. rewrite Ut, (array_untag _ _ Ea), (bytes_untag _ _ Eh). do 3 f_equal. exact (cred_say _ _ Ec). }
  destruct (tag =? 3).
  { unfold pool_reg_des in H. destruct (zlen data <? 7); [discriminate|]. bnd2 H x1 X1. bnd2 H x2 X2. bnd2 H x3 X3. bnd2 H x4 X4. bnd2 H x5 X5. bnd2 H x6 X6. bnd2 H x7 X7. bnd2 H x8 X8. bnd2 H x9 X9. bnd2 H x10 X10. bnd2 H x11 X11. bnd2 H x12 X12. bnd2 H x13 X13. bnd2 H x14 X14. bnd2 H x15 X15. bnd2 H x16 X16. bnd2 H x17 X17.
    injection H as <-. contradiction S. }
  destruct (Z.eqb_spec tag 4) as [->|].
  { destruct (Z.eqb_spec (zlen data) 3) as [L|]; [|discriminate]. cbn [negb] in H. bnd2 H c1 E1. bnd2 H h Eh. bnd2 H c2 E2. bnd2 H e Ee. bnd2 H h2 Ef. apply want_ok in Eh, Ee. apply fixed_inv in Ef as [-> _]. injection H as <-.
    rewrite (SH3 L _ _ E1 E2). eexists. split; [reflexivity|]. cbn [untag map]. rewrite Ut, (bytes_untag _ _ Eh), (uint_untag _ _ Ee). reflexivity. }
  destruct (tag =? 5); [rewrite (uint_not_bytes _ _ Et) in H; discriminate|].
  destruct (tag =? 6); [bnd2 H c1 E1; bnd2 H a Ea; bnd2 H m Em; injection H as <-; contradiction S|]. injection H as <-. contradiction S.
Qed.
Lemma say_array {A} (des : list cbor -> outcome A) s x c : deserialize_array des s = Ok x -> (forall data, des data = Ok x -> untag (CArray data) = untag c) -> says s c.
Proof.
  intros E K. unfold deserialize_array in E. bnd2 E i Ei. bnd2 E a Ea. apply want_ok in Ea. exists i. split; [exact Ei|]. rewrite (array_untag _ _ Ea). exact (K _ E).
Qed.

(** ** C62 *)
Theorem C62_parts_say : forall s,
  (forall r, deserialize_tag rational_des s = Ok r -> says s (rational_ser r)) /\ (forall m, deserialize_array pm_des s = Ok m -> says s (pm_ser m)) /\
  (forall c, deserialize_array cred_des s = Ok c -> says s (cred_ser c)) /\ (forall m, deserialize_array (mir_des []) s = Ok m -> says s (mir_ser m)) /\
  (forall o, deserialize_array txout_des s = Ok o -> says s (txout_ser o)) /\ (forall i, deserialize_array txin_des s = Ok i -> says s (txin_ser i)).
Proof.
  intros s. repeat apply conj; intros v E.
  - unfold deserialize_tag in E. bnd2 E c Ec. bnd2 E t Et. apply want_ok in Et. exists c. split; [exact Ec|]. destruct c; cbn [as_tag] in Et; try discriminate. injection Et as <-. exact (proj1 (rational_say _ _ _ E)).
  - exact (say_array _ _ _ _ E (fun d => pm_say d v)).
  - exact (say_array _ _ _ _ E (fun d => cred_say d v)).
  - exact (say_array _ _ _ _ E (fun d => mir_say d v)).
  - exact (say_array _ _ _ _ E (fun d => txout_say d v)).
  - exact (say_array _ _ _ _ E (fun d => txin_say d v)).
Qed.
Theorem C62_scripts_say : forall s m, deserialize_array ms_des s = Ok m -> ms_known m -> says s (ms_ser m).
Proof. intros s m E K. apply (say_array _ _ _ _ E). intros data H. exact (ms_say (CArray data) m H K). Qed.
Theorem C62_certificates_say : forall s c, deserialize_array cert_des s = Ok c -> strict_cert c -> exists i, cert_ser c = Ok i /\ says s i.
Proof.
  intros s c E S. unfold deserialize_array in E. bnd2 E i Ei. bnd2 E a Ea. apply want_ok in Ea. destruct (cert_say _ _ E S) as (j & Ej & U). exists j. split; [exact Ej|]. exists i. split; [exact Ei|]. rewrite (array_untag _ _ Ea). exact U.
Qed.
Theorem C62_relays_say : forall s d, 
  (deserialize_array relay_des s = Ok (RMulti d) -> says s (CArray [CUint 2; CText d])) /\
  (forall p, deserialize_array relay_des s = Ok (RName d (Some p)) -> exists n, p = n mod 2 ^ 16 /\ says s (CArray [CUint 1; CUint n; CText d])).
Proof.
  intros s d. split; [intros E; apply (say_array _ _ _ _ E); intros data H; exact (multi_say _ _ H)|]. intros p E. unfold deserialize_array in E. bnd2 E i Ei. bnd2 E a Ea. apply want_ok in Ea.
  destruct (name_say _ _ _ E) as (q & U & n & -> & ->). exists n. split; [reflexivity|]. exists i. split; [exact Ei|]. rewrite (array_untag _ _ Ea). exact U.
Qed.
(** Not so for the rest: a port of more than 16 bits is cut, an address relay ignores its last element, an instantaneous-reward certificate
    ignores what follows its second element, a pool registration everything after the owners. *)
Theorem C62_silent_losses_refuted :
  (exists s, deserialize_array relay_des s = Ok (RName (str "a") (Some 1)) /\ says s (CArray [CUint 1; CUint 65537; CText (str "a")])) /\
  (exists s, deserialize_array relay_des s = Ok (RAddr (Some [10; 0; 0; 1]) None None) /\ says s (CArray [CUint 0; CNull; CBytes [10; 0; 0; 1]; CBytes (repeat 7 16)])) /\
  (exists s, deserialize_array cert_des s = Ok (MirCert {| mir_source := Reserves; mir_creds := [] |}) /\ says s (CArray [CUint 6; CArray [CUint 0; CMap []]; CUint 5])).
Proof.
  split; [|split].
  - exists (cbor_encode (CArray [CUint 1; CUint 65537; CText (str "a")])). split; [vm_compute; reflexivity|]. eexists. split; [vm_compute; reflexivity|vm_compute; reflexivity].
  - exists (cbor_encode (CArray [CUint 0; CNull; CBytes [10; 0; 0; 1]; CBytes (repeat 7 16)])). split; [vm_compute; reflexivity|]. eexists. split; [vm_compute; reflexivity|vm_compute; reflexivity].
  - exists (cbor_encode (CArray [CUint 6; CArray [CUint 0; CMap []]; CUint 5])). split; [vm_compute; reflexivity|]. eexists. split; [vm_compute; reflexivity|vm_compute; reflexivity].
Qed.
(** The fields of a body are those under their keys: outputs in order, inputs as a set, and a fee or ttl that is there. *)
Theorem C62_body_fields : forall m b, txbody_des m = Ok b ->
  (forall c n, map_get m 2 = Some c -> as_uint c = Some n -> tb_fee b = n) /\ (forall c n, map_get m 3 = Some c -> as_uint c = Some n -> tb_ttl b = n) /\
  (forall c l, map_get m 1 = Some c -> as_array c = Some l -> map untag l = map (fun o => untag (txout_ser o)) (tb_outputs b)) /\
  (forall c l i, map_get m 0 = Some c -> as_array c = Some l -> (In i (tb_inputs b) <-> In (untag (txin_ser i)) (map untag l))) /\
  (forall c l, map_get m 4 = Some c -> as_array c = Some l -> length l = length (tb_certs b)) /\
  (forall c h, map_get m 7 = Some c -> as_bytes c = Some h -> tb_metadata_hash b = Some h).
Proof.
  intros m b H. unfold txbody_des in H. bnd2 H ins Ei. bnd2 H outs Eo. bnd2 H certs Ec. bnd2 H ws Ew. bnd2 H mh Em. injection H as <-. cbn [tb_fee tb_ttl tb_outputs tb_inputs tb_certs tb_metadata_hash].
  split; [intros c n G U; unfold body_uint; rewrite G, U; reflexivity|]. split; [intros c n G U; unfold body_uint; rewrite G, U; reflexivity|].
  split; [|split; [|split]].
  - intros c l G A. unfold body_array in Eo. rewrite G, A in Eo. refine (mapM_map _ _ _ l _ outs Eo). intros x y _ E. unfold item_des in E. bnd2 E a Ea. apply deref_ok in Ea. rewrite (array_untag _ _ Ea). exact (txout_say _ _ E).
  - intros c l i G A. unfold body_array in Ei. rewrite G, A in Ei. pose proof (set_of_in txin_lt txin_st ins i) as SI. unfold set_of in SI. rewrite SI.
    assert (MM : map untag l = map (fun o => untag (txin_ser o)) ins).
    { refine (mapM_map _ _ _ l _ ins Ei). intros x y _ E. unfold item_des in E. bnd2 E a Ea. apply deref_ok in Ea. rewrite (array_untag _ _ Ea). exact (txin_say _ _ E). }
    rewrite MM, in_map_iff. split; [intros I; exists i; split; [reflexivity|exact I]|]. intros (j & E & I). cbn [txin_ser untag map] in E. destruct i as [d n], j as [d' n']. cbn in E. injection E as -> ->. exact I.
  - intros c l G A. unfold body_array in Ec. rewrite G, A in Ec. symmetry. exact (mapM_len _ _ _ Ec).
  - intros c h G A. rewrite G, A in Em. bnd2 Em h2 Ef. apply fixed_inv in Ef as [-> _]. injection Em as <-. reflexivity.
Qed.
(** But a body without inputs, outputs or fee is accepted, and a fee of the wrong type is read as zero. *)
Theorem C62_missing_fields_refuted :
  (exists b, deserialize_map txbody_des (cbor_encode (CMap [])) = Ok b /\ tb_inputs b = [] /\ tb_fee b = 0) /\
  (exists b, deserialize_map txbody_des (cbor_encode (CMap [(CUint 2, CText (str "5"))])) = Ok b /\ tb_fee b = 0).
Proof. split; eexists; (split; [vm_compute; reflexivity|]); [split; reflexivity|reflexivity]. Qed.
Example C62_ex : exists s o, deserialize_array txout_des s = Ok o /\ to_amount o = 70000 /\ s = [130; 194; 66; 1; 2; 27; 0; 0; 0; 0; 0; 1; 17; 112].
Proof. eexists. eexists. split; [|split; [|reflexivity]]; [vm_compute; reflexivity|reflexivity]. Qed.
Example C62_ex_body : exists b, txbody_des [(CUint 0, CArray [CArray [CBytes (repeat 1 32); CUint 1]; CArray [CBytes (repeat 1 32); CUint 0]]); (CUint 1, CArray [CArray [CBytes [7]; CUint 9]]); (CUint 2, CTag 5 (CUint 4))] = Ok b /\ length (tb_inputs b) = 2%nat /\ tb_fee b = 4.
Proof. eexists. split; [vm_compute; reflexivity|]. split; reflexivity. Qed.
Example C62_ex_script : exists m, deserialize_array ms_des (cbor_encode (CArray [CUint 1; CArray [CArray [CUint 0; CBytes (repeat 3 28)]; CArray [CUint 2; CArray []]]])) = Ok m /\ ms_known m.
Proof. eexists. split; [vm_compute; reflexivity|]. cbn. tauto. Qed.
Print Assumptions C62_parts_say.
Print Assumptions C62_scripts_say.
Print Assumptions C62_certificates_say.
Print Assumptions C62_relays_say.
Print Assumptions C62_silent_losses_refuted.
Print Assumptions C62_body_fields.
Print Assumptions C62_missing_fields_refuted.
