(** C77: the program examples/generate_stake_pool_keys: the files it leaves, at every moment, and what they are good for. *)
From Verif Require Import Base BaseLemmas Spec_Hex Model_Hex Proof_Hex Spec_Cbor Model_Cbor Proof_Cbor Spec_Ed25519 Model_Bip32 Spec_Bip32 Proof_Bip32 Proof_Bip32b Props_Bip32.
From Verif Require Import Spec_Bech32 Model_Bech32 Proof_Bech32 Spec_Mnemonic Model_Mnemonic Proof_Mnemonic Spec_Ledger Model_Ledger Proof_Ledger Props_Ledger.
From Verif Require Import Model_Kes Spec_Kes Proof_Kes Proof_KesHist Proof_KesMore Props_Kes Model_Pool Props_Pool Spec_Block Props_Block Spec_Files Model_Files Proof_Files Props_Files Model_Keygen Proof_Keygen.
Ltac Zify.zify_post_hook ::= idtac.

(** ** Specification *)
Definition pool_files : list string := ["./cold.skey"; "./cold.vkey"; "./kes.skey"; "./kes.vkey"; "./cold.counter"; "./pool.cert"; "./vrf.skey"; "./vrf.vkey"]%string.
(** What the eight texts say: three key pairs, a counter and a certificate. *)
Definition text_item (text : list Z) (type desc : list Z) (item : cbor) : Prop :=
  exists e, read_envelope text = Some e /\ en_type e = type /\ en_desc e = desc /\ payload_item e = Some item.
Record pool_set (T : string -> list Z) (csk cold ksk hot sigma vsk vvk : list Z) (next number from : Z) : Prop := {
  ps_cold_sk : read_key_file (T "./cold.skey"%string) = Some (str "StakePoolExtendedSigningKey_ed25519_bip32", csk);
  ps_cold_vk : read_key_file (T "./cold.vkey"%string) = Some (str "StakePoolVerificationKey_ed25519", cold);
  ps_kes_sk : read_key_file (T "./kes.skey"%string) = Some (str "KesSigningKey_ed25519_kes_2^6", ksk);
  ps_kes_vk : read_key_file (T "./kes.vkey"%string) = Some (str "KesVerificationKey_ed25519_kes_2^6", hot);
  ps_counter : exists digits, is_decimal next digits /\ text_item (T "./cold.counter"%string) (str "NodeOperationalCertificateIssueCounter") (str "Next certificate issue number: " ++ digits) (CArray [CUint next; CBytes cold]);
  ps_cert : text_item (T "./pool.cert"%string) (str "NodeOperationalCertificate") [] (CArray [CArray [CBytes hot; CUint number; CUint from; CBytes sigma]; CBytes cold]);
  ps_vrf_sk : read_key_file (T "./vrf.skey"%string) = Some (str "VrfSigningKey_PraosVRF", vsk);
  ps_vrf_vk : read_key_file (T "./vrf.vkey"%string) = Some (str "VrfVerificationKey_PraosVRF", vvk) }.
(** The files [fs] at some moment of a run that began with the files [old] and has the texts [T] to write: nothing else is touched; every one of the eight is as it was,
    or complete, or cut short and then no JSON text; and they are written in the order of the list. *)
Definition under_way (old : files) (T : string -> list Z) (fs : files) : Prop :=
  (forall p, ~ In p (map str pool_files) -> fs p = old p) /\
  (forall name, In name pool_files -> fs (str name) = old (str name) \/
     exists t rest, fs (str name) = Some t /\ T name = t ++ rest /\ (rest = [] \/ json_object t = None)) /\
  exists i, forall a name b, pool_files = a ++ name :: b ->
    ((length a < i)%nat -> exists t rest, fs (str name) = Some t /\ T name = t ++ rest) /\ ((i < length a)%nat -> fs (str name) = old (str name)).
(** What is assumed of the cryptography. *)
Record pool_crypto (sha512 sha256 : list Z -> list Z) (hmac512 : list Z -> list Z -> list Z) (pbkdf2 : Z -> nat -> list Z -> list Z -> list Z)
    (enc : Z -> list Z) (padd : list Z -> list Z -> option (list Z)) (verify : list Z -> list Z -> list Z -> bool) (H H224 ed_pk : list Z -> list Z) (ed_sign : list Z -> list Z -> list Z) : Prop := {
  pc_hashes : hashes_ok sha512 sha256 hmac512 pbkdf2;
  pc_group : ed_group enc padd;
  pc_verify : ed_verifies enc sha512 verify;
  pc_kes : kes_crypto H ed_pk ed_sign verify;
  pc_H : forall x, bytes_ok (H x);
  pc_H224 : forall x, bytesN 28 (H224 x);
  pc_pk : forall s, bytes_ok (ed_pk s) }.
(** The certificate's message: the hot key, number 0, from period 1 on. *)
Definition first_cert_message (hot : list Z) : list Z := hot ++ repeat 0 8 ++ repeat 0 7 ++ [1].

Section Facts.
Variables (sha512 sha256 : list Z -> list Z) (hmac512 : list Z -> list Z -> list Z) (pbkdf2 : Z -> nat -> list Z -> list Z -> list Z).
Variables (enc : Z -> list Z) (padd : list Z -> list Z -> option (list Z)) (verify : list Z -> list Z -> list Z -> bool) (H H224 ed_pk : list Z -> list Z) (ed_sign : list Z -> list Z -> list Z).
Hypothesis PC : pool_crypto sha512 sha256 hmac512 pbkdf2 enc padd verify H H224 ed_pk ed_sign.

Lemma vk_bytes d : forall s, bytes_ok (vk H ed_pk d s).
Proof using PC. destruct d; intros s; [apply (pc_pk _ _ _ _ _ _ _ _ _ _ _ PC)|apply (pc_H _ _ _ _ _ _ _ _ _ _ _ PC)]. Qed.
Lemma state_bytes d : forall s p, bytes_ok s -> bytes_ok (state H ed_pk d s p).
Proof using PC.
  pose proof (pc_H _ _ _ _ _ _ _ _ _ _ _ PC) as HB.
  induction d as [|e IH]; intros s p B; [exact B|]. cbn [state]. apply bytes_ok_app. split; [|apply bytes_ok_app; split; apply vk_bytes].
  destruct (p <? _); apply bytes_ok_app; split; try (apply IH, HB); [apply HB|]. apply Forall_forall. intros x I. apply repeat_spec in I. subst. split; [lia|reflexivity].
Qed.
Lemma kes_gen s : bytesN 32 s -> kes_generate H ed_pk s = Ok {| prv := state H ed_pk 6 s 0 ++ zeros 4; period_ := 0 |}.
Proof using PC.
  intros [B L]. pose proof (pc_kes _ _ _ _ _ _ _ _ _ _ _ PC) as C. assert (Ls : length s = 32%nat) by (unfold zlen in L; lia). unfold kes_generate.
  rewrite (keygen_spec H ed_pk ed_sign verify C) by (try assumption; unfold zeros; apply repeat_length). cbn [bind]. unfold key_at. cbn [prv].
  pose proof (state_len H ed_pk ed_sign verify C 6 s 0 Ls) as SL. rewrite (sub_ub_head (state H ed_pk 6 s 0)) by (symmetry; exact SL). cbn [bind]. unfold kes_of_bytes. rewrite SL, !Nat.eqb_refl. cbn [negb andb]. reflexivity.
Qed.
Lemma sign_bytes k m sg : sign sha512 enc k m = Ok sg -> bytesN 64 sg.
Proof using PC.
  pose proof (pc_group _ _ _ _ _ _ _ _ _ _ _ PC) as EG. intros E. unfold sign in E. apply bind_ok in E as (p & _ & E). unfold bip32_sign in E. cbv zeta in E. apply bind_ok in E as (R & M & E). unfold mul_base in M. destruct (_ =? 0); [discriminate|].
  assert (ER : R = enc (lev 256 (sha512 (skipn 32 (kbytes k) ++ m)) mod ell)) by congruence. assert (EE : exists n, sg = R ++ pack_le 32 n) by (eexists; symmetry; apply ok_inj, E). destruct EE as (n & ->). subst R.
  split; [apply bytes_ok_app; split; [apply (enc_bytes _ _ EG)|apply pack_le_ok]|]. unfold zlen. rewrite app_length, (enc_len _ _ EG), pack_le_length. reflexivity.
Qed.

Definition jb (path type desc : string) (key : list Z) : job := {| j_path := path; j_type := str type; j_desc := str desc; j_hex := bstr_hex key |}.
Definition jobs1 (csk cold ksk hot : list Z) : list job :=
  [jb "./cold.skey" "StakePoolExtendedSigningKey_ed25519_bip32" "Stake Pool Operator Signing Key" csk;
   jb "./cold.vkey" "StakePoolVerificationKey_ed25519" "Stake Pool Operator Verification Key" cold;
   jb "./kes.skey" "KesSigningKey_ed25519_kes_2^6" "KES Signing Key" ksk;
   jb "./kes.vkey" "KesVerificationKey_ed25519_kes_2^6" "KES Verification Key" hot;
   {| j_path := "./cold.counter"; j_type := str "NodeOperationalCertificateIssueCounter"; j_desc := str "Next certificate issue number: " ++ to_string 0; j_hex := hex_encode (counter_serialize 0 cold) |}].
Definition jobs2 (cold : list Z) (c : opcert) (vsk vvk : list Z) : list job :=
  [{| j_path := "./pool.cert"; j_type := str "NodeOperationalCertificate"; j_desc := []; j_hex := hex_encode (opcert_serialize_with c cold) |};
   jb "./vrf.skey" "VrfSigningKey_PraosVRF" "VRF Signing Key" vsk;
   jb "./vrf.vkey" "VrfVerificationKey_PraosVRF" "VRF Verification Key" vvk].
Lemma then_print {B} t (q : unit -> io B) w : then_ (print t) q w = q tt {| files_of := files_of w; printed := printed w ++ t; saves := saves w |}.
Proof using. clear. unfold then_, print. destruct (q _ _) as [[tr w'] o]. reflexivity. Qed.
Lemma run_plan_app {A} direct opens room l l' (k : io A) : run_plan direct opens room (l ++ l') k = run_plan direct opens room l (run_plan direct opens room l' k).
Proof using. clear. induction l as [|j l IH]; [reflexivity|]. cbn [app run_plan]. rewrite IH. reflexivity. Qed.
Lemma seed_ok phrase m : Mnemonic_of_text phrase English = Ok m -> exists ent, toSeed m = Ok ent.
Proof using. clear. intros E. apply text_accepts in E as (S & D & _). destruct (toEntropy_spec m S D) as (ent & cs & T & _). exists ent. unfold toSeed. rewrite T. reflexivity. Qed.

Definition kes_state (s : list Z) : list Z := state H ed_pk 6 s 0.
Definition kes_hot (s : list Z) : list Z := vk H ed_pk 6 s.
Lemma kes_state_len s : bytesN 32 s -> length (kes_state s) = sk_size 6.
Proof using PC. intros [_ L]. apply (state_len H ed_pk ed_sign verify (pc_kes _ _ _ _ _ _ _ _ _ _ _ PC)). unfold zlen in L. lia. Qed.
Lemma kes_fresh s : bytesN 32 s -> exists sb, kes_keygen H ed_pk 6 (zeros (sk_size 6 + 4)) s = Ok ({| prv := kes_state s ++ zeros 4; period_ := 0 |}, kes_hot s, sb).
Proof using PC.
  intros [_ L]. exists (zeros 32). rewrite (keygen_spec H ed_pk ed_sign verify (pc_kes _ _ _ _ _ _ _ _ _ _ _ PC)) by (try (unfold zeros; apply repeat_length); unfold zlen in L; lia). reflexivity.
Qed.
Lemma kes_pub s : bytesN 32 s -> kes_publicKey H 6 {| prv := kes_state s ++ zeros 4; period_ := 0 |} = Ok (kes_hot s).
Proof using PC.
  intros B. pose proof (pc_kes _ _ _ _ _ _ _ _ _ _ _ PC) as C. destruct (kes_fresh s B) as (sb & G). assert (Ls : length s = 32%nat) by (destruct B as [_ L]; unfold zlen in L; lia).
  destruct (C20_public_key_constant H ed_pk ed_sign verify C 5 _ s _ _ _ [] ltac:(lia) Ls (repeat_length _ _) G (fun F => F) ltac:(reflexivity)) as (k' & R & P). cbn [kes_run] in R. assert (k' = {| prv := kes_state s ++ zeros 4; period_ := 0 |}) by congruence. subst k'. exact P.
Qed.
Lemma kes_bytes s : bytesN 32 s -> kes_file_bytes 6 {| prv := kes_state s ++ zeros 4; period_ := 0 |} = kes_state s.
Proof using PC. intros B. unfold kes_file_bytes. cbn [prv]. apply firstn_app_exact. symmetry. apply kes_state_len, B. Qed.

Definition shown (cold : list Z) (w : world) (id : list Z) : world :=
  {| files_of := files_of w; printed := (printed w ++ (str "Generating stake pool keys for pool with ID:" ++ [10])) ++ (id ++ [10]); saves := saves w |}.
Lemma main_eq direct opens room phrase m ent k ks vs : Mnemonic_of_text phrase English = Ok m -> toSeed m = Ok ent -> cold_fromMnemonic hmac512 pbkdf2 enc ent = Ok k -> cold_xsk_vkey enc k = Ok (enc (kL k)) ->
  bytesN 32 ks -> bytesN 32 vs ->
  exists id, bech32_encode (str "pool") (H224 (enc (kL k))) = Ok id /\ bech32_decode id = Ok (str "pool", H224 (enc (kL k))) /\
  forall w, keygen_main direct opens room sha512 hmac512 pbkdf2 enc H224 H ed_pk phrase ks vs w =
    run_plan direct opens room (jobs1 (kbytes k) (enc (kL k)) (kes_state ks) (kes_hot ks))
      (then_ (pure (opcert_generate_ext sha512 enc (kes_hot ks) 0 1 k)) (fun c => run_plan direct opens room (jobs2 (enc (kL k)) c (vs ++ ed_pk vs) (ed_pk vs)) (pure (Ok 0)))) (shown (enc (kL k)) w id).
Proof using PC.
  intros EM ES EK EV BK BV. pose proof (pc_H224 _ _ _ _ _ _ _ _ _ _ _ PC (enc (kL k))) as [HB HL].
  assert (PI : pool_id H224 (enc (kL k)) = H224 (enc (kL k))) by (unfold pool_id; apply firstn_all2; unfold zlen in HL; lia).
  destruct (bech32_round_trip (str "pool") (H224 (enc (kL k)))) as (id & E1 & E2); [apply bytes_okb_spec; reflexivity|exact HB|apply no_upper_iff; reflexivity|discriminate|].
  exists id. split; [exact E1|]. split; [exact E2|]. intros w. unfold keygen_main. rewrite (then_pure _ m _ _ EM). rewrite (then_pure _ k) by (rewrite ES; exact EK). rewrite (then_pure _ _ _ _ EV). rewrite then_print. rewrite (then_pure _ id) by (rewrite PI; exact E1). rewrite then_print.
  unfold jobs1, jobs2. cbn [run_plan]. change ({| files_of := _; printed := _; saves := _ |}) with (shown (enc (kL k)) w id).
  apply then_ext. intros _ w2. apply then_ext. intros _ w3. rewrite (then_pure _ _ _ _ (kes_gen ks BK)). fold (kes_state ks). rewrite (then_pure _ _ _ _ (kes_pub ks BK)). rewrite (kes_bytes ks BK).
  apply then_ext. intros _ w4. apply then_ext. intros _ w5. apply then_ext. intros _ w6. apply then_ext. intros c w7. apply then_ext. intros _ w8. apply then_ext. intros _ w9.
  assert (LV : length vs = 32%nat) by (destruct BV as [_ L]; unfold zlen in L; lia).
  assert (VP : vrf_publicKey (vrf_fromSeed ed_pk vs) = ed_pk vs). { unfold vrf_publicKey, vrf_fromSeed. rewrite skipn_app_exact by (symmetry; exact LV). apply firstn_all2. rewrite (pk_len _ _ _ _ (pc_kes _ _ _ _ _ _ _ _ _ _ _ PC)). lia. }
  rewrite VP. apply then_ext. intros _ w10. reflexivity.
Qed.
End Facts.

(** The texts of a list of jobs, by path. *)
Definition text_of (l : list job) (name : string) : list Z := match find (fun j => String.eqb (j_path j) name) l with Some j => j_text j | None => [] end.
Definition plain_job (j : job) : Prop := plain (j_type j) /\ plain (j_desc j) /\ plain (j_hex j).
Lemma names_nodup : NoDup (map str pool_files).
Proof. assert (E : nodup (list_eq_dec Z.eq_dec) (map str pool_files) = map str pool_files) by (vm_compute; reflexivity). rewrite <- E. apply NoDup_nodup. Qed.
Lemma paths_nodup l : map j_path l = pool_files -> NoDup (map (fun j => str (j_path j)) l).
Proof. intros E. rewrite <- map_map, E. exact names_nodup. Qed.
Lemma names_nodup' : NoDup pool_files.
Proof. apply (NoDup_map_inv str). exact names_nodup. Qed.
Lemma text_of_at l a j b : map j_path l = pool_files -> l = a ++ j :: b -> text_of l (j_path j) = j_text j.
Proof.
  intros E ->. unfold text_of. assert (ND : NoDup (map j_path (a ++ j :: b))) by (rewrite E; exact names_nodup'). clear E. induction a as [|x a IH].
  - cbn [app find]. rewrite String.eqb_refl. reflexivity.
  - cbn [app find]. destruct (String.eqb_spec (j_path x) (j_path j)) as [X|X].
    + cbn [app map] in ND. apply NoDup_cons_iff in ND as [N _]. exfalso. apply N. rewrite X. apply in_map. apply in_or_app. right. left. reflexivity.
    + apply IH. cbn [app map] in ND. apply NoDup_cons_iff in ND as [_ N]. exact N.
Qed.
Lemma job_named l name : map j_path l = pool_files -> In name pool_files -> exists a j b, l = a ++ j :: b /\ j_path j = name.
Proof. intros E I. rewrite <- E in I. apply in_map_iff in I as (j & <- & I). apply in_split in I as (a & b & ->). exists a, j, b. split; reflexivity. Qed.
Lemma split_named (l : list job) a name b : map j_path l = a ++ name :: b -> exists a' j b', l = a' ++ j :: b' /\ j_path j = name /\ length a' = length a.
Proof.
  revert a. induction l as [|x l IH]; intros [|y a] E; try discriminate E; cbn [map app] in E.
  - exists [], x, l. injection E as E1 E2. auto.
  - injection E as E1 E2. destruct (IH a E2) as (a' & j & b' & -> & E3 & L). exists (x :: a'), j, b'. cbn [length]. auto.
Qed.
Lemma later_out l a (j : job) b i : NoDup (map (fun j => str (j_path j)) l) -> l = a ++ j :: b -> (i < length a)%nat -> ~ In (str (j_path j)) (map (fun j => str (j_path j)) (firstn (S i) l)).
Proof.
  intros ND -> L I. rewrite firstn_app in I. replace (S i - length a)%nat with 0%nat in I by lia. cbn [firstn] in I. rewrite app_nil_r in I.
  rewrite map_app in ND. cbn [map] in ND. apply NoDup_remove_2 in ND. apply ND. apply in_or_app. left. apply in_map_iff in I as (x & E & I). apply in_map_iff. exists x. split; [exact E|]. rewrite <- (firstn_skipn (S i) a). apply in_or_app. left. exact I.
Qed.
Lemma cut_text j n : plain_job j -> exists rest, j_text j = firstn n (j_text j) ++ rest /\ (rest = [] \/ json_object (firstn n (j_text j)) = None).
Proof.
  intros (A & B & C). exists (skipn n (j_text j)). split; [symmetry; apply firstn_skipn|]. destruct (skipn n (j_text j)) as [|x r] eqn:S; [left; reflexivity|right].
  apply (envelope_prefix (j_type j) (j_desc j) (j_hex j) _ (x :: r) A B C); [|discriminate]. fold (j_text j). rewrite <- S. symmetry. apply firstn_skipn.
Qed.
Lemma moment_under_way opens room old n l i fs : map j_path l = pool_files -> Forall plain_job l -> moment opens room old n l i fs -> under_way old (text_of l) fs.
Proof.
  intros E P (M1 & M2 & M3). pose proof (paths_nodup l E) as ND.
  assert (PJ : forall a j b, l = a ++ j :: b -> plain_job j) by (intros a j b X; rewrite Forall_forall in P; apply P; rewrite X; apply in_or_app; right; left; reflexivity).
  split; [|split].
  - intros p N. apply M3. intros I. apply N. rewrite <- E, map_map. apply in_map_iff in I as (x & EX & I). apply in_map_iff. exists x. split; [exact EX|]. rewrite <- (firstn_skipn (S i) l). apply in_or_app. left. exact I.
  - intros name I. destruct (job_named l name E I) as (a & j & b & X & <-). rewrite (text_of_at l a j b E X). destruct (Nat.lt_trichotomy (length a) i) as [L|[L|L]].
    + destruct (M1 a j b X L) as [_ F]. destruct (cut_text j (room (n + length a)%nat) (PJ a j b X)) as (rest & C1 & C2). right. exists (firstn (room (n + length a)%nat) (j_text j)), rest. split; [exact F|]. split; [exact C1|exact C2].
    + destruct (M2 a j b X L) as [F|(k & F)]; [left; exact F|]. destruct (cut_text j k (PJ a j b X)) as (rest & C1 & C2). right. exists (firstn k (j_text j)), rest. split; [exact F|]. split; [exact C1|exact C2].
    + left. apply M3. apply (later_out l a j b i ND X L).
  - exists i. intros a name b X. rewrite <- E in X. apply split_named in X as (a' & j & b' & X & <- & <-). rewrite (text_of_at l a' j b' E X). split; intros L.
    + destruct (M1 a' j b' X L) as [_ F]. eexists _, (skipn _ (j_text j)). split; [exact F|]. symmetry. apply firstn_skipn.
    + apply M3. apply (later_out l a' j b' i ND X L).
Qed.
Lemma plan_run direct opens room l w tr w' (o : outcome Z) : map j_path l = pool_files -> Forall plain_job l -> run_plan direct opens room l (pure (Ok 0)) w = (tr, w', o) ->
  (o = Ok 0 \/ o = Throw) /\ printed w' = printed w /\ (forall fs, In fs (files_of w' :: tr) -> under_way (files_of w) (text_of l) fs) /\
  (o = Ok 0 -> forall name, In name pool_files -> exists i, files_of w' (str name) = Some (firstn (room (saves w + i)%nat) (text_of l name))).
Proof.
  intros E P R. pose proof (plan_moments direct opens room (pure (Ok 0)) l (paths_nodup l E) w tr w' o R) as [(tr1 & w1 & tr2 & -> & K & S1 & P1 & M & I)|(-> & P1 & I)].
  - unfold pure in K. assert (tr2 = []) by congruence. assert (w1 = w') by congruence. assert (o = Ok 0) by congruence. subst. rewrite app_nil_r. split; [left; reflexivity|]. split; [exact P1|]. split.
    + intros fs [<-|J]; [apply (moment_under_way _ _ _ _ _ _ _ E P M)|]. destruct (I fs J) as (i & _ & MI). apply (moment_under_way _ _ _ _ _ _ _ E P MI).
    + intros _ name J. destruct (job_named l name E J) as (a & j & b & X & <-). rewrite (text_of_at l a j b E X). destruct M as (M1 & _). exists (length a). apply (M1 a j b X). rewrite X, app_length. cbn [length]. lia.
  - split; [right; reflexivity|]. split; [exact P1|]. split; [|discriminate]. intros fs J. destruct (I fs J) as (i & _ & MI). apply (moment_under_way _ _ _ _ _ _ _ E P MI).
Qed.
Lemma plan_full direct opens room l w : map j_path l = pool_files -> Forall (fun j => Z.of_nat (length (j_text j)) <= 2000) l -> (forall i, opens i = true /\ 2000 <= Z.of_nat (room i)) ->
  forall tr w' (o : outcome Z), run_plan direct opens room l (pure (Ok 0)) w = (tr, w', o) -> o = Ok 0 /\
  (Forall plain_job l -> forall name, In name pool_files -> files_of w' (str name) = Some (text_of l name)).
Proof.
  intros E LE RM tr w' o R. rewrite Forall_forall in LE.
  assert (O : o = Ok 0). { destruct (plan_room direct opens room (pure (Ok 0)) l w) as (w1 & t1 & _ & _ & K).
    - intros a j b X. destruct (RM (saves w + length a)%nat) as [R1 R2]. split; [exact R1|]. assert (I : In j l) by (rewrite X; apply in_or_app; right; left; reflexivity). specialize (LE j I). cbv beta in LE. lia.
    - specialize (K [] w1 (Ok 0) eq_refl). rewrite K in R. congruence. }
  split; [exact O|]. intros P name I. destruct (plan_run _ _ _ _ _ _ _ _ E P R) as (_ & _ & _ & F). destruct (F O name I) as (i & ->). f_equal.
  apply firstn_all2. destruct (job_named l name E I) as (a & j & b & X & <-). rewrite (text_of_at l a j b E X). destruct (RM (saves w + i)%nat) as [_ R2]. assert (J : In j l) by (rewrite X; apply in_or_app; right; left; reflexivity). specialize (LE j J). cbv beta in LE. lia.
Qed.
Lemma text_zlen t d h : Z.of_nat (length (envelope_text t d h)) = Z.of_nat (length t) + Z.of_nat (length d) + Z.of_nat (length h) + 60.
Proof. unfold envelope_text, envelope_chunks. cbn [concat]. rewrite !app_length. cbn [length str]. simpl. lia. Qed.

(** ** The texts the program writes *)
Section Texts.
Variables (csk cold ksk hot sigma vsk vvk : list Z).
Definition the_cert : opcert := {| oc_hot := hot; oc_seq := 0; oc_period := 1; oc_sigma := sigma |}.
Definition all_jobs : list job := jobs1 csk cold ksk hot ++ jobs2 cold the_cert vsk vvk.
Hypotheses (B1 : bytesN 64 csk) (B2 : bytesN 32 cold) (B3 : bytesN 608 ksk) (B4 : bytesN 32 hot) (B5 : bytesN 64 sigma) (B6 : bytesN 64 vsk) (B7 : bytesN 32 vvk).
Lemma u64_0 : u64 0. Proof using. split; [lia|reflexivity]. Qed.
Lemma u64_1 : u64 1. Proof using. split; [lia|reflexivity]. Qed.
Lemma cert_wf : opcert_wf the_cert.
Proof using B4 B5. split; [exact B4|]. split; [exact u64_0|]. split; [exact u64_1|exact B5]. Qed.
Lemma bstr_plain n b : bytesN n b -> n < 2 ^ 64 -> plain (bstr_hex b).
Proof using. intros [B L] U. apply hex_plain, encode_bytes. split; [exact B|lia]. Qed.
Lemma counter_ok : cbor_ok (CArray [CUint 0; CBytes cold]).
Proof using B2. destruct B2 as [B L]. cbn [cbor_ok fold_right]. split; [reflexivity|]. split; [exact u64_0|]. split; [|exact I]. split; [exact B|]. rewrite L. reflexivity. Qed.
Lemma cert_item_ok : cbor_ok (CArray [opcert_item the_cert; CBytes cold]).
Proof using B2 B4 B5.
  destruct cert_wf as ((HO & HL) & S & P & (GO & GL)), B2 as [O L]. unfold opcert_item. cbn [cbor_ok fold_right]. rewrite HL, GL, L. unfold u64, zlen in *. cbn [length]. repeat split; solve [assumption|lia].
Qed.
Lemma all_plain : Forall plain_job all_jobs.
Proof using B1 B2 B3 B4 B5 B6 B7.
  unfold all_jobs, jobs1, jobs2. cbn [app].
  repeat (apply Forall_cons; [unfold plain_job, jb; cbn [j_type j_desc j_hex]; split; [plain_lit|]; split; [first [constructor; fail|plain_lit]|first [eapply bstr_plain; [eassumption|reflexivity]|apply hex_plain, encode_bytes; first [exact counter_ok|exact cert_item_ok]]]|]). constructor.
Qed.
Lemma hex_len9 b : Z.of_nat (length (bstr_hex b)) <= 2 * (9 + zlen b).
Proof using. unfold bstr_hex. rewrite hex_encode_length. cbn [cbor_encode]. rewrite app_length. pose proof (head_len 2 (zlen b)) as HL. unfold zlen in *. assert ((length (cbor_head 2 (Z.of_nat (length b))) <= 9)%nat) by (rewrite HL; repeat destruct (_ <? _); lia). lia. Qed.
Lemma all_short : Forall (fun j => Z.of_nat (length (j_text j)) <= 2000) all_jobs.
Proof using B1 B2 B3 B4 B5 B6 B7.
  assert (LB : forall n b, bytesN n b -> Z.of_nat (length (bstr_hex b)) <= 18 + 2 * n) by (intros n b [_ <-]; pose proof (hex_len9 b); lia).
  pose proof (LB _ _ B1). pose proof (LB _ _ B2). pose proof (LB _ _ B3). pose proof (LB _ _ B4). pose proof (LB _ _ B6). pose proof (LB _ _ B7). clear LB.
  assert (LC : Z.of_nat (length (hex_encode (counter_serialize 0 cold))) <= 200).
  { rewrite hex_encode_length. unfold counter_serialize. destruct B2 as [_ L]. cbn [cbor_encode map concat]. rewrite L, !app_length, !head_len. unfold zlen in *. cbn [length]. change (0 <? 24) with true. change (32 <? 24) with false. change (32 <? 2 ^ 8) with true. change (Z.of_nat 2 <? 24) with true. cbn iota. lia. }
  assert (LD : Z.of_nat (length (hex_encode (opcert_serialize_with the_cert cold))) <= 400).
  { rewrite hex_encode_length. unfold opcert_serialize_with, opcert_item, the_cert. cbn [oc_hot oc_seq oc_period oc_sigma]. destruct B2 as [_ L], B4 as [_ L'], B5 as [_ L'']. cbn [cbor_encode map concat]. rewrite L, L', L'', !app_length, !head_len. unfold zlen in *. cbn [length].
    repeat match goal with |- context [?a <? ?b] => let v := eval vm_compute in (a <? b) in change (a <? b) with v end. cbn iota. lia. }
  unfold all_jobs, jobs1, jobs2, jb, j_text. cbn [app].
  repeat (apply Forall_cons; [cbn [j_type j_desc j_hex]; rewrite text_zlen; repeat match goal with |- context [Z.of_nat (length (?s ++ ?t))] => let v := eval vm_compute in (Z.of_nat (length (s ++ t))) in change (Z.of_nat (length (s ++ t))) with v | |- context [Z.of_nat (length (str ?s))] => let v := eval vm_compute in (Z.of_nat (length (str s))) in change (Z.of_nat (length (str s))) with v end; cbn [length]; lia|]). constructor.
Qed.
Lemma all_paths : map j_path all_jobs = pool_files. Proof using. reflexivity. Qed.
Lemma all_say : pool_set (text_of all_jobs) csk cold ksk hot sigma vsk vvk 0 0 1.
Proof using B1 B2 B3 B4 B5 B6 B7.
  assert (K : forall path t d b n, text_of all_jobs path = key_text t d b -> plain (str t) -> plain (str d) -> bytesN n b -> n < 2 ^ 64 -> read_key_file (text_of all_jobs path) = Some (str t, b)).
  { intros path t d b n -> T D [B L] N. apply read_key_text; [exact T|exact D|exact B|lia]. }
  constructor.
  - eapply K; [reflexivity|plain_lit|plain_lit|exact B1|reflexivity].
  - eapply K; [reflexivity|plain_lit|plain_lit|exact B2|reflexivity].
  - eapply K; [reflexivity|plain_lit|plain_lit|exact B3|reflexivity].
  - eapply K; [reflexivity|plain_lit|plain_lit|exact B4|reflexivity].
  - exists (to_string 0). split; [apply to_string_decimal, u64_0|]. change (text_of all_jobs "./cold.counter") with (counter_file 0 cold). unfold counter_file, counter_serialize, text_item. apply read_item_text; [plain_lit|plain_lit|exact counter_ok].
  - change (text_of all_jobs "./pool.cert") with (opcert_file the_cert cold). unfold opcert_file, opcert_serialize_with, text_item. apply (read_item_text _ _ (CArray [opcert_item the_cert; CBytes cold])); [plain_lit|constructor|exact cert_item_ok].
  - eapply K; [reflexivity|plain_lit|plain_lit|exact B6|reflexivity].
  - eapply K; [reflexivity|plain_lit|plain_lit|exact B7|reflexivity].
Qed.
End Texts.

Section Thm.
Variables (sha512 sha256 : list Z -> list Z) (hmac512 : list Z -> list Z -> list Z) (pbkdf2 : Z -> nat -> list Z -> list Z -> list Z).
Variables (enc : Z -> list Z) (padd : list Z -> list Z -> option (list Z)) (verify : list Z -> list Z -> list Z -> bool) (H H224 ed_pk : list Z -> list Z) (ed_sign : list Z -> list Z -> list Z).
Hypothesis PC : pool_crypto sha512 sha256 hmac512 pbkdf2 enc padd verify H H224 ed_pk ed_sign.
Definition pool_path : list Z := [2 ^ 31 + 1853; 2 ^ 31 + 1815; 2 ^ 31; 2 ^ 31].
(** The nonce of the cold key's signature of the certificate. *)
Definition cert_nonce (k : xprv) (hot : list Z) : Z := lev 256 (sha512 (skipn 32 (kbytes k) ++ first_cert_message hot)) mod ell.

Lemma cold_key phrase m : Mnemonic_of_text phrase English = Ok m -> exists ent k, toSeed m = Ok ent /\ prv_derivePath hmac512 enc (prv_fromMnemonic pbkdf2 ent []) pool_path V2 = Ok k /\
  cold_fromMnemonic hmac512 pbkdf2 enc ent = Ok k /\ cold_xsk_vkey enc k = Ok (enc (kL k)) /\ wf_prv k /\ usable (kL k).
Proof using PC.
  intros E. destruct (seed_ok phrase m E) as (ent & ES). pose proof (pc_hashes _ _ _ _ _ _ _ _ _ _ _ PC) as HO. pose proof (pc_group _ _ _ _ _ _ _ _ _ _ _ PC) as EG.
  destruct (C60_from_mnemonic _ _ _ _ _ _ HO EG ent) as (R & k & v & EK & EV & W & CL). exists ent, k. split; [exact ES|].
  destruct (mnemonic_root _ _ _ _ HO ent []) as [Wr _]. split; [rewrite <- EK, R; symmetry; apply (C60_from_root_key _ _ _ _ _ _ HO EG _ Wr)|]. split; [exact EK|].
  pose proof EV as EV'. unfold cold_xsk_vkey in EV'. apply bind_ok in EV' as (p & EP & EV'). apply (publicKey_ok _ _ EG) in EP as [U ->]. cbn [pbytes] in EV'. split; [rewrite EV; congruence|]. split; [exact W|exact U].
Qed.
Lemma cert_msg hot : opcert_message (opcert_unsigned hot 0 1) = first_cert_message hot.
Proof using. clear. unfold opcert_message, opcert_unsigned, first_cert_message. cbn [oc_hot oc_seq oc_period]. rewrite <- app_assoc. reflexivity. Qed.
Lemma signed k hot : usable (kL k) -> 
  (cert_nonce k hot <> 0 -> exists sigma, opcert_generate_ext sha512 enc hot 0 1 k = Ok (the_cert hot sigma) /\ bytesN 64 sigma /\ verify (enc (kL k)) (first_cert_message hot) sigma = true) /\
  (cert_nonce k hot = 0 -> opcert_generate_ext sha512 enc hot 0 1 k = Throw).
Proof using PC.
  intros U. pose proof (pc_group _ _ _ _ _ _ _ _ _ _ _ PC) as EG. unfold opcert_generate_ext. cbv zeta. rewrite cert_msg. destruct (sign_total sha512 enc k (first_cert_message hot) U) as [[E N]|(sg & E)].
  - rewrite E. split; [intros X; exfalso; apply X, N|reflexivity].
  - rewrite E. split; [|intros X].
    + intros _. exists sg. split; [reflexivity|]. split; [eapply sign_bytes; [exact PC|exact E]|]. 
      assert (EP : publicKey enc k = Ok {| pbytes := enc (kL k); pcc := kcc k |}) by (apply (publicKey_ok _ _ EG); auto).
      destruct (C35_signature_verifies _ _ _ _ EG (pc_verify _ _ _ _ _ _ _ _ _ _ _ PC) _ _ _ _ E EP) as [_ V]. exact V.
    + exfalso. unfold sign in E. apply bind_ok in E as (p & _ & E). unfold bip32_sign in E. cbv zeta in E. unfold cert_nonce in X. unfold mul_base in E. rewrite X in E. discriminate E.
Qed.
Lemma hot_bytes ks : bytesN 32 (kes_hot H ed_pk ks).
Proof using PC. split; [apply (vk_bytes _ _ _ _ _ _ _ _ _ _ _ PC)|]. unfold zlen, kes_hot. rewrite (vk_len H ed_pk ed_sign verify (pc_kes _ _ _ _ _ _ _ _ _ _ _ PC)). reflexivity. Qed.
Lemma ksk_bytes ks : bytesN 32 ks -> bytesN 608 (kes_state H ed_pk ks).
Proof using PC. intros B. split; [apply (state_bytes _ _ _ _ _ _ _ _ _ _ _ PC), B|]. unfold zlen. rewrite (kes_state_len _ _ _ _ _ _ _ _ _ _ _ PC) by exact B. vm_compute. reflexivity. Qed.
Lemma pk_bytes s : bytesN 32 (ed_pk s).
Proof using PC. split; [apply (pc_pk _ _ _ _ _ _ _ _ _ _ _ PC)|]. unfold zlen. rewrite (pk_len _ _ _ _ (pc_kes _ _ _ _ _ _ _ _ _ _ _ PC)). reflexivity. Qed.
Lemma bytesN_app a b x y : bytesN a x -> bytesN b y -> bytesN (a + b) (x ++ y).
Proof using. clear. intros [B L] [B' L']. split; [apply bytes_ok_app; auto|]. unfold zlen in *. rewrite app_length. lia. Qed.

(** Everything about one run. *)
Lemma run_facts phrase m ks vs : Mnemonic_of_text phrase English = Ok m -> bytesN 32 ks -> bytesN 32 vs ->
  exists ent k, toSeed m = Ok ent /\ prv_derivePath hmac512 enc (prv_fromMnemonic pbkdf2 ent []) pool_path V2 = Ok k /\
  let cold := enc (kL k) in let hot := kes_hot H ed_pk ks in
  (cert_nonce k hot <> 0 -> exists sigma T, bytesN 64 sigma /\ verify cold (first_cert_message hot) sigma = true /\
     pool_set T (kbytes k) cold (kes_state H ed_pk ks) hot sigma (vs ++ ed_pk vs) (ed_pk vs) 0 0 1 /\
     exists id, bech32_decode id = Ok (str "pool", H224 cold) /\
     forall direct opens room w tr w' o, keygen_main direct opens room sha512 hmac512 pbkdf2 enc H224 H ed_pk phrase ks vs w = (tr, w', o) ->
       (o = Ok 0 \/ o = Throw) /\ printed w' = printed w ++ str "Generating stake pool keys for pool with ID:" ++ [10] ++ id ++ [10] /\
       (forall fs, In fs (files_of w' :: tr) -> under_way (files_of w) T fs) /\
       ((forall i, opens i = true /\ 2000 <= Z.of_nat (room i)) -> o = Ok 0 /\ forall name, In name pool_files -> files_of w' (str name) = Some (T name))) /\
  (cert_nonce k hot = 0 -> forall direct opens room w tr w' o, keygen_main direct opens room sha512 hmac512 pbkdf2 enc H224 H ed_pk phrase ks vs w = (tr, w', o) -> o = Throw).
Proof using PC.
  intros EM BK BV. destruct (cold_key phrase m EM) as (ent & k & ES & ED & EK & EV & W & U). exists ent, k. split; [exact ES|]. split; [exact ED|]. cbv zeta.
  destruct (signed k (kes_hot H ed_pk ks) U) as [SG1 SG2].
  split; intros N.
  - destruct (SG1 N) as (sigma & EG & BS & V). set (l := all_jobs (kbytes k) (enc (kL k)) (kes_state H ed_pk ks) (kes_hot H ed_pk ks) sigma (vs ++ ed_pk vs) (ed_pk vs)).
    assert (B1 : bytesN 64 (kbytes k)) by (destruct W as (L & B & _); split; [exact B|unfold zlen; rewrite L; reflexivity]).
    assert (B2 : bytesN 32 (enc (kL k))) by (pose proof (pc_group _ _ _ _ _ _ _ _ _ _ _ PC) as G; split; [apply (enc_bytes _ _ G)|unfold zlen; rewrite (enc_len _ _ G); reflexivity]).
    assert (B6 : bytesN 64 (vs ++ ed_pk vs)) by (apply (bytesN_app 32 32); [exact BV|apply pk_bytes]).
    pose proof (all_say _ _ _ _ _ _ _ B1 B2 (ksk_bytes ks BK) (hot_bytes ks) BS B6 (pk_bytes vs)) as SAY. fold l in SAY.
    pose proof (all_plain _ _ _ _ _ _ _ B1 B2 (ksk_bytes ks BK) (hot_bytes ks) BS B6 (pk_bytes vs)) as PL. fold l in PL.
    pose proof (all_short _ _ _ _ _ _ _ B1 B2 (ksk_bytes ks BK) (hot_bytes ks) BS B6 (pk_bytes vs)) as SH. fold l in SH.
    exists sigma, (text_of l). split; [exact BS|]. split; [exact V|]. split; [exact SAY|].
    destruct (main_eq _ _ _ _ _ _ _ _ _ _ _ PC (fun _ _ => true) (fun _ => true) (fun _ => 0%nat) phrase m ent k ks vs EM ES EK EV BK BV) as (id & EI & DI & _). exists id. split; [exact DI|].
    intros direct opens room w tr w' o R. destruct (main_eq _ _ _ _ _ _ _ _ _ _ _ PC direct opens room phrase m ent k ks vs EM ES EK EV BK BV) as (id' & EI' & _ & ME). assert (id' = id) by congruence. subst id'.
    rewrite ME in R. assert (R' : run_plan direct opens room l (pure (Ok 0)) (shown (enc (kL k)) w id) = (tr, w', o)).
    { rewrite <- R. unfold l, all_jobs. rewrite run_plan_app. unfold jobs1. cbn [run_plan]. do 5 (apply then_ext; intros _ ?). rewrite EG, then_ok. reflexivity. }
    clear R. destruct (plan_run _ _ _ _ _ _ _ _ (all_paths _ _ _ _ _ _ _) PL R') as (O & P & UW & _). split; [exact O|]. split; [rewrite P; unfold shown; cbn [printed]; rewrite <- !app_assoc; reflexivity|]. split; [exact UW|].
    intros RM. destruct (plan_full _ _ _ _ _ (all_paths _ _ _ _ _ _ _) SH RM _ _ _ R') as [O1 F]. split; [exact O1|]. apply F, PL.
  - intros direct opens room w tr w' o R. destruct (main_eq _ _ _ _ _ _ _ _ _ _ _ PC direct opens room phrase m ent k ks vs EM ES EK EV BK BV) as (id & _ & _ & ME). rewrite ME in R. rewrite (SG2 N) in R.
    set (l := jobs1 _ _ _ _) in R. assert (ND : NoDup (map (fun j => str (j_path j)) l)).
    { assert (X : map (fun j => str (j_path j)) l = firstn 5 (map str pool_files)) by reflexivity. rewrite X. assert (Y : nodup (list_eq_dec Z.eq_dec) (firstn 5 (map str pool_files)) = firstn 5 (map str pool_files)) by (vm_compute; reflexivity). rewrite <- Y. apply NoDup_nodup. }
    destruct (plan_moments _ _ _ _ l ND _ _ _ _ R) as [(tr1 & w1 & tr2 & _ & K & _)|(-> & _)]; [|reflexivity]. unfold then_, pure in K. congruence.
Qed.
End Thm.

(** C77: a run of the program on a phrase it accepts.  Apart from one chance in 2^252 (the nonce) there are texts for the eight files such that: the cold key pair is the one at
    m/1853'/1815'/0'/0' of the phrase, the hot and VRF key pairs belong together, the certificate names the hot key with number 0 from period 1 on and carries the cold key's
    signature of just that; the pool's identifier is printed; and whatever the file system does, at every moment (so after a crash at any point) every file is as before, complete, or visibly
    cut short, and no other file is touched; if every file can be opened and takes 2000 bytes, the program ends normally with all eight files complete. *)
Theorem C77_files : forall sha512 sha256 hmac512 pbkdf2 enc padd verify H H224 ed_pk ed_sign, pool_crypto sha512 sha256 hmac512 pbkdf2 enc padd verify H H224 ed_pk ed_sign ->
  forall phrase m ks vs, Mnemonic_of_text phrase English = Ok m -> bytesN 32 ks -> bytesN 32 vs ->
  exists ent k ksk hot, toSeed m = Ok ent /\ prv_derivePath hmac512 enc (prv_fromMnemonic pbkdf2 ent []) [2 ^ 31 + 1853; 2 ^ 31 + 1815; 2 ^ 31; 2 ^ 31] V2 = Ok k /\
  (cert_nonce sha512 k hot <> 0 -> exists sigma T id,
     pool_set T (kbytes k) (enc (kL k)) ksk hot sigma (vs ++ ed_pk vs) (ed_pk vs) 0 0 1 /\
     (exists kb key sb, kes_keygen H ed_pk 6 kb ks = Ok (key, hot, sb) /\ kes_of_bytes 6 ksk = Ok key) /\
     length sigma = 64%nat /\ verify (enc (kL k)) (first_cert_message hot) sigma = true /\
     bech32_decode id = Ok (str "pool", H224 (enc (kL k))) /\
     forall direct opens room w tr w' o, keygen_main direct opens room sha512 hmac512 pbkdf2 enc H224 H ed_pk phrase ks vs w = (tr, w', o) ->
       (o = Ok 0 \/ o = Throw) /\ printed w' = printed w ++ str "Generating stake pool keys for pool with ID:" ++ [10] ++ id ++ [10] /\
       (forall fs, In fs (files_of w' :: tr) -> under_way (files_of w) T fs) /\
       ((forall i, opens i = true /\ 2000 <= Z.of_nat (room i)) -> o = Ok 0 /\ forall name, In name pool_files -> files_of w' (str name) = Some (T name))) /\
  (cert_nonce sha512 k hot = 0 -> forall direct opens room w tr w' o, keygen_main direct opens room sha512 hmac512 pbkdf2 enc H224 H ed_pk phrase ks vs w = (tr, w', o) -> o = Throw).
Proof.
  intros s5 s2 hm pb enc padd verify H H224 ed_pk ed_sign PC phrase m ks vs EM BK BV. destruct (run_facts _ _ _ _ _ _ _ _ _ _ _ PC phrase m ks vs EM BK BV) as (ent & k & ES & ED & F1 & F2).
  exists ent, k, (kes_state H ed_pk ks), (kes_hot H ed_pk ks). split; [exact ES|]. split; [exact ED|]. split; [|exact F2]. intros N. destruct (F1 N) as (sigma & T & BS & V & PS & id & DI & R). exists sigma, T, id.
  split; [exact PS|]. split; [|split; [destruct BS as [_ L]; unfold zlen in L; lia|split; [exact V|split; [exact DI|exact R]]]].
  destruct (kes_fresh _ _ _ _ _ _ _ _ _ _ _ PC ks BK) as (sb & G). do 3 eexists. split; [exact G|]. unfold kes_of_bytes. rewrite (kes_state_len _ _ _ _ _ _ _ _ _ _ _ PC ks BK), Nat.eqb_refl. reflexivity.
Qed.
Print Assumptions C77_files.
(** A phrase it does not accept: nothing is printed or written. *)
Theorem C77_bad_phrase : forall direct opens room sha512 hmac512 pbkdf2 enc H224 H ed_pk phrase ks vs w, (forall m, Mnemonic_of_text phrase English <> Ok m) ->
  keygen_main direct opens room sha512 hmac512 pbkdf2 enc H224 H ed_pk phrase ks vs w = ([], w, Throw).
Proof.
  intros. unfold keygen_main. unfold then_ at 1, pure at 1. destruct (Mnemonic_of_text phrase English) as [m| |] eqn:E; [exfalso; apply (H0 m eq_refl)|reflexivity|].
  exfalso. unfold Mnemonic_of_text, Mnemonic_of_words in E. destruct (negb _); [discriminate|]. destruct (lookup_words English _) as [i| |] eqn:L; cbn [bind] in E; [discriminate|discriminate|]. revert L. clear. unfold lookup_words. generalize (split_spaces [] phrase). induction l as [|x l IH]; cbn [mapM]; [discriminate|].
  destruct (dict_lookup _ _ _); cbn [bind]; [|discriminate]. destruct (mapM _ l) as [y| |]; cbn [bind]; [discriminate|discriminate|]. intros _. apply IH. reflexivity.
Qed.
Print Assumptions C77_bad_phrase.

(** C77: the files make blocks.  The key in kes.skey, evolved [u] times, signs a header; with the certificate in pool.cert (in whatever bytes say the same) and the key in cold.vkey, a node in period
    1 + u accepts it exactly if the pool is registered, the key is not used for too long, and the pool's last block was not made under a later certificate. *)
Theorem C77_blocks : forall sha512 sha256 hmac512 pbkdf2 enc padd verify H H224 ed_pk ed_sign, pool_crypto sha512 sha256 hmac512 pbkdf2 enc padd verify H H224 ed_pk ed_sign ->
  forall phrase ks vs direct opens room w tr w', bytesN 32 ks -> bytesN 32 vs -> (forall i, opens i = true /\ 2000 <= Z.of_nat (room i)) ->
  keygen_main direct opens room sha512 hmac512 pbkdf2 enc H224 H ed_pk phrase ks vs w = (tr, w', Ok 0) ->
  exists tk tv tc ksk cold cert k0,
    files_of w' (str "./kes.skey") = Some tk /\ read_key_file tk = Some (str "KesSigningKey_ed25519_kes_2^6", ksk) /\ kes_of_bytes 6 ksk = Ok k0 /\
    files_of w' (str "./cold.vkey") = Some tv /\ read_key_file tv = Some (str "StakePoolVerificationKey_ed25519", cold) /\
    files_of w' (str "./pool.cert") = Some tc /\ text_item tc (str "NodeOperationalCertificate") [] (CArray [cert; CBytes cold]) /\
    forall h hb cb, ~ In ReloadFile h -> Z.of_nat (updates_in h) < 2 ^ 6 -> denotes cb cert ->
    exists k' sig, kes_run H ed_pk 6 k0 h = Ok k' /\ kes_sign ed_sign 6 k' hb = Ok sig /\
    forall c, let last := match ch_counter c (H224 cold) with Some n => n | None => 0 end in
      block_ok H H224 verify c (1 + Z.of_nat (updates_in h)) cold cb hb sig <->
      ch_pools c (H224 cold) /\ Z.of_nat (updates_in h) < ch_evolutions c /\ (0 = last \/ 0 = last + 1).
Proof.
  intros s5 s2 hm pb enc padd verify H H224 ed_pk ed_sign PC phrase ks vs direct opens room w tr w' BK BV RM R.
  destruct (Mnemonic_of_text phrase English) as [m| |] eqn:EM.
  2,3: exfalso; pose proof (C77_bad_phrase direct opens room s5 hm pb enc H224 H ed_pk phrase ks vs w ltac:(intros m X; congruence)) as E; congruence.
  destruct (run_facts _ _ _ _ _ _ _ _ _ _ _ PC phrase m ks vs EM BK BV) as (ent & k & _ & _ & F1 & F2). cbv zeta in F1, F2.
  assert (N : cert_nonce s5 k (kes_hot H ed_pk ks) <> 0) by (intros X; pose proof (F2 X _ _ _ _ _ _ _ R); discriminate). clear F2. destruct (F1 N) as (sigma & T & BS & V & PS & id & _ & F). clear F1.
  destruct (F _ _ _ _ _ _ _ R) as (_ & _ & _ & FF). destruct (FF RM) as [_ FT]. clear F FF. pose proof (pc_kes _ _ _ _ _ _ _ _ _ _ _ PC) as C.
  destruct (kes_fresh _ _ _ _ _ _ _ _ _ _ _ PC ks BK) as (sb & G). set (k0 := {| prv := kes_state H ed_pk ks ++ zeros 4; period_ := 0 |}) in *.
  exists (T "./kes.skey"%string), (T "./cold.vkey"%string), (T "./pool.cert"%string), (kes_state H ed_pk ks), (enc (kL k)), (CArray [CBytes (kes_hot H ed_pk ks); CUint 0; CUint 1; CBytes sigma]), k0.
  split; [apply FT; right; right; left; reflexivity|]. split; [apply (ps_kes_sk _ _ _ _ _ _ _ _ _ _ _ PS)|]. split; [unfold kes_of_bytes; rewrite (kes_state_len _ _ _ _ _ _ _ _ _ _ _ PC ks BK), Nat.eqb_refl; reflexivity|].
  split; [apply FT; right; left; reflexivity|]. split; [apply (ps_cold_vk _ _ _ _ _ _ _ _ _ _ _ PS)|]. split; [apply FT; do 5 right; left; reflexivity|]. split; [apply (ps_cert _ _ _ _ _ _ _ _ _ _ _ PS)|].
  intros h hb cb NF U D. unfold denotes in D. assert (Ls : length ks = 32%nat) by (destruct BK as [_ L]; unfold zlen in L; lia).
  destruct (sign_verifies H ed_pk ed_sign verify C 6 _ ks k0 _ sb h hb ltac:(lia) Ls (repeat_length _ _) G NF U) as (k' & sig & RR & S & VV).
  destruct (sizes H ed_pk ed_sign verify C 6 _ ks k0 _ sb h hb ltac:(lia) Ls (repeat_length _ _) G NF U) as (LH & k2 & sig2 & R2 & _ & S2 & L2).
  assert (k2 = k') by congruence. subst k2. assert (sig2 = sig) by congruence. subst sig2.
  exists k', sig. split; [exact RR|]. split; [exact S|]. intros c last. unfold block_ok. fold last. split.
  - intros (hot' & n' & c0' & sigma' & bn & bc & E & _ & _ & P & TT & NN & _). cbv zeta in NN. rewrite D in E. assert (n' = 0) by congruence. assert (c0' = 1) by congruence. subst n' c0'. split; [exact P|]. fold last in NN. split; lia.
  - intros (P & TT & NN). exists (kes_hot H ed_pk ks), 0, 1, sigma, (pack_be 8 0), (pack_be 8 1).
    split; [exact D|]. split; [exact LH|]. split; [destruct BS as [_ L]; unfold zlen in L; lia|]. split; [exact P|]. split; [lia|]. split; [cbv zeta; fold last; lia|]. split; [apply be8_pack, u64_0|]. split; [apply be8_pack, u64_1|]. split; [exact V|].
    replace (1 + Z.of_nat (updates_in h) - 1) with (Z.of_nat (updates_in h)) by lia. apply verify_exact; [lia|exact L2|split; [lia|exact U]|exact VV].
Qed.
Print Assumptions C77_blocks.
(** Missing: the counter file names a number that is still free.  It is saved before the certificate is issued, and issuing does not advance it: "next certificate issue number" is the number already used in
    pool.cert, so that the next certificate made from the file replaces the first one under the same number. *)
Theorem C77_counter_stale_refuted : forall sha512 sha256 hmac512 pbkdf2 enc padd verify H H224 ed_pk ed_sign, pool_crypto sha512 sha256 hmac512 pbkdf2 enc padd verify H H224 ed_pk ed_sign ->
  forall phrase ks vs direct opens room w tr w', bytesN 32 ks -> bytesN 32 vs -> (forall i, opens i = true /\ 2000 <= Z.of_nat (room i)) ->
  keygen_main direct opens room sha512 hmac512 pbkdf2 enc H224 H ed_pk phrase ks vs w = (tr, w', Ok 0) ->
  exists tn tc digits n cold hot from sigma, files_of w' (str "./cold.counter") = Some tn /\ files_of w' (str "./pool.cert") = Some tc /\ is_decimal n digits /\
    text_item tn (str "NodeOperationalCertificateIssueCounter") (str "Next certificate issue number: " ++ digits) (CArray [CUint n; CBytes cold]) /\
    text_item tc (str "NodeOperationalCertificate") [] (CArray [CArray [CBytes hot; CUint n; CUint from; CBytes sigma]; CBytes cold]).
Proof.
  intros s5 s2 hm pb enc padd verify H H224 ed_pk ed_sign PC phrase ks vs direct opens room w tr w' BK BV RM R.
  destruct (Mnemonic_of_text phrase English) as [m| |] eqn:EM.
  2,3: exfalso; pose proof (C77_bad_phrase direct opens room s5 hm pb enc H224 H ed_pk phrase ks vs w ltac:(intros m X; congruence)) as E; congruence.
  destruct (run_facts _ _ _ _ _ _ _ _ _ _ _ PC phrase m ks vs EM BK BV) as (ent & k & _ & _ & F1 & F2). cbv zeta in F1, F2.
  assert (N : cert_nonce s5 k (kes_hot H ed_pk ks) <> 0) by (intros X; pose proof (F2 X _ _ _ _ _ _ _ R); discriminate). clear F2. destruct (F1 N) as (sigma & T & BS & V & PS & id & _ & F). clear F1.
  destruct (F _ _ _ _ _ _ _ R) as (_ & _ & _ & FF). destruct (FF RM) as [_ FT]. clear F FF. destruct (ps_counter _ _ _ _ _ _ _ _ _ _ _ PS) as (digits & DD & CI).
  exists (T "./cold.counter"%string), (T "./pool.cert"%string), digits, 0, (enc (kL k)), (kes_hot H ed_pk ks), 1, sigma.
  split; [apply FT; do 4 right; left; reflexivity|]. split; [apply FT; do 5 right; left; reflexivity|]. split; [exact DD|]. split; [exact CI|apply (ps_cert _ _ _ _ _ _ _ _ _ _ _ PS)].
Qed.
Print Assumptions C77_counter_stale_refuted.

(** Not vacuous: toy primitives (the hot keys end in 255, which no encoded multiple of the base point does), the phrase of main.cpp, and a run. *)
Definition kg_pk (s : list Z) : list Z := firstn 31 (toy_H (77 :: s)) ++ [255].
Definition kg_sign (s m : list Z) : list Z := kg_pk s ++ toy_H (kg_pk s ++ m).
Definition kg_verify (pk m sig : list Z) : bool := if nth 31 pk 0 =? 255 then zlist_eqb sig (pk ++ toy_H (pk ++ m)) else Props_Bip32.toy_verify pk m sig.
Definition kg_H224 (x : list Z) : list Z := firstn 28 (toy_H x).
Lemma toy_H_len x : length (toy_H x) = 32%nat. Proof. apply pack_be_length. Qed.
Lemma kg_pk_len s : length (kg_pk s) = 32%nat.
Proof. unfold kg_pk. rewrite app_length, firstn_length, toy_H_len. reflexivity. Qed.
Lemma kg_pk_31 s : nth 31 (kg_pk s) 0 =? 255 = true.
Proof. unfold kg_pk. rewrite app_nth2; rewrite firstn_length, toy_H_len; [reflexivity|lia]. Qed.
Lemma enc_31 a : nth 31 (toy_enc a) 0 =? 255 = false.
Proof.
  apply Z.eqb_neq. intros E. pose proof (toy_lev a) as L. pose proof (enc_len _ _ toy_group a) as LN. pose proof (enc_bytes _ _ toy_group a) as B.
  rewrite <- (firstn_skipn 31 (toy_enc a)) in L. assert (S : skipn 31 (toy_enc a) = [255]).
  { assert (X : exists x, skipn 31 (toy_enc a) = [x]). { destruct (skipn 31 (toy_enc a)) as [|x [|y r]] eqn:K; apply (f_equal (@length Z)) in K; rewrite skipn_length, LN in K; cbn [length] in K; try lia. exists x. reflexivity. }
    destruct X as (x & X). rewrite X. f_equal. rewrite <- E. rewrite <- (firstn_skipn 31 (toy_enc a)), X. rewrite app_nth2; rewrite firstn_length, LN; [reflexivity|lia]. }
  rewrite S, lev_app in L. pose proof (lev_bound 256 (firstn 31 (toy_enc a)) ltac:(lia) (bytes_ok_firstn 31 _ B)) as LB. pose proof (Z.mod_pos_bound a ell ell_pos) as MB.
  unfold zlen in L. rewrite firstn_length, LN in L. change (lev 256 [255]) with 255 in L. cbn [Nat.min] in L. assert (ell < 255 * 256 ^ 31) by reflexivity. change (Z.of_nat 31) with 31 in L. lia.
Qed.
Lemma kg_crypto : pool_crypto (toy_h 64) (toy_h 32) toy_hmac toy_pbkdf2 toy_enc toy_padd kg_verify toy_H kg_H224 kg_pk kg_sign.
Proof.
  constructor.
  - exact toy_hashes.
  - exact toy_group.
  - intros a r S m HS. unfold kg_verify. rewrite enc_31. apply toy_verifies, HS.
  - constructor; [apply toy_H_len|apply kg_pk_len| |].
    + intros s m. unfold kg_sign. rewrite app_length, kg_pk_len, toy_H_len. reflexivity.
    + intros s m. unfold kg_verify. rewrite kg_pk_31. apply zlist_eqb_refl.
  - apply toy_bytes.
  - intros x. split; [apply bytes_ok_firstn, toy_bytes|]. unfold kg_H224, zlen. rewrite firstn_length, toy_H_len. reflexivity.
  - intros s. apply bytes_ok_app. split; [apply bytes_ok_firstn, toy_bytes|]. constructor; [split; [lia|reflexivity]|constructor].
Qed.
Definition kg_phrase : list Z := str "exercise club noble adult miracle awkward problem olympic puppy private goddess piano fatal fashion vacuum".
Definition kg_world : world := {| files_of := fun _ => None; printed := []; saves := 0 |}.
Definition kg_run (room : nat -> nat) := keygen_main libstdcxx (fun _ => true) room (toy_h 64) toy_hmac toy_pbkdf2 toy_enc kg_H224 toy_H kg_pk kg_phrase (repeat 5 32) (repeat 6 32) kg_world.
Example C77_ex_full : snd (kg_run (fun _ => Z.to_nat 2000)) = Ok 0.
Proof. vm_compute. reflexivity. Qed.
(** ... and one where the device takes only 100 bytes of each file: the first two files are cut short without a word (see C59), the third is too long for the stream's buffer and the program ends there. *)
Example C77_ex_cut : match kg_run (fun _ => Z.to_nat 100) with
  | (_, w, Throw) => match files_of w (str "./cold.vkey"), files_of w (str "./kes.vkey") with Some t, None => (length t =? 100)%nat | _, _ => false end
  | _ => false end = true.
Proof. vm_compute. reflexivity. Qed.
