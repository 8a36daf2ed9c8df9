(** Reading and writing genesis parameters: lemmas for every struct. *)
From Coq Require Import String SpecFloat.
From Verif Require Import Base BaseLemmas Spec_Genesis Model_Genesis.
Local Open Scope list_scope.
Ltac Zify.zify_post_hook ::= idtac.

(** ** Reading *)
Lemma at_field j k v : field j k v -> at_ j k = Ok v.
Proof. intros (l & -> & L). unfold at_. rewrite L. reflexivity. Qed.
Lemma r_str s v : is_str s v -> get_str v = Ok s. Proof. intros ->. reflexivity. Qed.
Lemma r_u64 n v : is_int n v -> 0 <= n < 2 ^ 64 -> get_u64 v = Ok n.
Proof. intros [->|[_ ->]] B; cbn [get_u64]; [rewrite Z.mod_small by exact B|]; reflexivity. Qed.
Lemma r_uw w n v : is_int n v -> 0 <= n < 2 ^ w -> get_uw w v = Ok n.
Proof. intros [->|[_ ->]] B; cbn [get_uw]; rewrite Z.mod_small by exact B; reflexivity. Qed.
Lemma r_u32 n v : is_int n v -> 0 <= n < 2 ^ 32 -> get_u32 v = Ok n. Proof. apply r_uw. Qed.
Lemma r_u16 n v : is_int n v -> 0 <= n < 2 ^ 16 -> get_u16 v = Ok n. Proof. apply r_uw. Qed.
Lemma r_i64 n v : is_int n v -> - 2 ^ 63 <= n < 2 ^ 63 -> get_i64 v = Ok n.
Proof. intros [->|[_ ->]] B; cbn [get_i64]; [reflexivity|]. unfold to_i64. rewrite Z.mod_small by lia. f_equal. lia. Qed.
Lemma r_dbl f v : is_dbl f v -> get_dbl v = Ok f.
Proof. intros [->|(z & -> & [->| ->])]; reflexivity. Qed.
Lemma r_map {A} (is : A -> json -> Prop) get (ok : list Z * A -> Prop) m v : is_map is m v -> Forall ok m -> (forall e w, ok e -> is (snd e) w -> get w = Ok (snd e)) -> get_map get v = Ok m.
Proof.
  intros (l & -> & H) OK G. cbn [get_map]. induction H as [|[k a] [k' w] m l [E I] H IH]; [reflexivity|]. inversion OK as [|? ? O1 O2]; subst. cbn [fst snd] in *. subst k'. cbn [mapM fst snd]. rewrite (G (k, a) w O1 I). cbn [bind snd]. rewrite (IH O2). reflexivity.
Qed.
Lemma F2_length {A B} (R : A -> B -> Prop) l m : Forall2 R l m -> length l = length m. Proof. induction 1; cbn [length]; lia. Qed.
Lemma r_arr l v : is_ints l v -> length l = 251%nat -> Forall (fun x => - 2 ^ 63 <= x < 2 ^ 63) l -> get_arr251 v = Ok l.
Proof.
  intros (vs & -> & H) L B. cbn [get_arr251]. pose proof (F2_length _ _ _ H) as LE. rewrite <- LE, L. change (251 <? 251)%nat with false. cbn beta iota. rewrite firstn_all2 by lia. clear L LE.
  induction H as [|x w l vs I H IH]; [reflexivity|]. inversion B as [|? ? B1 B2]; subst. cbn [mapM]. rewrite (r_i64 x w I B1). cbn [bind]. rewrite (IH B2). reflexivity.
Qed.
Lemma all_true {A} (l : list A) : Forall (fun _ => True) l. Proof. induction l; constructor; auto. Qed.

Create HintDb genesis.
Ltac open_ := repeat match goal with H : _ /\ _ |- _ => destruct H | H : exists _, _ |- _ => destruct H end.
Ltac rget := first [ apply r_str; assumption | apply r_u64; [assumption|tauto] | apply r_u32; [assumption|tauto] | apply r_u16; [assumption|tauto] | apply r_i64; [assumption|tauto] | apply r_dbl; assumption | apply r_arr; assumption
  | solve [auto with genesis]
  | eapply r_map; [eassumption|first [eassumption|apply all_true]|cbn beta; intros ? ? ? ?; first [apply r_str; assumption | apply r_u64; [assumption|tauto] | apply r_u32; [assumption|tauto] | apply r_i64; [assumption|tauto] | solve [auto with genesis]]] ].
Ltac rd1 := match goal with
  | Fd : field ?j ?k ?v |- bind (at_ ?j ?k) _ = _ => rewrite (at_field j k v Fd); cbn [bind];
      match goal with R : _ ?x v |- bind (?g v) _ = _ => let E := fresh "E" in assert (E : g v = Ok x) by rget; rewrite E; cbn [bind]; clear E end
  end.
Lemma by_sr_read p j : by_sr_ok p -> by_sr_file p j -> by_sr_from j = Ok p.
Proof. intros O H. destruct p. unfold by_sr_ok, by_sr_file in *. cbn -[field Z.pow] in O, H. open_. unfold by_sr_from. repeat rd1. reflexivity. Qed.
#[local] Hint Resolve by_sr_read : genesis.
Lemma by_fp_read p j : by_fp_ok p -> by_fp_file p j -> by_fp_from j = Ok p.
Proof. intros O H. destruct p. unfold by_fp_ok, by_fp_file in *. cbn -[field Z.pow] in O, H. open_. unfold by_fp_from. repeat rd1. reflexivity. Qed.
#[local] Hint Resolve by_fp_read : genesis.
Lemma by_bv_read p j : by_bv_ok p -> by_bv_file p j -> by_bv_from j = Ok p.
Proof. intros O H. destruct p. unfold by_bv_ok, by_bv_file in *. cbn -[field Z.pow] in O, H. open_. unfold by_bv_from. repeat rd1. reflexivity. Qed.
#[local] Hint Resolve by_bv_read : genesis.
Lemma by_pc_read p j : by_pc_ok p -> by_pc_file p j -> by_pc_from j = Ok p.
Proof. intros O H. destruct p. unfold by_pc_ok, by_pc_file in *. cbn -[field Z.pow] in O, H. open_. unfold by_pc_from. repeat rd1. reflexivity. Qed.
#[local] Hint Resolve by_pc_read : genesis.
Lemma by_dd_read p j : by_dd_ok p -> by_dd_file p j -> by_dd_from j = Ok p.
Proof. intros O H. destruct p. unfold by_dd_ok, by_dd_file in *. cbn -[field Z.pow] in O, H. open_. unfold by_dd_from. repeat rd1. reflexivity. Qed.
#[local] Hint Resolve by_dd_read : genesis.
Lemma by_vc_read p j : by_vc_ok p -> by_vc_file p j -> by_vc_from j = Ok p.
Proof. intros O H. destruct p. unfold by_vc_ok, by_vc_file in *. cbn -[field Z.pow] in O, H. open_. unfold by_vc_from. repeat rd1. reflexivity. Qed.
#[local] Hint Resolve by_vc_read : genesis.
Lemma by_gp_read p j : by_gp_ok p -> by_gp_file p j -> by_gp_from j = Ok p.
Proof. intros O H. destruct p. unfold by_gp_ok, by_gp_file in *. cbn -[field Z.pow] in O, H. open_. unfold by_gp_from. repeat rd1. reflexivity. Qed.
#[local] Hint Resolve by_gp_read : genesis.
Lemma sh_pv_read p j : sh_pv_ok p -> sh_pv_file p j -> sh_pv_from j = Ok p.
Proof. intros O H. destruct p. unfold sh_pv_ok, sh_pv_file in *. cbn -[field Z.pow] in O, H. open_. unfold sh_pv_from. repeat rd1. reflexivity. Qed.
#[local] Hint Resolve sh_pv_read : genesis.
Lemma sh_ee_read p j : sh_ee_ok p -> sh_ee_file p j -> sh_ee_from j = Ok p.
Proof. intros O H. destruct p. unfold sh_ee_ok, sh_ee_file in *. cbn -[field Z.pow] in O, H. open_. unfold sh_ee_from. repeat rd1. reflexivity. Qed.
#[local] Hint Resolve sh_ee_read : genesis.
Lemma sh_pp_read p j : sh_pp_ok p -> sh_pp_file p j -> sh_pp_from j = Ok p.
Proof. intros O H. destruct p. unfold sh_pp_ok, sh_pp_file in *. cbn -[field Z.pow] in O, H. open_. unfold sh_pp_from. repeat rd1. reflexivity. Qed.
#[local] Hint Resolve sh_pp_read : genesis.
Lemma sh_gd_read p j : sh_gd_ok p -> sh_gd_file p j -> sh_gd_from j = Ok p.
Proof. intros O H. destruct p. unfold sh_gd_ok, sh_gd_file in *. cbn -[field Z.pow] in O, H. open_. unfold sh_gd_from. repeat rd1. reflexivity. Qed.
#[local] Hint Resolve sh_gd_read : genesis.
Lemma al_pf_read p j : al_pf_ok p -> al_pf_file p j -> al_pf_from j = Ok p.
Proof. intros O H. destruct p. unfold al_pf_ok, al_pf_file in *. cbn -[field Z.pow] in O, H. open_. unfold al_pf_from. repeat rd1. reflexivity. Qed.
#[local] Hint Resolve al_pf_read : genesis.
Lemma al_ep_read p j : al_ep_ok p -> al_ep_file p j -> al_ep_from j = Ok p.
Proof. intros O H. destruct p. unfold al_ep_ok, al_ep_file in *. cbn -[field Z.pow] in O, H. open_. unfold al_ep_from. repeat rd1. reflexivity. Qed.
#[local] Hint Resolve al_ep_read : genesis.
Lemma al_eu_read p j : al_eu_ok p -> al_eu_file p j -> al_eu_from j = Ok p.
Proof. intros O H. destruct p. unfold al_eu_ok, al_eu_file in *. cbn -[field Z.pow] in O, H. open_. unfold al_eu_from. repeat rd1. reflexivity. Qed.
#[local] Hint Resolve al_eu_read : genesis.
Lemma al_cm_read p j : al_cm_ok p -> al_cm_file p j -> al_cm_from j = Ok p.
Proof. intros O H. destruct p. unfold al_cm_ok, al_cm_file in *. cbn -[field Z.pow] in O, H. open_. unfold al_cm_from. repeat rd1. reflexivity. Qed.
#[local] Hint Resolve al_cm_read : genesis.
Lemma al_gp_read p j : al_gp_ok p -> al_gp_file p j -> al_gp_from j = Ok p.
Proof. intros O H. destruct p. unfold al_gp_ok, al_gp_file in *. cbn -[field Z.pow] in O, H. open_. unfold al_gp_from. repeat rd1. reflexivity. Qed.
#[local] Hint Resolve al_gp_read : genesis.
Lemma co_pt_read p j : co_pt_ok p -> co_pt_file p j -> co_pt_from j = Ok p.
Proof. intros O H. destruct p. unfold co_pt_ok, co_pt_file in *. cbn -[field Z.pow] in O, H. open_. unfold co_pt_from. repeat rd1. reflexivity. Qed.
#[local] Hint Resolve co_pt_read : genesis.
Lemma co_dt_read p j : co_dt_ok p -> co_dt_file p j -> co_dt_from j = Ok p.
Proof. intros O H. destruct p. unfold co_dt_ok, co_dt_file in *. cbn -[field Z.pow] in O, H. open_. unfold co_dt_from. repeat rd1. reflexivity. Qed.
#[local] Hint Resolve co_dt_read : genesis.
Lemma co_ca_read p j : co_ca_ok p -> co_ca_file p j -> co_ca_from j = Ok p.
Proof. intros O H. destruct p. unfold co_ca_ok, co_ca_file in *. cbn -[field Z.pow] in O, H. open_. unfold co_ca_from. repeat rd1. reflexivity. Qed.
#[local] Hint Resolve co_ca_read : genesis.
Lemma co_cn_read p j : co_cn_ok p -> co_cn_file p j -> co_cn_from j = Ok p.
Proof. intros O H. destruct p. unfold co_cn_ok, co_cn_file in *. cbn -[field Z.pow] in O, H. open_. unfold co_cn_from. repeat rd1. reflexivity. Qed.
#[local] Hint Resolve co_cn_read : genesis.
Lemma co_ct_read p j : co_ct_ok p -> co_ct_file p j -> co_ct_from j = Ok p.
Proof. intros O H. destruct p. unfold co_ct_ok, co_ct_file in *. cbn -[field Z.pow] in O, H. open_. unfold co_ct_from. repeat rd1. reflexivity. Qed.
#[local] Hint Resolve co_ct_read : genesis.
Lemma co_cm_read p j : co_cm_ok p -> co_cm_file p j -> co_cm_from j = Ok p.
Proof. intros O H. destruct p. unfold co_cm_ok, co_cm_file in *. cbn -[field Z.pow] in O, H. open_. unfold co_cm_from. repeat rd1. reflexivity. Qed.
#[local] Hint Resolve co_cm_read : genesis.
Lemma co_gp_read p j : co_gp_ok p -> co_gp_file p j -> co_gp_from j = Ok p.
Proof. intros O H. destruct p. unfold co_gp_ok, co_gp_file in *. cbn -[field Z.pow] in O, H. open_. unfold co_gp_from. repeat rd1. reflexivity. Qed.
#[local] Hint Resolve co_gp_read : genesis.

(** The shelley reader takes the slot length from the security parameter. *)
Definition sh_as_read (p : sh_gp) : sh_gp :=
  {| sh_gp_active_slots_coeff := sh_gp_active_slots_coeff p; sh_gp_protocol_parameters := sh_gp_protocol_parameters p; sh_gp_gen_delegs := sh_gp_gen_delegs p; sh_gp_update_quorum := sh_gp_update_quorum p;
     sh_gp_network_id := sh_gp_network_id p; sh_gp_max_lovelace_supply := sh_gp_max_lovelace_supply p; sh_gp_network_magic := sh_gp_network_magic p; sh_gp_epoch_length := sh_gp_epoch_length p;
     sh_gp_system_start := sh_gp_system_start p; sh_gp_slots_per_kes_period := sh_gp_slots_per_kes_period p; sh_gp_slot_length := sh_gp_security_param p;
     sh_gp_max_kes_evolutions := sh_gp_max_kes_evolutions p; sh_gp_security_param := sh_gp_security_param p |}.
Lemma sh_gp_read p j : sh_gp_ok p -> sh_gp_file p j -> sh_gp_from j = Ok (sh_as_read p).
Proof. intros O H. destruct p. unfold sh_gp_ok, sh_gp_file in *. cbn -[field Z.pow] in O, H. open_. unfold sh_gp_from. repeat rd1. reflexivity. Qed.

(** ** The JSON library's text: writing a value and parsing the text.  Integers that are not negative come back unsigned; numbers that are not finite are
    written as null. *)
Fixpoint reparse (j : json) : json :=
  match j with
  | JInt z => if 0 <=? z then JUint z else JInt z
  | JFloat f => if finite f then JFloat f else JNull
  | JArr l => JArr (map reparse l)
  | JObj l => JObj (map (fun e => (fst e, reparse (snd e))) l)
  | j => j
  end.
Definition twice (f : bool) (j : json) : json := if f then reparse j else j.
Definition fin (f : bool) (l : list F) : Prop := f = true -> Forall (fun x => finite x = true) l.
Lemma fin_app f a b : fin f (a ++ b) -> fin f a /\ fin f b.
Proof. unfold fin. intros H. split; intros E; specialize (H E); apply Forall_app in H; tauto. Qed.
Lemma w_str f s : is_str s (twice f (JStr s)). Proof. destruct f; reflexivity. Qed.
Lemma w_uint f n : 0 <= n -> is_int n (twice f (JUint n)). Proof. intros. destruct f; right; auto. Qed.
Lemma w_int f z : is_int z (twice f (JInt z)). Proof. destruct f; cbn [twice reparse]; [|left; reflexivity]. destruct (Z.leb_spec 0 z); [right; auto|left; reflexivity]. Qed.
Lemma w_dbl f x : fin f [x] -> is_dbl x (twice f (JFloat x)).
Proof. destruct f; cbn [twice reparse]; [|left; reflexivity]. intros H. specialize (H eq_refl). inversion H; subst. rewrite H2. left. reflexivity. Qed.
Lemma w_map {A} f (is : A -> json -> Prop) put (ok : list Z * A -> Prop) m : Forall ok m -> (forall e, ok e -> is (snd e) (twice f (put (snd e)))) -> is_map is m (twice f (put_map put m)).
Proof.
  intros OK W. exists (map (fun e => (fst e, twice f (put (snd e)))) m). split; [destruct f; cbn [twice put_map reparse]; [rewrite map_map; reflexivity|reflexivity]|].
  induction OK as [|e m O OK IH]; [constructor|]. constructor; [split; [reflexivity|apply W, O]|exact IH].
Qed.
Lemma w_arr f l : is_ints l (twice f (put_arr l)).
Proof. exists (map (fun z => twice f (JInt z)) l). split; [destruct f; unfold put_arr; cbn [twice reparse]; [rewrite map_map; reflexivity|reflexivity]|]. induction l; [constructor|]. constructor; [apply w_int|assumption]. Qed.
Lemma lookup_map {A B} (g : A -> B) l k : lookup (map (fun e => (fst e, g (snd e))) l) k = option_map g (lookup l k).
Proof. induction l as [|[k' v] l IH]; [reflexivity|]. cbn [map lookup fst snd]. destruct (zlist_eqb k' k); [reflexivity|exact IH]. Qed.
Lemma w_field f l k v : lookup l (key k) = Some v -> field (twice f (JObj l)) k (twice f v).
Proof. intros H. destruct f; cbn [twice reparse]; [|exists l; auto]. eexists. split; [reflexivity|]. rewrite lookup_map, H. reflexivity. Qed.
Lemma fin_nil f : fin f []. Proof. intros _. constructor. Qed.
Create HintDb gwrite.
#[local] Hint Extern 2 (fin _ _) => exact (fin_nil _) : gwrite.
Ltac wput := first [ apply w_str | apply w_uint; lia | apply w_int | apply w_dbl; assumption | apply w_arr | solve [auto with gwrite]
  | eapply w_map; [first [eassumption|apply all_true]|cbn beta; intros; first [apply w_str | apply w_uint; lia | apply w_int | solve [auto with gwrite]]] ].
Ltac fins := repeat match goal with H : fin _ (_ ++ _) |- _ => apply fin_app in H as [? ?] end.
Ltac wr1 := eexists; split; [apply w_field; reflexivity|wput].
Lemma by_sr_write f p : by_sr_ok p -> fin f (by_sr_doubles p) -> by_sr_file p (twice f (by_sr_to p)).
Proof. intros O D. unfold by_sr_ok, by_sr_doubles in *. fins. open_. unfold by_sr_file, by_sr_to. repeat split; wr1. Qed.
#[local] Hint Resolve by_sr_write : gwrite.
Lemma by_fp_write f p : by_fp_ok p -> fin f (by_fp_doubles p) -> by_fp_file p (twice f (by_fp_to p)).
Proof. intros O D. unfold by_fp_ok, by_fp_doubles in *. fins. open_. unfold by_fp_file, by_fp_to. repeat split; wr1. Qed.
#[local] Hint Resolve by_fp_write : gwrite.
Lemma by_bv_write f p : by_bv_ok p -> fin f (by_bv_doubles p) -> by_bv_file p (twice f (by_bv_to p)).
Proof. intros O D. unfold by_bv_ok, by_bv_doubles in *. fins. open_. unfold by_bv_file, by_bv_to. repeat split; wr1. Qed.
#[local] Hint Resolve by_bv_write : gwrite.
Lemma by_pc_write f p : by_pc_ok p -> fin f (by_pc_doubles p) -> by_pc_file p (twice f (by_pc_to p)).
Proof. intros O D. unfold by_pc_ok, by_pc_doubles in *. fins. open_. unfold by_pc_file, by_pc_to. repeat split; wr1. Qed.
#[local] Hint Resolve by_pc_write : gwrite.
Lemma by_dd_write f p : by_dd_ok p -> fin f (by_dd_doubles p) -> by_dd_file p (twice f (by_dd_to p)).
Proof. intros O D. unfold by_dd_ok, by_dd_doubles in *. fins. open_. unfold by_dd_file, by_dd_to. repeat split; wr1. Qed.
#[local] Hint Resolve by_dd_write : gwrite.
Lemma by_vc_write f p : by_vc_ok p -> fin f (by_vc_doubles p) -> by_vc_file p (twice f (by_vc_to p)).
Proof. intros O D. unfold by_vc_ok, by_vc_doubles in *. fins. open_. unfold by_vc_file, by_vc_to. repeat split; wr1. Qed.
#[local] Hint Resolve by_vc_write : gwrite.
Lemma by_gp_write f p : by_gp_ok p -> fin f (by_gp_doubles p) -> by_gp_file p (twice f (by_gp_to p)).
Proof. intros O D. unfold by_gp_ok, by_gp_doubles in *. fins. open_. unfold by_gp_file, by_gp_to. repeat split; wr1. Qed.
#[local] Hint Resolve by_gp_write : gwrite.
Lemma sh_pv_write f p : sh_pv_ok p -> fin f (sh_pv_doubles p) -> sh_pv_file p (twice f (sh_pv_to p)).
Proof. intros O D. unfold sh_pv_ok, sh_pv_doubles in *. fins. open_. unfold sh_pv_file, sh_pv_to. repeat split; wr1. Qed.
#[local] Hint Resolve sh_pv_write : gwrite.
Lemma sh_ee_write f p : sh_ee_ok p -> fin f (sh_ee_doubles p) -> sh_ee_file p (twice f (sh_ee_to p)).
Proof. intros O D. unfold sh_ee_ok, sh_ee_doubles in *. fins. open_. unfold sh_ee_file, sh_ee_to. repeat split; wr1. Qed.
#[local] Hint Resolve sh_ee_write : gwrite.
Lemma sh_pp_write f p : sh_pp_ok p -> fin f (sh_pp_doubles p) -> sh_pp_file p (twice f (sh_pp_to p)).
Proof. intros O D. unfold sh_pp_ok, sh_pp_doubles in *. fins. open_. unfold sh_pp_file, sh_pp_to. repeat split; wr1. Qed.
#[local] Hint Resolve sh_pp_write : gwrite.
Lemma sh_gd_write f p : sh_gd_ok p -> fin f (sh_gd_doubles p) -> sh_gd_file p (twice f (sh_gd_to p)).
Proof. intros O D. unfold sh_gd_ok, sh_gd_doubles in *. fins. open_. unfold sh_gd_file, sh_gd_to. repeat split; wr1. Qed.
#[local] Hint Resolve sh_gd_write : gwrite.
Lemma sh_gp_write f p : sh_gp_ok p -> fin f (sh_gp_doubles p) -> sh_gp_file p (twice f (sh_gp_to p)).
Proof. intros O D. unfold sh_gp_ok, sh_gp_doubles in *. fins. open_. unfold sh_gp_file, sh_gp_to. repeat split; wr1. Qed.
#[local] Hint Resolve sh_gp_write : gwrite.
Lemma al_pf_write f p : al_pf_ok p -> fin f (al_pf_doubles p) -> al_pf_file p (twice f (al_pf_to p)).
Proof. intros O D. unfold al_pf_ok, al_pf_doubles in *. fins. open_. unfold al_pf_file, al_pf_to. repeat split; wr1. Qed.
#[local] Hint Resolve al_pf_write : gwrite.
Lemma al_ep_write f p : al_ep_ok p -> fin f (al_ep_doubles p) -> al_ep_file p (twice f (al_ep_to p)).
Proof. intros O D. unfold al_ep_ok, al_ep_doubles in *. fins. open_. unfold al_ep_file, al_ep_to. repeat split; wr1. Qed.
#[local] Hint Resolve al_ep_write : gwrite.
Lemma al_eu_write f p : al_eu_ok p -> fin f (al_eu_doubles p) -> al_eu_file p (twice f (al_eu_to p)).
Proof. intros O D. unfold al_eu_ok, al_eu_doubles in *. fins. open_. unfold al_eu_file, al_eu_to. repeat split; wr1. Qed.
#[local] Hint Resolve al_eu_write : gwrite.
Lemma al_cm_write f p : al_cm_ok p -> fin f (al_cm_doubles p) -> al_cm_file p (twice f (al_cm_to p)).
Proof. intros O D. unfold al_cm_ok, al_cm_doubles in *. fins. open_. unfold al_cm_file, al_cm_to. repeat split; wr1. Qed.
#[local] Hint Resolve al_cm_write : gwrite.
Lemma al_gp_write f p : al_gp_ok p -> fin f (al_gp_doubles p) -> al_gp_file p (twice f (al_gp_to p)).
Proof. intros O D. unfold al_gp_ok, al_gp_doubles in *. fins. open_. unfold al_gp_file, al_gp_to. repeat split; wr1. Qed.
#[local] Hint Resolve al_gp_write : gwrite.
Lemma co_pt_write f p : co_pt_ok p -> fin f (co_pt_doubles p) -> co_pt_file p (twice f (co_pt_to p)).
Proof. intros O D. unfold co_pt_ok, co_pt_doubles in *. fins. open_. unfold co_pt_file, co_pt_to. repeat split; wr1. Qed.
#[local] Hint Resolve co_pt_write : gwrite.
Lemma co_dt_write f p : co_dt_ok p -> fin f (co_dt_doubles p) -> co_dt_file p (twice f (co_dt_to p)).
Proof. intros O D. unfold co_dt_ok, co_dt_doubles in *. fins. open_. unfold co_dt_file, co_dt_to. repeat split; wr1. Qed.
#[local] Hint Resolve co_dt_write : gwrite.
Lemma co_ca_write f p : co_ca_ok p -> fin f (co_ca_doubles p) -> co_ca_file p (twice f (co_ca_to p)).
Proof. intros O D. unfold co_ca_ok, co_ca_doubles in *. fins. open_. unfold co_ca_file, co_ca_to. repeat split; wr1. Qed.
#[local] Hint Resolve co_ca_write : gwrite.
Lemma co_cn_write f p : co_cn_ok p -> fin f (co_cn_doubles p) -> co_cn_file p (twice f (co_cn_to p)).
Proof. intros O D. unfold co_cn_ok, co_cn_doubles in *. fins. open_. unfold co_cn_file, co_cn_to. repeat split; wr1. Qed.
#[local] Hint Resolve co_cn_write : gwrite.
Lemma co_ct_write f p : co_ct_ok p -> fin f (co_ct_doubles p) -> co_ct_file p (twice f (co_ct_to p)).
Proof. intros O D. unfold co_ct_ok, co_ct_doubles in *. fins. open_. unfold co_ct_file, co_ct_to. repeat split; wr1. Qed.
#[local] Hint Resolve co_ct_write : gwrite.
Lemma co_cm_write f p : co_cm_ok p -> fin f (co_cm_doubles p) -> co_cm_file p (twice f (co_cm_to p)).
Proof. intros O D. unfold co_cm_ok, co_cm_doubles in *. fins. open_. unfold co_cm_file, co_cm_to. repeat split; wr1. Qed.
#[local] Hint Resolve co_cm_write : gwrite.
Lemma co_gp_write f p : co_gp_ok p -> fin f (co_gp_doubles p) -> co_gp_file p (twice f (co_gp_to p)).
Proof. intros O D. unfold co_gp_ok, co_gp_doubles in *. fins. open_. unfold co_gp_file, co_gp_to. repeat split; wr1. Qed.
#[local] Hint Resolve co_gp_write : gwrite.
