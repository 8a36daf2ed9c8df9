Model against test vectors that need Ed25519 (see DESIGN.md, trusted base).  Run outside the build: save the three parts as Ed.v, B.v and K.v
(K.v is generated, the byte lists come from /repo/test/data/kes) and compile them after rocq/theories.

===== Ed.v
From Verif Require Import Base Model_Hex Spec_Hashes Vectors Model_Bech32 Model_Address Model_Bip32 Model_Kes.
Definition p := 2 ^ 255 - 19.
Definition fold1 (x : Z) := Z.land x (2^255-1) + 19 * Z.shiftr x 255.
Definition red (x : Z) := let y := fold1 (fold1 x) in if p <=? y then (if p <=? y - p then y - p - p else y - p) else y.
Definition mul (x y : Z) := red (x * y).
Definition sub (x y : Z) := red (x + p - y).
Definition add (x y : Z) := red (x + y).
Fixpoint powp (x : Z) (e : positive) : Z := match e with xH => x | xO e => let y := powp x e in mul y y | xI e => let y := powp x e in mul x (mul y y) end.
Definition pw x e := match e with Zpos e => powp x e | _ => 1 end.
Definition inv x := pw x (p - 2).
Definition dd := sub 0 (mul 121665 (inv 121666)).
Definition d2 := Eval vm_compute in add dd dd.
Definition dd' := Eval vm_compute in dd.
Definition pt := (Z * Z * Z * Z)%type.
Definition padd' (P Q : pt) : pt :=
  let '(x1,y1,z1,t1) := P in let '(x2,y2,z2,t2) := Q in
  let a := mul (sub y1 x1) (sub y2 x2) in let b := mul (add y1 x1) (add y2 x2) in
  let c := mul (mul t1 d2) t2 in let d := mul (add z1 z1) z2 in
  let e := sub b a in let f := sub d c in let g := add d c in let h := add b a in
  (mul e f, mul g h, mul f g, mul e h).
Definition pdbl (P : pt) : pt :=
  let '(x1,y1,z1,_) := P in
  let a := mul x1 x1 in let b := mul y1 y1 in let c := mul z1 z1 in let c := add c c in
  let h := add a b in let xy := add x1 y1 in let e := sub h (mul xy xy) in let g := sub a b in let f := add c g in
  (mul e f, mul g h, mul f g, mul e h).
Definition O_ : pt := (0,1,1,0).
Fixpoint smul (P : pt) (k : positive) : pt := match k with xH => P | xO k => pdbl (smul P k) | xI k => padd' P (pdbl (smul P k)) end.
Definition recover (y s : Z) : option Z :=
  let u := sub (mul y y) 1 in let v := add (mul dd' (mul y y)) 1 in
  let xx := mul u (inv v) in let x := pw xx ((p + 3) / 8) in
  let x := if mul x x =? xx then x else mul x (pw 2 ((p - 1) / 4)) in
  if mul x x =? xx then Some (if x mod 2 =? s then x else sub 0 x) else None.
Definition By := Eval vm_compute in mul 4 (inv 5).
Definition Bx := Eval vm_compute in match recover By 0 with Some x => x | None => 0 end.
Definition B : pt := Eval vm_compute in (Bx, By, 1, mul Bx By).
Definition encp (P : pt) : list Z := let '(x,y,z,_) := P in let i := inv z in let x := mul x i in let y := mul y i in pack_le 32 (y + 2^255 * (x mod 2)).
Definition decp (b : list Z) : option pt := let v := unpack_le 8 (firstn 8 b) + 2^64 * unpack_le 8 (firstn 8 (skipn 8 b)) + 2^128 * unpack_le 8 (firstn 8 (skipn 16 b)) + 2^192 * unpack_le 8 (skipn 24 b) in
  let y := Z.land v (2^255-1) in match recover y (Z.shiftr v 255) with Some x => Some (x, y, 1, mul x y) | None => None end.
Definition ell := 2^252 + 27742317777372353535851937790883648493.
Definition enc (k : Z) : list Z := match k mod ell with Zpos k => encp (smul B k) | _ => encp O_ end.
Definition padd (a b : list Z) : option (list Z) := match decp a, decp b with Some P, Some Q => Some (encp (padd' P Q)) | _, _ => None end.
Definition sh l := string_of_list_ascii (map (fun z => Ascii.ascii_of_N (Z.to_N z)) l).
Definition leN (b : list Z) : Z := fold_right (fun x a => x + 256 * a) 0 b.
Definition ed_scalar (seed : list Z) : Z := let h := firstn 32 (sha512 seed) in let v := leN h in Z.lor (Z.land (Z.land v (2^255-1) - Z.land v 7) (2^255 - 1)) (2^254).
Definition ed_pk (seed : list Z) : list Z := enc (ed_scalar seed).
Definition ed_sign (seed msg : list Z) : list Z :=
  let h := sha512 seed in let a := ed_scalar seed in let r := leN (sha512 (skipn 32 h ++ msg)) mod ell in
  let R := enc r in let k := leN (sha512 (R ++ enc a ++ msg)) mod ell in R ++ pack_le 32 ((r + k * a) mod ell).

===== B.v (prints (true, true, true, true, true), true, Ok true)
From Verif Require Import Base Model_Hex Spec_Hashes Vectors Model_Bech32 Model_Address Model_Byron Model_Bip32. Require Import Ed.
Definition root := xprv_of_bytes (payload (str "root_xsk1hqzfzrgskgnpwskxxrv5khs7ess82ecy8za9l5ef7e0afd2849p3zryje8chk39nxtva0sww5me3pzkej4rvd5cae3q3v8eu7556n6pdrp4fdu8nsglynpmcppxxvfdyzdz5gfq3fefjepxhvqspmuyvmvqg8983")).
Definition dp k i := prv_deriveChild hmac512 enc k i V2.
Definition du k i := pub_deriveChild hmac512 enc padd k i V2.
Time Definition acct := Eval vm_compute in (let* a := dp root (HardenIndex 1852) in let* a := dp a (HardenIndex 1815) in dp a (HardenIndex 0)).
Time Definition keys := Eval vm_compute in (let* a := acct in let* v := publicKey enc a in let* c := du v 0 in let* c := du c 0 in let* e := du v 2 in let* e := du e 0 in Ok (c, e)).
Time Eval vm_compute in match keys with Ok (c, e) => (same (bech32_encode (str "addr_xvk") (pub_xbytes c)) (str "addr_xvk1grvg8qzmkmw2n0dm4pd0h3j4dv6yglyammyp733eyj629dc3z28v6wk22nfmru6xz0vl2s3y5xndyd57fu70hrt84c6zkvlwx6fdl7ct9j7yc"),
   same (bech32_encode (str "stake_xvk") (pub_xbytes e)) (str "stake_xvk1658atzttunamzn80204khrg0qfdk5nvmrutlmmpg7xlsyaggwa7h9z4smmeqsvs67qhyqmc2lqa0vy36rf2la74ym8a5p93zp4qtpuq6ky3ve"),
   same (BaseAddress_toBech32 (BaseAddress_fromKeys blake2b_224 NID_testnet (pbytes c) (pbytes e))) (str "addr_test1qp2fg770ddmqxxduasjsas39l5wwvwa04nj8ud95fde7f70k6tew7wrnx0s4465nx05ajz890g44z0kx6a3gsnms4c4qq8ve0n"),
   same (EnterpriseAddress_toBech32 (EnterpriseAddress_fromKey blake2b_224 NID_testnet (pbytes c))) (str "addr_test1vp2fg770ddmqxxduasjsas39l5wwvwa04nj8ud95fde7f7guscp6v"),
   same (RewardsAddress_toBech32 (RewardsAddress_fromKey blake2b_224 NID_testnet (pbytes e))) (str "stake_test1urmd9uh08pen8c26a2fn86weprjh52638mrdwc5gfac2u2s25zpat")) | _ => (false,false,false,false,false) end.
Definition k1 := prv_fromSeed sha512 sha256 (hx "9d61b19deffd5a60ba844af492ec2cc44449c5697b326919703bac031cae7f60").
Time Eval vm_compute in same (sign sha512 enc k1 []) (hx "e5564300c360ac729086e2cc806e828a84877f1eb8e5d974d873e065224901555fb8821590a33bacc61e39701cf9b46bd25bf5f0595bbe24655141438e7a100b").
Time Eval vm_compute in (let* a := acct in let* v := publicKey enc a in let* c := du v 7 in let* x := dp a 7 in let* y := publicKey enc x in Ok (zlist_eqb (pub_xbytes c) (pub_xbytes y))).

===== generator of K.v (prints [true; ...])
import os
D='/repo/test/data/kes/'
def z(f): return '[%s]'%'; '.join(str(b) for b in open(D+f,'rb').read())
s='From Verif Require Import Base Model_Hex Spec_Hashes Model_Kes. Require Import Ed.\n'
for f in os.listdir(D): s+='Definition d_%s : list Z := %s.\n'%(f[:-4],z(f))
s+='''Definition seed : list Z := [116; 101; 115; 116; 32; 115; 116; 114; 105; 110; 103; 32; 111; 102; 32; 51; 50; 32; 98; 121; 116; 101; 32; 111; 102; 32; 108; 101; 110; 103; 104; 116].
Definition msg := str "test message".
Definition eqo (o : outcome (list Z)) b := match o with Ok x => zlist_eqb x b | _ => false end.
Definition bytes4 (l : list Z) := l.
Definition ck (d : nat) f := match kes_keygen blake2b_256 ed_pk d (repeat 0 (sk_size d + 4)) seed with Ok (k, pk, s) => f k | _ => [false] end.
Definition par d b := match kes_of_bytes d b with Ok k => prv k | _ => [] end.
Time Eval vm_compute in (ck 1 (fun k => [zlist_eqb (prv k) (par 1 d_key1); zlist_eqb (prv k) (par 1 d_compactkey1)])).
Time Eval vm_compute in (match kes_of_bytes 6 d_key6 with Ok k => [zlist_eqb (firstn 608 (prv k)) d_key6] ++
  match kes_updates blake2b_256 ed_pk 1 6 k with Ok k5 => [zlist_eqb (firstn 608 (prv k5)) d_key6update1 ; zlist_eqb (firstn 608 (prv k5)) d_compactkey6update1] | _ => [false] end ++
  match kes_updates blake2b_256 ed_pk 5 6 k with Ok k5 => [zlist_eqb (firstn 608 (prv k5)) d_key6update5 ; zlist_eqb (firstn 608 (prv k5)) d_compactkey6update5 ; eqo (kes_sign ed_sign 6 k5 msg) d_key6Sig5 ; eqo (kes_signCompact ed_pk ed_sign 6 k5 msg) d_compactkey6Sig5] | _ => [false] end | _ => [] end).
Time Eval vm_compute in (ck 6 (fun k => [zlist_eqb (prv k) (par 6 d_key6); zlist_eqb (prv k) (par 6 d_compactkey6)])).
