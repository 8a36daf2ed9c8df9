(** Model of /repo/src/mnemonic.cpp and /repo/include/cardano/mnemonic.hpp.
    The random generator is the argument [entropy]; SHA-256 (Botan) is a section variable.
    The two span constructors (string / string_view) are textually the same and modelled once. *)
From Verif Require Import Base Model_Hex Data_Bip39.

(** bip39_dictionary.hpp:81-21768: a dictionary entry as bytes (see Data_Bip39) *)
Definition word_bytes (w : Z) : list Z := pack_be (Z.to_nat (Z.log2 w / 8 + 1)) w.

(** bip39_dictionary.hpp:31-43 *)
Inductive language := ChineseSimplified | ChineseTraditional | Czech | English | French
  | Italian | Japanese | Korean | Portuguese | Spanish.
(** bip39_dictionary.hpp:51-79 GetDictionary *)
Definition dict_of (l : language) : list Z :=
  match l with
  | ChineseSimplified => dict_chinese_simplified
  | ChineseTraditional => dict_chinese_traditional
  | Czech => dict_czech
  | French => dict_french
  | Italian => dict_italian
  | Japanese => dict_japanese
  | Korean => dict_korean
  | Portuguese => dict_portuguese
  | Spanish => dict_spanish
  | English => dict_english
  end.
(** bip39_dictionary.hpp:51-79 GetDictionary, as strings of bytes *)
Definition words_of (l : language) : list (list Z) := map word_bytes (dict_of l).

(** mnemonic.hpp:39-43: the two members of a [Mnemonic] *)
Record mnemonic := { m_words : list (list Z); m_idx : list Z }.

(** mnemonic.cpp:43-58 *)
Definition IsValidMnemonicSize (n : nat) : bool :=
  match n with 9 | 12 | 15 | 18 | 21 | 24 => true | _ => false end%nat.

(** mnemonic.cpp:60-67 and the [find] at 115, 146, 187: the map built by assigning
    [lookup[dict[i]] = i] in increasing [i], so that the last entry of a word wins. *)
Fixpoint dict_lookup (i : Z) (dict : list (list Z)) (w : list Z) : option Z :=
  match dict with
  | [] => None
  | x :: r => match dict_lookup (i + 1) r w with
              | Some j => Some j
              | None => if zlist_eqb x w then Some i else None
              end
  end.
(** mnemonic.cpp:113-126 (= 144-157 = 185-198): the index of each word, or an exception. *)
Definition lookup_words (lang : language) (ws : list (list Z)) : outcome (list Z) :=
  mapM (fun w => match dict_lookup 0 (words_of lang) w with Some i => Ok i | None => Throw end) ws.

(** mnemonic.cpp:71-96: construction from words and given indexes (indexes are not checked). *)
Definition Mnemonic_of_indexes (ws : list (list Z)) (idx : list Z) : outcome mnemonic :=
  if negb (length ws =? length idx)%nat then Throw
  else if negb (IsValidMnemonicSize (length ws)) then Throw
  else Ok {| m_words := ws; m_idx := idx |}.

(** mnemonic.cpp:98-158: construction from words *)
Definition Mnemonic_of_words (ws : list (list Z)) (lang : language) : outcome mnemonic :=
  if negb (IsValidMnemonicSize (length ws)) then Throw
  else let* idx := lookup_words lang ws in Ok {| m_words := ws; m_idx := idx |}.

(** mnemonic.cpp:164-172: splitting at each space.  The text before the first space is a word;
    the remainder is split again; what is left at the end is a word too. *)
Fixpoint split_spaces (cur s : list Z) : list (list Z) :=
  match s with
  | [] => [rev cur]
  | c :: r => if c =? 32 then rev cur :: split_spaces [] r else split_spaces (c :: cur) r
  end.
(** mnemonic.cpp:160-199: construction from a phrase text *)
Definition Mnemonic_of_text (s : list Z) (lang : language) : outcome mnemonic :=
  Mnemonic_of_words (split_spaces [] s) lang.

(** mnemonic.cpp:302, 308, 318-319: a vector write [v[i] = x]; out of range is undefined behaviour *)
Fixpoint set_ub (l : list Z) (i : nat) (x : Z) : outcome (list Z) :=
  match l, i with
  | [], _ => UB
  | _ :: r, O => Ok (x :: r)
  | y :: r, S i => let* r' := set_ub r i x in Ok (y :: r')
  end.

(** mnemonic.cpp:260-269: the inner loop; [uint16_t] arithmetic.  At most two rounds are needed;
    running out of fuel is [UB], shown impossible. *)
Fixpoint gen_inner (fuel : nat) (ent : list Z) (idx n_bits : Z) (ent_idx : nat) : outcome (Z * Z * nat) :=
  match fuel with
  | O => UB
  | S f =>
      if n_bits <? 11 then
        let* b := get_ub ent ent_idx in
        let e := if 8 <=? 11 - n_bits then Z.shiftl b (11 - n_bits - 8) mod 65536
                 else Z.shiftr b (8 - (11 - n_bits)) in
        gen_inner f ent (Z.lor idx e) (n_bits + 8) (S ent_idx)
      else Ok (idx, n_bits, ent_idx)
  end.
(** mnemonic.cpp:253-277: the loop over the words; returns the indexes. *)
Fixpoint gen_loop (k : nat) (ent : list Z) (carry n_carry : Z) (ent_idx : nat) : outcome (list Z) :=
  match k with
  | O => Ok []
  | S k =>
      let idx0 := Z.shiftl carry (11 - n_carry) mod 65536 in
      let* (idx, n_bits, ent_idx) := gen_inner 4 ent idx0 n_carry ent_idx in
      let n_carry' := n_bits - 11 in
      let* b := get_ub ent (ent_idx - 1) in
      let carry' := Z.land b (Z.shiftr 255 (8 - n_carry')) in
      let idx' := Z.land idx 2047 in
      let* rest := gen_loop k ent carry' n_carry' ent_idx in
      Ok (idx' :: rest)
  end.

Section Sha.
(** mnemonic.cpp:234-236, 353-355: Botan's SHA-256, abstract *)
Variable sha256 : list Z -> list Z.

(** mnemonic.cpp:201-280.  [entropy] is what the random generator wrote into the vector of
    [4 * (size / 3)] bytes; [ceil(cs / 8)] is computed in floating point there. *)
Definition generate (size : nat) (lang : language) (entropy : list Z) : outcome mnemonic :=
  if negb (IsValidMnemonicSize size) then Throw
  else
    let cs := (size / 3)%nat in
    let* cks := mapM (fun i => get_ub (sha256 entropy) i) (seq 0 ((cs + 7) / 8)) in
    let* idx := gen_loop size (entropy ++ cks) 0 0 0 in
    let* words := mapM (fun i => get_ub (words_of lang) (Z.to_nat i)) idx in
    Mnemonic_of_indexes words idx.

(** mnemonic.cpp:296-331: the loop over the word indexes.  [uint8_t] arithmetic; the two
    assignments to the same byte are merged into one write. *)
Fixpoint ent_loop (widxs : list Z) (size : nat) (buf : list Z) (ent_idx : nat) (carry n_carry : Z)
  : outcome (list Z * Z) :=
  match widxs with
  | [] => Ok (buf, carry)
  | widx :: rest =>
      let word_index := Z.land widx 2047 in
      let* buf := set_ub buf ent_idx
        (Z.lor (Z.shiftl carry (8 - n_carry) mod 256) (Z.shiftr widx (3 + n_carry) mod 256)) in
      let ent_idx := S ent_idx in
      let n_packed := 8 - n_carry in
      let n_remain := 11 - n_packed in
      let* (buf, ent_idx, n_remain) :=
        (if (ent_idx <? size)%nat && (8 <=? n_remain) then
           let* buf := set_ub buf ent_idx (Z.shiftr word_index (n_remain - 8) mod 256) in
           Ok (buf, S ent_idx, n_remain - 8)
         else Ok (buf, ent_idx, n_remain)) in
      ent_loop rest size buf ent_idx
        (Z.land word_index (Z.shiftr 65535 (16 - n_remain)) mod 256) n_remain
  end.
(** mnemonic.cpp:282-334 *)
Definition toEntropy (m : mnemonic) : outcome (list Z * Z) :=
  let size := length (m_idx m) in
  if negb (IsValidMnemonicSize size) then Throw
  else let bytes := (size / 3 * 4)%nat in ent_loop (m_idx m) bytes (repeat 0 bytes) 0 0 0.
(** mnemonic.cpp:336-340 *)
Definition checksum (m : mnemonic) : outcome Z :=
  let* (_, cs) := toEntropy m in Ok cs.
(** mnemonic.cpp:342-360 *)
Definition verify_checksum (m : mnemonic) : outcome bool :=
  let size := length (m_idx m) in
  if negb (IsValidMnemonicSize size) then Throw
  else
    let* (ent, old) := toEntropy m in
    let* h0 := get_ub (sha256 ent) 0 in
    let nshift := 8 - Z.of_nat (size / 3) in
    Ok (Z.shiftr (Z.land h0 (Z.shiftl 255 nshift)) nshift =? old).
(** mnemonic.cpp:362-365 *)
Definition toSeed (m : mnemonic) : outcome (list Z) :=
  let* (ent, _) := toEntropy m in Ok ent.
End Sha.
