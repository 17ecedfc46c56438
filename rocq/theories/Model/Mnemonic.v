(** Model of /repo/bitcoinx/mnemonic.py.

    The files of word lists and their cache (mnemonic.py:75-94) are in Wordlists.v.  Not modelled: floating point (the word
    count of mnemonic.py:217 and the number of random bytes of 337-338 are parameters).  Unicode normalization
    and lower case are functions [nfkd] (mnemonic.py:326-330 [_normalize_text]) and [lower] on text given from outside, as are the hash functions. *)
From Verif.Model Require Import Py Text Misc OldWords.

(** [l.index(w)]: ValueError if there is none. *)
Fixpoint index_of (l : list pystr) (w : pystr) : option Z :=
  match l with
  | [] => None
  | x :: r => if bytes_eqb x w then Some 0 else option_map Z.succ (index_of r w)
  end.

(** [s.strip()] *)
Fixpoint lstrip (s : pystr) : pystr := match s with c :: r => if is_space_str c then lstrip r else s | [] => [] end.
Definition strip (s : pystr) : pystr := rev (lstrip (rev (lstrip s))).

(** [n] divisions by [base]: the remainders, first one first. *)
Fixpoint low_digits (base : Z) (n : nat) (v : Z) : list Z :=
  match n with O => [] | S m => v mod base :: low_digits base m (v / base) end.

(** [sum(part * base**i for i, part in enumerate(parts))], mnemonic.py:183-187 with the parts reversed *)
Fixpoint digits_value (base : Z) (parts : list Z) (acc mult : Z) : Z :=
  match parts with [] => acc | p :: r => digits_value base r (acc + p * mult) (mult * base) end.

(** [int(s, 16)] for ASCII text: white space around, a sign, 0x, and single underscores between digits (and
    after 0x).  int() also knows the decimal digits and the white space of other scripts; those are not
    modelled, such text is a ValueError here. *)
Fixpoint lstrip_int (s : pystr) : pystr := match s with c :: r => if is_space c then lstrip_int r else s | [] => [] end.
Definition strip_int (s : pystr) : pystr := rev (lstrip_int (rev (lstrip_int s))).
(** Digits; [us]: an underscore may come next; [some]: the text may end here. *)
Fixpoint hex_digits (s : pystr) (acc : Z) (us some : bool) : result Z :=
  match s with
  | [] => if some then Ok acc else Err ValueError
  | c :: r => if c =? 95 then (if us then hex_digits r acc false false else Err ValueError)
              else match hex_val c with Some d => hex_digits r (16 * acc + d) true true | None => Err ValueError end
  end.
Definition int_sign (s : pystr) : bool * pystr :=
  match s with
  | c :: r => if c =? 45 then (true, r) else if c =? 43 then (false, r) else (false, s)
  | [] => (false, [])
  end.
(** The text after 0x or 0X, if it begins so *)
Definition int_prefix (s : pystr) : option pystr :=
  match s with
  | c :: d :: r => if (c =? 48) && ((d =? 120) || (d =? 88)) then Some r else None
  | _ => None
  end.
Definition int_base16 (s : pystr) : result Z :=
  let '(neg, s) := int_sign (strip_int s) in
  v <- match int_prefix s with Some r => hex_digits r 0 true false | None => hex_digits s 0 false false end ;;
  Ok (if neg : bool then - v else v).

Section Mnemonics.
  Context (nfkd lower : pystr -> pystr).
  Context (sha256 : bytes -> bytes) (hmac_sha512 : bytes -> bytes -> bytes) (pbkdf2_sha512 : bytes -> bytes -> Z -> bytes).

  (** mnemonic.py:57-73 [Wordlists._text_to_wordlist] *)
  Definition text_to_wordlist (text : pystr) (expected_count : option Z) : result (list pystr) :=
    let lines := map strip (split_on 10 (nfkd text)) in
    let words := map lower (filter (fun line => match line with [] => false | c :: _ => negb (c =? 35) end) lines) in
    if existsb (fun word => existsb (fun c => c =? 32) word) words then Err SyntaxError
    else match expected_count with
         | Some n => if zlen words =? n then Ok words else Err SyntaxError
         | None => Ok words
         end.

  (** mnemonic.py:103-117 [BIP39Mnemonic._from_entropy]; shifting by a negative number is a ValueError *)
  Definition bip39_from_entropy (entropy : bytes) (wordlist : list pystr) : result pystr :=
    let size := zlen entropy in
    let cs_bits := size / 4 in
    if 256 - cs_bits <? 0 then Err ValueError
    else
      let checksum := Z.shiftr (be_bytes_to_int (sha256 entropy)) (256 - cs_bits) in
      let entropy_cs := be_bytes_to_int entropy * Z.shiftl 1 cs_bits + checksum in
      let m_len := 3 * size / 4 in
      let parts := low_digits 2048 (Z.to_nat m_len) entropy_cs in
      words <- mapM (pyindex wordlist) (rev parts) ;; Ok (join (txt " ") words).

  (** mnemonic.py:119-136 [generate]; [urandom] is the random source *)
  Definition bip39_generate (urandom : Z -> bytes) (wordlist : list pystr) (bits : Z) : result pystr :=
    if negb (zlen wordlist =? 2048) then Err ValueError
    else if negb (existsb (Z.eqb bits) [128; 160; 192; 224; 256]) then Err ValueError
    else bip39_from_entropy (urandom (bits / 8)) wordlist.

  (** mnemonic.py:138-143 [normalize] *)
  Definition bip39_normalize (mnemonic : pystr) : pystr := lower (join (txt " ") (split_ws (nfkd mnemonic))).

  (** mnemonic.py:145-152 [to_seed] *)
  Definition bip39_to_seed (mnemonic passphrase : pystr) : result bytes :=
    m <- utf8_encode (bip39_normalize mnemonic) ;; p <- utf8_encode (nfkd passphrase) ;;
    Ok (pbkdf2_sha512 m (txt "mnemonic" ++ p) 2048).

  (** mnemonic.py:154-198 [is_valid]; BadWords carries the words that are not in the list, see [bip39_bad_words] *)
  Definition bip39_bad_words (words wordlist : list pystr) : list pystr :=
    filter (fun w => match index_of wordlist w with None => true | Some _ => false end) words.
  Definition bip39_is_valid (mnemonic : pystr) (wordlist : list pystr) : result bool :=
    if negb (zlen wordlist =? 2048) then Err ValueError
    else
      let words := split_ws (bip39_normalize mnemonic) in
      let m_len := zlen words in
      if negb (existsb (Z.eqb m_len) [12; 15; 18; 21; 24]) then Ok false
      else match bip39_bad_words words wordlist with
           | _ :: _ => Err BadWords
           | [] =>
             let parts := map (fun w => match index_of wordlist w with Some i => i | None => 0 end) words in
             let entropy := digits_value 2048 (rev parts) 0 1 in
             let ent_bytes := 4 * m_len / 3 in
             let cs_bits := m_len / 3 in
             let cs_mod := Z.shiftl 1 cs_bits in
             let checksum := entropy mod cs_mod in
             entropy <- int_to_be_bytes (entropy / cs_mod) (Some ent_bytes) ;;
             Ok (Z.shiftr (be_bytes_to_int (sha256 entropy)) (256 - cs_bits) =? checksum)
           end.

  (** mnemonic.py:228-238 [ElectrumMnemonic.generate_old_seed] *)
  Definition generate_old_seed (urandom : Z -> bytes) (word_count : Z) : result pystr :=
    if negb (existsb (Z.eqb word_count) [12; 24]) then Err ValueError
    else Ok (to_hex (urandom (word_count * 4 / 3))).

  (** mnemonic.py:240-245 [is_valid_new] *)
  Definition is_valid_new (mnemonic prefix : pystr) : result bool :=
    m <- utf8_encode (lower (nfkd mnemonic)) ;; Ok (starts_with (to_hex (hmac_sha512 (txt "Seed version") m)) prefix).

  (** mnemonic.py:247-253 [normalize_new], [normalize_old] *)
  Definition normalize_new (mnemonic : pystr) : pystr := join (txt " ") (split_ws (lower mnemonic)).
  Definition normalize_old (mnemonic : pystr) : pystr := join (txt " ") (split_ws (lower mnemonic)).

  (** mnemonic.py:279-286: the parts; three indices each *)
  Fixpoint old_parts (n : Z) (indices : list Z) : result (list Z) :=
    match indices with
    | [] => Ok []
    | i1 :: i2 :: i3 :: r =>
      let part := i1 + n * ((i2 - i1) mod n + n * ((i3 - i2) mod n)) in
      if 4294967296 <=? part then Err ValueError else rest <- old_parts n r ;; Ok (part :: rest)
    | _ => Err ValueError
    end.
  (** [f'{part:08x}'], for 0 <= part < 2**32 *)
  Definition hex8 (part : Z) : pystr := to_hex (rev (le_digits 4 part)).
  (** mnemonic.py:270-288 [old_to_hex_seed] *)
  Definition old_to_hex_seed (mnemonic : pystr) : result pystr :=
    let words := split_ws (normalize_old mnemonic) in
    if negb (existsb (Z.eqb (zlen words)) [12; 24]) then Err ValueError
    else
      indices <- mapM (fun w => match index_of old_words w with Some i => Ok i | None => Err ValueError end) words ;;
      parts <- old_parts (zlen old_words) indices ;;
      Ok (concat (map hex8 parts)).

  (** mnemonic.py:255-268 [is_valid_old] *)
  Definition is_valid_old (mnemonic : pystr) : bool :=
    match old_to_hex_seed mnemonic with
    | Ok _ => true
    | Err _ => match from_hex mnemonic with Ok b => existsb (Z.eqb (zlen b)) [16; 32] | Err _ => false end
    end.

  (** mnemonic.py:295-304: three indices from a chunk *)
  Definition old_indices (n : Z) (chunk : pystr) : result (list Z) :=
    value <- int_base16 chunk ;;
    let i1 := value mod n in
    let value := value / n in
    let i2 := value mod n in
    let i3 := value / n in
    let i2 := (i2 + i1) mod n in
    let i3 := (i3 + i2) mod n in
    Ok [i1; i2; i3].
  (** mnemonic.py:290-307 [hex_seed_to_old] *)
  Definition hex_seed_to_old (hex_seed : pystr) : result pystr :=
    if negb (existsb (Z.eqb (zlen hex_seed)) [32; 64]) then Err ValueError
    else
      cs <- chunks hex_seed 8 ;;
      indices <- mapM (old_indices (zlen old_words)) cs ;;
      words <- mapM (pyindex old_words) (concat indices) ;;
      Ok (join (txt " ") words).

  (** mnemonic.py:309-323 [_from_entropy]; [fuel] bounds the number of words.  For a negative entropy the loop
      of the code does not end; here that is OutOfFuel. *)
  Fixpoint entropy_words (fuel : nat) (entropy : Z) (wordlist : list pystr) : result (list pystr) :=
    if entropy =? 0 then Ok []
    else match fuel with
         | O => Err OutOfFuel
         | S f => if zlen wordlist =? 0 then Err ZeroDivisionError
                  else w <- pyindex wordlist (entropy mod zlen wordlist) ;;
                       ws <- entropy_words f (entropy / zlen wordlist) wordlist ;; Ok (w :: ws)
         end.
  Definition electrum_from_entropy (entropy : Z) (wordlist : list pystr) : result pystr :=
    ws <- entropy_words (Z.to_nat (bit_length entropy)) entropy wordlist ;; Ok (join (txt " ") ws).

  (** mnemonic.py:333-349 [_random_integer]; [draws i] is what urandom returns the i-th time; [fuel] bounds the
      number of draws. *)
  Fixpoint random_loop (fuel : nat) (draws : nat -> bytes) (i : nat) (modulus min_value : Z) : result (Z * Z) :=
    match fuel with
    | O => Err OutOfFuel
    | S f =>
      let value := be_bytes_to_int (draws i) mod modulus in
      if value <=? min_value then random_loop f draws (S i) modulus min_value
      else Ok (value, if value <? (min_value + modulus) / 2 then 1 else -1)
    end.
  Definition random_integer (fuel : nat) (draws : nat -> bytes) (word_count wordlist_size : Z) : result (Z * Z) :=
    let modulus := wordlist_size ^ word_count in
    let min_value := modulus / wordlist_size + 1 in
    random_loop fuel draws 0 modulus min_value.

  (** mnemonic.py:204-226 [generate_new]; [word_count] is what line 217 computes; [fuel] bounds the number of
      draws and of mnemonics tried. *)
  Fixpoint search_new (fuel : nat) (wordlist : list pystr) (prefix : pystr) (skip_old : bool) (entropy delta : Z) : result pystr :=
    match fuel with
    | O => Err OutOfFuel
    | S f =>
      mnemonic <- electrum_from_entropy entropy wordlist ;;
      valid <- is_valid_new mnemonic prefix ;;
      if valid && negb (skip_old && is_valid_old mnemonic) then Ok mnemonic
      else search_new f wordlist prefix skip_old (entropy + delta) delta
    end.
  Definition generate_new (fuel : nat) (draws : nat -> bytes) (word_count : Z) (wordlist : list pystr) (prefix : pystr) (bits : Z) (skip_old : bool) : result pystr :=
    if bits <? 132 then Err ValueError
    else if zlen wordlist <? 2048 then Err ValueError
    else
      '(entropy, delta) <- random_integer fuel draws word_count (zlen wordlist) ;;
      search_new fuel wordlist prefix skip_old entropy delta.
End Mnemonics.
