(** The hash functions of /repo/bitcoinx/hashes.py.  hashlib and hmac are not part of the repository: they are
    modelled from FIPS 180-4 (SHA-1, SHA-256, SHA-512), the RIPEMD-160 paper and RFC 2104 (HMAC).  Lengths in bits
    are counted modulo 2^64 (2^128 for SHA-512), as in hashlib's implementations. *)
From Verif.Model Require Import Py.

(** A message cut into pieces of [size] bytes; [fuel] bounds their number. *)
Fixpoint cut (fuel size : nat) (m : bytes) : list bytes :=
  match fuel with
  | O => []
  | S f => match m with [] => [] | _ => firstn size m :: cut f size (skipn size m) end
  end.

(** Merkle-Damgard: a one bit, zeros, and the length in bits fill the last block; a big-endian length for the
    SHA functions, a little-endian one for RIPEMD-160. *)
Definition md_pad (size lenbytes : Z) (big_endian : bool) (m : bytes) : bytes :=
  let n := le_digits (Z.to_nat lenbytes) (8 * zlen m) in
  m ++ 128 :: zrepeat 0 ((- (zlen m + 1 + lenbytes)) mod size) ++ (if big_endian then rev n else n).
Definition md_blocks (size lenbytes : Z) (big_endian : bool) (m : bytes) : list bytes :=
  let p := md_pad size lenbytes big_endian m in cut (length p) (Z.to_nat size) p.

(** Words of [w] bits. *)
Definition wmod (w x : Z) : Z := x mod 2 ^ w.
Definition rotr (w n x : Z) : Z := wmod w (Z.lor (Z.shiftr x n) (Z.shiftl x (w - n))).
Definition rotl (w n x : Z) : Z := rotr w (w - n) x.
Definition wnot (w x : Z) : Z := 2 ^ w - 1 - x.
Definition Ch (x y z : Z) : Z := Z.lxor (Z.land x y) (Z.ldiff z x).
Definition Maj (x y z : Z) : Z := Z.lxor (Z.lxor (Z.land x y) (Z.land x z)) (Z.land y z).
Definition Parity (x y z : Z) : Z := Z.lxor (Z.lxor x y) z.

Definition words_be (w : Z) (b : bytes) : list Z := map (fun c => wmod w (be_int c)) (cut (length b) (Z.to_nat (w / 8)) b).
Definition words_le (w : Z) (b : bytes) : list Z := map (fun c => wmod w (le_int c)) (cut (length b) (Z.to_nat (w / 8)) b).
Definition be_word (w x : Z) : bytes := rev (le_digits (Z.to_nat (w / 8)) x).
Definition le_word (w x : Z) : bytes := le_digits (Z.to_nat (w / 8)) x.

(** ** SHA-256 and SHA-512, FIPS 180-4 sections 4.1.2, 4.1.3, 6.2, 6.4 *)
Inductive state8 := St8 (a b c d e f g h : Z).

Section Sha2.
  Variable w : Z.                            (* bits in a word *)
  Variable Sum0 Sum1 sigma0 sigma1 : Z -> Z.
  Variable K : list Z.

  Definition sha2_round (s : state8) (k wt : Z) : state8 :=
    let '(St8 a b c d e f g h) := s in
    let T1 := h + Sum1 e + Ch e f g + k + wt in
    let T2 := Sum0 a + Maj a b c in
    St8 (wmod w (T1 + T2)) a b c (wmod w (d + T1)) e f g.
  (** The schedule is a window W_t .. W_(t+15). *)
  Definition sha2_next (ws : list Z) : Z :=
    wmod w (sigma1 (nth 14 ws 0) + nth 9 ws 0 + sigma0 (nth 1 ws 0) + nth 0 ws 0).
  Fixpoint sha2_rounds (ks : list Z) (ws : list Z) (s : state8) : state8 :=
    match ks with
    | [] => s
    | k :: ks' => sha2_rounds ks' (tl ws ++ [sha2_next ws]) (sha2_round s k (hd 0 ws))
    end.
  Definition add8 (s t : state8) : state8 :=
    let '(St8 a b c d e f g h) := s in
    let '(St8 a' b' c' d' e' f' g' h') := t in
    St8 (wmod w (a + a')) (wmod w (b + b')) (wmod w (c + c')) (wmod w (d + d'))
        (wmod w (e + e')) (wmod w (f + f')) (wmod w (g + g')) (wmod w (h + h')).
  Definition sha2_compress (s : state8) (block : bytes) : state8 :=
    add8 s (sha2_rounds K (words_be w block) s).
  Definition sha2_digest (s : state8) : bytes :=
    let '(St8 a b c d e f g h) := s in flat_map (be_word w) [a; b; c; d; e; f; g; h].
End Sha2.

Definition K256 : list Z :=
  [0x428a2f98; 0x71374491; 0xb5c0fbcf; 0xe9b5dba5; 0x3956c25b; 0x59f111f1; 0x923f82a4; 0xab1c5ed5;
   0xd807aa98; 0x12835b01; 0x243185be; 0x550c7dc3; 0x72be5d74; 0x80deb1fe; 0x9bdc06a7; 0xc19bf174;
   0xe49b69c1; 0xefbe4786; 0x0fc19dc6; 0x240ca1cc; 0x2de92c6f; 0x4a7484aa; 0x5cb0a9dc; 0x76f988da;
   0x983e5152; 0xa831c66d; 0xb00327c8; 0xbf597fc7; 0xc6e00bf3; 0xd5a79147; 0x06ca6351; 0x14292967;
   0x27b70a85; 0x2e1b2138; 0x4d2c6dfc; 0x53380d13; 0x650a7354; 0x766a0abb; 0x81c2c92e; 0x92722c85;
   0xa2bfe8a1; 0xa81a664b; 0xc24b8b70; 0xc76c51a3; 0xd192e819; 0xd6990624; 0xf40e3585; 0x106aa070;
   0x19a4c116; 0x1e376c08; 0x2748774c; 0x34b0bcb5; 0x391c0cb3; 0x4ed8aa4a; 0x5b9cca4f; 0x682e6ff3;
   0x748f82ee; 0x78a5636f; 0x84c87814; 0x8cc70208; 0x90befffa; 0xa4506ceb; 0xbef9a3f7; 0xc67178f2].
Definition K512 : list Z :=
  [0x428a2f98d728ae22; 0x7137449123ef65cd; 0xb5c0fbcfec4d3b2f; 0xe9b5dba58189dbbc;
   0x3956c25bf348b538; 0x59f111f1b605d019; 0x923f82a4af194f9b; 0xab1c5ed5da6d8118;
   0xd807aa98a3030242; 0x12835b0145706fbe; 0x243185be4ee4b28c; 0x550c7dc3d5ffb4e2;
   0x72be5d74f27b896f; 0x80deb1fe3b1696b1; 0x9bdc06a725c71235; 0xc19bf174cf692694;
   0xe49b69c19ef14ad2; 0xefbe4786384f25e3; 0x0fc19dc68b8cd5b5; 0x240ca1cc77ac9c65;
   0x2de92c6f592b0275; 0x4a7484aa6ea6e483; 0x5cb0a9dcbd41fbd4; 0x76f988da831153b5;
   0x983e5152ee66dfab; 0xa831c66d2db43210; 0xb00327c898fb213f; 0xbf597fc7beef0ee4;
   0xc6e00bf33da88fc2; 0xd5a79147930aa725; 0x06ca6351e003826f; 0x142929670a0e6e70;
   0x27b70a8546d22ffc; 0x2e1b21385c26c926; 0x4d2c6dfc5ac42aed; 0x53380d139d95b3df;
   0x650a73548baf63de; 0x766a0abb3c77b2a8; 0x81c2c92e47edaee6; 0x92722c851482353b;
   0xa2bfe8a14cf10364; 0xa81a664bbc423001; 0xc24b8b70d0f89791; 0xc76c51a30654be30;
   0xd192e819d6ef5218; 0xd69906245565a910; 0xf40e35855771202a; 0x106aa07032bbd1b8;
   0x19a4c116b8d2d0c8; 0x1e376c085141ab53; 0x2748774cdf8eeb99; 0x34b0bcb5e19b48a8;
   0x391c0cb3c5c95a63; 0x4ed8aa4ae3418acb; 0x5b9cca4f7763e373; 0x682e6ff3d6b2b8a3;
   0x748f82ee5defb2fc; 0x78a5636f43172f60; 0x84c87814a1f0ab72; 0x8cc702081a6439ec;
   0x90befffa23631e28; 0xa4506cebde82bde9; 0xbef9a3f7b2c67915; 0xc67178f2e372532b;
   0xca273eceea26619c; 0xd186b8c721c0c207; 0xeada7dd6cde0eb1e; 0xf57d4f7fee6ed178;
   0x06f067aa72176fba; 0x0a637dc5a2c898a6; 0x113f9804bef90dae; 0x1b710b35131c471b;
   0x28db77f523047d84; 0x32caab7b40c72493; 0x3c9ebe0a15c9bebc; 0x431d67c49c100d4c;
   0x4cc5d4becb3e42b6; 0x597f299cfc657e2a; 0x5fcb6fab3ad6faec; 0x6c44198c4a475817].
Definition IV256 : state8 :=
  St8 0x6a09e667 0xbb67ae85 0x3c6ef372 0xa54ff53a 0x510e527f 0x9b05688c 0x1f83d9ab 0x5be0cd19.
Definition IV512 : state8 :=
  St8 0x6a09e667f3bcc908 0xbb67ae8584caa73b 0x3c6ef372fe94f82b 0xa54ff53a5f1d36f1
      0x510e527fade682d1 0x9b05688c2b3e6c1f 0x1f83d9abfb41bd6b 0x5be0cd19137e2179.

Definition xor3 (x y z : Z) : Z := Z.lxor (Z.lxor x y) z.
Definition sha256_compress : state8 -> bytes -> state8 :=
  sha2_compress 32
    (fun x => xor3 (rotr 32 2 x) (rotr 32 13 x) (rotr 32 22 x)) (fun x => xor3 (rotr 32 6 x) (rotr 32 11 x) (rotr 32 25 x))
    (fun x => xor3 (rotr 32 7 x) (rotr 32 18 x) (Z.shiftr x 3)) (fun x => xor3 (rotr 32 17 x) (rotr 32 19 x) (Z.shiftr x 10)) K256.
Definition sha512_compress : state8 -> bytes -> state8 :=
  sha2_compress 64
    (fun x => xor3 (rotr 64 28 x) (rotr 64 34 x) (rotr 64 39 x)) (fun x => xor3 (rotr 64 14 x) (rotr 64 18 x) (rotr 64 41 x))
    (fun x => xor3 (rotr 64 1 x) (rotr 64 8 x) (Z.shiftr x 7)) (fun x => xor3 (rotr 64 19 x) (rotr 64 61 x) (Z.shiftr x 6)) K512.

(** hashes.py:52-54 [sha256] *)
Definition sha256 (x : bytes) : bytes := sha2_digest 32 (fold_left sha256_compress (md_blocks 64 8 true x) IV256).
(** hashes.py:57-59 [sha512] *)
Definition sha512 (x : bytes) : bytes := sha2_digest 64 (fold_left sha512_compress (md_blocks 128 16 true x) IV512).

(** ** SHA-1, FIPS 180-4 section 6.1, and RIPEMD-160: five words of 32 bits *)
Inductive state5 := St5 (a b c d e : Z).
Definition sha1_f (t : Z) : Z -> Z -> Z -> Z :=
  if t <? 20 then Ch else if t <? 40 then Parity else if t <? 60 then Maj else Parity.
Definition sha1_K (t : Z) : Z :=
  if t <? 20 then 0x5a827999 else if t <? 40 then 0x6ed9eba1 else if t <? 60 then 0x8f1bbcdc else 0xca62c1d6.
Definition sha1_next (ws : list Z) : Z :=
  rotl 32 1 (Z.lxor (xor3 (nth 13 ws 0) (nth 8 ws 0) (nth 2 ws 0)) (nth 0 ws 0)).
Definition sha1_round (s : state5) (t wt : Z) : state5 :=
  let '(St5 a b c d e) := s in
  St5 (wmod 32 (rotl 32 5 a + sha1_f t b c d + e + sha1_K t + wt)) a (rotl 32 30 b) c d.
Fixpoint sha1_rounds (ts : list Z) (ws : list Z) (s : state5) : state5 :=
  match ts with
  | [] => s
  | t :: ts' => sha1_rounds ts' (tl ws ++ [sha1_next ws]) (sha1_round s t (hd 0 ws))
  end.
Definition sha1_compress (s : state5) (block : bytes) : state5 :=
  let '(St5 a b c d e) := s in
  let '(St5 a' b' c' d' e') := sha1_rounds (zrange 0 80) (words_be 32 block) s in
  St5 (wmod 32 (a + a')) (wmod 32 (b + b')) (wmod 32 (c + c')) (wmod 32 (d + d')) (wmod 32 (e + e')).
Definition IV160 : state5 := St5 0x67452301 0xefcdab89 0x98badcfe 0x10325476 0xc3d2e1f0.
Definition sha1_digest (s : state5) : bytes := let '(St5 a b c d e) := s in flat_map (be_word 32) [a; b; c; d; e].
(** hashes.py:47-49 [sha1] *)
Definition sha1 (x : bytes) : bytes := sha1_digest (fold_left sha1_compress (md_blocks 64 8 true x) IV160).

Definition rmd_f (j x y z : Z) : Z :=
  if j <? 16 then Parity x y z
  else if j <? 32 then Z.lor (Z.land x y) (Z.land (wnot 32 x) z)
  else if j <? 48 then Z.lxor (Z.lor x (wnot 32 y)) z
  else if j <? 64 then Z.lor (Z.land x z) (Z.land y (wnot 32 z))
  else Z.lxor x (Z.lor y (wnot 32 z)).
Definition rmd_K : list Z := [0x00000000; 0x5a827999; 0x6ed9eba1; 0x8f1bbcdc; 0xa953fd4e].
Definition rmd_K' : list Z := [0x50a28be6; 0x5c4dd124; 0x6d703ef3; 0x7a6d76e9; 0x00000000].
Definition rmd_r : list Z :=
  [0; 1; 2; 3; 4; 5; 6; 7; 8; 9; 10; 11; 12; 13; 14; 15;
   7; 4; 13; 1; 10; 6; 15; 3; 12; 0; 9; 5; 2; 14; 11; 8;
   3; 10; 14; 4; 9; 15; 8; 1; 2; 7; 0; 6; 13; 11; 5; 12;
   1; 9; 11; 10; 0; 8; 12; 4; 13; 3; 7; 15; 14; 5; 6; 2;
   4; 0; 5; 9; 7; 12; 2; 10; 14; 1; 3; 8; 11; 6; 15; 13].
Definition rmd_r' : list Z :=
  [5; 14; 7; 0; 9; 2; 11; 4; 13; 6; 15; 8; 1; 10; 3; 12;
   6; 11; 3; 7; 0; 13; 5; 10; 14; 15; 8; 12; 4; 9; 1; 2;
   15; 5; 1; 3; 7; 14; 6; 9; 11; 8; 12; 2; 10; 0; 4; 13;
   8; 6; 4; 1; 3; 11; 15; 0; 5; 12; 2; 13; 9; 7; 10; 14;
   12; 15; 10; 4; 1; 5; 8; 7; 6; 2; 13; 14; 0; 3; 9; 11].
Definition rmd_s : list Z :=
  [11; 14; 15; 12; 5; 8; 7; 9; 11; 13; 14; 15; 6; 7; 9; 8;
   7; 6; 8; 13; 11; 9; 7; 15; 7; 12; 15; 9; 11; 7; 13; 12;
   11; 13; 6; 7; 14; 9; 13; 15; 14; 8; 13; 6; 5; 12; 7; 5;
   11; 12; 14; 15; 14; 15; 9; 8; 9; 14; 5; 6; 8; 6; 5; 12;
   9; 15; 5; 11; 6; 8; 13; 12; 5; 12; 13; 14; 11; 8; 5; 6].
Definition rmd_s' : list Z :=
  [8; 9; 9; 11; 13; 15; 15; 5; 7; 7; 8; 11; 14; 14; 12; 6;
   9; 13; 15; 7; 12; 8; 9; 11; 7; 7; 12; 7; 6; 15; 13; 11;
   9; 7; 15; 11; 8; 6; 6; 14; 12; 13; 5; 14; 13; 13; 7; 5;
   15; 5; 8; 11; 14; 14; 6; 14; 6; 9; 12; 9; 12; 5; 15; 8;
   8; 5; 12; 9; 12; 5; 14; 6; 8; 13; 6; 5; 15; 13; 11; 11].
(** One step; [f] is the number of the step whose Boolean function is used. *)
Definition rmd_step (f k s x : Z) (st : state5) : state5 :=
  let '(St5 a b c d e) := st in
  St5 e (wmod 32 (rotl 32 s (wmod 32 (a + rmd_f f b c d + x + k)) + e)) b (rotl 32 10 c) d.
Definition rmd_line (flip : bool) (K r s : list Z) (X : list Z) (st : state5) : state5 :=
  fold_left (fun st j => rmd_step (if flip then 79 - j else j) (nth (Z.to_nat (j / 16)) K 0) (nth (Z.to_nat j) s 0)
                           (nth (Z.to_nat (nth (Z.to_nat j) r 0)) X 0) st) (zrange 0 80) st.
Definition rmd_compress (st : state5) (block : bytes) : state5 :=
  let X := words_le 32 block in
  let '(St5 h0 h1 h2 h3 h4) := st in
  let '(St5 a b c d e) := rmd_line false rmd_K rmd_r rmd_s X st in
  let '(St5 a' b' c' d' e') := rmd_line true rmd_K' rmd_r' rmd_s' X st in
  St5 (wmod 32 (h1 + c + d')) (wmod 32 (h2 + d + e')) (wmod 32 (h3 + e + a')) (wmod 32 (h4 + a + b')) (wmod 32 (h0 + b + c')).
Definition rmd_digest (s : state5) : bytes := let '(St5 a b c d e) := s in flat_map (le_word 32) [a; b; c; d; e].
(** hashes.py:62-66 [ripemd160] *)
Definition ripemd160 (x : bytes) : bytes := rmd_digest (fold_left rmd_compress (md_blocks 64 8 false x) IV160).

(** hashes.py:69-71 [double_sha256] *)
Definition double_sha256 (x : bytes) : bytes := sha256 (sha256 x).
(** hashes.py:74-78 [hash160] *)
Definition hash160 (x : bytes) : bytes := ripemd160 (sha256 x).

(** RFC 2104; hashes.py:44 [hmac_digest] is hmac.digest with the hash as an argument.  [size] is the block size. *)
Definition hmac (H : bytes -> bytes) (size : Z) (key msg : bytes) : bytes :=
  let key := if size <? zlen key then H key else key in
  let k0 := key ++ zrepeat 0 (size - zlen key) in
  H (map (Z.lxor 0x5c) k0 ++ H (map (Z.lxor 0x36) k0 ++ msg)).
(** hashes.py:101-102 [hmac_sha512] *)
Definition hmac_sha512 (key msg : bytes) : bytes := hmac sha512 128 key msg.
(** keys.py:318, 538 use hmac_digest with sha256. *)
Definition hmac_sha256 (key msg : bytes) : bytes := hmac sha256 64 key msg.
(** hashlib.pbkdf2_hmac('sha512', password, salt, iterations) as mnemonic.py:152 uses it: the default length of the
    derived key is that of the hash, so it is the first block of RFC 2898 section 5.2. *)
Definition xor_bytes (a b : bytes) : bytes := map (fun '(x, y) => Z.lxor x y) (combine a b).
Fixpoint pbkdf2_loop (n : nat) (password u acc : bytes) : bytes :=
  match n with
  | O => acc
  | S n' => let u := hmac_sha512 password u in pbkdf2_loop n' password u (xor_bytes acc u)
  end.
Definition pbkdf2_sha512 (password salt : bytes) (iterations : Z) : bytes :=
  let u := hmac_sha512 password (salt ++ [0; 0; 0; 1]) in
  pbkdf2_loop (Z.to_nat (iterations - 1)) password u u.
