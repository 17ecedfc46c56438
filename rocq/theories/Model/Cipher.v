(** The AES block cipher in CBC mode, which aes.py:67 and 75 take from Cryptodome (AES.new(key, AES.MODE_CBC, iv)).  A state is a
    list of 16 bytes, column by column. *)
From Verif.Model Require Import Py Hashes.

Definition sbox : list Z :=
  [0x63; 0x7c; 0x77; 0x7b; 0xf2; 0x6b; 0x6f; 0xc5; 0x30; 0x01; 0x67; 0x2b; 0xfe; 0xd7; 0xab; 0x76;
   0xca; 0x82; 0xc9; 0x7d; 0xfa; 0x59; 0x47; 0xf0; 0xad; 0xd4; 0xa2; 0xaf; 0x9c; 0xa4; 0x72; 0xc0;
   0xb7; 0xfd; 0x93; 0x26; 0x36; 0x3f; 0xf7; 0xcc; 0x34; 0xa5; 0xe5; 0xf1; 0x71; 0xd8; 0x31; 0x15;
   0x04; 0xc7; 0x23; 0xc3; 0x18; 0x96; 0x05; 0x9a; 0x07; 0x12; 0x80; 0xe2; 0xeb; 0x27; 0xb2; 0x75;
   0x09; 0x83; 0x2c; 0x1a; 0x1b; 0x6e; 0x5a; 0xa0; 0x52; 0x3b; 0xd6; 0xb3; 0x29; 0xe3; 0x2f; 0x84;
   0x53; 0xd1; 0x00; 0xed; 0x20; 0xfc; 0xb1; 0x5b; 0x6a; 0xcb; 0xbe; 0x39; 0x4a; 0x4c; 0x58; 0xcf;
   0xd0; 0xef; 0xaa; 0xfb; 0x43; 0x4d; 0x33; 0x85; 0x45; 0xf9; 0x02; 0x7f; 0x50; 0x3c; 0x9f; 0xa8;
   0x51; 0xa3; 0x40; 0x8f; 0x92; 0x9d; 0x38; 0xf5; 0xbc; 0xb6; 0xda; 0x21; 0x10; 0xff; 0xf3; 0xd2;
   0xcd; 0x0c; 0x13; 0xec; 0x5f; 0x97; 0x44; 0x17; 0xc4; 0xa7; 0x7e; 0x3d; 0x64; 0x5d; 0x19; 0x73;
   0x60; 0x81; 0x4f; 0xdc; 0x22; 0x2a; 0x90; 0x88; 0x46; 0xee; 0xb8; 0x14; 0xde; 0x5e; 0x0b; 0xdb;
   0xe0; 0x32; 0x3a; 0x0a; 0x49; 0x06; 0x24; 0x5c; 0xc2; 0xd3; 0xac; 0x62; 0x91; 0x95; 0xe4; 0x79;
   0xe7; 0xc8; 0x37; 0x6d; 0x8d; 0xd5; 0x4e; 0xa9; 0x6c; 0x56; 0xf4; 0xea; 0x65; 0x7a; 0xae; 0x08;
   0xba; 0x78; 0x25; 0x2e; 0x1c; 0xa6; 0xb4; 0xc6; 0xe8; 0xdd; 0x74; 0x1f; 0x4b; 0xbd; 0x8b; 0x8a;
   0x70; 0x3e; 0xb5; 0x66; 0x48; 0x03; 0xf6; 0x0e; 0x61; 0x35; 0x57; 0xb9; 0x86; 0xc1; 0x1d; 0x9e;
   0xe1; 0xf8; 0x98; 0x11; 0x69; 0xd9; 0x8e; 0x94; 0x9b; 0x1e; 0x87; 0xe9; 0xce; 0x55; 0x28; 0xdf;
   0x8c; 0xa1; 0x89; 0x0d; 0xbf; 0xe6; 0x42; 0x68; 0x41; 0x99; 0x2d; 0x0f; 0xb0; 0x54; 0xbb; 0x16].
Definition inv_sbox : list Z :=
  [0x52; 0x09; 0x6a; 0xd5; 0x30; 0x36; 0xa5; 0x38; 0xbf; 0x40; 0xa3; 0x9e; 0x81; 0xf3; 0xd7; 0xfb;
   0x7c; 0xe3; 0x39; 0x82; 0x9b; 0x2f; 0xff; 0x87; 0x34; 0x8e; 0x43; 0x44; 0xc4; 0xde; 0xe9; 0xcb;
   0x54; 0x7b; 0x94; 0x32; 0xa6; 0xc2; 0x23; 0x3d; 0xee; 0x4c; 0x95; 0x0b; 0x42; 0xfa; 0xc3; 0x4e;
   0x08; 0x2e; 0xa1; 0x66; 0x28; 0xd9; 0x24; 0xb2; 0x76; 0x5b; 0xa2; 0x49; 0x6d; 0x8b; 0xd1; 0x25;
   0x72; 0xf8; 0xf6; 0x64; 0x86; 0x68; 0x98; 0x16; 0xd4; 0xa4; 0x5c; 0xcc; 0x5d; 0x65; 0xb6; 0x92;
   0x6c; 0x70; 0x48; 0x50; 0xfd; 0xed; 0xb9; 0xda; 0x5e; 0x15; 0x46; 0x57; 0xa7; 0x8d; 0x9d; 0x84;
   0x90; 0xd8; 0xab; 0x00; 0x8c; 0xbc; 0xd3; 0x0a; 0xf7; 0xe4; 0x58; 0x05; 0xb8; 0xb3; 0x45; 0x06;
   0xd0; 0x2c; 0x1e; 0x8f; 0xca; 0x3f; 0x0f; 0x02; 0xc1; 0xaf; 0xbd; 0x03; 0x01; 0x13; 0x8a; 0x6b;
   0x3a; 0x91; 0x11; 0x41; 0x4f; 0x67; 0xdc; 0xea; 0x97; 0xf2; 0xcf; 0xce; 0xf0; 0xb4; 0xe6; 0x73;
   0x96; 0xac; 0x74; 0x22; 0xe7; 0xad; 0x35; 0x85; 0xe2; 0xf9; 0x37; 0xe8; 0x1c; 0x75; 0xdf; 0x6e;
   0x47; 0xf1; 0x1a; 0x71; 0x1d; 0x29; 0xc5; 0x89; 0x6f; 0xb7; 0x62; 0x0e; 0xaa; 0x18; 0xbe; 0x1b;
   0xfc; 0x56; 0x3e; 0x4b; 0xc6; 0xd2; 0x79; 0x20; 0x9a; 0xdb; 0xc0; 0xfe; 0x78; 0xcd; 0x5a; 0xf4;
   0x1f; 0xdd; 0xa8; 0x33; 0x88; 0x07; 0xc7; 0x31; 0xb1; 0x12; 0x10; 0x59; 0x27; 0x80; 0xec; 0x5f;
   0x60; 0x51; 0x7f; 0xa9; 0x19; 0xb5; 0x4a; 0x0d; 0x2d; 0xe5; 0x7a; 0x9f; 0x93; 0xc9; 0x9c; 0xef;
   0xa0; 0xe0; 0x3b; 0x4d; 0xae; 0x2a; 0xf5; 0xb0; 0xc8; 0xeb; 0xbb; 0x3c; 0x83; 0x53; 0x99; 0x61;
   0x17; 0x2b; 0x04; 0x7e; 0xba; 0x77; 0xd6; 0x26; 0xe1; 0x69; 0x14; 0x63; 0x55; 0x21; 0x0c; 0x7d].

Definition sub_byte (b : Z) : Z := nth (Z.to_nat b) sbox 0.
Definition inv_sub_byte (b : Z) : Z := nth (Z.to_nat b) inv_sbox 0.
(** Multiplication by x in the field of 256 elements, and by the constants that occur. *)
Definition xtime (b : Z) : Z := Z.land (Z.lxor (Z.shiftl b 1) (if Z.testbit b 7 then 0x1b else 0)) 255.
Definition mul3 (b : Z) : Z := Z.lxor (xtime b) b.
Definition mul9 (b : Z) : Z := Z.lxor (xtime (xtime (xtime b))) b.
Definition mul11 (b : Z) : Z := Z.lxor (xtime (xtime (xtime b))) (Z.lxor (xtime b) b).
Definition mul13 (b : Z) : Z := Z.lxor (xtime (xtime (xtime b))) (Z.lxor (xtime (xtime b)) b).
Definition mul14 (b : Z) : Z := Z.lxor (xtime (xtime (xtime b))) (Z.lxor (xtime (xtime b)) (xtime b)).
Definition xor4 (a b c d : Z) : Z := Z.lxor a (Z.lxor b (Z.lxor c d)).

Definition shift_rows (s : bytes) : bytes :=
  match s with
  | [s0; s1; s2; s3; s4; s5; s6; s7; s8; s9; s10; s11; s12; s13; s14; s15] =>
      [s0; s5; s10; s15; s4; s9; s14; s3; s8; s13; s2; s7; s12; s1; s6; s11]
  | _ => []
  end.
Definition inv_shift_rows (s : bytes) : bytes :=
  match s with
  | [s0; s1; s2; s3; s4; s5; s6; s7; s8; s9; s10; s11; s12; s13; s14; s15] =>
      [s0; s13; s10; s7; s4; s1; s14; s11; s8; s5; s2; s15; s12; s9; s6; s3]
  | _ => []
  end.
Definition mix_column (a b c d : Z) : bytes :=
  [xor4 (xtime a) (mul3 b) c d; xor4 a (xtime b) (mul3 c) d; xor4 a b (xtime c) (mul3 d); xor4 (mul3 a) b c (xtime d)].
Definition inv_mix_column (a b c d : Z) : bytes :=
  [xor4 (mul14 a) (mul11 b) (mul13 c) (mul9 d); xor4 (mul9 a) (mul14 b) (mul11 c) (mul13 d);
   xor4 (mul13 a) (mul9 b) (mul14 c) (mul11 d); xor4 (mul11 a) (mul13 b) (mul9 c) (mul14 d)].
Fixpoint columns (f : Z -> Z -> Z -> Z -> bytes) (s : bytes) : bytes :=
  match s with
  | a :: b :: c :: d :: r => f a b c d ++ columns f r
  | _ => []
  end.

(** The key schedule: words of four bytes. *)
Definition rot_word (w : bytes) : bytes := match w with a :: r => r ++ [a] | [] => [] end.
Definition rcon (i : Z) : Z := nth (Z.to_nat (i - 1)) [0x01; 0x02; 0x04; 0x08; 0x10; 0x20; 0x40; 0x80; 0x1b; 0x36] 0.
Definition next_word (nk : Z) (ws : list bytes) : bytes :=
  let i := zlen ws in
  let temp := nth (Z.to_nat (i - 1)) ws [] in
  let temp :=
    if i mod nk =? 0 then xor_bytes (map sub_byte (rot_word temp)) [rcon (i / nk); 0; 0; 0]
    else if (6 <? nk) && (i mod nk =? 4) then map sub_byte temp
    else temp in
  xor_bytes (nth (Z.to_nat (i - nk)) ws []) temp.
Fixpoint expand (n : nat) (nk : Z) (ws : list bytes) : list bytes :=
  match n with O => ws | S n' => expand n' nk (ws ++ [next_word nk ws]) end.
Definition key_schedule (key : bytes) : list bytes :=
  let nk := zlen key / 4 in
  expand (Z.to_nat (4 * (nk + 7) - nk)) nk (cut (length key) 4 key).
Definition round_key (ws : list bytes) (r : Z) : bytes := concat (firstn 4 (skipn (Z.to_nat (4 * r)) ws)).

Definition cipher_round (k s : bytes) : bytes := xor_bytes (columns mix_column (shift_rows (map sub_byte s))) k.
Definition encrypt_block (ws : list bytes) (nr : Z) (block : bytes) : bytes :=
  let s := xor_bytes block (round_key ws 0) in
  let s := fold_left (fun s r => cipher_round (round_key ws r) s) (zrange 1 nr) s in
  xor_bytes (shift_rows (map sub_byte s)) (round_key ws nr).
Definition inv_cipher_round (k s : bytes) : bytes := map inv_sub_byte (inv_shift_rows (columns inv_mix_column (xor_bytes s k))).
Definition decrypt_block (ws : list bytes) (nr : Z) (block : bytes) : bytes :=
  let s := map inv_sub_byte (inv_shift_rows (xor_bytes block (round_key ws nr))) in
  let s := fold_left (fun s r => inv_cipher_round (round_key ws r) s) (rev (zrange 1 nr)) s in
  xor_bytes s (round_key ws 0).

(** CBC mode: each block is combined with the ciphertext of the one before. *)
Fixpoint cbc_encrypt_blocks (f : bytes -> bytes) (iv : bytes) (bs : list bytes) : bytes :=
  match bs with
  | [] => []
  | b :: r => let c := f (xor_bytes b iv) in c ++ cbc_encrypt_blocks f c r
  end.
Fixpoint cbc_decrypt_blocks (f : bytes -> bytes) (iv : bytes) (bs : list bytes) : bytes :=
  match bs with
  | [] => []
  | b :: r => xor_bytes (f b) iv ++ cbc_decrypt_blocks f b r
  end.
(** aes.py:67, 75-76: AES.new(key, AES.MODE_CBC, iv).encrypt(data) and .decrypt(data); Cryptodome raises ValueError for keys that
    do not have 16, 24 or 32 bytes, for an iv that does not have 16, and for data that is not whole blocks. *)
Definition cbc_args (key iv data : bytes) : bool :=
  ((zlen key =? 16) || (zlen key =? 24) || (zlen key =? 32)) && (zlen iv =? 16) && (zlen data mod 16 =? 0).
Definition aes_cbc_encrypt (key iv data : bytes) : result bytes :=
  if cbc_args key iv data then Ok (cbc_encrypt_blocks (encrypt_block (key_schedule key) (zlen key / 4 + 6)) iv (cut (length data) 16 data))
  else Err ValueError.
Definition aes_cbc_decrypt (key iv data : bytes) : result bytes :=
  if cbc_args key iv data then Ok (cbc_decrypt_blocks (decrypt_block (key_schedule key) (zlen key / 4 + 6)) iv (cut (length data) 16 data))
  else Err ValueError.
