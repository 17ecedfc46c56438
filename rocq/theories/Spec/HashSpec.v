(** What the hash functions are, after FIPS 180-4, the RIPEMD-160 paper, RFC 2104 and RFC 2898, written with sequences of
    words and arithmetic instead of a sliding window, shifts and a loop. *)
From Verif.Model Require Import Py.
From Coq Require Import Znumtheory.

Definition word_in (w x : Z) : Prop := 0 <= x < 2 ^ w.
(** Rotation as arithmetic: the [n] low bits go on top. *)
Definition ror (w n x : Z) : Z := x / 2 ^ n + 2 ^ (w - n) * (x mod 2 ^ n).
Definition rol (w n x : Z) : Z := (2 ^ n * x) mod 2 ^ w + x / 2 ^ (w - n).
(** Functions of three words, bit by bit. *)
Definition bitwise3 (f : bool -> bool -> bool -> bool) (g : Z -> Z -> Z -> Z) : Prop :=
  forall x y z i, 0 <= i -> Z.testbit (g x y z) i = f (Z.testbit x i) (Z.testbit y i) (Z.testbit z i).
Definition choose (x y z : bool) : bool := if x then y else z.
Definition majority (x y z : bool) : bool := if Bool.eqb x y then x else z.
Definition parity3 (x y z : bool) : bool := xorb x (xorb y z).

(** A number written in [n] bytes, most or least significant first. *)
Definition says_be (n v : Z) (b : bytes) : Prop := zlen b = n /\ bytes_ok b = true /\ be_int b = v.
Definition says_le (n v : Z) (b : bytes) : Prop := zlen b = n /\ bytes_ok b = true /\ le_int b = v.
(** A list of words written one after the other. *)
Definition words_text (says : Z -> bytes -> Prop) (ws : list Z) (b : bytes) : Prop :=
  exists bs, b = concat bs /\ Forall2 says ws bs.

(** ** SHA-2: the recurrences for W, A and E.  The eight variables a..h after t rounds are A t, A (t-1), A (t-2), A (t-3),
    E t, E (t-1), E (t-2), E (t-3). *)
Section Sha2.
  Variables (w : Z) (rounds : Z) (K : Z -> Z).
  Variables (S0 S1 s0 s1 : Z * Z * Z).
  Variables (choice maj : Z -> Z -> Z -> Z).
  Definition big_sigma (r : Z * Z * Z) (x : Z) : Z := let '(i, j, k) := r in Z.lxor (ror w i x) (Z.lxor (ror w j x) (ror w k x)).
  Definition small_sigma (r : Z * Z * Z) (x : Z) : Z := let '(i, j, k) := r in Z.lxor (ror w i x) (Z.lxor (ror w j x) (x / 2 ^ k)).
  Definition sha2_step (H : list Z) (block : bytes) (H' : list Z) : Prop :=
    exists (M : list Z) (W A E : Z -> Z),
      words_text (says_be (w / 8)) M block /\ zlen M = 16 /\
      (forall t, 0 <= t < 16 -> znth M t = Some (W t)) /\
      (forall t, 16 <= t < rounds -> W t = (small_sigma s1 (W (t - 2)) + W (t - 7) + small_sigma s0 (W (t - 15)) + W (t - 16)) mod 2 ^ w) /\
      H = [A 0; A (-1); A (-2); A (-3); E 0; E (-1); E (-2); E (-3)] /\
      (forall t, 0 <= t < rounds ->
        let T1 := E (t - 3) + big_sigma S1 (E t) + choice (E t) (E (t - 1)) (E (t - 2)) + K t + W t in
        let T2 := big_sigma S0 (A t) + maj (A t) (A (t - 1)) (A (t - 2)) in
        E (t + 1) = (A (t - 3) + T1) mod 2 ^ w /\ A (t + 1) = (T1 + T2) mod 2 ^ w) /\
      H' = map (fun x => x mod 2 ^ w)
             [A 0 + A rounds; A (-1) + A (rounds - 1); A (-2) + A (rounds - 2); A (-3) + A (rounds - 3);
              E 0 + E rounds; E (-1) + E (rounds - 1); E (-2) + E (rounds - 2); E (-3) + E (rounds - 3)].
End Sha2.

(** ** SHA-1: one sequence; the variables after t rounds are A t, A (t-1), and A (t-2), A (t-3), A (t-4) turned 30 left. *)
Definition sha1_step (K : Z -> Z) (f : Z -> Z -> Z -> Z -> Z) (H : list Z) (block : bytes) (H' : list Z) : Prop :=
  exists (M : list Z) (W A : Z -> Z),
    words_text (says_be 4) M block /\ zlen M = 16 /\
    (forall t, 0 <= t < 16 -> znth M t = Some (W t)) /\
    (forall t, 16 <= t < 80 -> W t = rol 32 1 (Z.lxor (W (t - 3)) (Z.lxor (W (t - 8)) (Z.lxor (W (t - 14)) (W (t - 16)))))) /\
    (forall t, -4 <= t <= 0 -> word_in 32 (A t)) /\
    H = [A 0; A (-1); rol 32 30 (A (-2)); rol 32 30 (A (-3)); rol 32 30 (A (-4))] /\
    (forall t, 0 <= t < 80 -> A (t + 1) =
       (rol 32 5 (A t) + f t (A (t - 1)) (rol 32 30 (A (t - 2))) (rol 32 30 (A (t - 3))) + rol 32 30 (A (t - 4)) + K t + W t) mod 2 ^ 32) /\
    H' = map (fun x => x mod 2 ^ 32)
           [A 0 + A 80; A (-1) + A 79; rol 32 30 (A (-2)) + rol 32 30 (A 78); rol 32 30 (A (-3)) + rol 32 30 (A 77);
            rol 32 30 (A (-4)) + rol 32 30 (A 76)].

(** ** RIPEMD-160: two lines of 80 steps on the same words. *)
Definition rmd_line_says (f : Z -> Z -> Z -> Z -> Z) (k : Z -> Z) (r s : Z -> Z) (X : Z -> Z) (A B C D E : Z -> Z) : Prop :=
  forall j, 0 <= j < 80 ->
    B (j + 1) = (rol 32 (s j) ((A j + f j (B j) (C j) (D j) + X (r j) + k j) mod 2 ^ 32) + E j) mod 2 ^ 32 /\
    A (j + 1) = E j /\ E (j + 1) = D j /\ D (j + 1) = rol 32 10 (C j) /\ C (j + 1) = B j.

(** ** Merkle-Damgard *)
Inductive chained {S} (step : S -> bytes -> S -> Prop) : S -> list bytes -> S -> Prop :=
| chained_nil s : chained step s [] s
| chained_cons s b s1 bs s2 : step s b s1 -> chained step s1 bs s2 -> chained step s (b :: bs) s2.
(** The message, a byte 128, as few zeros as possible, and the number of bits, in blocks of [size] bytes. *)
Definition in_blocks (size lenbytes : Z) (says : Z -> Z -> bytes -> Prop) (m : bytes) (bs : list bytes) : Prop :=
  exists k L, 0 <= k < size /\ says lenbytes ((8 * zlen m) mod 2 ^ (8 * lenbytes)) L /\
    concat bs = m ++ [128] ++ zrepeat 0 k ++ L /\ Forall (fun b => zlen b = size) bs.

(** ** Where the constants come from *)
(** [c] is the first [w] bits of the fraction of the [k]-th root of [n]. *)
Definition root_fraction (k w n c : Z) : Prop :=
  word_in w c /\ exists q, 0 <= q /\ (q * 2 ^ w + c) ^ k <= n * 2 ^ (w * k) < (q * 2 ^ w + c + 1) ^ k.
(** [c] is [n]'s root times [2 ^ w] rounded down. *)
Definition scaled_root (k w n c : Z) : Prop := 0 <= c /\ c ^ k <= n * 2 ^ (w * k) < (c + 1) ^ k.
(** [l] is the list of the first so many primes. *)
Definition first_primes (l : list Z) : Prop :=
  (forall i j x y, znth l i = Some x -> znth l j = Some y -> i < j -> x < y) /\
  (forall x, In x l -> prime x) /\
  (forall p x, prime p -> In x l -> p <= x -> In p l).
Definition primes_80 : list Z :=
  [2; 3; 5; 7; 11; 13; 17; 19; 23; 29; 31; 37; 41; 43; 47; 53; 59; 61; 67; 71; 73; 79; 83; 89; 97; 101; 103; 107; 109; 113;
   127; 131; 137; 139; 149; 151; 157; 163; 167; 173; 179; 181; 191; 193; 197; 199; 211; 223; 227; 229; 233; 239; 241; 251;
   257; 263; 269; 271; 277; 281; 283; 293; 307; 311; 313; 317; 331; 337; 347; 349; 353; 359; 367; 373; 379; 383; 389; 397;
   401; 409].

(** ** The functions *)
Definition sha2_says (w rounds : Z) (S0 S1 s0 s1 : Z * Z * Z) (m d : bytes) : Prop :=
  exists ks iv choice maj bs H,
    Forall2 (root_fraction 3 w) (firstn (Z.to_nat rounds) primes_80) ks /\
    Forall2 (root_fraction 2 w) (firstn 8 primes_80) iv /\
    bitwise3 choose choice /\ bitwise3 majority maj /\
    in_blocks (2 * w) (w / 4) says_be m bs /\
    chained (sha2_step w rounds (fun t => nth (Z.to_nat t) ks 0) S0 S1 s0 s1 choice maj) iv bs H /\
    words_text (says_be (w / 8)) H d.
Definition sha256_says : bytes -> bytes -> Prop := sha2_says 32 64 (2, 13, 22) (6, 11, 25) (7, 18, 3) (17, 19, 10).
Definition sha512_says : bytes -> bytes -> Prop := sha2_says 64 80 (28, 34, 39) (14, 18, 41) (1, 8, 7) (19, 61, 6).

(** The five initial words of SHA-1 and RIPEMD-160. *)
Definition iv_160 : list Z := [0x67452301; 0xefcdab89; 0x98badcfe; 0x10325476; 0xc3d2e1f0].
Definition sha1_says (m d : bytes) : Prop :=
  exists (K : Z -> Z) (f : Z -> Z -> Z -> Z -> Z) bs H,
    (forall t, 0 <= t < 20 -> scaled_root 2 30 2 (K t) /\ bitwise3 choose (f t)) /\
    (forall t, 20 <= t < 40 -> scaled_root 2 30 3 (K t) /\ bitwise3 parity3 (f t)) /\
    (forall t, 40 <= t < 60 -> scaled_root 2 30 5 (K t) /\ bitwise3 majority (f t)) /\
    (forall t, 60 <= t < 80 -> scaled_root 2 30 10 (K t) /\ bitwise3 parity3 (f t)) /\
    in_blocks 64 8 says_be m bs /\ chained (sha1_step K f) iv_160 bs H /\ words_text (says_be 4) H d.

(** Functions of three words of 32 bits, bit by bit. *)
Definition bitwise32 (f : bool -> bool -> bool -> bool) (g : Z -> Z -> Z -> Z) : Prop :=
  forall x y z, word_in 32 x -> word_in 32 y -> word_in 32 z -> word_in 32 (g x y z) /\
    forall i, 0 <= i < 32 -> Z.testbit (g x y z) i = f (Z.testbit x i) (Z.testbit y i) (Z.testbit z i).
Definition rmd_bits (round : Z) (x y z : bool) : bool :=
  if round =? 0 then xorb x (xorb y z)
  else if round =? 1 then if x then y else z
  else if round =? 2 then xorb (x || negb y) z
  else if round =? 3 then if z then x else y
  else xorb x (y || negb z).
(** The order of the words: a permutation rho, once more in each round, after pi on the right. *)
Definition rho (i : Z) : Z := nth (Z.to_nat i) [7; 4; 13; 1; 10; 6; 15; 3; 12; 0; 9; 5; 2; 14; 11; 8] 0.
Fixpoint rho_n (n : nat) (i : Z) : Z := match n with O => i | S n' => rho (rho_n n' i) end.
Definition left_word (j : Z) : Z := rho_n (Z.to_nat (j / 16)) (j mod 16).
Definition right_word (j : Z) : Z := rho_n (Z.to_nat (j / 16)) ((9 * (j mod 16) + 5) mod 16).
(** By how much a round rotates for each word. *)
Definition rmd_shifts : list (list Z) :=
  [[11; 14; 15; 12; 5; 8; 7; 9; 11; 13; 14; 15; 6; 7; 9; 8];
   [12; 13; 11; 15; 6; 9; 9; 7; 12; 15; 11; 13; 7; 8; 7; 7];
   [13; 15; 14; 11; 7; 7; 6; 8; 13; 14; 13; 12; 5; 5; 6; 9];
   [14; 11; 12; 14; 8; 6; 5; 5; 15; 12; 15; 14; 9; 9; 8; 6];
   [15; 12; 13; 13; 9; 5; 8; 6; 14; 11; 12; 11; 8; 6; 5; 5]].
Definition rmd_shift (word j : Z) : Z := nth (Z.to_nat word) (nth (Z.to_nat (j / 16)) rmd_shifts []) 0.
(** The constants: square roots of 2, 3, 5, 7 on the left, cube roots on the right, and zero. *)
Definition rmd_constants (k k' : Z -> Z) : Prop :=
  forall j, 0 <= j < 80 ->
    (if j / 16 =? 0 then k j = 0 else scaled_root 2 30 (nth (Z.to_nat (j / 16 - 1)) primes_80 0) (k j)) /\
    (if j / 16 =? 4 then k' j = 0 else scaled_root 3 30 (nth (Z.to_nat (j / 16)) primes_80 0) (k' j)).
Definition rmd_block (f : Z -> Z -> Z -> Z -> Z) (k k' : Z -> Z) (H : list Z) (block : bytes) (H' : list Z) : Prop :=
  exists (M : list Z) (X : Z -> Z) (A B C D E A' B' C' D' E' : Z -> Z),
    words_text (says_le 4) M block /\ zlen M = 16 /\ (forall t, 0 <= t < 16 -> znth M t = Some (X t)) /\
    H = [A 0; B 0; C 0; D 0; E 0] /\ H = [A' 0; B' 0; C' 0; D' 0; E' 0] /\
    rmd_line_says f k left_word (fun j => rmd_shift (left_word j) j) X A B C D E /\
    rmd_line_says (fun j => f (79 - j)) k' right_word (fun j => rmd_shift (right_word j) j) X A' B' C' D' E' /\
    H' = map (fun x => x mod 2 ^ 32)
           [B 0 + C 80 + D' 80; C 0 + D 80 + E' 80; D 0 + E 80 + A' 80; E 0 + A 80 + B' 80; A 0 + B 80 + C' 80].
Definition ripemd160_says (m d : bytes) : Prop :=
  exists (f : Z -> Z -> Z -> Z -> Z) (k k' : Z -> Z) bs H,
    (forall j, 0 <= j < 80 -> bitwise32 (rmd_bits (j / 16)) (f j)) /\ rmd_constants k k' /\
    in_blocks 64 8 says_le m bs /\ chained (rmd_block f k k') iv_160 bs H /\ words_text (says_le 4) H d.

(** RFC 2104 with a hash function [H] of blocks of [size] bytes. *)
Definition masked (mask : Z) (a b : bytes) : Prop :=
  zlen a = zlen b /\ bytes_ok b = true /\ forall i x y, znth a i = Some x -> znth b i = Some y -> Z.lxor x y = mask.
Definition hmac_says (H : bytes -> bytes -> Prop) (size : Z) (key msg d : bytes) : Prop :=
  exists key' zeros inner outer h,
    (zlen key <= size /\ key' = key \/ size < zlen key /\ H key key') /\
    zlen (key' ++ zeros) = size /\ Forall (eq 0) zeros /\
    masked 0x36 (key' ++ zeros) inner /\ masked 0x5c (key' ++ zeros) outer /\
    H (inner ++ msg) h /\ H (outer ++ h) d.
(** RFC 2898, the first block: the exclusive or of U 1 .. U c. *)
Definition pbkdf2_says (F : bytes -> bytes -> bytes -> Prop) (password salt : bytes) (c : Z) (d : bytes) : Prop :=
  exists U T : Z -> bytes,
    F password (salt ++ [0; 0; 0; 1]) (U 1) /\ T 1 = U 1 /\
    (forall j, 1 <= j < c -> F password (U j) (U (j + 1)) /\
       zlen (T (j + 1)) = zlen (T j) /\
       forall i x y, znth (T j) i = Some x -> znth (U (j + 1)) i = Some y -> znth (T (j + 1)) i = Some (Z.lxor x y)) /\
    d = T c.

(** ** Collisions *)
(** Hashing [m] takes a step from the state [H] with the block [b] to the state [R]. *)
Definition sha256_step_of (m : bytes) (H : list Z) (b : bytes) (R : list Z) : Prop :=
  exists ks iv choice maj p q,
    Forall2 (root_fraction 3 32) (firstn 64 primes_80) ks /\ Forall2 (root_fraction 2 32) (firstn 8 primes_80) iv /\
    bitwise3 choose choice /\ bitwise3 majority maj /\ in_blocks 64 8 says_be m (p ++ b :: q) /\
    let step := sha2_step 32 64 (fun t => nth (Z.to_nat t) ks 0) (2, 13, 22) (6, 11, 25) (7, 18, 3) (17, 19, 10) choice maj in
    chained step iv p H /\ step H b R.
Definition ripemd160_step_of (m : bytes) (H : list Z) (b : bytes) (R : list Z) : Prop :=
  exists (f : Z -> Z -> Z -> Z -> Z) (k k' : Z -> Z) p q,
    (forall j, 0 <= j < 80 -> bitwise32 (rmd_bits (j / 16)) (f j)) /\ rmd_constants k k' /\ in_blocks 64 8 says_le m (p ++ b :: q) /\
    chained (rmd_block f k k') iv_160 p H /\ rmd_block f k k' H b R.
(** Hashing [m] and hashing [m'] take different steps to the same state.  (That some pair of steps collides is true by counting;
    this says that hashing these two strings shows one.) *)
Definition meet (step_of : bytes -> list Z -> bytes -> list Z -> Prop) (m m' : bytes) : Prop :=
  exists H b H' b' R, step_of m H b R /\ step_of m' H' b' R /\ (H <> H' \/ b <> b').
Definition sha256_clash : bytes -> bytes -> Prop := meet sha256_step_of.
Definition ripemd160_clash : bytes -> bytes -> Prop := meet ripemd160_step_of.
Definition double_sha256_clash (m m' : bytes) : Prop :=
  sha256_clash m m' \/ exists d d', sha256_says m d /\ sha256_says m' d' /\ sha256_clash d d'.
Definition hash160_clash (m m' : bytes) : Prop :=
  sha256_clash m m' \/ exists d d', sha256_says m d /\ sha256_says m' d' /\ ripemd160_clash d d'.

(** Block headers: 80 bytes, the hash of the previous header after the first four.  A chain of headers, last one first, back to
    one whose previous hash is zero. *)
Definition names_previous (x p : bytes) : Prop := exists v r, x = v ++ p ++ r /\ zlen v = 4 /\ zlen p = 32 /\ zlen r = 44 /\ bytes_ok x = true.
Inductive header_chain (H : bytes -> bytes) : list bytes -> Prop :=
| chain_first x : names_previous x (repeat 0 32) -> header_chain H [x]
| chain_next x y l : names_previous x (H y) -> header_chain H (y :: l) -> header_chain H (x :: y :: l).
