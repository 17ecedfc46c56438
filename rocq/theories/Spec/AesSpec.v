(** What AES is (FIPS 197) and what its CBC mode is (SP 800-38A), without reference to the model's tables and functions. *)
From Verif.Model Require Import Py.

Definition byte (x : Z) : Prop := 0 <= x < 256.
(** ** The field of 256 elements: polynomials over the bits, modulo x^8 + x^4 + x^3 + x + 1. *)
(** The product of polynomials, the second of degree less than 8: bit n of the product is the sum of a_(n-i) b_i. *)
Definition poly_mul (a b : Z) : Z :=
  fold_right (fun i acc => Z.lxor (if Z.testbit b i then a * 2 ^ i else 0) acc) 0 [0; 1; 2; 3; 4; 5; 6; 7].
Definition product (a b c : Z) : Prop := byte c /\ exists q, byte q /\ poly_mul a b = Z.lxor (poly_mul 0x11b q) c.
Definition field_inverse (x y : Z) : Prop := byte y /\ (x = 0 /\ y = 0 \/ product x y 1).

(** ** SubBytes: the inverse, then an affine map on its bits. *)
Definition substituted (x s : Z) : Prop :=
  exists y, field_inverse x y /\ byte s /\
    forall i, 0 <= i < 8 ->
      Z.testbit s i = xorb (Z.testbit y i) (xorb (Z.testbit y ((i + 4) mod 8)) (xorb (Z.testbit y ((i + 5) mod 8))
        (xorb (Z.testbit y ((i + 6) mod 8)) (xorb (Z.testbit y ((i + 7) mod 8)) (Z.testbit 0x63 i))))).

(** ** States: byte of row r and column c.  A block is a state, column by column. *)
Definition grid := Z -> Z -> Z.
Definition within (r c : Z) : Prop := 0 <= r < 4 /\ 0 <= c < 4.
Definition state_text (s : grid) (t : bytes) : Prop :=
  zlen t = 16 /\ forall r c, within r c -> znth t (r + 4 * c) = Some (s r c).
(** ShiftRows, MixColumns: each column is multiplied by the polynomial with coefficients 2, 1, 1, 3. *)
Definition row_shifted (s t : grid) : Prop := forall r c, within r c -> t r c = s r ((c + r) mod 4).
Definition column_mixed (s t : grid) : Prop := forall r c, within r c -> exists p q,
  product 2 (s r c) p /\ product 3 (s ((r + 1) mod 4) c) q /\
  t r c = Z.lxor p (Z.lxor q (Z.lxor (s ((r + 2) mod 4) c) (s ((r + 3) mod 4) c))).
(** Round [k] of [n] takes the state [s] to [t] with the words [w]; the last does not mix the columns. *)
Definition round_says (w : grid) (n k : Z) (s t : grid) : Prop :=
  exists u v x : grid,
    (forall r c, within r c -> substituted (s r c) (u r c)) /\ row_shifted u v /\
    (if k =? n then forall r c, within r c -> x r c = v r c else column_mixed v x) /\
    forall r c, within r c -> t r c = Z.lxor (x r c) (w r (4 * k + c)).

(** ** The key schedule: byte [r] of word [i] is [w r i]; [nk] words of key. *)
Definition schedule_says (nk : Z) (key : bytes) (w : grid) : Prop :=
  (forall r i, 0 <= r < 4 -> 0 <= i < nk -> znth key (4 * i + r) = Some (w r i)) /\
  (forall i, nk <= i < 4 * (nk + 7) ->
    if i mod nk =? 0 then
      exists u p, (forall r, 0 <= r < 4 -> substituted (w ((r + 1) mod 4) (i - 1)) (u r)) /\
        (p 1 = 1 /\ forall j, 1 <= j < i / nk -> product 2 (p j) (p (j + 1))) /\
        forall r, 0 <= r < 4 -> w r i = Z.lxor (w r (i - nk)) (Z.lxor (u r) (if r =? 0 then p (i / nk) else 0))
    else if (6 <? nk) && (i mod nk =? 4) then
      exists u, (forall r, 0 <= r < 4 -> substituted (w r (i - 1)) (u r)) /\
        forall r, 0 <= r < 4 -> w r i = Z.lxor (w r (i - nk)) (u r)
    else forall r, 0 <= r < 4 -> w r i = Z.lxor (w r (i - nk)) (w r (i - 1))).

(** ** The cipher *)
Definition aes_says (key block out : bytes) : Prop :=
  exists nk (w : grid) (s : Z -> grid),
    zlen key = 4 * nk /\ (nk = 4 \/ nk = 6 \/ nk = 8) /\ schedule_says nk key w /\
    (exists s', state_text s' block /\ forall r c, within r c -> s 0 r c = Z.lxor (s' r c) (w r c)) /\
    (forall k, 1 <= k <= nk + 6 -> round_says w (nk + 6) k (s (k - 1)) (s k)) /\
    state_text (s (nk + 6)) out.
(** ** CBC *)
Definition xored (a b c : bytes) : Prop :=
  zlen a = zlen b /\ zlen c = zlen a /\ forall i x y, znth a i = Some x -> znth b i = Some y -> znth c i = Some (Z.lxor x y).
Inductive cbc_says (cipher : bytes -> bytes -> Prop) : bytes -> bytes -> bytes -> Prop :=
| cbc_nil iv : cbc_says cipher iv [] []
| cbc_block iv b x c d e : zlen b = 16 -> xored b iv x -> cipher x c -> cbc_says cipher c d e -> cbc_says cipher iv (b ++ d) (c ++ e).
