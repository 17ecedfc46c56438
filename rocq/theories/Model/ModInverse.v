(** Inverses modulo an odd number, by halving and subtracting (the library uses other methods for the same number):
    [x] times the number is [u], and [y] times it is [v], modulo [m]. *)
From Verif.Model Require Import Py.

Section Inverse.
  Variable m : Z.
  Definition mod_half (x : Z) : Z := if Z.even x then Z.div2 x else Z.div2 (x + m).
  Definition mod_sub (x y : Z) : Z := if y <=? x then x - y else x - y + m.
  Fixpoint inverse_loop (fuel : nat) (u v x y : Z) : Z :=
    match fuel with
    | O => 0
    | S f =>
      if u =? 1 then x
      else if v =? 1 then y
      else if Z.even u then inverse_loop f (Z.div2 u) v (mod_half x) y
      else if Z.even v then inverse_loop f u (Z.div2 v) x (mod_half y)
      else if v <? u then inverse_loop f (Z.div2 (u - v)) v (mod_half (mod_sub x y)) y
      else inverse_loop f u (Z.div2 (v - u)) x (mod_half (mod_sub y x))
    end.
  (** 0 for 0; of numbers below 2^256 *)
  Definition mod_inverse (a : Z) : Z := inverse_loop 512 a m 1 0.
End Inverse.
