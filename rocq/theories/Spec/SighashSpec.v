(** The text of a sighash byte, said with its digits. *)
From Verif.Model Require Import Py Text.

(** Of the byte 128 a + 64 f + 4 x + b with bits a, f, 0 <= x < 16 and 0 <= b < 4: the name of b unless it is 0, the
    names of the flags that are set, and 4 x in hexadecimal unless it is 0. *)
Inductive sighash_words : Z -> list pystr -> Prop :=
| sighash_intro a f x b base acp fork rest :
    (b = 0 /\ base = [] \/ b = 1 /\ base = [txt "ALL"] \/ b = 2 /\ base = [txt "NONE"] \/ b = 3 /\ base = [txt "SINGLE"]) ->
    (a = 0 /\ acp = [] \/ a = 1 /\ acp = [txt "ANYONE_CAN_PAY"]) ->
    (f = 0 /\ fork = [] \/ f = 1 /\ fork = [txt "FORKID"]) ->
    (x = 0 /\ rest = [] \/ exists hi lo c d, 0 < x < 16 /\ 4 * x = 16 * hi + lo /\ 0 <= lo < 16 /\
       nth_error (txt "0123456789abcdef") (Z.to_nat hi) = Some c /\ nth_error (txt "0123456789abcdef") (Z.to_nat lo) = Some d /\
       rest = [txt "0x" ++ [c; d]]) ->
    sighash_words (128 * a + 64 * f + 4 * x + b) (base ++ acp ++ fork ++ rest).
(** Joined with '|' *)
Inductive barred : list pystr -> pystr -> Prop :=
| barred_nil : barred [] []
| barred_one w : barred [w] w
| barred_more w v ws t : barred (v :: ws) t -> barred (w :: v :: ws) (w ++ txt "|" ++ t).
