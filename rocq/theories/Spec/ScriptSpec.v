(** What the bytes of a script mean. *)
From Verif.Model Require Import Py Script.
From Verif.Spec Require Import Numbers.

(** The byte strings that denote one operation. *)
Inductive encodes : bytes -> op -> Prop :=
| enc_code c : c = 80 \/ 97 <= c <= 255 -> encodes [c] (Code c)
| enc_small n : 1 <= n <= 16 -> encodes [80 + n] (Data [n])
| enc_negate : encodes [79] (Data [129])
| enc_direct n d : n = zlen d -> n <= 75 -> encodes (n :: d) (Data d)
| enc_push1 n d : n = zlen d -> n <= 255 -> encodes (76 :: n :: d) (Data d)
| enc_push2 a b d : 0 <= a < 256 -> 0 <= b < 256 -> a + 256 * b = zlen d ->
    encodes (77 :: a :: b :: d) (Data d)
| enc_push4 a b c e d : 0 <= a < 256 -> 0 <= b < 256 -> 0 <= c < 256 -> 0 <= e < 256 ->
    a + 256 * b + 65536 * c + 16777216 * e = zlen d -> encodes (78 :: a :: b :: c :: e :: d) (Data d).

(** The number that a stack item denotes: little-endian, the top bit of the last byte is the sign. *)
Definition number (item : bytes) (v : Z) : Prop :=
  (item = [] /\ v = 0) \/
  exists body x, item = body ++ [x] /\
    ((x < 128 /\ v = val_le body + 256 ^ zlen body * x) \/
     (128 <= x /\ v = - (val_le body + 256 ^ zlen body * (x - 128)))).

(** Running operations on a machine, one at a time. *)
Definition run {St} (exec : op -> St -> St) (l : list op) (s : St) : St := fold_left (fun s o => exec o s) l s.
(** OP_NOP does nothing, and what is pushed can be dropped. *)
Record drop_laws {St} (exec : op -> St -> St) : Prop := {
  law_nop : forall s, exec (Code 97) s = s;
  law_drop : forall d s, exec (Code 117) (exec (Data d) s) = s;
  law_2drop : forall d e s, exec (Code 109) (exec (Data e) (exec (Data d) s)) = s }.

(** What survives conversion to ASM text and back. *)
Definition shortest_push (p d : bytes) : Prop :=
  encodes p (Data d) /\ forall q, encodes q (Data d) -> zlen p <= zlen q.
Definition shortest_number (d : bytes) : Prop :=
  exists v, number d v /\ forall d', bytes_ok d' = true -> number d' v -> zlen d <= zlen d'.
(** Data whose hex digits are all decimal, and the value of those digits read as a decimal number. *)
Definition looks_decimal (d : bytes) : Prop := forall b, In b d -> b / 16 <= 9 /\ b mod 16 <= 9.
Definition decimal_reading (d : bytes) : Z := fold_left (fun a b => 100 * a + 10 * (b / 16) + b mod 16) d 0.

Inductive asm_safe : bytes -> op -> Prop :=
| safe_code c : c = 80 \/ 97 <= c <= 185 -> asm_safe [c] (Code c)
| safe_number p d : zlen d <= 4 -> shortest_number d -> shortest_push p d -> asm_safe p (Data d)
| safe_hex p d : 4 < zlen d -> ~ (looks_decimal d /\ decimal_reading d <= 2147483647) -> shortest_push p d ->
    asm_safe p (Data d).
