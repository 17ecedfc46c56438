(** UTF-8 (RFC 3629) and the replacement of what is not UTF-8 (The Unicode Standard, 3.9, "U+FFFD Substitution of
    Maximal Subparts"). *)
From Verif.Model Require Import Py.

Inductive encodes : Z -> bytes -> Prop :=
| enc_1 c : 0 <= c < 0x80 -> encodes c [c]
| enc_2 c x y : 0 <= y < 64 -> c = 64 * x + y -> 0x80 <= c < 0x800 -> encodes c [0xc0 + x; 0x80 + y]
| enc_3 c x y z : 0 <= y < 64 -> 0 <= z < 64 -> c = 4096 * x + 64 * y + z -> 0x800 <= c < 0x10000 -> ~ 0xd800 <= c <= 0xdfff ->
    encodes c [0xe0 + x; 0x80 + y; 0x80 + z]
| enc_4 c w x y z : 0 <= x < 64 -> 0 <= y < 64 -> 0 <= z < 64 -> c = 262144 * w + 4096 * x + 64 * y + z -> 0x10000 <= c < 0x110000 ->
    encodes c [0xf0 + w; 0x80 + x; 0x80 + y; 0x80 + z].

(** [q] begins the encoding of a character. *)
Definition begins (q : bytes) : Prop := exists c e t, encodes c e /\ e = q ++ t.

(** [reads b s]: [s] is the text of the bytes [b].  Where no character is encoded, U+FFFD stands for as many bytes
    as begin one, at least one byte. *)
Inductive reads : bytes -> pystr -> Prop :=
| reads_end : reads [] []
| reads_char c e b s : encodes c e -> reads b s -> reads (e ++ b) (c :: s)
| reads_bad p b s : p <> [] -> (forall c e t, encodes c e -> p ++ b <> e ++ t) ->
    (zlen p = 1 \/ begins p) -> (forall q t, p ++ b = q ++ t -> begins q -> zlen q <= zlen p) ->
    reads b s -> reads (p ++ b) (0xfffd :: s).
