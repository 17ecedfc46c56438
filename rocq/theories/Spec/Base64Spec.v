(** Base64 (RFC 4648): the bits of the bytes, in groups of six. *)
From Verif.Model Require Import Py.
From Verif.Spec Require Import Numbers.

(** The characters of the digits: A-Z, a-z, 0-9, + and / *)
Definition b64_digit (v c : Z) : Prop :=
  (0 <= v < 26 /\ c = v + 65) \/ (26 <= v < 52 /\ c = v - 26 + 97) \/ (52 <= v < 62 /\ c = v - 52 + 48) \/ (v = 62 /\ c = 43) \/ (v = 63 /\ c = 47).
(** The bits of the digits are those of the bytes, followed by fewer than six more, which as a number are [rest]. *)
Definition b64_bits (b : bytes) (ds : list Z) (rest : Z) : Prop :=
  exists n, 6 * zlen ds = 8 * zlen b + n /\ 0 <= n < 6 /\ 0 <= rest < 2 ^ n /\ fold_left (fun a d => 64 * a + d) ds 0 = val_be b * 2 ^ n + rest.
(** Characters of such digits, then [pad] times '=' *)
Definition base64_text (b : bytes) (rest : Z) (cs : pystr) (pad : Z) (t : pystr) : Prop :=
  exists ds, Forall2 b64_digit ds cs /\ b64_bits b ds rest /\ t = cs ++ zrepeat 61 pad.
