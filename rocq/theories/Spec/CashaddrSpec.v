(** Cashaddr texts: what is written, independently of the loops that write it. *)
From Verif.Model Require Import Py Text.

Definition val_base (B : Z) (ds : list Z) : Z := fold_left (fun a d => B * a + d) ds 0.
(** The bits of [bs], cut into groups of five, the last one filled with zeros *)
Definition five_bit_groups (bs ss : list Z) : Prop :=
  Forall (fun s => 0 <= s < 32) ss /\
  exists pad, 0 <= pad < 5 /\ 5 * zlen ss = 8 * zlen bs + pad /\ val_base 32 ss = val_base 256 bs * 2 ^ pad.
(** The permitted sizes of a hash, and the number that stands for each in the version byte *)
Definition size_codes : list (Z * Z) := [(20, 0); (24, 1); (28, 2); (32, 3); (40, 4); (48, 5); (56, 6); (64, 7)].
(** The first byte: the kind (0 or 1) and the size *)
Definition version_for (kind : Z) (h : bytes) (v : Z) : Prop :=
  exists code, In (zlen h, code) size_codes /\ v = 8 * kind + code.
(** The 32 characters *)
Definition symbols : pystr := txt "qpzry9x8" ++ txt "gf2tvdw0" ++ txt "s3jn54kh" ++ txt "ce6mua7l".
Definition spelt (ss : list Z) (t : pystr) : Prop :=
  Forall2 (fun s c => 0 <= s < 32 /\ nth_error symbols (Z.to_nat s) = Some c) ss t.
(** A prefix: some printable characters other than ':', none of them upper-case *)
Definition good_prefix (p : pystr) : Prop :=
  p <> [] /\ Forall (fun c => 33 <= c <= 126 /\ c <> 58 /\ ~ 65 <= c <= 90) p.
(** No upper-case letter *)
Definition lower_case (t : pystr) : Prop := Forall (fun c => ~ 65 <= c <= 90) t.
(** The number of places where two texts of the same length differ *)
Definition differences (a b : list Z) : Z := zlen (filter (fun xy => negb (fst xy =? snd xy)) (combine a b)).
(** What the checksum sees of a character of the prefix: its low five bits *)
Definition low_bits (p : pystr) : list Z := map (fun c => c mod 32) p.
