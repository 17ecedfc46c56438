(** Padding, chunks and lookups, said without the model's functions. *)
From Verif.Model Require Import Py.

(** PKCS7: n bytes of value n, 1 to 16 of them, up to a multiple of 16 bytes. *)
Definition padded (data padded_data : bytes) : Prop :=
  exists n, 1 <= n <= 16 /\ padded_data = data ++ repeat n (Z.to_nat n) /\ zlen padded_data mod 16 = 0.

(** Pieces of a list: full pieces, then perhaps a shorter one. *)
Inductive pieces {A} (size : Z) : list A -> list (list A) -> Prop :=
| pieces_nil : pieces size [] []
| pieces_last l : 0 < zlen l <= size -> pieces size l [l]
| pieces_full l r rest : zlen l = size -> r <> [] -> pieces size r rest -> pieces size (l ++ r) (l :: rest).

(** [x] is the first element of the list with the property. *)
Definition first_with {A} (P : A -> Prop) (l : list A) (x : A) : Prop :=
  exists before after, l = before ++ x :: after /\ P x /\ Forall (fun y => ~ P y) before.

(** Lower-case hexadecimal text. *)
Definition lower_hex (s : pystr) : Prop := Forall (fun c => 48 <= c <= 57 \/ 97 <= c <= 102) s.
