(** Specification of the compact encoding of targets and of the difficulty rules, without reference
    to the model's functions. *)
From Coq Require Export ZArith List Bool Lia.
From Coq Require Import Sorting.Permutation Sorting.Sorted.
Export ListNotations.
Open Scope Z_scope.

(** [compact b t]: the 32-bit word [b] is the canonical compact encoding of target [t]: a 3-byte
    mantissa without sign bit and at least 2^15, and an exponent (number of bytes), with the target
    equal to mantissa * 256^(exponent-3) exactly; 0 encodes 0. *)
Definition compact (b t : Z) : Prop :=
  (b = 0 /\ t = 0) \/
  (0 < b <= 0x2100ffff /\
   exists m e, b = m + 2 ^ 24 * e /\ 2 ^ 15 <= m < 2 ^ 23 /\ 0 <= e /\ t * 256 ^ 3 = m * 256 ^ e).

(** [rounds_to t b]: [b] encodes the greatest encodable target not above [t]. *)
Definition rounds_to (t b : Z) : Prop :=
  exists r, compact b r /\ r <= t /\ forall b' r', compact b' r' -> r' <= t -> r' <= r.

(** The element of rank [k] (from 0) of a list. *)
Definition rank (l : list Z) (k : nat) (x : Z) : Prop :=
  exists s, Permutation l s /\ Sorted Z.le s /\ nth_error s k = Some x.

Definition clamp (lo hi x : Z) : Z := if x <? lo then lo else if hi <? x then hi else x.

From Verif.Model Require Import Py.
From Verif.Spec Require Import Numbers.

(** [chain_data raw_at ts bits lo hi]: on heights lo <= h < hi the chain has an 80-byte header whose
    timestamp and bits fields (little-endian words at offsets 68 and 72) are [ts h] and [bits h]. *)
Definition chain_data (raw_at : Z -> result bytes) (ts bits : Z -> Z) (lo hi : Z) : Prop :=
  forall h, lo <= h < hi -> exists raw, raw_at h = Ok raw /\ zlen raw = 80 /\ bytes_ok raw = true /\
    ts h = val_le (firstn 4 (skipn 68 raw)) /\ bits h = val_le (firstn 4 (skipn 72 raw)).

(** The work of a target: floor(2^256 / (t + 1)). *)
Definition work_of_target (t w : Z) : Prop := w * (t + 1) <= 2 ^ 256 < (w + 1) * (t + 1).

(** Sum of [f] over [n] consecutive heights from [lo]. *)
Fixpoint sum_from (f : Z -> Z) (lo : Z) (n : nat) : Z :=
  match n with O => 0 | S m => f lo + sum_from f (lo + 1) m end.

(** [median3 ts h m]: [m] is the median-by-timestamp of the three heights below [h].  On equal
    timestamps the middle height wins if its timestamp is the median; otherwise the outer two are
    equal and the later is taken if the middle one is greater, the earlier if it is less. *)
Definition median3 (ts : Z -> Z) (h m : Z) : Prop :=
  (m = h - 3 \/ m = h - 2 \/ m = h - 1) /\
  rank [ts (h - 3); ts (h - 2); ts (h - 1)] 1 (ts m) /\
  (ts (h - 2) = ts m -> m = h - 2) /\
  (ts (h - 3) = ts (h - 1) -> ts (h - 1) < ts (h - 2) -> m = h - 1) /\
  (ts (h - 3) = ts (h - 1) -> ts (h - 2) < ts (h - 1) -> m = h - 3).

(** Median of the (at most 11) timestamps up to and including height [h]. *)
Definition mtp_spec (ts : Z -> Z) (h t : Z) : Prop :=
  let n := Z.to_nat (Z.min 11 (h + 1)) in
  rank (map (fun k => ts (h - Z.of_nat k)) (seq 0 n)) (Nat.div n 2) t.
