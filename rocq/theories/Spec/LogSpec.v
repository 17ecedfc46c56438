(** Accuracy of a logarithm to the base 2, without real numbers, and counting. *)
From Coq Require Import ZArith List.
From Verif.Spec Require Import FloatSpec.
Open Scope Z_scope.

(** The double m * 2^e is log2(n), but for a relative error of 2^-50: it is at least (1 - 2^-50) a/b for every fraction a/b that is at most
    log2(n), that is 2^a <= n^b, and at most (1 + 2^-50) a/b for every a/b that is log2(n) or more. *)
Definition accurate (m e n : Z) : Prop :=
  finite_double m e /\
  forall a b, 0 < a -> 0 < b ->
    (2 ^ a <= n ^ b -> a * (2 ^ 50 - 1) * 2 ^ 1074 <= b * 2 ^ 50 * (m * 2 ^ (e + 1074))) /\
    (n ^ b <= 2 ^ a -> b * 2 ^ 50 * (m * 2 ^ (e + 1074)) <= a * (2 ^ 50 + 1) * 2 ^ 1074).

(** Exactly [count] things satisfy P *)
Definition number_of {A} (P : A -> Prop) (count : Z) : Prop :=
  exists l, NoDup l /\ (forall x, In x l <-> P x) /\ Z.of_nat (length l) = count.
