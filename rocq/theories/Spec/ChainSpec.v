(** What a set of headers grown from a checkpoint should be: a tree, cut into chains.

    [H] is the header hash.  The tree is described by its headers in the order they were stored. *)
From Verif.Model Require Import Py.
From Verif.Spec Require Import Numbers WorkSpec.

(** The parent's hash and the difficulty bits as they lie in an 80-byte header. *)
Definition prev_of (raw : bytes) : bytes := firstn 32 (skipn 4 raw).
Definition bits_of (raw : bytes) : Z := val_le (firstn 4 (skipn 72 raw)).
Definition time_of (raw : bytes) : Z := val_le (firstn 4 (skipn 68 raw)).
(** The work of a header: floor(2^256 / (target + 1)). *)
Definition raw_work (raw : bytes) (w : Z) : Prop :=
  exists t, compact (bits_of raw) t /\ work_of_target t w.

(** A stored header: its bytes, height, the number of its chain, cumulative work, and the position of
    its parent (none for the checkpoint). *)
Record entry := mk_entry {
  e_raw : bytes; e_height : Z; e_chain : nat; e_work : Z; e_parent : option nat }.

Definition leaf (es : list entry) (j : nat) : Prop :=
  forall e, In e es -> e_parent e <> Some j.
Definition chains_used (es : list entry) (n : nat) : Prop :=
  forall c, (c < n)%nat <-> exists e, In e es /\ e_chain e = c.

Section Forest.
  Variable H : bytes -> bytes.
  Variable root_raw : bytes.
  Variable root_height root_prev_work : Z.

  (** Headers are added one at a time below a stored parent; the first child of a header continues its
      chain, each further child starts a new chain, numbered next. *)
  Inductive forest : list entry -> Prop :=
  | forest_root w : raw_work root_raw w ->
      forest [mk_entry root_raw root_height 0 (root_prev_work + w) None]
  | forest_continue es raw j p w : forest es ->
      nth_error es j = Some p -> H (e_raw p) = prev_of raw ->
      (forall e, In e es -> H (e_raw e) <> H raw) -> raw_work raw w ->
      leaf es j ->
      forest (es ++ [mk_entry raw (e_height p + 1) (e_chain p) (e_work p + w) (Some j)])
  | forest_branch es raw j p w n : forest es ->
      nth_error es j = Some p -> H (e_raw p) = prev_of raw ->
      (forall e, In e es -> H (e_raw e) <> H raw) -> raw_work raw w ->
      ~ leaf es j -> chains_used es n ->
      forest (es ++ [mk_entry raw (e_height p + 1) n (e_work p + w) (Some j)]).
End Forest.

(** [ancestor es k i]: entry [k] is entry [i] or above it. *)
Inductive ancestor (es : list entry) : nat -> nat -> Prop :=
| ancestor_self i e : nth_error es i = Some e -> ancestor es i i
| ancestor_up k j i e : ancestor es k j -> nth_error es i = Some e -> e_parent e = Some j ->
    ancestor es k i.

(** The last entry on a chain. *)
Definition tip_of (es : list entry) (c : nat) (t : nat) : Prop :=
  (exists e, nth_error es t = Some e /\ e_chain e = c) /\
  forall i e, nth_error es i = Some e -> e_chain e = c -> (i <= t)%nat.

(** [work_sum f h n w]: the headers that [f] gives at the [n] heights from [h] up have total work [w]. *)
Inductive work_sum (f : Z -> result bytes) : Z -> nat -> Z -> Prop :=
| work_sum_nil h : work_sum f h 0 0
| work_sum_cons h n raw w v : f h = Ok raw -> raw_work raw w -> work_sum f (h + 1) n v ->
    work_sum f h (S n) (w + v).
