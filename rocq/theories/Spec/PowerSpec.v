(** What a power failure can leave of a memory-mapped headers file that was not flushed. *)
From Verif.Model Require Import Py Packing Storage Chain.
From Verif.Spec Require Import HeadersHistory.

(** [power_failure page versions f]: the file on the disk after a power failure may be [f].  Each page of
    it is as it was at some moment since the file was flushed (the system writes the pages of a map back
    in any order, at any time or never), and it is as long as it was at some moment.  [versions] lists the
    contents that the file has had. *)
Definition power_failure (page : Z) (versions : list bytes) (f : bytes) : Prop :=
  (exists v, In v versions /\ zlen f = zlen v) /\
  forall k, 0 <= k -> exists v, In v versions /\
    forall i, k * page <= i < (k + 1) * page -> i < zlen f -> znth f i = znth v i.

(** The contents of the file during an append, from before it to after it. *)
Definition append_versions (s : headers) (raw : bytes) : list bytes :=
  map (crashed s raw) (seq 0 (S (length (append_effects (hs_st s) raw)))).

(** What a header becomes when a page boundary falls [d] bytes into it, the page that it begins on is written
    back and the next page, where the file had zeros, is not. *)
Definition torn (d : Z) (raw : bytes) : bytes :=
  firstn (Z.to_nat d) raw ++ repeat 0 (80 - Z.to_nat d).

Section Session.
  Variable H : bytes -> bytes.
  Variable required : (Z -> result bytes) -> Z -> Z -> result Z.
  Variable max_cache : Z.
  Variable cp : checkpoint.
  Variable U : bytes -> Prop.

  (** [session log s versions log' s']: after a flush in the state [s] (chain.py:279-280, 486-487: the contents
      of the file then are on the disk), calls of connect lead to [s'], the file having the contents [versions]
      on the way. *)
  Inductive session (log : list bytes) (s : headers) : list bytes -> list bytes -> headers -> Prop :=
  | session_start : session log s [st_file (hs_st s)] log s
  | session_new vs log1 s1 raw s2 r : session log s vs log1 s1 -> U raw -> room cp log1 s1 -> ~ In raw log1 ->
      connect H required max_cache cp s1 raw = (s2, Ok r) ->
      session log s (vs ++ append_versions s1 raw) (log1 ++ [raw]) s2
  | session_known vs log1 s1 raw s2 r : session log s vs log1 s1 -> U raw -> room cp log1 s1 -> In raw log1 ->
      connect H required max_cache cp s1 raw = (s2, Ok r) -> session log s vs log1 s2
  | session_refused vs log1 s1 raw s2 e : session log s vs log1 s1 -> U raw -> room cp log1 s1 ->
      connect H required max_cache cp s1 raw = (s2, Err e) -> session log s vs log1 s2.
End Session.
