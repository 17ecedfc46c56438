(** Histories of calls on a Headers object. *)
From Verif.Model Require Import Py Packing Storage Chain.

Section History.
  Variable H : bytes -> bytes.              (* the header hash *)
  Variable required : (Z -> result bytes) -> Z -> Z -> result Z. (* the coin's rule for bits *)
  Variable max_cache : Z.
  Variable cp : checkpoint.
  Variable U : bytes -> Prop.               (* the headers that are ever presented to connect *)
  Variable sets : list bytes -> Prop.       (* when set_one may be called *)

  (** [reach log s]: the state [s] results from opening a missing or unsuitable file, followed by any
      sequence of connects (accepted or not), set_ones at heights other than the checkpoint's, and closing
      and reopening the file.  [log] is the list of the checkpoint and the headers accepted by connect, in
      order.  Fewer than 2^16 chains and 2^32 - 1 headers exist whenever connect is called. *)
  Inductive reach : list bytes -> headers -> Prop :=
  | reach_new path path' s :
      (path = None \/ open_file path cp = Err BadHeadersFile \/ open_file path cp = Err MissingHeader) ->
      from_file H max_cache cp path = (path', Ok s) ->
      reach [cp_raw cp] s
  | reach_accept log s raw s' r : reach log s -> U raw ->
      zlen (m_chains (hs_mem s)) < 2 ^ 16 -> cp_height cp + zlen log < 2 ^ 32 - 1 ->
      connect H required max_cache cp s raw = (s', Ok r) -> ~ In raw log ->
      reach (log ++ [raw]) s'
  | reach_known log s raw s' r : reach log s -> U raw ->
      zlen (m_chains (hs_mem s)) < 2 ^ 16 -> cp_height cp + zlen log < 2 ^ 32 - 1 ->
      connect H required max_cache cp s raw = (s', Ok r) -> In raw log ->
      reach log s'
  | reach_reject log s raw s' e : reach log s -> U raw ->
      zlen (m_chains (hs_mem s)) < 2 ^ 16 -> cp_height cp + zlen log < 2 ^ 32 - 1 ->
      connect H required max_cache cp s raw = (s', Err e) ->
      reach log s'
  | reach_set log s height raw : reach log s -> sets log -> height <> cp_height cp ->
      reach log (fst (set_one cp s height raw))
  | reach_reload log s path' s' : reach log s ->
      from_file H max_cache cp (Some (st_file (hs_st s))) = (path', Ok s') ->
      reach log s'.

  (** What is assumed of the hash and the checkpoint: hashes are 32 bytes, the headers presented do not
      collide or form a cycle with the checkpoint, the checkpoint is an 80-byte header with a valid
      bits field at a height that the file format can hold. *)
  Record assumptions : Prop := {
    as_hash_length : forall x, zlen (H x) = 32;
    as_hash_bytes : forall x, bytes_ok (H x) = true;
    as_no_collision : forall a b, U a -> U b -> H a = H b -> a = b;
    as_root : U (cp_raw cp);
    as_no_cycle : forall a, U a -> H a <> firstn 32 (skipn 4 (cp_raw cp));
    as_root_length : zlen (cp_raw cp) = 80;
    as_root_nonzero : cp_raw cp <> repeat 0 80;
    as_height : 0 <= cp_height cp < 2 ^ 32 - 1;
    as_root_bits : exists w, Coin.header_work (cp_raw cp) = Ok w }.
End History.

(** The header [raw] lies on the own part of the chain numbered [c] (not on a parent's). *)
Definition own_part (s : headers) (c : nat) (raw : bytes) : Prop :=
  exists ch h, nth_error (m_chains (hs_mem s)) c = Some ch /\ ch_first ch <= h <= ch_height ch /\
    raw_at s c h = Ok raw.

(** There is room for one more header and one more chain. *)
Definition room (cp : checkpoint) (log : list bytes) (s : headers) : Prop :=
  zlen (m_chains (hs_mem s)) < 2 ^ 16 /\ cp_height cp + zlen log < 2 ^ 32 - 1.

(** The contents of the headers file if the process dies after [k] of the file effects of appending
    [raw]. *)
Definition crashed (s : headers) (raw : bytes) (k : nat) : bytes :=
  apply_effects (st_file (hs_st s)) (firstn k (append_effects (hs_st s) raw)).
