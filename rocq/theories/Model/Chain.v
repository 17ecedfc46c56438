(** Model of /repo/bitcoinx/chain.py:84-164 (Chain) and 283-487 (Headers).

    Chain objects are referred to by their position in [headers._chains] ([chain.index]); object
    identity is equality of positions.  The double-SHA256 hash, the coin's required_bits rule and the
    cache size (1000 in the code) are parameters.  Methods that change the object return the changed
    object even when they raise, as in Python. *)
From Verif.Model Require Import Py Packing Bits Coin Work Storage.

(** chain.py:84-104 *)
Record chain := mk_chain {
  ch_parent : option nat; ch_tip : header; ch_work : Z; ch_first : Z; ch_indices : list Z }.

(** Everything but the storage. *)
Record mem := mk_mem {
  m_chains : list chain;                  (* _chains *)
  m_short : bytes;                        (* _short_hashes *)
  m_heights : list Z;                     (* _heights, array('I') *)
  m_cidx : list Z;                        (* _chain_indices, array('H') *)
  m_cache : list (bytes * (header * nat)) (* _cache, in insertion order *)
}.
Record headers := mk_headers { hs_st : storage; hs_mem : mem }.

(** array('I').append and array('H').append raise OverflowError out of range. *)
Definition arr_append (bits : Z) (l : list Z) (v : Z) : result (list Z) :=
  if (0 <=? v) && (v <? 2 ^ bits) then Ok (l ++ [v]) else Err OverflowError.

(** [bytearray.find(key, start)]: least position >= start, or -1. *)
Fixpoint find_from (key s : bytes) (i : Z) : Z :=
  if starts_with s key then i
  else match s with [] => -1 | _ :: s' => find_from key s' (i + 1) end.
Definition bytes_find (s key : bytes) (start : Z) : Z :=
  if zlen s <? start then -1 else find_from key (zdrop start s) start.

(** chain.py:158-161 [height] *)
Definition ch_height (c : chain) : Z := ch_first c + zlen (ch_indices c) - 1.

(** chain.py:143-154 [header_index]; [fuel] bounds the recursion through parents. *)
Fixpoint header_index (fuel : nat) (chains : list chain) (ci : nat) (height : Z) : result Z :=
  match fuel with
  | O => Err OutOfFuel
  | S f =>
    match nth_error chains ci with
    | None => Err OutOfFuel
    | Some c =>
      if ch_first c <=? height then
        match znth (ch_indices c) (height - ch_first c) with
        | Some i => Ok i
        | None => Err MissingHeader
        end
      else match ch_parent c with
           | Some p => header_index f chains p height
           | None => if 0 <=? height then Ok height else Err MissingHeader
           end
    end
  end.

(** chain.py:116-126 [parent_heights]: the pairs in insertion order. *)
Fixpoint parent_chain_heights (fuel : nat) (chains : list chain) (ci : nat) : list (nat * Z) :=
  match fuel with
  | O => []
  | S f =>
    match nth_error chains ci with
    | None => []
    | Some c => match ch_parent c with
                | Some p => (p, ch_first c - 1) :: parent_chain_heights f chains p
                | None => []
                end
    end
  end.
Definition parent_heights (chains : list chain) (ci : nat) : list (nat * Z) :=
  match nth_error chains ci with
  | None => []
  | Some c => (ci, ch_height c) :: parent_chain_heights (length chains) chains ci
  end.
Fixpoint assoc_nat (k : nat) (l : list (nat * Z)) : option Z :=
  match l with
  | [] => None
  | (k', v) :: r => if Nat.eqb k k' then Some v else assoc_nat k r
  end.

(** chain.py:128-141 [common_chain_and_height]; (None, -1) if there is none. *)
Definition common_chain_and_height (chains : list chain) (a b : nat) : option nat * Z :=
  let other_heights := parent_heights chains b in
  let our_heights := parent_heights chains a in
  fold_left (fun res p =>
    match assoc_nat (fst p) other_heights with
    | Some oh => let common := Z.min oh (snd p) in
                 if snd res <? common then (Some (fst p), common) else res
    | None => res
    end) our_heights (None, -1).

(** The cache: a dict keyed by hash, as an insertion-ordered list. *)
Fixpoint cache_get (k : bytes) (l : list (bytes * (header * nat))) : option (header * nat) :=
  match l with
  | [] => None
  | (k', v) :: r => if bytes_eqb k k' then Some v else cache_get k r
  end.
Fixpoint cache_set (k : bytes) (v : header * nat) (l : list (bytes * (header * nat)))
  : list (bytes * (header * nat)) :=
  match l with
  | [] => [(k, v)]
  | (k', v') :: r => if bytes_eqb k k' then (k, v) :: r else (k', v') :: cache_set k v r
  end.

Fixpoint enum_from {A} (n : nat) (l : list A) : list (nat * A) :=
  match l with [] => [] | x :: r => (n, x) :: enum_from (S n) r end.

Definition list_update {A} (l : list A) (i : nat) (x : A) : list A := firstn i l ++ x :: skipn (S i) l.

Section Headers.
  Variable H : bytes -> bytes.              (* double_sha256 *)
  Variable required : (Z -> result bytes) -> Z -> Z -> result Z. (* coin.required_bits *)
  Variable max_cache : Z.
  Variable cp : checkpoint.

  Definition set_mem (s : headers) (m : mem) : headers := mk_headers (hs_st s) m.

  (** chain.py:408-409 [raw_header_at_height] *)
  Definition raw_at (s : headers) (ci : nat) (height : Z) : result bytes :=
    i <- header_index (S (length (m_chains (hs_mem s)))) (m_chains (hs_mem s)) ci height ;;
    storage_get (hs_st s) i.

  (** chain.py:404-406 [chainwork_to_height] *)
  Definition chainwork_to_height (s : headers) (ci : nat) (height : Z) : result Z :=
    match nth_error (m_chains (hs_mem s)) ci with
    | None => Err OutOfFuel
    | Some c =>
      w <- chainwork_range (raw_at s ci) (height + 1) (h_height (ch_tip c) + 1) ;;
      Ok (ch_work c - w)
    end.

  (** chain.py:342-354 [_header_index_slow] *)
  Fixpoint header_index_slow_loop (fuel : nat) (s : headers) (hash : bytes) (start : Z)
    : result (bytes * Z) :=
    match fuel with
    | O => Err OutOfFuel
    | S f =>
      let index := bytes_find (m_short (hs_mem s)) (slice_to hash 4) start in
      found <- (if index mod 4 =? 0 then
                  raw <- storage_get (hs_st s) (index / 4 + cp_height cp) ;;
                  if bytes_eqb (H raw) hash then Ok (Some (raw, index / 4)) else Ok None
                else Ok None) ;;
      match found with
      | Some x => Ok x
      | None => if index =? -1 then Err MissingHeader
                else header_index_slow_loop f s hash (start + 1)
      end
    end.
  Definition header_index_slow (s : headers) (hash : bytes) : result (bytes * Z) :=
    header_index_slow_loop (length (m_short (hs_mem s)) + 3) s hash 0.

  (** chain.py:415-421 [lookup] *)
  Definition lookup (s : headers) (hash : bytes) : result (header * nat) :=
    match cache_get hash (m_cache (hs_mem s)) with
    | Some r => Ok r
    | None =>
      '(raw, our_index) <- header_index_slow s hash ;;
      height <- pyindex (m_heights (hs_mem s)) our_index ;;
      hdr <- deserialized_header H raw height ;;
      ci <- pyindex (m_cidx (hs_mem s)) our_index ;;
      _ <- pyindex (m_chains (hs_mem s)) ci ;;
      Ok (hdr, Z.to_nat ci)
    end.

  (** chain.py:328-340 [_add_chain_tip] *)
  Definition tips_update (chains : list chain) (cache : list (bytes * (header * nat))) :=
    fold_left (fun c p => cache_set (h_hash (ch_tip (snd p))) (ch_tip (snd p), fst p) c)
              (enum_from 0 chains) cache.
  Definition cache_add (chains : list chain) (hdr : header) (ci : nat)
    (cache : list (bytes * (header * nat))) :=
    let cache := cache_set (h_hash hdr) (hdr, ci) cache in
    if max_cache <? zlen cache
    then tips_update chains (zdrop (zlen cache / 2) cache)
    else cache.
  Definition add_chain_tip (m : mem) (ci : nat) (tip : header) : mem * result unit :=
    let short := m_short m ++ slice_to (h_hash tip) 4 in
    match arr_append 32 (m_heights m) (h_height tip) with
    | Err e => (mk_mem (m_chains m) short (m_heights m) (m_cidx m) (m_cache m), Err e)
    | Ok heights =>
      match arr_append 16 (m_cidx m) (Z.of_nat ci) with
      | Err e => (mk_mem (m_chains m) short heights (m_cidx m) (m_cache m), Err e)
      | Ok cidx =>
        (mk_mem (m_chains m) short heights cidx (cache_add (m_chains m) tip ci (m_cache m)), Ok tt)
      end
    end.

  (** chain.py:323-326 [_add_chain] *)
  Definition add_chain (m : mem) (c : chain) : mem * result unit :=
    let ci := length (m_chains m) in
    add_chain_tip (mk_mem (m_chains m ++ [c]) (m_short m) (m_heights m) (m_cidx m) (m_cache m))
                  ci (ch_tip c).

  (** chain.py:96-104 [Chain.__init__] *)
  Definition new_chain (parent : option nat) (tip : header) (index prev_work : Z) : result chain :=
    w <- header_obj_work tip ;;
    indices <- arr_append 32 [] index ;;
    Ok (mk_chain parent tip (prev_work + w) (h_height tip) indices).

  (** chain.py:110-114 [Chain.append]: the tip is replaced first, then the index appended, then the
      work added. *)
  Definition chain_append (c : chain) (hdr : header) (index : Z) : chain * result unit :=
    match arr_append 32 (ch_indices c) index with
    | Err e => (mk_chain (ch_parent c) hdr (ch_work c) (ch_first c) (ch_indices c), Err e)
    | Ok indices =>
      match header_obj_work hdr with
      | Err e => (mk_chain (ch_parent c) hdr (ch_work c) (ch_first c) indices, Err e)
      | Ok w => (mk_chain (ch_parent c) hdr (ch_work c + w) (ch_first c) indices, Ok tt)
      end
    end.

  Definition with_height (h : header) (height : Z) : header :=
    mk_header (h_version h) (h_prev_hash h) (h_merkle_root h) (h_timestamp h) (h_bits h)
              (h_nonce h) (h_hash h) (h_raw h) height.

  (** chain.py:362-377 [_read_header]; returns the chain's position. *)
  Definition read_header (s : headers) (index : Z) : headers * result nat :=
    let prep :=
      raw <- storage_get (hs_st s) index ;;
      new_tip <- deserialized_header H raw (-1) ;;
      '(prev, ci) <- lookup s (h_prev_hash new_tip) ;;
      Ok (new_tip, prev, ci) in
    match prep with
    | Err e => (s, Err e)
    | Ok (new_tip, prev, ci) =>
      let new_tip := with_height new_tip (h_height prev + 1) in
      match nth_error (m_chains (hs_mem s)) ci with
      | None => (s, Err OutOfFuel)
      | Some c =>
        let m := hs_mem s in
        if bytes_eqb (h_hash (ch_tip c)) (h_hash prev) then
          let '(c', r) := chain_append c new_tip index in
          let m' := mk_mem (list_update (m_chains m) ci c') (m_short m) (m_heights m) (m_cidx m)
                           (m_cache m) in
          match r with
          | Err e => (set_mem s m', Err e)
          | Ok _ => let '(m'', r') := add_chain_tip m' ci new_tip in
                    (set_mem s m'', _ <- r' ;; Ok ci)
          end
        else
          let made :=
            prev_work <- chainwork_to_height s ci (h_height prev) ;;
            new_chain (Some ci) new_tip index prev_work in
          match made with
          | Err e => (s, Err e)
          | Ok c' => let '(m', r) := add_chain m c' in
                     (set_mem s m', _ <- r ;; Ok (length (m_chains m)))
          end
      end
    end.

  (** chain.py:356-360 [_read_headers] *)
  Fixpoint read_headers (s : headers) (indices : list Z) : headers * result unit :=
    match indices with
    | [] => (s, Ok tt)
    | i :: r => let '(s', res) := read_header s i in
                match res with
                | Err e => (s', Err e)
                | Ok _ => read_headers s' r
                end
    end.

  (** chain.py:106-108 [from_checkpoint] and 308-321 [__init__] *)
  Definition empty_mem : mem := mk_mem [] [] [] [] [].
  Definition init_mem : result mem :=
    tip <- deserialized_header H (cp_raw cp) (cp_height cp) ;;
    c <- new_chain None tip (h_height tip) (cp_prev_work cp) ;;
    let '(m, r) := add_chain empty_mem c in
    _ <- r ;; Ok m.
  Definition make_headers (st : storage) : result headers :=
    m <- init_mem ;;
    n <- storage_len st ;;
    let '(s, r) := read_headers (mk_headers st m) (zrange (cp_height cp + 1) n) in
    _ <- r ;; Ok s.

  (** chain.py:382-386 [from_file]; returns the path's new contents too. *)
  Definition from_file (path : option bytes) : option bytes * result headers :=
    let '(path', r) := open_or_create path cp in
    (path', st <- r ;; make_headers st).

  (** chain.py:388-394 [set_one] *)
  Definition set_one (s : headers) (height : Z) (raw : bytes) : headers * result unit :=
    if negb ((0 <=? height) && (height <=? cp_height cp)) then (s, Err ValueError)
    else let '(st, r) := storage_set (hs_st s) height raw in (mk_headers st (hs_mem s), r).

  (** chain.py:411-413 [header_at_height] *)
  Definition header_at_height (s : headers) (ci : nat) (height : Z) : result header :=
    raw <- raw_at s ci height ;; deserialized_header H raw height.

  (** chain.py:423-454 [connect], up to the storage append: either an answer or the accepted
      header. *)
  Inductive verdict := Known (r : header * nat) | Accept (h : header).
  Definition connect_check (s : headers) (raw : bytes) : result verdict :=
    hdr <- deserialized_header H raw (-1) ;;
    '(prev, ci) <- lookup s (h_prev_hash hdr) ;;
    let hdr := with_height hdr (h_height prev + 1) in
    match nth_error (m_chains (hs_mem s)) ci with
    | None => Err OutOfFuel
    | Some c =>
      let known :=
        if bytes_eqb (h_hash (ch_tip c)) (h_hash prev) then Err MissingHeader
        else lookup s (h_hash hdr) in
      match known with
      | Ok r => Ok (Known r)
      | Err MissingHeader =>
        rb <- required (raw_at s ci) (h_height hdr) (h_timestamp hdr) ;;
        if negb (h_bits hdr =? rb) then Err IncorrectBits
        else
          t <- header_obj_target hdr ;;
          if t <? header_hash_value hdr then Err InsufficientPoW
          else Ok (Accept hdr)
      | Err e => Err e
      end
    end.
  Definition connect (s : headers) (raw : bytes) : headers * result (header * nat) :=
    match connect_check s raw with
    | Err e => (s, Err e)
    | Ok (Known r) => (s, Ok r)
    | Ok (Accept hdr) =>
      let '(st, r) := storage_append (hs_st s) raw in
      let s1 := mk_headers st (hs_mem s) in
      match r with
      | Err e => (s1, Err e)
      | Ok index => let '(s2, r2) := read_header s1 index in
                    (s2, ci <- r2 ;; Ok (hdr, ci))
      end
    end.

  (** chain.py:456-458 [__len__] *)
  Definition headers_len (s : headers) : result Z := storage_len (hs_st s).

  (** chain.py:466-471 [longest_chain] *)
  Definition longest_chain (s : headers) : option nat :=
    match m_chains (hs_mem s) with
    | [] => None
    | c0 :: _ =>
      Some (fst (fold_left (fun best p => if ch_work (snd best) <? ch_work (snd p) then p else best)
                           (enum_from 0 (m_chains (hs_mem s))) (O, c0)))
    end.
End Headers.
