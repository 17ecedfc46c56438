(** Model of /repo/bitcoinx/chain.py:143-154 and what calls it, on an interpreter whose stack is limited (sys.getrecursionlimit() is 1000
    by default).  [frames] is the number of calls of Chain.header_index that the stack still has room for when Headers.raw_header_at_height
    calls it; nothing else in chain.py or work.py recurses.  Simplification: it is the same number wherever a header is read from, while the
    callers of work.py differ by a few frames. *)
From Verif.Model Require Import Py Packing Bits Coin Work Storage Chain.

(** chain.py:143-154 [header_index]: the call that finds no frame raises RecursionError, which nothing catches. *)
Fixpoint header_index_limited (frames : nat) (chains : list chain) (ci : nat) (height : Z) : result Z :=
  match frames with
  | O => Err RecursionError
  | S f =>
    match nth_error chains ci with
    | None => Err OutOfFuel
    | Some c =>
      if ch_first c <=? height then
        match znth (ch_indices c) (height - ch_first c) with
        | Some i => Ok i
        | None => Err MissingHeader
        end
      else match ch_parent c with
           | Some p => header_index_limited f chains p height
           | None => if 0 <=? height then Ok height else Err MissingHeader
           end
    end
  end.

Section Limited.
  Variable frames : nat.
  Variable H : bytes -> bytes.
  Variable required : (Z -> result bytes) -> Z -> Z -> result Z.
  Variable max_cache : Z.
  Variable cp : checkpoint.

  (** chain.py:408-409 [raw_header_at_height], 411-413 [header_at_height] and 404-406 [chainwork_to_height] *)
  Definition raw_at_limited (s : headers) (ci : nat) (height : Z) : result bytes :=
    i <- header_index_limited frames (m_chains (hs_mem s)) ci height ;;
    storage_get (hs_st s) i.
  Definition header_at_height_limited (s : headers) (ci : nat) (height : Z) : result header :=
    raw <- raw_at_limited s ci height ;; deserialized_header H raw height.
  Definition chainwork_to_height_limited (s : headers) (ci : nat) (height : Z) : result Z :=
    match nth_error (m_chains (hs_mem s)) ci with
    | None => Err OutOfFuel
    | Some c =>
      w <- chainwork_range (raw_at_limited s ci) (height + 1) (h_height (ch_tip c) + 1) ;;
      Ok (ch_work c - w)
    end.

  (** chain.py:362-377 [_read_header], as in Chain.v *)
  Definition read_header_limited (s : headers) (index : Z) : headers * result nat :=
    let prep :=
      raw <- storage_get (hs_st s) index ;;
      new_tip <- deserialized_header H raw (-1) ;;
      '(prev, ci) <- lookup H cp s (h_prev_hash new_tip) ;;
      Ok (new_tip, prev, ci) in
    match prep with
    | Err e => (s, Err e)
    | Ok (new_tip, prev, ci) =>
      let new_tip := with_height new_tip (h_height prev + 1) in
      match nth_error (m_chains (hs_mem s)) ci with
      | None => (s, Err OutOfFuel)
      | Some c =>
        let m := hs_mem s in
        if bytes_eqb (h_hash (ch_tip c)) (h_hash prev) then
          let '(c', r) := chain_append c new_tip index in
          let m' := mk_mem (list_update (m_chains m) ci c') (m_short m) (m_heights m) (m_cidx m)
                           (m_cache m) in
          match r with
          | Err e => (set_mem s m', Err e)
          | Ok _ => let '(m'', r') := add_chain_tip max_cache m' ci new_tip in
                    (set_mem s m'', _ <- r' ;; Ok ci)
          end
        else
          let made :=
            prev_work <- chainwork_to_height_limited s ci (h_height prev) ;;
            new_chain (Some ci) new_tip index prev_work in
          match made with
          | Err e => (s, Err e)
          | Ok c' => let '(m', r) := add_chain max_cache m c' in
                     (set_mem s m', _ <- r ;; Ok (length (m_chains m)))
          end
      end
    end.
  (** chain.py:423-454 [connect], as in Chain.v *)
  Definition connect_check_limited (s : headers) (raw : bytes) : result verdict :=
    hdr <- deserialized_header H raw (-1) ;;
    '(prev, ci) <- lookup H cp s (h_prev_hash hdr) ;;
    let hdr := with_height hdr (h_height prev + 1) in
    match nth_error (m_chains (hs_mem s)) ci with
    | None => Err OutOfFuel
    | Some c =>
      let known :=
        if bytes_eqb (h_hash (ch_tip c)) (h_hash prev) then Err MissingHeader
        else lookup H cp s (h_hash hdr) in
      match known with
      | Ok r => Ok (Known r)
      | Err MissingHeader =>
        rb <- required (raw_at_limited s ci) (h_height hdr) (h_timestamp hdr) ;;
        if negb (h_bits hdr =? rb) then Err IncorrectBits
        else
          t <- header_obj_target hdr ;;
          if t <? header_hash_value hdr then Err InsufficientPoW
          else Ok (Accept hdr)
      | Err e => Err e
      end
    end.
  Definition connect_limited (s : headers) (raw : bytes) : headers * result (header * nat) :=
    match connect_check_limited s raw with
    | Err e => (s, Err e)
    | Ok (Known r) => (s, Ok r)
    | Ok (Accept hdr) =>
      let '(st, r) := storage_append (hs_st s) raw in
      let s1 := mk_headers st (hs_mem s) in
      match r with
      | Err e => (s1, Err e)
      | Ok index => let '(s2, r2) := read_header_limited s1 index in
                    (s2, ci <- r2 ;; Ok (hdr, ci))
      end
    end.
  (** A caller that connects headers one after the other and stops at the first exception. *)
  Fixpoint connect_all_limited (s : headers) (raws : list bytes) : headers * result unit :=
    match raws with
    | [] => (s, Ok tt)
    | raw :: r => match connect_limited s raw with
                  | (s', Ok _) => connect_all_limited s' r
                  | (s', Err e) => (s', Err e)
                  end
    end.
End Limited.
