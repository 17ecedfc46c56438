(** Model of /repo/bitcoinx/work.py:80-187 (required bits) and of the Headers methods it calls.

    [raw_at h] stands for [headers.raw_header_at_height(chain, h)] on the chain in question (or the
    exception it raises).  The bits/timestamp arithmetic does not depend on the hash of a header, so
    [header_at_height] is modelled as (height, timestamp, bits). *)
From Verif.Model Require Import Py Packing Bits Coin.

Section RequiredBits.
  Variable raw_at : Z -> result bytes.

  (** The attributes of a deserialized header that are used (chain.py:411-413). *)
  Record hdr := mk_hdr { hd_height : Z; hd_timestamp : Z; hd_bits : Z }.
  Definition header_at (h : Z) : result hdr :=
    raw <- raw_at h ;;
    '(_, _, _, t, b, _) <- unpack_header raw ;;
    Ok (mk_hdr h t b).

  (** chain.py:396-402 [chainwork_range] *)
  Definition chainwork_range (start_height end_height : Z) : result Z :=
    l <- mapM (fun h => raw <- raw_at h ;; header_work raw) (zrange start_height end_height) ;;
    Ok (fold_left Z.add l 0).

  (** Insertion sort, standing for Python's [sorted] on integers. *)
  Fixpoint insert (x : Z) (l : list Z) : list Z :=
    match l with
    | [] => [x]
    | y :: r => if x <=? y then x :: l else y :: insert x r
    end.
  Definition sorted (l : list Z) : list Z := fold_right insert [] l.

  (** chain.py:473-479 [median_time_past]: heights height, height-1, ... down to
      max(0, height-10). *)
  Definition median_time_past (height : Z) : result Z :=
    let hs := rev (zrange (Z.max (-1) (height - 11) + 1) (height + 1)) in
    ts <- mapM (fun h => raw <- raw_at h ;; header_timestamp raw) hs ;;
    pyindex (sorted ts) (zlen ts / 2).

  Variable coin_genesis_bits : Z.
  Variable coin_max_target : Z.

  (** work.py:80-96 [_required_bits_fortnightly] *)
  Definition required_bits_fortnightly (height : Z) : result Z :=
    if height =? 0 then Ok coin_genesis_bits
    else
      prev <- header_at (height - 1) ;;
      if negb (height mod 2016 =? 0) then Ok (hd_bits prev)
      else
        prior <- header_at (height - 2016) ;;
        let period := hd_timestamp prev - hd_timestamp prior in
        let target_period := 2016 * 600 in
        let adj_period := Z.min (Z.max period (target_period / 4)) (target_period * 4) in
        prior_target <- bits_to_target (hd_bits prev) ;;
        let new_target := (prior_target * adj_period) / target_period in
        target_to_bits (Z.min new_target coin_max_target).

  (** work.py:101-111 [median_prior_header]: three compare-and-swaps *)
  Definition maybe_swap (a b : hdr) : hdr * hdr :=
    if hd_timestamp b <? hd_timestamp a then (b, a) else (a, b).
  Definition median_prior_header (ref_height : Z) : result hdr :=
    p0 <- header_at (ref_height - 3) ;;
    p1 <- header_at (ref_height - 2) ;;
    p2 <- header_at (ref_height - 1) ;;
    let '(p0, p2) := maybe_swap p0 p2 in
    let '(p0, p1) := maybe_swap p0 p1 in
    let '(p1, p2) := maybe_swap p1 p2 in
    Ok p1.

  (** work.py:99-122 [_required_bits_DAA] *)
  Definition required_bits_DAA (height : Z) : result Z :=
    start <- median_prior_header (height - 144) ;;
    end_ <- median_prior_header height ;;
    period_work <- chainwork_range (hd_height start + 1) (hd_height end_ + 1) ;;
    let period_time := Z.min (Z.max (hd_timestamp end_ - hd_timestamp start) 43200) 172800 in
    let Wn := (period_work * 600) / period_time in
    if Wn =? 0 then Err ZeroDivisionError
    else
      let new_target := Z.shiftl 1 256 / Wn - 1 in
      target_to_bits (Z.min new_target coin_max_target).

  (** work.py:125-139 [_required_bits_EDA] *)
  Definition required_bits_EDA (height : Z) : result Z :=
    bits <- required_bits_fortnightly height ;;
    if height mod 2016 =? 0 then Ok bits
    else
      m1 <- median_time_past (height - 1) ;;
      m7 <- median_time_past (height - 7) ;;
      if m1 - m7 <? 12 * 3600 then Ok bits
      else
        t <- bits_to_target bits ;;
        target_to_bits (Z.min (t + Z.shiftr t 2) coin_max_target).

  (** work.py:142-149 [required_bits_mainnet] *)
  Definition required_bits_mainnet (height : Z) : result Z :=
    if height <? 478558 then required_bits_fortnightly height
    else if height <=? 504031 then required_bits_EDA height
    else required_bits_DAA height.

  (** work.py:153-161 [prior_non_special_bits]: [n] is how many heights remain, the height
      tested is n - 1; falling through returns None, modelled as a TypeError (see the theorem that
      it never happens). *)
  Fixpoint prior_non_special_bits (n : nat) : result Z :=
    match n with
    | O => Err TypeError
    | S m =>
      let test_height := Z.of_nat m in
      raw <- raw_at test_height ;;
      bits <- header_bits raw ;;
      if (test_height mod 2016 =? 0) || negb (bits =? coin_genesis_bits) then Ok bits
      else prior_non_special_bits m
    end.

  (** work.py:152-177 [_required_bits_testnet] *)
  Definition required_bits_testnet_gen (height timestamp daa_height : Z) (has_daa_minpow : bool)
    : result Z :=
    prior_raw <- raw_at (height - 1) ;;
    prior_timestamp <- header_timestamp prior_raw ;;
    let is_slow := 20 * 60 <? timestamp - prior_timestamp in
    if height <=? daa_height then
      if height mod 2016 =? 0 then required_bits_fortnightly height
      else if is_slow then Ok coin_genesis_bits
      else prior_non_special_bits (Z.to_nat height)
    else
      if has_daa_minpow && is_slow then Ok coin_genesis_bits
      else required_bits_DAA height.

  (** work.py:180-187 *)
  Definition required_bits_testnet (height timestamp : Z) : result Z :=
    required_bits_testnet_gen height timestamp 1188697 true.
  Definition required_bits_scaling_testnet (height timestamp : Z) : result Z :=
    required_bits_testnet_gen height timestamp 2200 false.

  (** [coin.required_bits(headers, chain, height, timestamp)] *)
  Definition required_bits_by_rule (rule : bits_rule) (height timestamp : Z) : result Z :=
    match rule with
    | RuleMainnet => required_bits_mainnet height
    | RuleTestnet => required_bits_testnet height timestamp
    | RuleScalingTestnet => required_bits_scaling_testnet height timestamp
    end.
End RequiredBits.

(** chain.py:481-484 [Headers.required_bits] for a coin. *)
Definition coin_required_bits (c : coin) (raw_at : Z -> result bytes) (height timestamp : Z)
  : result Z :=
  gb <- genesis_bits c ;; mt <- max_target c ;;
  required_bits_by_rule raw_at gb mt (c_rule c) height timestamp.
