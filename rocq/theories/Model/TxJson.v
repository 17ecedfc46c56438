(** Model of JSON conversion in /repo/bitcoinx/tx.py. *)
From Verif.Model Require Import Py Text Packing Misc Curve Coin Base58 Script Keys Bip32 Address Tx.

(** The Python objects that are made; a dict is the list of its entries in order. *)
Inductive json := JNone | JInt (n : Z) | JStr (s : pystr) | JList (l : list json) | JDict (l : list (pystr * json)).

(** bytes.decode(errors='replace'), CPython's UTF-8 decoder: the character at the front and the number of bytes
    taken; U+FFFD stands for the longest part that could begin a character, or for one byte. *)
Definition cont (b : Z) : bool := (128 <=? b) && (b <? 192).
Definition utf8_first (a : Z) (r : bytes) : Z * Z :=
  if a <? 0x80 then (a, 1)
  else if a <? 0xc2 then (0xfffd, 1)
  else if a <? 0xe0 then
    match r with
    | [] => (0xfffd, 1)
    | b :: _ => if cont b then ((a - 0xc0) * 64 + (b - 128), 2) else (0xfffd, 1)
    end
  else if a <? 0xf0 then
    match r with
    | [] => (0xfffd, 1)
    | b :: r =>
      if negb (cont b) || (if b <? 0xa0 then a =? 0xe0 else a =? 0xed) then (0xfffd, 1)
      else match r with
           | [] => (0xfffd, 2)
           | c :: _ => if cont c then ((a - 0xe0) * 4096 + (b - 128) * 64 + (c - 128), 3) else (0xfffd, 2)
           end
    end
  else if a <? 0xf5 then
    match r with
    | [] => (0xfffd, 1)
    | b :: r =>
      if negb (cont b) || (if b <? 0x90 then a =? 0xf0 else a =? 0xf4) then (0xfffd, 1)
      else match r with
           | [] => (0xfffd, 2)
           | c :: r =>
             if negb (cont c) then (0xfffd, 2)
             else match r with
                  | [] => (0xfffd, 3)
                  | d :: _ => if cont d then ((a - 0xf0) * 262144 + (b - 128) * 4096 + (c - 128) * 64 + (d - 128), 4) else (0xfffd, 3)
                  end
           end
    end
  else (0xfffd, 1).
Fixpoint utf8_replace_loop (fuel : nat) (s : bytes) : pystr :=
  match fuel, s with
  | S f, a :: r => let '(c, n) := utf8_first a r in c :: utf8_replace_loop f (zdrop n s)
  | _, _ => []
  end.
Definition utf8_replace (s : bytes) : pystr := utf8_replace_loop (length s) s.

(** f'{n:,d}' *)
Fixpoint with_commas (ds : pystr) : pystr :=
  match ds with
  | [] => []
  | c :: r => c :: (if match r with [] => false | _ => zlen r mod 3 =? 0 end then [44] else []) ++ with_commas r
  end.
Definition thousands (n : Z) : pystr := if n <? 0 then 45 :: with_commas (str_of_nonneg (- n)) else with_commas (str_of_nonneg n).

(** The library's datetime: _ord2ymd of Lib/datetime.py.  Day 1 is 0001-01-01. *)
Definition days_before_month : list Z := [0; 31; 59; 90; 120; 151; 181; 212; 243; 273; 304; 334].
Definition days_in_month : list Z := [31; 28; 31; 30; 31; 30; 31; 31; 30; 31; 30; 31].
Definition month_entry (l : list Z) (m : Z) : Z := match znth l (m - 1) with Some x => x | None => 0 end.
Definition ord2ymd (n : Z) : Z * Z * Z :=
  let n := n - 1 in
  let n400 := n / 146097 in let n := n mod 146097 in
  let n100 := n / 36524 in let n := n mod 36524 in
  let n4 := n / 1461 in let n := n mod 1461 in
  let n1 := n / 365 in let n := n mod 365 in
  let year := n400 * 400 + 1 + n100 * 100 + n4 * 4 + n1 in
  if (n1 =? 4) || (n100 =? 4) then (year - 1, 12, 31)
  else
    let leap := (n1 =? 3) && (negb (n4 =? 24) || (n100 =? 3)) in
    let month := Z.shiftr (n + 50) 5 in
    let preceding := month_entry days_before_month month + (if (2 <? month) && leap then 1 else 0) in
    let '(month, preceding) :=
      if n <? preceding
      then (month - 1, preceding - (month_entry days_in_month (month - 1) + (if (month - 1 =? 2) && leap then 1 else 0)))
      else (month, preceding) in
    (year, month, n - preceding + 1).
Definition padded (width n : Z) : pystr := let s := str_of_nonneg n in zrepeat 48 (width - zlen s) ++ s.
(** datetime.datetime.utcfromtimestamp(t).isoformat(" ") of an integer from 0; years after 9999 raise ValueError
    (for much larger numbers OverflowError or OSError, not modelled). *)
Definition utc_isoformat (t : Z) : result pystr :=
  let '(y, m, d) := ord2ymd (t / 86400 + 719163) in
  let s := t mod 86400 in
  if 9999 <? y then Err ValueError
  else Ok (padded 4 y ++ [45] ++ padded 2 m ++ [45] ++ padded 2 d ++ [32] ++
           padded 2 (s / 3600) ++ [58] ++ padded 2 (s / 60 mod 60) ++ [58] ++ padded 2 (s mod 60)).

(** tx.py:336-343 [locktime_description] *)
Definition locktime_description (locktime : Z) : result pystr :=
  if locktime =? 0 then Ok (txt "valid in any block")
  else if locktime <? 500000000 then Ok (txt "valid in blocks with height greater than " ++ thousands locktime)
  else utc <- utc_isoformat locktime ;; Ok (txt "valid in blocks with MTP greater than " ++ utc ++ txt " UTC").

(** consts.py:35-46 [JSONFlags] *)
Definition ENUMERATE_INPUTS : Z := 1.
Definition ENUMERATE_OUTPUTS : Z := 2.
Definition JSON_SIZE : Z := 4.
Definition LOCKTIME_MEANING : Z := 8.
Definition flag_set (flags f : Z) : bool := negb (Z.land flags f =? 0).

Definition str_entries (l : list (pystr * pystr)) : json := JDict (map (fun '(k, v) => (k, JStr v)) l).
(** enumerate(l) *)
Fixpoint enumerate_from {A} (n : Z) (l : list A) : list (Z * A) :=
  match l with [] => [] | x :: r => (n, x) :: enumerate_from (n + 1) r end.

Section Json.
  Variable C : curve.
  Variable double_sha256 hash160 : bytes -> bytes.
  Variable der_ok : bytes -> bool.

  (** tx.py:259-276 [TxInput.to_json].  The coin given to the script is None, which it does not look at; here it
      is Bitcoin. *)
  Definition input_to_json (i : tx_input) (flags : Z) (index : option Z) : result json :=
    l <- (if input_is_coinbase i then
            Ok [(txt "coinbase", JStr (to_hex (script_sig i))); (txt "text", JStr (utf8_replace (script_sig i))); (txt "sequence", JInt (sequence i))]
          else
            s <- script_to_json C double_sha256 hash160 der_ok (script_sig i) flags true Bitcoin ;;
            Ok [(txt "hash", JStr (to_hex (prev_hash i))); (txt "idx", JInt (prev_idx i)); (txt "script", str_entries s); (txt "sequence", JInt (sequence i))]) ;;
    Ok (JDict (l ++ match index with Some n => if flag_set flags ENUMERATE_INPUTS then [(txt "nInput", JInt n)] else [] | None => [] end)).

  (** tx.py:321-328 [TxOutput.to_json] *)
  Definition output_to_json (o : tx_output) (flags : Z) (c : coin) (index : option Z) : result json :=
    s <- script_to_json C double_sha256 hash160 der_ok (script_pubkey o) flags false c ;;
    Ok (JDict ([(txt "value", JInt (value o)); (txt "script", str_entries s)] ++
               match index with Some n => if flag_set flags ENUMERATE_OUTPUTS then [(txt "nOutput", JInt n)] else [] | None => [] end)).

  (** tx.py:159-162 [hex_hash] *)
  Definition hex_hash (t : tx) : result (option pystr) :=
    h <- tx_hash double_sha256 t ;; Ok (if zlen h =? 0 then None else Some (hash_to_hex_str h)).

  (** tx.py:182-197 [Tx.to_json] *)
  Definition tx_to_json (t : tx) (flags : Z) (c : coin) : result json :=
    vin <- mapM (fun '(n, i) => input_to_json i flags (Some n)) (enumerate_from 0 (inputs t)) ;;
    vout <- mapM (fun '(n, o) => output_to_json o flags c (Some n)) (enumerate_from 0 (outputs t)) ;;
    h <- hex_hash t ;;
    size <- (if flag_set flags JSON_SIZE then n <- tx_size t ;; Ok [(txt "size", JInt n)] else Ok []) ;;
    meaning <- (if flag_set flags LOCKTIME_MEANING then s <- locktime_description (locktime t) ;; Ok [(txt "locktimeMeaning", JStr s)] else Ok []) ;;
    Ok (JDict ([(txt "version", JInt (version t)); (txt "nInputs", JInt (zlen (inputs t))); (txt "vin", JList vin);
                (txt "nOutputs", JInt (zlen (outputs t))); (txt "vout", JList vout); (txt "locktime", JInt (locktime t));
                (txt "hash", match h with Some s => JStr s | None => JNone end)] ++ size ++ meaning)).
End Json.
