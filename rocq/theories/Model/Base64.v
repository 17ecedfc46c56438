(** The base64 module's b64encode and b64decode(s, validate=True), called at signature.py:151-155, keys.py:272-274,
    297-301 and 540-542. *)
From Verif.Model Require Import Py Text.

(** Arguments that may be text or bytes *)
Inductive text_or_bytes := AsText (t : pystr) | AsBytes (b : bytes).

Definition b64_alphabet : pystr := txt "ABCDEFGHIJKLMNOPQRSTUVWXYZabcdefghijklmnopqrstuvwxyz0123456789+/".
Definition b64_char (v : Z) : Z := match znth b64_alphabet v with Some c => c | None => 0 end.
(** [b64encode(b).decode()]: three bytes make four characters; the last group is padded with '='. *)
Fixpoint b64encode (b : bytes) : pystr :=
  match b with
  | x :: y :: z :: r =>
    [b64_char (x / 4); b64_char (x mod 4 * 16 + y / 16); b64_char (y mod 16 * 4 + z / 64); b64_char (z mod 64)] ++ b64encode r
  | [x; y] => [b64_char (x / 4); b64_char (x mod 4 * 16 + y / 16); b64_char (y mod 16 * 4); 61]
  | [x] => [b64_char (x / 4); b64_char (x mod 4 * 16); 61; 61]
  | [] => []
  end.

(** The value of a character in the alphabet. *)
Fixpoint find_char (l : pystr) (c : Z) : option Z :=
  match l with [] => None | x :: r => if x =? c then Some 0 else option_map Z.succ (find_char r c) end.
Definition b64_val (c : Z) : option Z := find_char b64_alphabet c.
(** The values of the longest prefix of characters in the alphabet, and the rest. *)
Fixpoint b64_span (s : pystr) : list Z * pystr :=
  match s with
  | [] => ([], [])
  | c :: r => match b64_val c with Some v => let '(l, t) := b64_span r in (v :: l, t) | None => ([], s) end
  end.
(** The loop of binascii.a2b_base64 on alphabet characters: position in the group of four, left-over bits. *)
Fixpoint a2b (quad_pos leftchar : Z) (l : list Z) : bytes :=
  match l with
  | [] => []
  | v :: r =>
    if quad_pos =? 0 then a2b 1 v r
    else if quad_pos =? 1 then leftchar * 4 + v / 16 :: a2b 2 (v mod 16) r
    else if quad_pos =? 2 then leftchar * 16 + v / 4 :: a2b 3 (v mod 4) r
    else leftchar * 64 + v :: a2b 0 0 r
  end.

Section Decode.
  (** Whether this version of Python accepts so many alphabet characters followed by so many '=' where fewer
      would do (before 3.11 all do). *)
  Variable excess_ok : Z -> Z -> bool.

  (** [b64decode(s, validate=True)] of a str: ValueError if it is not ASCII; binascii.Error unless it is
      [A-Za-z0-9+/]* followed by at most two '=' and the '=' complete the last group.  (Python 3.7 also
      accepts a final newline; not modelled.) *)
  Definition b64decode (s : pystr) : result bytes :=
    if negb (forallb (fun c => (0 <=? c) && (c <? 128)) s) then Err ValueError
    else
      let '(l, t) := b64_span s in
      if negb (bytes_eqb t (zrepeat 61 (zlen t)) && (zlen t <=? 2)) then Err BinasciiError
      else
        let m := zlen l mod 4 in
        let need := if m =? 0 then 0 else 4 - m in
        if (m =? 1) || (zlen t <? need) then Err BinasciiError
        else if (need <? zlen t) && negb (excess_ok (zlen l) (zlen t)) then Err BinasciiError
        else Ok (a2b 0 0 l).
End Decode.
