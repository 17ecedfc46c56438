(** Mnemonics, said without the model's arithmetic: BIP39 by its bits, Electrum's by their base. *)
From Verif.Model Require Import Py.

(** The [n] low bits of [v], most significant first. *)
Fixpoint bits (n : nat) (v : Z) : list bool :=
  match n with O => [] | S m => Z.testbit v (Z.of_nat m) :: bits m v end.

(** BIP39: the bits of the entropy followed by the first bits of its hash, one for every 4 bytes of entropy, are
    cut into groups of 11, each the number of a word. *)
Definition bip39_words (sha256 : bytes -> bytes) (wordlist : list pystr) (entropy : bytes) (words : list pystr) : Prop :=
  exists numbers, Forall2 (fun i w => 0 <= i < 2048 /\ znth wordlist i = Some w) numbers words /\
    flat_map (bits 11) numbers = flat_map (bits 8) entropy ++ firstn (length entropy / 4) (flat_map (bits 8) (sha256 entropy)).
Definition bip39_size (n : Z) : Prop := n = 16 \/ n = 20 \/ n = 24 \/ n = 28 \/ n = 32.

(** A word: some characters, none of them white space. *)
Definition word (w : pystr) : Prop := w <> [] /\ forall c, In c w -> is_space_str c = false.
(** Words with one space between them *)
Inductive spaced : list pystr -> pystr -> Prop :=
| spaced_none : spaced [] []
| spaced_one w : spaced [w] w
| spaced_more w v ws t : spaced (v :: ws) t -> spaced (w :: v :: ws) (w ++ 32 :: t).

(** What is used of Unicode normalization and lower case: a space separates, lower case keeps words words, and
    does not change small letters and spaces. *)
Record text_laws (nfkd lower : pystr -> pystr) : Prop := {
  nfkd_space : forall a b, nfkd (a ++ 32 :: b) = nfkd a ++ 32 :: nfkd b;
  lower_space : forall a b, lower (a ++ 32 :: b) = lower a ++ 32 :: lower b;
  lower_word : forall w, word w -> word (lower w);
  lower_small : forall w, (forall c, In c w -> 97 <= c <= 122) -> lower w = w }.

(** A normalized word list without repetitions *)
Definition good_words (nfkd lower : pystr -> pystr) (l : list pystr) : Prop :=
  NoDup l /\ forall w, In w l -> word w /\ nfkd w = w /\ lower w = w.

(** Numbers in base [b], least significant digit first, without leading zeros *)
Inductive written (b : Z) : list Z -> Z -> Prop :=
| written_zero : written b [] 0
| written_more d ds v : 0 <= d < b -> written b ds v -> 0 < d + b * v -> written b (d :: ds) (d + b * v).

(** The text is hexadecimal. *)
Definition hexadecimal (s : pystr) : Prop := forall c, In c s -> 48 <= c <= 57 \/ 97 <= c <= 102 \/ 65 <= c <= 70.

(** White space *)
Definition blank (s : pystr) : Prop := forall c, In c s -> is_space_str c = true.
(** The lines of a word list and its words: blank lines, comments, and words with white space around them *)
Inductive word_lines : list pystr -> list pystr -> Prop :=
| wl_end : word_lines [] []
| wl_blank s lines words : blank s -> word_lines lines words -> word_lines (s :: lines) words
| wl_comment s text lines words : blank s -> word_lines lines words -> word_lines ((s ++ 35 :: text) :: lines) words
| wl_word s c w t lines words : blank s -> blank t -> word (c :: w) -> c <> 35 -> word_lines lines words ->
    word_lines ((s ++ (c :: w) ++ t) :: lines) ((c :: w) :: words).
