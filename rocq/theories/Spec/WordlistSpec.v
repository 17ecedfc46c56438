(** What is used of Unicode for the word lists, and the words of a file. *)
From Verif.Model Require Import Py.
From Verif.Spec Require Import MnemonicSpec.

(** Compatibility decompositions (Unicode Character Database) of letters that have one *)
Definition decompositions : list (Z * list Z) :=
  [(0xe1, [0x61; 0x301]); (0xe9, [0x65; 0x301]); (0xed, [0x69; 0x301]); (0xf1, [0x6e; 0x303]); (0xf3, [0x6f; 0x301]); (0xfa, [0x75; 0x301]);
   (0x304c, [0x304b; 0x3099]); (0x304e, [0x304d; 0x3099]); (0x3050, [0x304f; 0x3099]); (0x3052, [0x3051; 0x3099]); (0x3054, [0x3053; 0x3099]);
   (0x3056, [0x3055; 0x3099]); (0x3058, [0x3057; 0x3099]); (0x305a, [0x3059; 0x3099]); (0x305c, [0x305b; 0x3099]); (0x305e, [0x305d; 0x3099]);
   (0x3060, [0x305f; 0x3099]); (0x3062, [0x3061; 0x3099]); (0x3065, [0x3064; 0x3099]); (0x3067, [0x3066; 0x3099]); (0x3069, [0x3068; 0x3099]);
   (0x3070, [0x306f; 0x3099]); (0x3071, [0x306f; 0x309a]); (0x3073, [0x3072; 0x3099]); (0x3074, [0x3072; 0x309a]); (0x3076, [0x3075; 0x3099]);
   (0x3077, [0x3075; 0x309a]); (0x3079, [0x3078; 0x3099]); (0x307a, [0x3078; 0x309a]); (0x307c, [0x307b; 0x3099]); (0x307d, [0x307b; 0x309a]);
   (0x3094, [0x3046; 0x3099])].
Definition decompose (c : Z) : list Z := match find (fun '(x, _) => x =? c) decompositions with Some (_, l) => l | None => [c] end.

(** Characters whose decomposition is that: ASCII, the accented letters of Spanish, hiragana, unified ideographs *)
Definition simple (c : Z) : Prop :=
  0 <= c < 128 \/ In c [0xe1; 0xe9; 0xed; 0xf1; 0xf3; 0xfa] \/ 0x3041 <= c <= 0x3096 \/ 0x4e00 <= c <= 0x9fff.
(** Characters that are their own lower case: ASCII but capitals, accents, hiragana with its voicing marks, unified ideographs *)
Definition caseless (c : Z) : Prop :=
  0 <= c < 65 \/ 91 <= c < 128 \/ c = 0x301 \/ c = 0x303 \/ 0x3041 <= c <= 0x309a \/ 0x4e00 <= c <= 0x9fff.
Record unicode_laws (nfkd lower : pystr -> pystr) : Prop := {
  ul_text : text_laws nfkd lower;
  ul_simple : forall t, (forall c, In c t -> simple c) -> nfkd t = flat_map decompose t;
  ul_again : forall t, nfkd (nfkd t) = nfkd t;
  ul_lower : forall t, (forall c, In c t -> caseless c) -> lower t = t }.

(** The words, each on its line *)
Definition lines_of (words : list pystr) : pystr := flat_map (fun w => w ++ [10]) words.
