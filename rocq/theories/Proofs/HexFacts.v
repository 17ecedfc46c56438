(** bytes.fromhex: what it gives and raises. *)
From Verif.Model Require Import Py.
From Verif.Proofs Require Import PyFacts.

Lemma hex_val_range c d : hex_val c = Some d -> 0 <= d < 16.
Proof. unfold hex_val. destruct ((48 <=? c) && (c <=? 57)) eqn:E1; [|destruct ((97 <=? c) && (c <=? 102)) eqn:E2; [|destruct ((65 <=? c) && (c <=? 70)) eqn:E3]]; intros HE; try discriminate HE; injection HE as <-; lia. Qed.
Lemma from_hex_spec n : forall s, (length s <= n)%nat -> match from_hex s with Ok b => bytes_ok b = true | Err e => e = ValueError end.
Proof.
  induction n as [|n IH]; intros s HL; [destruct s; [reflexivity|cbn in HL; lia]|]. destruct s as [|c r]; [reflexivity|]. cbn [from_hex length] in *. destruct (is_space c); [apply IH; lia|].
  destruct r as [|d r]; [reflexivity|]. cbn [length] in HL. destruct (hex_val c) as [x|] eqn:EX; [|reflexivity]. destruct (hex_val d) as [y|] eqn:EY; [|reflexivity]. specialize (IH r ltac:(lia)). destruct (from_hex r) as [b|e]; cbn [bind]; [|exact IH].
  apply hex_val_range in EX, EY. rewrite bytes_ok_cons, IH, andb_true_r. apply byte_ok_iff. lia.
Qed.
Lemma from_hex_ok s b : from_hex s = Ok b -> bytes_ok b = true.
Proof. intros HE. pose proof (from_hex_spec (length s) s (le_n _)) as HX. now rewrite HE in HX. Qed.
Lemma from_hex_err s e : from_hex s = Err e -> e = ValueError.
Proof. intros HE. pose proof (from_hex_spec (length s) s (le_n _)) as HX. now rewrite HE in HX. Qed.
