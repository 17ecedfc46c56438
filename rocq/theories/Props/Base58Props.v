(** Base58: C45 and C46. *)
From Verif.Model Require Import Py Text Misc Base58.
From Verif.Spec Require Import Numbers Base58Spec.
From Verif.Proofs Require Import PyFacts NumbersFacts Base58Facts.

(** C45 *)
Theorem C45_decode_encode (b : bytes) : bytes_ok b = true -> b <> [] -> base58_decode (base58_encode b) = Ok b.
Proof. exact (decode_encode b). Qed.
Theorem C45_encode_decode (t : pystr) b : base58_decode t = Ok b -> base58_encode b = t /\ bytes_ok b = true /\ b <> [].
Proof. exact (encode_decode t b). Qed.
Theorem C45_domain (t : pystr) :
  (t <> [] /\ (forall c, In c t -> In c alphabet) -> exists b, base58_decode t = Ok b) /\
  (~ (t <> [] /\ (forall c, In c t -> In c alphabet)) -> base58_decode t = Err Base58Error).
Proof. exact (decode_domain t). Qed.
(** What the text means: the same number in base 58 and in base 256, with as many zeros in front. *)
Theorem C45_meaning (t : pystr) b : base58_decode t = Ok b -> base58_of t b.
Proof. exact (decode_value_spec t b). Qed.
Print Assumptions C45_decode_encode.
Print Assumptions C45_encode_decode.
Print Assumptions C45_domain.
Print Assumptions C45_meaning.
Example C45_ex : base58_encode [0; 0; 1; 255; 7] = txt "11fta" /\ base58_decode (txt "11fta") = Ok [0; 0; 1; 255; 7] /\
  base58_decode (txt "1l") = Err Base58Error /\ base58_decode [] = Err Base58Error.
Proof. vm_compute. repeat split. Qed.

(** C46, for any hash function with 32 bytes of output *)
Theorem C46_decode_encode (H : bytes -> bytes) :
  (forall x, bytes_ok (H x) = true) -> (forall x, zlen (H x) = 32) ->
  forall p, bytes_ok p = true -> base58_decode_check H (base58_encode_check H p) = Ok p.
Proof. exact (decode_check_encode H). Qed.
Theorem C46_only_own_encodings (H : bytes -> bytes) t p :
  base58_decode_check H t = Ok p -> t = base58_encode_check H p /\ bytes_ok p = true.
Proof. exact (decode_check_inv H t p). Qed.
(** The encoding of the payload followed by the first four bytes of its hash. *)
Theorem C46_meaning (H : bytes -> bytes) t p : (forall x, zlen (H x) = 32) ->
  base58_decode_check H t = Ok p -> base58_of t (p ++ firstn 4 (H p)).
Proof.
  intros HL HD. apply decode_check_inv in HD as HI. destruct HI as [_ Hok]. unfold base58_decode_check in HD.
  apply bind_Ok in HD as (b & HB & HD). cbv zeta in HD. destruct (bytes_eqb_spec (slice_from b (-4)) (slice_to (H (slice_to b (-4))) 4)) as [HC|]; [|discriminate].
  injection HD as <-. apply decode_value_spec in HB. rewrite <- (split_last4 b) in HB. rewrite HC in HB.
  rewrite (slice_to_nonneg (H _) 4) in HB by lia. rewrite ztake_firstn in HB. exact HB.
Qed.
Theorem C46_only_Base58Error (H : bytes -> bytes) t e : base58_decode_check H t = Err e -> e = Base58Error.
Proof. exact (decode_check_err H t e). Qed.
Print Assumptions C46_decode_encode.
Print Assumptions C46_only_own_encodings.
Print Assumptions C46_meaning.
Print Assumptions C46_only_Base58Error.
(** A function with 32 bytes of output. *)
Definition toy_hash (x : bytes) : bytes := zrepeat (be_int x mod 256) 32.
Lemma toy_hash_ok : (forall x, bytes_ok (toy_hash x) = true) /\ (forall x, zlen (toy_hash x) = 32).
Proof.
  split; intros x; [|reflexivity]. unfold toy_hash, bytes_ok, zrepeat. apply forallb_forall. intros y Hy. apply repeat_spec in Hy. subst.
  pose proof (Z.mod_pos_bound (be_int x) 256 ltac:(lia)). unfold byte_ok. apply andb_true_iff. split; [apply Z.leb_le|apply Z.ltb_lt]; lia.
Qed.
Example C46_ex : base58_decode_check toy_hash (base58_encode_check toy_hash [0; 5; 9]) = Ok [0; 5; 9] /\
  base58_decode_check toy_hash (base58_encode [0; 5; 9; 9; 9; 9; 8]) = Err Base58Error.
Proof. vm_compute. repeat split. Qed.
