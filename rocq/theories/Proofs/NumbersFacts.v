(** Fixed-width integers and varints meet their independent specification. *)
From Verif.Model Require Import Py Packing.
From Verif.Spec Require Import Numbers.
From Verif.Proofs Require Import PyFacts PackingFacts.

Lemma val_le_int b : val_le b = le_int b.
Proof. unfold val_le. induction b as [|x b IH]; cbn [fold_right le_int]; auto. Qed.
Lemma val_be_rev b : val_be b = le_int (rev b).
Proof.
  unfold val_be. assert (HG : forall acc, fold_left (fun acc d => 256 * acc + d) b acc
    = le_int (rev b) + 2 ^ (8 * zlen b) * acc).
  { induction b as [|x b IH]; intros acc; cbn [fold_left rev].
    - change (2 ^ (8 * zlen [])) with 1. cbn [le_int]. lia.
    - rewrite IH, le_int_app. cbn [le_int]. rewrite zlen_rev.
      assert (2 ^ (8 * zlen (x :: b)) = 256 * 2 ^ (8 * zlen b)) as -> by (unfold zlen; cbn [length]; apply pow256_S).
      ring. }
  rewrite HG. ring.
Qed.

Lemma uint_le_spec n : fixed_width_spec (Z.of_nat n) 0 (2 ^ (8 * Z.of_nat n)) val_le
  (pack_uint_le n) (unpack_uint_le n).
Proof.
  split; [|split; [|split]].
  - intros v Hv. exists (le_digits n v). rewrite pack_uint_le_Ok, le_digits_ok, zlen_le_digits, val_le_int, le_int_digits, unpack_uint_le_digits by auto. auto.
  - intros v Hv. unfold pack_uint_le. replace ((v <? 0) || _) with true by lia. auto.
  - intros b Hb Hl. rewrite val_le_int. pose proof (le_int_bound b Hb) as HB. rewrite Hl in HB.
    unfold unpack_uint_le. rewrite Hl, Z.eqb_refl. split; [auto|]. split; [auto|].
    rewrite pack_uint_le_Ok, le_digits_int; auto. unfold zlen in Hl; lia.
  - intros b Hl. unfold unpack_uint_le. destruct (Z.eqb_spec (zlen b) (Z.of_nat n)); [lia|auto].
Qed.
Lemma uint_be_spec n : fixed_width_spec (Z.of_nat n) 0 (2 ^ (8 * Z.of_nat n)) val_be
  (pack_uint_be n) (unpack_uint_be n).
Proof.
  destruct (uint_le_spec n) as (A & B & C & D). split; [|split; [|split]].
  - intros v Hv. destruct (A v Hv) as (b & Hb & Ob & Lb & Vb & Ub). exists (rev b).
    unfold pack_uint_be, unpack_uint_be. rewrite Hb, bytes_ok_rev, zlen_rev, val_be_rev, rev_involutive.
    rewrite val_le_int in Vb. auto.
  - intros v Hv. unfold pack_uint_be. rewrite B by auto. reflexivity.
  - intros b Hb Hl. rewrite val_be_rev. unfold pack_uint_be, unpack_uint_be.
    destruct (C (rev b)) as (C1 & C2 & C3); [now rewrite bytes_ok_rev|now rewrite zlen_rev|].
    rewrite val_le_int in *. rewrite C1, C3. cbn [bind]. rewrite rev_involutive. auto.
  - intros b Hl. unfold unpack_uint_be. apply D. now rewrite zlen_rev.
Qed.
Lemma int_le_spec n : (0 < n)%nat -> fixed_width_spec (Z.of_nat n)
  (- 2 ^ (8 * Z.of_nat n - 1)) (2 ^ (8 * Z.of_nat n - 1)) val_signed_le
  (pack_int_le n) (unpack_int_le n).
Proof.
  intros Hn.
  assert (HU : forall b, zlen b = Z.of_nat n -> unpack_int_le n b = Ok (val_signed_le b)).
  { intros b Hl. unfold unpack_int_le, val_signed_le. rewrite Hl, Z.eqb_refl. replace (val_le b) with (le_int b) by (symmetry; apply val_le_int).
    rewrite (pow_half n) by lia.
    destruct (Z.leb_spec (2 ^ (8 * Z.of_nat n - 1)) (le_int b)), (Z.ltb_spec (le_int b) (2 ^ (8 * Z.of_nat n - 1))); auto; lia. }
  split; [|split; [|split]].
  - intros v Hv. exists (le_digits n (v mod 2 ^ (8 * Z.of_nat n))).
    pose proof (unpack_int_le_digits n v Hn Hv) as E.
    rewrite pack_int_le_Ok, le_digits_ok, zlen_le_digits by auto. split; [auto|]. split; [auto|]. split; [auto|]. split; [|auto].
    rewrite HU in E by apply zlen_le_digits. congruence.
  - intros v Hv. unfold pack_int_le. replace ((v <? _) || _) with true by lia. auto.
  - intros b Hb Hl. specialize (HU b Hl). split; [auto|].
    destruct (pack_unpack_int_le n b _ Hn Hb HU). auto.
  - intros b Hl. unfold unpack_int_le. destruct (Z.eqb_spec (zlen b) (Z.of_nat n)); [lia|auto].
Qed.

(** Every one of the module's functions. *)
Lemma all_fixed_width :
  fixed_width_spec 4 (- 2 ^ 31) (2 ^ 31) val_signed_le pack_le_int32 unpack_le_int32 /\
  fixed_width_spec 8 (- 2 ^ 63) (2 ^ 63) val_signed_le pack_le_int64 unpack_le_int64 /\
  fixed_width_spec 2 0 (2 ^ 16) val_le pack_le_uint16 unpack_le_uint16 /\
  fixed_width_spec 4 0 (2 ^ 32) val_le pack_le_uint32 unpack_le_uint32 /\
  fixed_width_spec 8 0 (2 ^ 64) val_le pack_le_uint64 unpack_le_uint64 /\
  fixed_width_spec 2 0 (2 ^ 16) val_be pack_be_uint16 unpack_be_uint16 /\
  fixed_width_spec 4 0 (2 ^ 32) val_be pack_be_uint32 unpack_be_uint32 /\
  fixed_width_spec 8 0 (2 ^ 64) val_be pack_be_uint64 unpack_be_uint64 /\
  fixed_width_spec 1 0 256 val_le pack_byte unpack_byte.
Proof.
  split; [apply (int_le_spec 4); lia|]. split; [apply (int_le_spec 8); lia|].
  split; [apply (uint_le_spec 2)|]. split; [apply (uint_le_spec 4)|]. split; [apply (uint_le_spec 8)|].
  split; [apply (uint_be_spec 2)|]. split; [apply (uint_be_spec 4)|]. split; [apply (uint_be_spec 8)|].
  apply (uint_le_spec 1).
Qed.

Lemma varint_spec n rest : 0 <= n < 2 ^ 64 ->
  exists b, pack_varint n = Ok b /\ bytes_ok b = true /\ read_varint (b ++ rest) = Ok (n, rest)
    /\ varint_len n = Ok (zlen b).
Proof.
  intros Hn. destruct (c_enc varint_codec n Hn) as (b & Hb & Ob). exists b.
  split; [auto|]. split; [auto|]. split; [apply (c_rt varint_codec); auto|]. now apply varint_len_spec.
Qed.
Lemma varint_shortest s n rest : bytes_ok s = true -> read_varint s = Ok (n, rest) ->
  0 <= n < 2 ^ 64 /\ exists c b, s = c ++ rest /\ pack_varint n = Ok b /\ zlen b <= zlen c /\
    (zlen b = zlen c -> b = c).
Proof.
  intros Hs H. destruct (c_dec varint_codec _ _ _ Hs H) as (W & c & b & -> & _ & E & Z1 & U).
  split; [auto|]. exists c, b. auto.
Qed.
Lemma varbytes_roundtrip d rest : bytes_ok d = true -> zlen d < 2 ^ 63 ->
  exists b, pack_varbytes d = Ok b /\ bytes_ok b = true /\ read_varbytes (b ++ rest) = Ok (d, rest) /\
    forall p q, b = p ++ q -> q <> [] -> exists e, read_varbytes p = Err e.
Proof.
  intros Hd Hl. destruct (c_enc varbytes_codec d (conj Hd Hl)) as (b & Hb & Ob). exists b.
  split; [auto|]. split; [auto|]. split; [apply (c_rt varbytes_codec); auto; split; auto|].
  intros p q HE Hq. eapply (codec_trunc _ _ _ varbytes_codec d b p q); auto. split; auto.
Qed.
(** Lists: for any item codec that round-trips whatever follows. *)
Lemma list_roundtrip {A} (pack_one : A -> result bytes) (read_one : reader A) (l : list A) rest :
  (forall x, In x l -> exists b, pack_one x = Ok b /\ forall s, read_one (b ++ s) = Ok (x, s)) ->
  zlen l < 2 ^ 64 ->
  exists b, pack_list l pack_one = Ok b /\ read_list read_one (b ++ rest) = Ok (l, rest).
Proof.
  intros Hr Hl. pose proof (zlen_nonneg l).
  destruct (c_enc varint_codec (zlen l)) as (p & Hp & _); [unfold varint_range; lia|].
  assert (HI : exists bs, mapM pack_one l = Ok bs /\ read_nat read_one (length l) (concat bs ++ rest) = Ok (l, rest)).
  { clear Hl Hp. induction l as [|x l IH]; [exists []; split; reflexivity|].
    destruct (Hr x) as (b & Hb & Hbr); [left; auto|].
    destruct IH as (bs & Hbs & Hbsr); [intros; apply Hr; right; auto|apply zlen_nonneg|].
    exists (b :: bs). cbn [mapM length read_nat concat]. rewrite Hb, Hbs. split; [reflexivity|].
    rewrite <- app_assoc, Hbr. cbn [bind]. rewrite Hbsr. reflexivity. }
  destruct HI as (bs & Hbs & Hrd). unfold pack_list. rewrite Hp, Hbs. cbn [bind concat].
  eexists; split; [reflexivity|]. unfold read_list. rewrite <- app_assoc.
  rewrite (c_rt varint_codec (zlen l)) by (auto; unfold varint_range; lia). cbn [bind].
  rewrite read_count_nat. unfold zlen. now rewrite Nat2Z.id.
Qed.
