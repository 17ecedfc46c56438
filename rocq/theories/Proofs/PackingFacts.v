(** Proofs about packing: fixed-width integers, varints, length-prefixed data and lists. *)
From Verif.Model Require Import Py Packing.
From Verif.Proofs Require Import PyFacts.

(** ** Fixed-width integers *)
Lemma pack_uint_le_ok n v : (exists b, pack_uint_le n v = Ok b) <-> 0 <= v < 2 ^ (8 * Z.of_nat n).
Proof.
  unfold pack_uint_le. split.
  - intros [b H]. destruct ((v <? 0) || _) eqn:E; [discriminate|]. lia.
  - intros H. replace ((v <? 0) || _) with false by lia. eauto.
Qed.
Lemma pack_uint_le_inv n v b : pack_uint_le n v = Ok b ->
  0 <= v < 2 ^ (8 * Z.of_nat n) /\ b = le_digits n v.
Proof.
  unfold pack_uint_le. destruct ((v <? 0) || _) eqn:E; [discriminate|]. intros [= <-]. split; [lia|auto].
Qed.
Lemma pack_uint_le_Ok n v : 0 <= v < 2 ^ (8 * Z.of_nat n) -> pack_uint_le n v = Ok (le_digits n v).
Proof. intros H. unfold pack_uint_le. replace ((v <? 0) || _) with false by lia. auto. Qed.
Lemma unpack_uint_le_digits n v : 0 <= v < 2 ^ (8 * Z.of_nat n) ->
  unpack_uint_le n (le_digits n v) = Ok v.
Proof.
  intros H. unfold unpack_uint_le. rewrite zlen_le_digits, Z.eqb_refl, le_int_digits; auto.
Qed.
Lemma pow_half n : (0 < n)%nat -> 2 ^ (8 * Z.of_nat n) = 2 * 2 ^ (8 * Z.of_nat n - 1).
Proof.
  intros H. rewrite <- (Z.pow_succ_r 2) by lia. f_equal. lia.
Qed.
Lemma pack_int_le_inv n v b : (0 < n)%nat -> pack_int_le n v = Ok b ->
  - 2 ^ (8 * Z.of_nat n - 1) <= v < 2 ^ (8 * Z.of_nat n - 1)
  /\ b = le_digits n (v mod 2 ^ (8 * Z.of_nat n)).
Proof.
  intros Hn. unfold pack_int_le. rewrite (pow_half n) by lia.
  destruct ((v <? _) || _) eqn:E; [discriminate|]. intros [= <-]. split; [lia|auto].
Qed.
Lemma pack_int_le_Ok n v : (0 < n)%nat ->
  - 2 ^ (8 * Z.of_nat n - 1) <= v < 2 ^ (8 * Z.of_nat n - 1) ->
  pack_int_le n v = Ok (le_digits n (v mod 2 ^ (8 * Z.of_nat n))).
Proof.
  intros Hn H. unfold pack_int_le. rewrite (pow_half n) by lia.
  replace ((v <? _) || _) with false by lia. auto.
Qed.
Lemma signed_mod h v : 0 < h -> - h <= v < h ->
  v mod (2 * h) = if v <? 0 then v + 2 * h else v.
Proof.
  intros Hh Hv. destruct (Z.ltb_spec v 0).
  - symmetry. apply (Z.mod_unique_pos v (2 * h) (-1)); lia.
  - apply Z.mod_small. lia.
Qed.
Lemma unpack_int_le_digits n v : (0 < n)%nat ->
  - 2 ^ (8 * Z.of_nat n - 1) <= v < 2 ^ (8 * Z.of_nat n - 1) ->
  unpack_int_le n (le_digits n (v mod 2 ^ (8 * Z.of_nat n))) = Ok v.
Proof.
  intros Hn H. unfold unpack_int_le. rewrite zlen_le_digits, Z.eqb_refl.
  assert (0 < 2 ^ (8 * Z.of_nat n - 1)) by (apply Z.pow_pos_nonneg; lia).
  rewrite le_int_digits by (apply Z.mod_pos_bound; rewrite pow_half by lia; lia).
  rewrite (pow_half n) by lia. rewrite signed_mod by lia. f_equal.
  destruct (Z.ltb_spec v 0).
  - destruct (Z.leb_spec (2 ^ (8 * Z.of_nat n - 1)) (v + 2 * 2 ^ (8 * Z.of_nat n - 1))); lia.
  - destruct (Z.leb_spec (2 ^ (8 * Z.of_nat n - 1)) v); lia.
Qed.

(** Packing what was unpacked. *)
Lemma pack_unpack_uint_le n b v : bytes_ok b = true -> unpack_uint_le n b = Ok v ->
  0 <= v < 2 ^ (8 * Z.of_nat n) /\ pack_uint_le n v = Ok b.
Proof.
  intros Hb. unfold unpack_uint_le. destruct (Z.eqb_spec (zlen b) (Z.of_nat n)); [|discriminate].
  intros [= <-]. pose proof (le_int_bound b Hb) as HB. rewrite e in HB. split; [lia|].
  rewrite pack_uint_le_Ok by lia. rewrite le_digits_int; auto. unfold zlen in e; lia.
Qed.
Lemma pack_unpack_int_le n b v : (0 < n)%nat -> bytes_ok b = true -> unpack_int_le n b = Ok v ->
  - 2 ^ (8 * Z.of_nat n - 1) <= v < 2 ^ (8 * Z.of_nat n - 1) /\ pack_int_le n v = Ok b.
Proof.
  intros Hn Hb. unfold unpack_int_le. destruct (Z.eqb_spec (zlen b) (Z.of_nat n)); [|discriminate].
  intros [= <-]. pose proof (le_int_bound b Hb) as HB. rewrite e in HB.
  rewrite (pow_half n) in HB by lia.
  match goal with |- context [pack_int_le n ?v] => assert (Hv : - 2 ^ (8 * Z.of_nat n - 1) <= v < 2 ^ (8 * Z.of_nat n - 1)) end.
  { destruct (Z.leb_spec (2 ^ (8 * Z.of_nat n - 1)) (le_int b)); lia. }
  split; [exact Hv|].
  rewrite pack_int_le_Ok by (lia || exact Hv).
  rewrite pow_half by lia. rewrite signed_mod by (try exact Hv; lia).
  f_equal. etransitivity; [|apply le_digits_int with (n := n); auto; unfold zlen in e; lia].
  f_equal. destruct (Z.leb_spec (2 ^ (8 * Z.of_nat n - 1)) (le_int b)).
  - destruct (Z.ltb_spec (le_int b - 2 * 2 ^ (8 * Z.of_nat n - 1)) 0); lia.
  - destruct (Z.ltb_spec (le_int b) 0); lia.
Qed.

(** ** Codecs: an encoder, a stream decoder and the values they handle *)
Record codec {A} (wf : A -> Prop) (enc : A -> result bytes) (dec : reader A) : Prop := {
  c_enc : forall a, wf a -> exists b, enc a = Ok b /\ bytes_ok b = true;
  c_rt : forall a b s, wf a -> enc a = Ok b -> dec (b ++ s) = Ok (a, s);
  c_dec : forall s a s', bytes_ok s = true -> dec s = Ok (a, s') ->
    wf a /\ exists c b, s = c ++ s' /\ (forall t, dec (c ++ t) = Ok (a, t))
      /\ enc a = Ok b /\ zlen b <= zlen c /\ (zlen b = zlen c -> b = c)
}.
Arguments c_enc {A wf enc dec}.
Arguments c_rt {A wf enc dec}.
Arguments c_dec {A wf enc dec}.

(** Truncated encodings are rejected. *)
Lemma codec_trunc {A} wf enc dec (C : @codec A wf enc dec) a b p q :
  wf a -> enc a = Ok b -> b = p ++ q -> q <> [] -> exists e, dec p = Err e.
Proof.
  intros Hw He Hb Hq. destruct (dec p) as [[a' r]|e] eqn:E; [|eauto].
  exfalso. destruct (c_enc C a Hw) as (b' & Hb' & Hok). rewrite He in Hb'. injection Hb' as <-.
  subst b. rewrite bytes_ok_app in Hok. apply andb_true_iff in Hok as [Hok _].
  destruct (c_dec C _ _ _ Hok E) as (_ & c & b' & -> & HL & _).
  pose proof (c_rt C a _ [] Hw He) as HR. rewrite app_nil_r, <- app_assoc, HL in HR.
  injection HR as _ HR. apply app_eq_nil in HR as [_ HR]. auto.
Qed.

Lemma codec_pair {A B} wa ea da wb eb db (CA : @codec A wa ea da) (CB : @codec B wb eb db) :
  codec (fun p => wa (fst p) /\ wb (snd p))
    (fun p => x <- ea (fst p) ;; y <- eb (snd p) ;; Ok (x ++ y))
    (fun s => '(a, s) <- da s ;; '(b, s) <- db s ;; Ok ((a, b), s)).
Proof.
  constructor.
  - intros [a b] [Ha Hb]; cbn [fst snd] in *.
    destruct (c_enc CA a Ha) as (x & Hx & Ox), (c_enc CB b Hb) as (y & Hy & Oy).
    rewrite Hx, Hy. cbn [bind]. eexists; split; [reflexivity|]. now rewrite bytes_ok_app, Ox, Oy.
  - intros [a b] r s [Ha Hb] H; cbn [fst snd] in *. bind_inv H. injection H as <-.
    rewrite <- app_assoc, (c_rt CA a) by auto. cbn [bind]. rewrite (c_rt CB b) by auto. reflexivity.
  - intros s [a b] s' Hs H. bind_inv H. injection H as <- <- <-.
    destruct (c_dec CA _ _ _ Hs E) as (Wa & ca & ba & -> & La & Ea & Za & Ua).
    rewrite bytes_ok_app in Hs. apply andb_true_iff in Hs as [_ Hs].
    destruct (c_dec CB _ _ _ Hs E0) as (Wb & cb & bb & -> & Lb & Eb & Zb & Ub).
    split; [auto|]. exists (ca ++ cb), (ba ++ bb). cbn [fst snd].
    split; [now rewrite app_assoc|]. split.
    { intros t. rewrite <- app_assoc, La. cbn [bind]. rewrite Lb. reflexivity. }
    rewrite Ea, Eb. split; [reflexivity|]. rewrite !zlen_app. split; [lia|].
    intros HE. f_equal; [apply Ua|apply Ub]; lia.
Qed.

(** Change the type of values. *)
Lemma codec_iso {A B} (f : A -> B) (g : B -> A) wa ea da (wb : B -> Prop) eb db
  (CA : @codec A wa ea da) :
  (forall a, wa a -> wb (f a)) -> (forall b, wb b -> wa (g b)) ->
  (forall b, f (g b) = b) -> (forall a, g (f a) = a) ->
  (forall b, eb b = ea (g b)) ->
  (forall s, db s = ('(a, s) <- da s ;; Ok (f a, s))) ->
  @codec B wb eb db.
Proof.
  intros Hf Hg Hfg Hgf He Hd. constructor.
  - intros b Hb. rewrite He. apply (c_enc CA). auto.
  - intros b r s Hb H. rewrite He in H. rewrite Hd, (c_rt CA _ _ _ (Hg _ Hb) H). cbn [bind].
    now rewrite Hfg.
  - intros s b s' Hs H. rewrite Hd in H. bind_inv H. injection H as <- <-.
    destruct (c_dec CA _ _ _ Hs E) as (Wa & c & r & -> & L & Ea & Z1 & U).
    split; [auto|]. exists c, r. split; [auto|]. split.
    { intros t. rewrite Hd, L. reflexivity. }
    rewrite He, Hgf. auto.
Qed.

Lemma codec_ext {A} (w1 w2 : A -> Prop) e1 e2 d1 d2 : codec w1 e1 d1 ->
  (forall a, w1 a <-> w2 a) -> (forall a, e1 a = e2 a) -> (forall s, d1 s = d2 s) -> codec w2 e2 d2.
Proof.
  intros C Hw He Hd. apply (codec_iso (fun a => a) (fun a => a) w1 e1 d1 w2 e2 d2 C); auto.
  - intros; now apply Hw.
  - intros; now apply Hw.
  - intros s. rewrite <- Hd. destruct (d1 s) as [[? ?]|]; reflexivity.
Qed.

(** Reading a fixed number of bytes. *)
Lemma read_app n b s : zlen b = n -> n < 2 ^ 63 -> read n (b ++ s) = Ok (b, s).
Proof.
  intros H Hn. unfold read. replace (2 ^ 63 <=? n) with false by lia.
  now rewrite ztake_app_exact, zdrop_app_exact by auto.
Qed.
Lemma read_inv n s b s' : read n s = Ok (b, s') ->
  n < 2 ^ 63 /\ b = ztake n s /\ s' = zdrop n s.
Proof.
  unfold read. destruct (Z.leb_spec (2 ^ 63) n); [discriminate|]. intros [= <- <-]. auto.
Qed.

Lemma codec_fixed n (wf : Z -> Prop) pack unpack :
  Z.of_nat n < 2 ^ 63 ->
  (forall v, wf v -> exists b, pack v = Ok b /\ bytes_ok b = true /\ zlen b = Z.of_nat n
                               /\ unpack b = Ok v) ->
  (forall b v, bytes_ok b = true -> unpack b = Ok v -> zlen b = Z.of_nat n /\ wf v /\ pack v = Ok b) ->
  codec wf pack (read_fixed n unpack).
Proof.
  intros Hn Hp Hu. constructor.
  - intros v Hv. destruct (Hp v Hv) as (b & ? & ? & _). eauto.
  - intros v b s Hv Hb. destruct (Hp v Hv) as (b' & Hb' & _ & Hl & Hu').
    rewrite Hb in Hb'. injection Hb' as <-. unfold read_fixed. rewrite read_app by auto.
    cbn [bind]. rewrite Hu'. reflexivity.
  - intros s v s' Hs H. unfold read_fixed in H. bind_inv H. injection H as <- <-.
    apply read_inv in E as (_ & -> & ->).
    destruct (Hu _ _ (bytes_ok_ztake _ _ Hs) E0) as (Hl & Hw & Hpk).
    split; [auto|]. exists (ztake (Z.of_nat n) s), (ztake (Z.of_nat n) s).
    split; [now rewrite ztake_zdrop|]. split.
    { intros t. unfold read_fixed. rewrite read_app by auto. cbn [bind]. rewrite E0. reflexivity. }
    rewrite Hpk. repeat split; auto; lia.
Qed.

Definition uint_range (n : nat) (v : Z) : Prop := 0 <= v < 2 ^ (8 * Z.of_nat n).
Definition sint_range (n : nat) (v : Z) : Prop :=
  - 2 ^ (8 * Z.of_nat n - 1) <= v < 2 ^ (8 * Z.of_nat n - 1).

Lemma codec_uint_le n : Z.of_nat n < 2 ^ 63 ->
  codec (uint_range n) (pack_uint_le n) (read_fixed n (unpack_uint_le n)).
Proof.
  intros Hn. apply codec_fixed; auto.
  - intros v Hv. exists (le_digits n v).
    rewrite pack_uint_le_Ok, le_digits_ok, zlen_le_digits, unpack_uint_le_digits by auto. auto.
  - intros b v Hb Hv. destruct (pack_unpack_uint_le n b v Hb Hv). split; [|auto].
    unfold unpack_uint_le in Hv. destruct (Z.eqb_spec (zlen b) (Z.of_nat n)); [auto|discriminate].
Qed.
Lemma codec_int_le n : (0 < n)%nat -> Z.of_nat n < 2 ^ 63 ->
  codec (sint_range n) (pack_int_le n) (read_fixed n (unpack_int_le n)).
Proof.
  intros Hn0 Hn. apply codec_fixed; auto.
  - intros v Hv. exists (le_digits n (v mod 2 ^ (8 * Z.of_nat n))).
    rewrite pack_int_le_Ok, le_digits_ok, zlen_le_digits, unpack_int_le_digits by auto. auto.
  - intros b v Hb Hv. destruct (pack_unpack_int_le n b v Hn0 Hb Hv). split; [|auto].
    unfold unpack_int_le in Hv. destruct (Z.eqb_spec (zlen b) (Z.of_nat n)); [auto|discriminate].
Qed.

(** ** varint *)
Lemma uint16_codec : codec (uint_range 2) pack_le_uint16 read_le_uint16.
Proof. apply codec_uint_le. lia. Qed.
Lemma uint32_codec : codec (uint_range 4) pack_le_uint32 read_le_uint32.
Proof. apply codec_uint_le. lia. Qed.
Lemma uint64_codec : codec (uint_range 8) pack_le_uint64 read_le_uint64.
Proof. apply codec_uint_le. lia. Qed.
Lemma byte_codec : codec (uint_range 1) pack_byte (read_fixed 1 unpack_byte).
Proof. apply codec_uint_le. lia. Qed.
Lemma int32_codec : codec (sint_range 4) pack_le_int32 read_le_int32.
Proof. apply codec_int_le; lia. Qed.
Lemma int64_codec : codec (sint_range 8) pack_le_int64 read_le_int64.
Proof. apply codec_int_le; lia. Qed.

Definition varint_range (v : Z) : Prop := 0 <= v < 2 ^ 64.

Lemma pack_varint_cases n :
  (0 <= n < 253 /\ pack_varint n = Ok (le_digits 1 n)) \/
  (253 <= n < 65536 /\ pack_varint n = Ok (253 :: le_digits 2 n)) \/
  (65536 <= n < 4294967296 /\ pack_varint n = Ok (254 :: le_digits 4 n)) \/
  (4294967296 <= n < 2 ^ 64 /\ pack_varint n = Ok (255 :: le_digits 8 n)) \/
  (~ varint_range n /\ pack_varint n = Err StructError).
Proof.
  unfold pack_varint, varint_range.
  destruct (Z.ltb_spec n 253).
  - destruct (Z.ltb_spec n 0).
    + do 4 right. split; [lia|]. unfold pack_byte, pack_uint_le.
      replace (n <? 0) with true by lia. reflexivity.
    + left. split; [lia|]. unfold pack_byte. rewrite pack_uint_le_Ok; auto.
      change (8 * Z.of_nat 1) with 8. lia.
  - destruct (Z.ltb_spec n 65536).
    + right; left. split; [lia|]. unfold pack_le_uint16. rewrite pack_uint_le_Ok; auto.
      change (8 * Z.of_nat 2) with 16. lia.
    + destruct (Z.ltb_spec n 4294967296).
      * do 2 right; left. split; [lia|]. unfold pack_le_uint32. rewrite pack_uint_le_Ok; auto.
        change (8 * Z.of_nat 4) with 32. lia.
      * unfold pack_le_uint64, pack_uint_le. change (8 * Z.of_nat 8) with 64.
        destruct ((n <? 0) || (2 ^ 64 <=? n)) eqn:E.
        -- do 4 right. split; [lia|auto].
        -- do 3 right; left. split; [lia|auto].
Qed.

Lemma read_varint_1 x s : 0 <= x < 253 -> read_varint (x :: s) = Ok (x, s).
Proof.
  intros H. unfold read_varint.
  pose proof (c_rt byte_codec x (le_digits 1 x) s) as HR.
  assert (uint_range 1 x) as Hx by (unfold uint_range; change (8 * Z.of_nat 1) with 8; lia).
  unfold pack_byte in HR. rewrite (pack_uint_le_Ok 1 x) in HR by auto. cbn [le_digits app] in HR.
  rewrite Z.mod_small in HR by lia. rewrite HR by auto. cbn [bind].
  replace (x <? 253) with true by lia. reflexivity.
Qed.
Lemma read_varint_tag x s : 253 <= x < 256 ->
  read_varint (x :: s) = if x =? 253 then read_le_uint16 s
                         else if x =? 254 then read_le_uint32 s else read_le_uint64 s.
Proof.
  intros H. unfold read_varint.
  pose proof (c_rt byte_codec x (le_digits 1 x) s) as HR.
  assert (uint_range 1 x) as Hx by (unfold uint_range; change (8 * Z.of_nat 1) with 8; lia).
  unfold pack_byte in HR. rewrite (pack_uint_le_Ok 1 x) in HR by auto. cbn [le_digits app] in HR.
  rewrite Z.mod_small in HR by lia. rewrite HR by auto. cbn [bind].
  replace (x <? 253) with false by lia. reflexivity.
Qed.
Lemma read_varint_nil : read_varint [] = Err StructError.
Proof. reflexivity. Qed.

Lemma varint_codec : codec varint_range pack_varint read_varint.
Proof.
  constructor.
  - intros n Hn. destruct (pack_varint_cases n) as [[H E]|[[H E]|[[H E]|[[H E]|[H E]]]]];
      rewrite E; try contradiction; eexists; (split; [reflexivity|]);
      rewrite ?bytes_ok_cons, le_digits_ok; reflexivity.
  - intros n b s Hn HE.
    destruct (pack_varint_cases n) as [[H E]|[[H E]|[[H E]|[[H E]|[H E]]]]];
      rewrite E in HE; try contradiction; injection HE as <-.
    + cbn [le_digits app]. rewrite Z.mod_small by lia. apply read_varint_1. lia.
    + rewrite <- app_comm_cons. rewrite read_varint_tag by lia. cbn [Z.eqb Pos.eqb].
      apply (c_rt uint16_codec); unfold uint_range; [|apply pack_uint_le_Ok];
      change (8 * Z.of_nat 2) with 16; lia.
    + rewrite <- app_comm_cons. rewrite read_varint_tag by lia. cbn [Z.eqb Pos.eqb].
      apply (c_rt uint32_codec); unfold uint_range; [|apply pack_uint_le_Ok];
      change (8 * Z.of_nat 4) with 32; lia.
    + rewrite <- app_comm_cons. rewrite read_varint_tag by lia. cbn [Z.eqb Pos.eqb].
      apply (c_rt uint64_codec); unfold uint_range; [|apply pack_uint_le_Ok];
      change (8 * Z.of_nat 8) with 64; lia.
  - intros s n s' Hs H. destruct s as [|x s]; [discriminate|].
    rewrite bytes_ok_cons in Hs. apply andb_true_iff in Hs as [Hx Hs]. apply byte_ok_iff in Hx.
    destruct (Z.ltb_spec x 253).
    + rewrite read_varint_1 in H by lia. injection H as <- <-.
      split; [unfold varint_range; lia|]. exists [x], [x]. split; [auto|]. split.
      { intros t. apply read_varint_1. lia. }
      destruct (pack_varint_cases x) as [[H1 E]|[[H1 E]|[[H1 E]|[[H1 E]|[H1 E]]]]]; try lia.
      * rewrite E. cbn [le_digits]. rewrite Z.mod_small by lia. repeat split; auto; lia.
      * unfold varint_range in H1. lia.
    + rewrite read_varint_tag in H by lia.
      assert (exists k, (k = 2 \/ k = 4 \/ k = 8)%nat /\
        read_varint = read_varint /\ (forall t, read_varint (x :: t) = read_fixed k (unpack_uint_le k) t)
        /\ (x = 253 /\ k = 2%nat \/ x = 254 /\ k = 4%nat \/ x = 255 /\ k = 8%nat)) as (k & Hk & _ & Hr & Hxk).
      { destruct (Z.eqb_spec x 253); [exists 2%nat|destruct (Z.eqb_spec x 254); [exists 4%nat|exists 8%nat]];
        (split; [auto|]; split; [auto|]; split; [|lia]);
        intros t; rewrite read_varint_tag by lia.
        - subst x; reflexivity.
        - subst x; reflexivity.
        - assert (x = 255) as -> by lia. reflexivity. }
      assert (Hc : codec (uint_range k) (pack_uint_le k) (read_fixed k (unpack_uint_le k)))
        by (apply codec_uint_le; lia).
      rewrite <- read_varint_tag, Hr in H by lia.
      destruct (c_dec Hc _ _ _ Hs H) as (W & c & b & -> & L & E & _ & _).
      apply pack_uint_le_inv in E as [W' ->].
      assert (Hlc : zlen c = Z.of_nat k).
      { specialize (L []). rewrite app_nil_r in L. unfold read_fixed in L. bind_inv L.
        apply read_inv in E as (_ & -> & ->). unfold unpack_uint_le in E0.
        destruct (Z.eqb_spec (zlen (ztake (Z.of_nat k) c)) (Z.of_nat k)); [|discriminate].
        injection L as _ L. rewrite zlen_ztake in e.
        assert (zlen (zdrop (Z.of_nat k) c) = 0) as Hz by (rewrite L; reflexivity).
        rewrite zlen_zdrop in Hz. pose proof (zlen_nonneg c). lia. }
      assert (Hlt : 2 ^ (8 * Z.of_nat k) <= 2 ^ 64) by (apply Z.pow_le_mono_r; lia).
      split; [unfold varint_range; lia|].
      assert (Hcd : c = le_digits k n).
      { specialize (L []). rewrite app_nil_r in L. unfold read_fixed in L. bind_inv L.
        apply read_inv in E as (_ & -> & ->). unfold unpack_uint_le in E0.
        rewrite ztake_all in E0 by lia. rewrite Hlc, Z.eqb_refl in E0. injection L as -> L.
        injection E0 as <-.
        symmetry; apply le_digits_int; [|unfold zlen in Hlc; lia].
        rewrite bytes_ok_app in Hs. now apply andb_true_iff in Hs as [Hs _]. }
      exists (x :: c).
      destruct (pack_varint_cases n) as [[H1 E]|[[H1 E]|[[H1 E]|[[H1 E]|[H1 E]]]]];
        [| | | |unfold varint_range in H1; lia]; rewrite E;
        eexists; (split; [reflexivity|]; split; [intros t; cbn [app]; rewrite Hr; apply L|];
                  split; [reflexivity|]); rewrite ?zlen_cons, ?zlen_le_digits, Hlc.
      * split; [lia|]. intros HH. lia.
      * split; [lia|]. intros HH. assert (k = 2%nat) by lia. subst k. f_equal; [lia|auto].
      * assert (k <> 2%nat) by (intros ->; change (8 * Z.of_nat 2) with 16 in W'; lia).
        split; [lia|]. intros HH. assert (k = 4%nat) by lia. subst k. f_equal; [lia|auto].
      * assert (k <> 2%nat) by (intros ->; change (8 * Z.of_nat 2) with 16 in W'; lia).
        assert (k <> 4%nat) by (intros ->; change (8 * Z.of_nat 4) with 32 in W'; lia).
        split; [lia|]. intros HH. assert (k = 8%nat) by lia. subst k. f_equal; [lia|auto].
Qed.

Lemma varint_len_spec n b : pack_varint n = Ok b -> varint_len n = Ok (zlen b).
Proof.
  intros H. unfold varint_len.
  destruct (pack_varint_cases n) as [[H1 E]|[[H1 E]|[[H1 E]|[[H1 E]|[H1 E]]]]];
    rewrite E in H; try discriminate; injection H as <-;
    rewrite ?zlen_cons, ?zlen_le_digits; replace (0 <=? n) with true by lia.
  - replace (n <? 253) with true by lia. reflexivity.
  - replace (n <? 253) with false by lia. replace (n <? 65536) with true by lia. reflexivity.
  - replace (n <? 253) with false by lia. replace (n <? 65536) with false by lia.
    replace (n <? 4294967296) with true by lia. reflexivity.
  - replace (n <? 253) with false by lia. replace (n <? 65536) with false by lia.
    replace (n <? 4294967296) with false by lia.
    replace (n <=? 18446744073709551615) with true by lia. reflexivity.
Qed.
Lemma varint_len_err n : ~ varint_range n ->
  varint_len n = Err ValueError /\ pack_varint n = Err StructError.
Proof.
  intros H. unfold varint_range in H. split.
  - unfold varint_len. destruct (Z.leb_spec 0 n); [|reflexivity].
    replace (n <? 253) with false by lia. replace (n <? 65536) with false by lia.
    replace (n <? 4294967296) with false by lia.
    replace (n <=? 18446744073709551615) with false by lia. reflexivity.
  - destruct (pack_varint_cases n) as [[H1 E]|[[H1 E]|[[H1 E]|[[H1 E]|[H1 E]]]]]; auto; lia.
Qed.

(** ** varbytes *)
Definition varbytes_wf (d : bytes) : Prop := bytes_ok d = true /\ zlen d < 2 ^ 63.

Lemma varbytes_codec : codec varbytes_wf pack_varbytes read_varbytes.
Proof.
  constructor.
  - intros d [Hd Hl]. unfold pack_varbytes. pose proof (zlen_nonneg d).
    destruct (c_enc varint_codec (zlen d)) as (p & -> & Hp); [unfold varint_range; lia|].
    cbn [bind]. eexists; split; [reflexivity|]. now rewrite bytes_ok_app, Hp, Hd.
  - intros d b s [Hd Hl] H. unfold pack_varbytes in H. bind_inv H. injection H as <-.
    pose proof (zlen_nonneg d). unfold read_varbytes. rewrite <- app_assoc.
    rewrite (c_rt varint_codec (zlen d)) by (auto; unfold varint_range; lia). cbn [bind].
    rewrite read_app by auto. cbn [bind]. now rewrite Z.eqb_refl.
  - intros s d s' Hs H. unfold read_varbytes in H. bind_inv H.
    destruct (c_dec varint_codec _ _ _ Hs E) as (W & c & p & -> & L & Ep & Zp & Up).
    apply read_inv in E0 as (Hn & -> & ->).
    destruct (Z.eqb_spec (zlen (ztake z b)) z) as [Hz|]; [|discriminate]. injection H as <- <-.
    rewrite bytes_ok_app in Hs. apply andb_true_iff in Hs as [Hc Hb].
    split; [split; [apply bytes_ok_ztake; auto|lia]|].
    exists (c ++ ztake z b), (p ++ ztake z b).
    split; [now rewrite <- app_assoc, ztake_zdrop|]. split.
    { intros t. unfold read_varbytes. rewrite <- app_assoc, L. cbn [bind].
      rewrite read_app by auto. cbn [bind]. now rewrite Hz, Z.eqb_refl. }
    unfold pack_varbytes. rewrite Hz, Ep. cbn [bind]. split; [reflexivity|].
    rewrite !zlen_app. split; [lia|]. intros HH. f_equal. apply Up. lia.
Qed.

(** ** Lists *)
Fixpoint read_nat {A} (one : reader A) (n : nat) : reader (list A) := fun s =>
  match n with
  | O => Ok ([], s)
  | S m => '(x, s) <- one s ;; '(l, s) <- read_nat one m s ;; Ok (x :: l, s)
  end.
Lemma read_nat_add {A} (one : reader A) m n s :
  read_nat one (m + n) s =
  ('(a, s) <- read_nat one m s ;; '(b, s) <- read_nat one n s ;; Ok (a ++ b, s)).
Proof.
  revert s; induction m as [|m IH]; intros s; cbn [read_nat Nat.add].
  - cbn [bind]. destruct (read_nat one n s) as [[? ?]|]; reflexivity.
  - destruct (one s) as [[x s1]|]; cbn [bind]; auto. rewrite IH.
    destruct (read_nat one m s1) as [[a s2]|]; cbn [bind]; auto.
    destruct (read_nat one n s2) as [[b s3]|]; cbn [bind]; auto.
Qed.
Lemma read_pos_nat {A} (one : reader A) p s : read_pos one p s = read_nat one (Pos.to_nat p) s.
Proof.
  revert s; induction p as [p IH|p IH|]; intros s; cbn [read_pos].
  - replace (Pos.to_nat p~1) with (S (Pos.to_nat p + Pos.to_nat p)) by lia. cbn [read_nat].
    destruct (one s) as [[x s1]|]; cbn [bind]; auto. rewrite read_nat_add, IH.
    destruct (read_nat one (Pos.to_nat p) s1) as [[a s2]|]; cbn [bind]; auto. rewrite IH.
    destruct (read_nat one (Pos.to_nat p) s2) as [[b s3]|]; cbn [bind]; auto.
  - replace (Pos.to_nat p~0) with (Pos.to_nat p + Pos.to_nat p)%nat by lia.
    rewrite read_nat_add, IH.
    destruct (read_nat one (Pos.to_nat p) s) as [[a s2]|]; cbn [bind]; auto. rewrite IH.
    destruct (read_nat one (Pos.to_nat p) s2) as [[b s3]|]; cbn [bind]; auto.
  - change (Pos.to_nat 1) with 1%nat. cbn [read_nat]. destruct (one s) as [[x s1]|]; reflexivity.
Qed.
Lemma read_count_nat {A} (one : reader A) n s : read_count one n s = read_nat one (Z.to_nat n) s.
Proof. destruct n; cbn [read_count]; auto. apply read_pos_nat. Qed.

Section ListCodec.
  Context {A} (wf : A -> Prop) (enc : A -> result bytes) (dec : reader A) (C : codec wf enc dec).

  Lemma items_enc l : Forall wf l -> exists bs, mapM enc l = Ok bs /\ bytes_ok (concat bs) = true.
  Proof.
    induction 1 as [|x l Hx _ IH]; cbn [mapM]; [eexists; split; reflexivity|].
    destruct (c_enc C x Hx) as (b & -> & Hb), IH as (bs & -> & Hbs). cbn [bind].
    eexists; split; [reflexivity|]. cbn [concat]. now rewrite bytes_ok_app, Hb, Hbs.
  Qed.
  Lemma items_rt l bs s : Forall wf l -> mapM enc l = Ok bs ->
    read_nat dec (length l) (concat bs ++ s) = Ok (l, s).
  Proof.
    intros H; revert bs; induction H as [|x l Hx _ IH]; intros bs HE; cbn [mapM] in HE.
    - injection HE as <-. reflexivity.
    - bind_inv HE. injection HE as <-. cbn [length read_nat concat].
      rewrite <- app_assoc, (c_rt C x) by auto. cbn [bind]. rewrite IH by auto. reflexivity.
  Qed.
  Lemma items_dec n s l s' : bytes_ok s = true -> read_nat dec n s = Ok (l, s') ->
    length l = n /\ Forall wf l /\ exists c bs, s = c ++ s' /\
      (forall t, read_nat dec n (c ++ t) = Ok (l, t)) /\ mapM enc l = Ok bs
      /\ zlen (concat bs) <= zlen c /\ (zlen (concat bs) = zlen c -> concat bs = c).
  Proof.
    revert s l; induction n as [|n IH]; intros s l Hs H; cbn [read_nat] in H.
    - injection H as <- <-. split; [auto|]. split; [constructor|]. exists [], []. repeat split; auto. apply Z.le_refl.
    - bind_inv H. injection H as <- <-.
      destruct (c_dec C _ _ _ Hs E) as (Wa & ca & ba & -> & La & Ea & Za & Ua).
      rewrite bytes_ok_app in Hs. apply andb_true_iff in Hs as [_ Hs].
      destruct (IH _ _ Hs E0) as (Hl & Wl & cb & bs & -> & Lb & Eb & Zb & Ub).
      split; [cbn [length]; auto|]. split; [constructor; auto|].
      exists (ca ++ cb), (ba :: bs). split; [now rewrite app_assoc|]. split.
      { intros t. cbn [read_nat]. rewrite <- app_assoc, La. cbn [bind]. rewrite Lb. reflexivity. }
      cbn [mapM]. rewrite Ea, Eb. cbn [bind concat]. split; [reflexivity|].
      rewrite !zlen_app. split; [lia|]. intros HH. f_equal; [apply Ua|apply Ub]; lia.
  Qed.

  Lemma list_codec : codec (fun l => Forall wf l /\ zlen l < 2 ^ 64)
    (fun l => pack_list l enc) (read_list dec).
  Proof.
    constructor.
    - intros l [Hl Hz]. unfold pack_list. pose proof (zlen_nonneg l).
      destruct (c_enc varint_codec (zlen l)) as (p & -> & Hp); [unfold varint_range; lia|].
      destruct (items_enc l Hl) as (bs & -> & Hbs). cbn [bind concat].
      eexists; split; [reflexivity|]. now rewrite bytes_ok_app, Hp, Hbs.
    - intros l b s [Hl Hz] H. unfold pack_list in H. bind_inv H. injection H as <-.
      pose proof (zlen_nonneg l). unfold read_list. cbn [concat]. rewrite <- app_assoc.
      rewrite (c_rt varint_codec (zlen l)) by (auto; unfold varint_range; lia). cbn [bind].
      rewrite read_count_nat. unfold zlen. rewrite Nat2Z.id. apply items_rt; auto.
    - intros s l s' Hs H. unfold read_list in H. bind_inv H.
      destruct (c_dec varint_codec _ _ _ Hs E) as (W & c & p & -> & L & Ep & Zp & Up).
      rewrite bytes_ok_app in Hs. apply andb_true_iff in Hs as [_ Hs].
      rewrite read_count_nat in H.
      destruct (items_dec _ _ _ _ Hs H) as (Hl & Wl & cb & bs & -> & Lb & Eb & Zb & Ub).
      unfold varint_range in W.
      assert (Hz : zlen l = z) by (unfold zlen; lia).
      split; [split; [auto|lia]|]. exists (c ++ cb), (p ++ concat bs).
      split; [now rewrite <- app_assoc|]. split.
      { intros t. unfold read_list. rewrite <- app_assoc, L. cbn [bind]. rewrite read_count_nat. apply Lb. }
      unfold pack_list. rewrite Hz, Ep, Eb. cbn [bind concat]. split; [reflexivity|].
      rewrite !zlen_app. split; [lia|]. intros HH. f_equal; [apply Up|apply Ub]; lia.
  Qed.
End ListCodec.
