(** The first characters of base58 texts. *)
From Verif.Model Require Import Py Text Packing Misc Curve Coin Base58.
From Verif.Spec Require Import Numbers Base58Spec.
From Verif.Proofs Require Import PyFacts NumbersFacts ScriptFacts Digits Base58Facts WifFacts.

Lemma Forall2_split {A B} (R : A -> B -> Prop) l ds es : Forall2 R l (ds ++ es) -> exists t u, l = t ++ u /\ Forall2 R t ds /\ Forall2 R u es.
Proof. intros H. apply Forall2_app_inv_r in H as (t & u & H1 & H2 & ->). eauto. Qed.
Lemma encode_first p r m k : p <> [] -> hd 0 p <> 0 -> bytes_ok (p ++ r) = true -> 0 <= k <= m ->
  58 ^ (m - 1) <= be_int p * 256 ^ zlen r -> (be_int p + 1) * 256 ^ zlen r <= 58 ^ m ->
  exists t rest ds, base58_encode (p ++ r) = t ++ rest /\ chars_of t ds /\ zlen ds = k /\ zlen rest = m - k /\
    be_int p * 256 ^ zlen r / 58 ^ (m - k) <= vbe 58 ds <= ((be_int p + 1) * 256 ^ zlen r - 1) / 58 ^ (m - k).
Proof.
  intros Hp Hh HB Hk H1 H2. assert (HC : canon_be 256 (p ++ r)). { split; [now apply digits_256|]. intros _. destruct p; [congruence|exact Hh]. }
  destruct (encode_spec 0 (p ++ r) HC) as (ds & HCh & HCd & HV). cbn [repeat app] in *.
  assert (HM : 0 < m). { destruct (Z_lt_dec 0 m); [assumption|]. exfalso. assert (m = 0) by lia. subst m. rewrite bytes_ok_app in HB. apply andb_true_iff in HB as [Bp _]. change (58 ^ 0) with 1 in H2.
    assert (0 < 256 ^ zlen r) by (apply Z.pow_pos_nonneg; [lia|apply zlen_nonneg]). destruct p as [|x p]; [congruence|]. cbn [hd] in Hh. rewrite bytes_ok_cons in Bp. apply andb_true_iff in Bp as [Bx Bp]. apply byte_ok_iff in Bx.
    rewrite <- vbe_256, vbe_cons in H2 by lia. pose proof (vbe_bound 256 ltac:(lia) p (proj2 (digits_256 p) Bp)). assert (0 < 256 ^ zlen p) by (apply Z.pow_pos_nonneg; [lia|apply zlen_nonneg]). nia. }
  rewrite bytes_ok_app in HB. apply andb_true_iff in HB as [_ Br]. pose proof (vbe_bound 256 ltac:(lia) r (proj2 (digits_256 r) Br)) as HR.
  assert (HVal : vbe 58 ds = be_int p * 256 ^ zlen r + vbe 256 r) by (rewrite HV, <- vbe_256, vbe_app, vbe_256 by lia; reflexivity).
  assert (HL : zlen ds = m) by (apply (digits_count 58); [lia|exact HCd|exact HM|rewrite HVal; lia]).
  rewrite <- (ztake_zdrop k ds) in HCh. destruct (Forall2_split _ _ _ _ HCh) as (t & u & HE & Ht & Hu). exists t, u, (ztake k ds). split; [exact HE|]. split; [exact Ht|]. split; [rewrite zlen_ztake; lia|].
  split; [apply Forall2_len in Hu; replace (zlen u) with (zlen (zdrop k ds)) by (unfold zlen; lia); rewrite zlen_zdrop; lia|].
  assert (HD : digits 58 (zdrop k ds)) by (apply chars_digits in Hu; exact Hu). pose proof (vbe_bound 58 ltac:(lia) _ HD) as HB2. replace (zlen (zdrop k ds)) with (m - k) in HB2 by (rewrite zlen_zdrop; lia).
  assert (HQ : vbe 58 (ztake k ds) = vbe 58 ds / 58 ^ (m - k)).
  { assert (0 < 58 ^ (m - k)) by (apply Z.pow_pos_nonneg; lia).
    assert (HS : vbe 58 ds = vbe 58 (ztake k ds) * 58 ^ (m - k) + vbe 58 (zdrop k ds)).
    { rewrite <- (ztake_zdrop k ds) at 1. rewrite vbe_app by lia. replace (zlen (zdrop k ds)) with (m - k) by (rewrite zlen_zdrop; lia). reflexivity. }
    rewrite HS, Z.div_add_l by lia. rewrite (Z.div_small (vbe 58 (zdrop k ds))) by lia. lia. }
  assert (0 < 58 ^ (m - k)) by (apply Z.pow_pos_nonneg; lia). rewrite HQ. split; apply Z.div_le_mono; lia.
Qed.
(** One character *)
Lemma encode_char p r m (ok : Z -> bool) : p <> [] -> hd 0 p <> 0 -> bytes_ok (p ++ r) = true -> 1 <= m ->
  58 ^ (m - 1) <= be_int p * 256 ^ zlen r -> (be_int p + 1) * 256 ^ zlen r <= 58 ^ m ->
  forallb (fun d => match znth base58_chars d with Some c => ok c | None => false end) (zrange (be_int p * 256 ^ zlen r / 58 ^ (m - 1)) (((be_int p + 1) * 256 ^ zlen r - 1) / 58 ^ (m - 1) + 1)) = true ->
  exists c rest, base58_encode (p ++ r) = c :: rest /\ ok c = true /\ zlen rest = m - 1.
Proof.
  intros Hp Hh HB Hm H1 H2 HA. destruct (encode_first p r m 1 Hp Hh HB ltac:(lia) H1 H2) as (t & rest & ds & HE & HC & HL & HR & HV). destruct ds as [|d [|? ?]]; [discriminate HL| |rewrite !zlen_cons in HL; pose proof (zlen_nonneg l); lia].
  inversion HC as [|c ? t' ? Hc HC']; subst. inversion HC'; subst. exists c, rest. split; [exact HE|]. split; [|exact HR]. change (vbe 58 [d]) with (0 * 58 + d) in HV. cbn [Z.mul Z.add] in HV.
  pose proof (zrange_all _ _ _ HA d ltac:(lia)) as HX. cbv beta in HX. apply cvalue_Some in Hc as [_ Hc]. now rewrite Hc in HX.
Qed.
(** A fixed beginning *)
Lemma encode_word p r m (w : pystr) ds : p <> [] -> hd 0 p <> 0 -> bytes_ok (p ++ r) = true -> zlen w <= m -> chars_of w ds ->
  58 ^ (m - 1) <= be_int p * 256 ^ zlen r -> (be_int p + 1) * 256 ^ zlen r <= 58 ^ m ->
  be_int p * 256 ^ zlen r / 58 ^ (m - zlen w) = vbe 58 ds -> ((be_int p + 1) * 256 ^ zlen r - 1) / 58 ^ (m - zlen w) = vbe 58 ds ->
  exists rest, base58_encode (p ++ r) = w ++ rest /\ zlen rest = m - zlen w.
Proof.
  intros Hp Hh HB Hm HW H1 H2 Hlo Hhi. pose proof (zlen_nonneg w). destruct (encode_first p r m (zlen w) Hp Hh HB ltac:(lia) H1 H2) as (t & rest & es & HE & HC & HL & HR & HV).
  assert (es = ds). { pose proof (chars_digits _ _ HC). pose proof (chars_digits _ _ HW). apply Forall2_len in HW. apply (vbe_unique 58); [lia|assumption|assumption|unfold zlen in HL; lia|lia]. }
  subst es. pose proof (chars_inj _ _ _ HC HW). subst t. eauto.
Qed.
(** A zero byte in front is a '1' in front. *)
Lemma encode_zero r : bytes_ok r = true -> base58_encode (0 :: r) = 49 :: base58_encode r.
Proof.
  intros HB. apply digits_256 in HB. destruct (strip_zeros 256 r HB) as (n & r' & -> & HC). destruct (encode_spec n r' HC) as (ds & H1 & H2 & H3). destruct (encode_spec (S n) r' HC) as (ds' & H1' & H2' & H3').
  assert (ds' = ds) by (apply (canon_be_unique 58); [lia|assumption|assumption|congruence]). subst ds'. change (0 :: repeat 0 n ++ r') with (repeat 0 (S n) ++ r'). apply (chars_inj _ _ _ H1'). cbn [repeat app]. constructor; [reflexivity|exact H1].
Qed.
