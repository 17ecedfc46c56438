(** The hash functions are the ones specified. *)
From Verif.Model Require Import Py Hashes.
From Verif.Spec Require Import HashSpec.
From Verif.Proofs Require Import PyFacts WorkFacts CashaddrFacts Primality HashesFacts HashesWords HashesSha2 HashesFive.
From Coq Require Import Znumtheory.

(** ** Constants *)
Lemma root_unique k n X Y : 0 < k -> 0 <= X -> 0 <= Y -> X ^ k <= n < (X + 1) ^ k -> Y ^ k <= n < (Y + 1) ^ k -> X = Y.
Proof.
  intros Hk HX HY [A B] [C D]. destruct (Z.lt_trichotomy X Y) as [H|[H|H]]; [exfalso|exact H|exfalso].
  - pose proof (Z.pow_le_mono_l (X + 1) Y k ltac:(lia)). lia.
  - pose proof (Z.pow_le_mono_l (Y + 1) X k ltac:(lia)). lia.
Qed.
Lemma root_fraction_unique k w n c c' : 0 < k -> 0 <= w -> root_fraction k w n c -> root_fraction k w n c' -> c = c'.
Proof.
  intros Hk Hw (Hc & q & Hq & HR) (Hc' & q' & Hq' & HR'). unfold word_in in *. pose proof (Z.pow_pos_nonneg 2 w ltac:(lia) Hw).
  assert (q * 2 ^ w + c = q' * 2 ^ w + c') as E by (eapply root_unique; [exact Hk| | |exact HR|exact HR']; nia). apply (f_equal (fun z => z mod 2 ^ w)) in E.
  rewrite !(Z.add_comm (_ * _)), !Z.mod_add, !Z.mod_small in E by lia. exact E.
Qed.
Lemma Forall2_unique {A B} (R : A -> B -> Prop) : (forall a b b', R a b -> R a b' -> b = b') -> forall l m m', Forall2 R l m -> Forall2 R l m' -> m = m'.
Proof. intros HR l m m' H. revert m'. induction H; intros m' H'; inversion H'; subst; [reflexivity|]. f_equal; [eapply HR; eassumption|auto]. Qed.
Lemma scaled_root_unique k w n c c' : 0 < k -> scaled_root k w n c -> scaled_root k w n c' -> c = c'.
Proof. intros Hk [H0 H1] [H0' H1']. eapply root_unique; eassumption. Qed.
Definition root_check (k w n c : Z) : bool :=
  (0 <=? c) && (c <? 2 ^ w) && existsb (fun q => ((q * 2 ^ w + c) ^ k <=? n * 2 ^ (w * k)) && (n * 2 ^ (w * k) <? (q * 2 ^ w + c + 1) ^ k)) (zrange 0 21).
Lemma root_check_ok k w n c : root_check k w n c = true -> root_fraction k w n c.
Proof.
  unfold root_check. rewrite !andb_true_iff, existsb_exists, Z.leb_le, Z.ltb_lt. intros [H (q & Hq & HR)]. apply zrange_in in Hq. rewrite andb_true_iff, Z.leb_le, Z.ltb_lt in HR.
  split; [exact H|]. exists q. split; [lia|exact HR].
Qed.
Fixpoint roots_check (k w : Z) (ns cs : list Z) : bool :=
  match ns, cs with [], [] => true | n :: ns', c :: cs' => root_check k w n c && roots_check k w ns' cs' | _, _ => false end.
Lemma roots_check_ok k w : forall ns cs, roots_check k w ns cs = true -> Forall2 (root_fraction k w) ns cs.
Proof. induction ns as [|n ns IH]; intros [|c cs] H; try discriminate; constructor; cbn in H; apply andb_true_iff in H as [H1 H2]; [now apply root_check_ok|auto]. Qed.
Lemma K256_roots : Forall2 (root_fraction 3 32) (firstn 64 primes_80) K256.
Proof. apply roots_check_ok. vm_compute. reflexivity. Qed.
Lemma K512_roots : Forall2 (root_fraction 3 64) (firstn 80 primes_80) K512.
Proof. apply roots_check_ok. vm_compute. reflexivity. Qed.
Lemma IV256_roots : Forall2 (root_fraction 2 32) (firstn 8 primes_80) (list8 IV256).
Proof. apply roots_check_ok. vm_compute. reflexivity. Qed.
Lemma IV512_roots : Forall2 (root_fraction 2 64) (firstn 8 primes_80) (list8 IV512).
Proof. apply roots_check_ok. vm_compute. reflexivity. Qed.
Lemma roots_in k w ns cs : Forall2 (root_fraction k w) ns cs -> Forall (word_in w) cs.
Proof. induction 1 as [|n c ns cs [H _] _ IH]; constructor; assumption. Qed.

Lemma primes_80_first : first_primes primes_80.
Proof.
  assert (forall x, In x primes_80 -> prime x) as HP.
  { intros x Hx. assert (forallb (fun n => (1 <? n) && forallb (fun d => negb (n mod d =? 0)) (zrange 2 (Z.sqrt n + 1))) primes_80 = true) as HA by (vm_compute; reflexivity).
    rewrite forallb_forall in HA. specialize (HA x Hx). apply andb_true_iff in HA as [HA HB]. apply Z.ltb_lt in HA. apply trial; assumption. }
  split; [|split; [exact HP|]].
  - assert (forall l : list Z, (forall i x y, znth l i = Some x -> znth l (i + 1) = Some y -> x < y) -> forall n i x y, znth l i = Some x -> znth l (i + 1 + Z.of_nat n) = Some y -> x < y) as HI.
    { intros l Hl. induction n as [|n IH]; intros i x y Hx Hy; [apply (Hl i); [exact Hx|]; replace (i + 1 + Z.of_nat 0) with (i + 1) in Hy by lia; exact Hy|].
      destruct (znth l (i + 1 + Z.of_nat n)) as [z|] eqn:Ez.
      - pose proof (IH i x z Hx Ez). specialize (Hl (i + 1 + Z.of_nat n) z y Ez). replace (i + 1 + Z.of_nat n + 1) with (i + 1 + Z.of_nat (S n)) in Hl by lia. specialize (Hl Hy). lia.
      - apply znth_None in Ez. apply znth_Some in Hx. apply znth_Some in Hy. lia. }
    intros i j x y Hx Hy Hij. apply (HI primes_80) with (n := Z.to_nat (j - i - 1)) (i := i); [|exact Hx|replace (i + 1 + Z.of_nat (Z.to_nat (j - i - 1))) with j by lia; exact Hy].
    clear. intros i x y Hx Hy. pose proof (znth_Some _ _ _ Hx) as Hi. pose proof (znth_Some _ _ _ Hy) as Hi'. change (zlen primes_80) with 80 in *.
    pose proof (all_80 (fun i => match znth primes_80 i, znth primes_80 (i + 1) with Some x, Some y => x <? y | _, _ => true end) ltac:(vm_compute; reflexivity) i ltac:(lia)) as H. cbn beta in H.
    rewrite Hx, Hy in H. now apply Z.ltb_lt.
  - intros p x Hp Hx Hpx. assert (p <= 409) as HB.
    { assert (forallb (fun x => x <=? 409) primes_80 = true) as HA by (vm_compute; reflexivity). rewrite forallb_forall in HA. specialize (HA x Hx). apply Z.leb_le in HA. lia. }
    pose proof (prime_ge_2 p Hp) as H2.
    assert (forallb (fun p => existsb (Z.eqb p) primes_80 || existsb (fun d => p mod d =? 0) (zrange 2 p)) (zrange 2 410) = true) as HA by (vm_compute; reflexivity).
    rewrite forallb_forall in HA. assert (In p (zrange 2 410)) as HIn.
    { replace p with (nth (Z.to_nat (p - 2)) (zrange 2 410) 0); [apply nth_In; change (length (zrange 2 410)) with 408%nat; lia|]. unfold zrange. rewrite nth_zrange_nat; lia. }
    specialize (HA p HIn). apply orb_true_iff in HA as [HA|HA]; apply existsb_exists in HA as (d & Hd & HE).
    + apply Z.eqb_eq in HE. now subst.
    + exfalso. apply zrange_in in Hd. apply Z.eqb_eq in HE. apply Z.mod_divide in HE; [|lia]. destruct (prime_divisors p Hp d HE) as [|[|[|]]]; lia.
Qed.

(** ** SHA-256 and SHA-512 *)
Lemma digest8 w s : sha2_digest w s = flat_map (be_word w) (list8 s).
Proof. now destruct s. Qed.
Lemma digest_text w s : 0 <= w -> w mod 8 = 0 -> good8 w s -> words_text (says_be (w / 8)) (list8 s) (sha2_digest w s).
Proof. intros Hw H8 HG. rewrite digest8. exact (texts_ok true w (list8 s) Hw H8 HG). Qed.

Section Sha2.
  Variables (w n : Z) (F0 F1 f0 f1 : Z -> Z) (K : list Z) (iv : state8) (R0 R1 r0 r1 : Z * Z * Z).
  Hypothesis w_ok : 0 < w /\ w mod 8 = 0.
  Hypothesis F0_ok : forall x, word_in w x -> F0 x = big_sigma w R0 x.
  Hypothesis F1_ok : forall x, word_in w x -> F1 x = big_sigma w R1 x.
  Hypothesis f0_ok : forall x, word_in w x -> f0 x = small_sigma w r0 x.
  Hypothesis f1_ok : forall x, word_in w x -> f1 x = small_sigma w r1 x.
  Hypothesis K_len : zlen K = n.
  Hypothesis K_ok : Forall2 (root_fraction 3 w) (firstn (Z.to_nat n) primes_80) K.
  Hypothesis iv_ok : Forall2 (root_fraction 2 w) (firstn 8 primes_80) (list8 iv).
  Notation compress := (sha2_compress w F0 F1 f0 f1 K).
  Definition hash_of (m : bytes) : bytes := sha2_digest w (fold_left compress (md_blocks (2 * w) (w / 4) true m) iv).
  Lemma iv_good : good8 w iv.
  Proof using iv_ok. exact (roots_in _ _ _ _ iv_ok). Qed.
  Lemma final_good m : good8 w (fold_left compress (md_blocks (2 * w) (w / 4) true m) iv).
  Proof using w_ok iv_ok. apply (fold_good compress (good8 w)); [|exact iv_good]. intros. apply compress_good. exact w_ok. Qed.
  Lemma hash_exact m d : bytes_ok m = true -> (hash_of m = d <-> sha2_says w n R0 R1 r0 r1 m d).
  Proof using w_ok F0_ok F1_ok f0_ok f1_ok K_len K_ok iv_ok.
    intros HM. assert (0 < 2 * w) as H2 by lia. assert (0 <= w / 4) as H4 by lia.
    pose proof (blocks_ok (2 * w) (w / 4) true m H2 H4) as HB. pose proof (in_blocks_ok _ _ _ _ _ HM HB) as HO. pose proof HB as (_ & _ & _ & _ & _ & HF). split.
    - intros <-. exists K, (list8 iv), Ch, Maj, (md_blocks (2 * w) (w / 4) true m), (list8 (fold_left compress (md_blocks (2 * w) (w / 4) true m) iv)).
      repeat split; auto using Ch_bits, Maj_bits.
      + subst n. apply (chain_exact w F0 F1 f0 f1 K R0 R1 r0 r1 w_ok F0_ok F1_ok f0_ok f1_ok Ch Maj Ch_bits Maj_bits _ iv _ iv_good HF HO). reflexivity.
      + unfold hash_of. apply digest_text; try lia. exact (final_good m).
    - intros (ks & iv' & choice & maj & bs & H & Hks & Hiv & Hc & Hm & Hbs & HC & HT).
      assert (ks = K) as -> by (eapply Forall2_unique; [|exact Hks|exact K_ok]; intros a b b'; apply root_fraction_unique; lia).
      assert (iv' = list8 iv) as -> by (eapply Forall2_unique; [|exact Hiv|exact iv_ok]; intros a b b'; apply root_fraction_unique; lia).
      assert (bs = md_blocks (2 * w) (w / 4) true m) as -> by (apply (blocks_unique _ _ true); assumption).
      subst n. apply (chain_exact w F0 F1 f0 f1 K R0 R1 r0 r1 w_ok F0_ok F1_ok f0_ok f1_ok choice maj Hc Hm _ iv _ iv_good HF HO) in HC. subst H.
      eapply (texts_injective true); [|exact HT]. unfold hash_of. apply digest_text; try lia. exact (final_good m).
  Qed.
  Lemma hash_len m : zlen (hash_of m) = w.
  Proof using w_ok iv_ok.
    clear - w_ok iv_ok. pose proof (digest_text w _ ltac:(lia) ltac:(lia) (final_good m)) as HT. apply (texts_zlen true) in HT. unfold hash_of. rewrite HT.
    replace (zlen (list8 _)) with 8 by now destruct (fold_left _ _ _). lia.
  Qed.
  Lemma hash_ok m : bytes_ok (hash_of m) = true.
  Proof using w_ok iv_ok. clear - w_ok iv_ok. pose proof (digest_text w _ ltac:(lia) ltac:(lia) (final_good m)) as HT. now apply (texts_bytes true) in HT. Qed.
  Lemma hash_collision m m' : bytes_ok m = true -> bytes_ok m' = true -> 8 * zlen m < 2 ^ (2 * w) -> 8 * zlen m' < 2 ^ (2 * w) -> m <> m' -> hash_of m = hash_of m' ->
    collision compress iv (md_blocks (2 * w) (w / 4) true m) (md_blocks (2 * w) (w / 4) true m').
  Proof using w_ok iv_ok.
    clear - w_ok iv_ok. intros HM HM' HL HL' HN HE.
    assert (fold_left compress (md_blocks (2 * w) (w / 4) true m) iv = fold_left compress (md_blocks (2 * w) (w / 4) true m') iv) as HF.
    { apply list8_inj. eapply (texts_functional true (w / 8)); [lia|apply digest_text; try lia; apply final_good|]. unfold hash_of in HE. rewrite HE. apply digest_text; try lia; apply final_good. }
    refine (md_collision compress state8_eq_dec (2 * w) (w / 4) true iv _ _ m m' HM HM' _ _ HN HF); try lia.
    - replace (8 * (w / 4)) with (2 * w) by lia. exact HL.
    - replace (8 * (w / 4)) with (2 * w) by lia. exact HL'.
  Qed.
End Sha2.

Lemma sum256_0 x : word_in 32 x -> xor3 (rotr 32 2 x) (rotr 32 13 x) (rotr 32 22 x) = big_sigma 32 (2, 13, 22) x.
Proof. intros H. rewrite xor3_assoc, !rotr_ror by (try lia; exact H). reflexivity. Qed.
Lemma sum256_1 x : word_in 32 x -> xor3 (rotr 32 6 x) (rotr 32 11 x) (rotr 32 25 x) = big_sigma 32 (6, 11, 25) x.
Proof. intros H. rewrite xor3_assoc, !rotr_ror by (try lia; exact H). reflexivity. Qed.
Lemma sig256_0 x : word_in 32 x -> xor3 (rotr 32 7 x) (rotr 32 18 x) (Z.shiftr x 3) = small_sigma 32 (7, 18, 3) x.
Proof. intros H. rewrite xor3_assoc, !rotr_ror, Z.shiftr_div_pow2 by (try lia; exact H). reflexivity. Qed.
Lemma sig256_1 x : word_in 32 x -> xor3 (rotr 32 17 x) (rotr 32 19 x) (Z.shiftr x 10) = small_sigma 32 (17, 19, 10) x.
Proof. intros H. rewrite xor3_assoc, !rotr_ror, Z.shiftr_div_pow2 by (try lia; exact H). reflexivity. Qed.
Lemma sum512_0 x : word_in 64 x -> xor3 (rotr 64 28 x) (rotr 64 34 x) (rotr 64 39 x) = big_sigma 64 (28, 34, 39) x.
Proof. intros H. rewrite xor3_assoc, !rotr_ror by (try lia; exact H). reflexivity. Qed.
Lemma sum512_1 x : word_in 64 x -> xor3 (rotr 64 14 x) (rotr 64 18 x) (rotr 64 41 x) = big_sigma 64 (14, 18, 41) x.
Proof. intros H. rewrite xor3_assoc, !rotr_ror by (try lia; exact H). reflexivity. Qed.
Lemma sig512_0 x : word_in 64 x -> xor3 (rotr 64 1 x) (rotr 64 8 x) (Z.shiftr x 7) = small_sigma 64 (1, 8, 7) x.
Proof. intros H. rewrite xor3_assoc, !rotr_ror, Z.shiftr_div_pow2 by (try lia; exact H). reflexivity. Qed.
Lemma sig512_1 x : word_in 64 x -> xor3 (rotr 64 19 x) (rotr 64 61 x) (Z.shiftr x 6) = small_sigma 64 (19, 61, 6) x.
Proof. intros H. rewrite xor3_assoc, !rotr_ror, Z.shiftr_div_pow2 by (try lia; exact H). reflexivity. Qed.
Lemma w32 : 0 < 32 /\ 32 mod 8 = 0. Proof. split; reflexivity. Qed.
Lemma w64 : 0 < 64 /\ 64 mod 8 = 0. Proof. split; reflexivity. Qed.

Theorem sha256_exact m d : bytes_ok m = true -> (sha256 m = d <-> sha256_says m d).
Proof.
  exact (hash_exact 32 64 _ _ _ _ K256 IV256 _ _ _ _ w32 sum256_0 sum256_1 sig256_0 sig256_1 eq_refl K256_roots IV256_roots m d).
Qed.
Theorem sha512_exact m d : bytes_ok m = true -> (sha512 m = d <-> sha512_says m d).
Proof.
  exact (hash_exact 64 80 _ _ _ _ K512 IV512 _ _ _ _ w64 sum512_0 sum512_1 sig512_0 sig512_1 eq_refl K512_roots IV512_roots m d).
Qed.
Theorem sha256_len m : zlen (sha256 m) = 32.
Proof. exact (hash_len 32 _ _ _ _ K256 IV256 w32 IV256_roots m). Qed.
Theorem sha256_ok m : bytes_ok (sha256 m) = true.
Proof. exact (hash_ok 32 _ _ _ _ K256 IV256 w32 IV256_roots m). Qed.
Theorem sha512_len m : zlen (sha512 m) = 64.
Proof. exact (hash_len 64 _ _ _ _ K512 IV512 w64 IV512_roots m). Qed.
Theorem sha512_ok m : bytes_ok (sha512 m) = true.
Proof. exact (hash_ok 64 _ _ _ _ K512 IV512 w64 IV512_roots m). Qed.
Definition sha256_collision (m m' : bytes) : Prop := collision sha256_compress IV256 (md_blocks 64 8 true m) (md_blocks 64 8 true m').
Definition sha512_collision (m m' : bytes) : Prop := collision sha512_compress IV512 (md_blocks 128 16 true m) (md_blocks 128 16 true m').
Theorem sha256_collides m m' : bytes_ok m = true -> bytes_ok m' = true -> zlen m < 2 ^ 61 -> zlen m' < 2 ^ 61 -> m <> m' -> sha256 m = sha256 m' -> sha256_collision m m'.
Proof. intros HM HM' HL HL'. exact (hash_collision 32 _ _ _ _ K256 IV256 w32 IV256_roots m m' HM HM' ltac:(change (2 * 32) with 64; lia) ltac:(change (2 * 32) with 64; lia)). Qed.
Theorem sha512_collides m m' : bytes_ok m = true -> bytes_ok m' = true -> zlen m < 2 ^ 125 -> zlen m' < 2 ^ 125 -> m <> m' -> sha512 m = sha512 m' -> sha512_collision m m'.
Proof. intros HM HM' HL HL'. exact (hash_collision 64 _ _ _ _ K512 IV512 w64 IV512_roots m m' HM HM' ltac:(change (2 * 64) with 128; lia) ltac:(change (2 * 64) with 128; lia)). Qed.

(** ** SHA-1 and RIPEMD-160 *)
Lemma iv160_good : good5 IV160.
Proof. apply good5_intro; split; reflexivity || discriminate. Qed.
Lemma scaled_check k w n c : (0 <=? c) && (c ^ k <=? n * 2 ^ (w * k)) && (n * 2 ^ (w * k) <? (c + 1) ^ k) = true -> scaled_root k w n c.
Proof. rewrite !andb_true_iff, !Z.leb_le, Z.ltb_lt. unfold scaled_root. tauto. Qed.
Lemma digest5_be s : good5 s -> words_text (says_be 4) (list5 s) (sha1_digest s).
Proof. intros HG. replace (sha1_digest s) with (flat_map (wtext true 32) (list5 s)) by now destruct s. exact (texts_ok true 32 (list5 s) ltac:(lia) eq_refl HG). Qed.
Lemma digest5_le s : good5 s -> words_text (says_le 4) (list5 s) (rmd_digest s).
Proof. intros HG. replace (rmd_digest s) with (flat_map (wtext false 32) (list5 s)) by now destruct s. exact (texts_ok false 32 (list5 s) ltac:(lia) eq_refl HG). Qed.
Lemma sha1_final m : good5 (fold_left sha1_compress (md_blocks 64 8 true m) IV160).
Proof. apply (fold_good sha1_compress good5); [|exact iv160_good]. intros. apply compress1_good. Qed.
Lemma rmd_final m : good5 (fold_left rmd_compress (md_blocks 64 8 false m) IV160).
Proof. apply (fold_good rmd_compress good5); [|exact iv160_good]. intros. apply rmd_good. Qed.

Ltac ranges t := repeat match goal with |- context [t <? ?k] => first [rewrite (proj2 (Z.ltb_lt t k)) by lia|rewrite (proj2 (Z.ltb_ge t k)) by lia] end.
Lemma sha1_consts :
  (forall t, 0 <= t < 20 -> scaled_root 2 30 2 (sha1_K t) /\ bitwise3 choose (sha1_f t)) /\
  (forall t, 20 <= t < 40 -> scaled_root 2 30 3 (sha1_K t) /\ bitwise3 parity3 (sha1_f t)) /\
  (forall t, 40 <= t < 60 -> scaled_root 2 30 5 (sha1_K t) /\ bitwise3 majority (sha1_f t)) /\
  (forall t, 60 <= t < 80 -> scaled_root 2 30 10 (sha1_K t) /\ bitwise3 parity3 (sha1_f t)).
Proof.
  repeat split; try (intros t Ht; unfold sha1_K, sha1_f; ranges t; split; [apply scaled_check; vm_compute; reflexivity|first [apply Ch_bits|apply Parity_bits|apply Maj_bits]]).
  all: unfold sha1_K, sha1_f in *; ranges t; first [apply Ch_bits|apply Parity_bits|apply Maj_bits|discriminate|vm_compute; congruence].
Qed.
Theorem sha1_exact m d : bytes_ok m = true -> (sha1 m = d <-> sha1_says m d).
Proof.
  intros HM. pose proof (blocks_ok 64 8 true m ltac:(lia) ltac:(lia)) as HB. pose proof (in_blocks_ok _ _ _ _ _ HM HB) as HO. pose proof HB as (_ & _ & _ & _ & _ & HF). split.
  - intros <-. exists sha1_K, sha1_f, (md_blocks 64 8 true m), (list5 (fold_left sha1_compress (md_blocks 64 8 true m) IV160)).
    destruct sha1_consts as (C1 & C2 & C3 & C4). split; [exact C1|]. split; [exact C2|]. split; [exact C3|]. split; [exact C4|]. split; [exact HB|]. split.
    + apply (chain1_exact sha1_K sha1_f (fun t _ => eq_refl) (fun t x y z _ => eq_refl) _ IV160 _ iv160_good HF HO). reflexivity.
    + apply digest5_be. apply sha1_final.
  - intros (K & f & bs & H & D1 & D2 & D3 & D4 & Hbs & HC & HT).
    assert (forall t, 0 <= t < 80 -> K t = sha1_K t /\ forall x y z, f t x y z = sha1_f t x y z) as HE.
    { intros t Ht. destruct sha1_consts as (C1 & C2 & C3 & C4). assert (0 <= t < 20 \/ 20 <= t < 40 \/ 40 <= t < 60 \/ 60 <= t < 80) as [HR|[HR|[HR|HR]]] by lia.
      - destruct (C1 t HR), (D1 t HR). split; [apply (scaled_root_unique 2 30 2); try lia; assumption|apply (bitwise3_unique choose); assumption].
      - destruct (C2 t HR), (D2 t HR). split; [apply (scaled_root_unique 2 30 3); try lia; assumption|apply (bitwise3_unique parity3); assumption].
      - destruct (C3 t HR), (D3 t HR). split; [apply (scaled_root_unique 2 30 5); try lia; assumption|apply (bitwise3_unique majority); assumption].
      - destruct (C4 t HR), (D4 t HR). split; [apply (scaled_root_unique 2 30 10); try lia; assumption|apply (bitwise3_unique parity3); assumption]. }
    assert (bs = md_blocks 64 8 true m) as -> by (apply (blocks_unique _ _ true); [lia|lia|exact Hbs]).
    apply (chain1_exact K f (fun t Ht => proj1 (HE t Ht)) (fun t x y z Ht => proj2 (HE t Ht) x y z) _ IV160 _ iv160_good HF HO) in HC. subst H.
    eapply (texts_injective true); [|exact HT]. apply digest5_be. apply sha1_final.
Qed.
Lemma rmd_consts : rmd_constants (fun j => nth (Z.to_nat (j / 16)) rmd_K 0) (fun j => nth (Z.to_nat (j / 16)) rmd_K' 0).
Proof.
  intros j Hj. assert (j / 16 = 0 \/ j / 16 = 1 \/ j / 16 = 2 \/ j / 16 = 3 \/ j / 16 = 4) as HC by lia.
  destruct HC as [-> |[-> |[-> |[-> | ->]]]]; split; try reflexivity; apply scaled_check; vm_compute; reflexivity.
Qed.
Lemma rmd_constants_unique k k' : rmd_constants k k' -> forall j, 0 <= j < 80 -> k j = nth (Z.to_nat (j / 16)) rmd_K 0 /\ k' j = nth (Z.to_nat (j / 16)) rmd_K' 0.
Proof.
  intros HK j Hj. destruct (HK j Hj) as [H1 H2], (rmd_consts j Hj) as [C1 C2]. split.
  - destruct (j / 16 =? 0); [congruence|]. eapply scaled_root_unique; [|exact H1|exact C1]. lia.
  - destruct (j / 16 =? 4); [congruence|]. eapply scaled_root_unique; [|exact H2|exact C2]. lia.
Qed.
Theorem ripemd160_exact m d : bytes_ok m = true -> (ripemd160 m = d <-> ripemd160_says m d).
Proof.
  intros HM. pose proof (blocks_ok 64 8 false m ltac:(lia) ltac:(lia)) as HB. pose proof (in_blocks_ok _ _ _ _ _ HM HB) as HO. pose proof HB as (_ & _ & _ & _ & _ & HF). split.
  - intros <-. exists rmd_f, (fun j => nth (Z.to_nat (j / 16)) rmd_K 0), (fun j => nth (Z.to_nat (j / 16)) rmd_K' 0), (md_blocks 64 8 false m), (list5 (fold_left rmd_compress (md_blocks 64 8 false m) IV160)).
    split; [exact rmd_f_bits|]. split; [exact rmd_consts|]. split; [exact HB|]. split.
    + apply (rmd_chain_exact rmd_f _ _ rmd_f_bits (fun j Hj => conj eq_refl eq_refl) _ IV160 _ iv160_good HF HO). reflexivity.
    + apply digest5_le. apply rmd_final.
  - intros (f & k & k' & bs & H & Hf & Hk & Hbs & HC & HT).
    assert (bs = md_blocks 64 8 false m) as -> by (apply (blocks_unique _ _ false); [lia|lia|exact Hbs]).
    apply (rmd_chain_exact f k k' Hf (rmd_constants_unique k k' Hk) _ IV160 _ iv160_good HF HO) in HC. subst H.
    eapply (texts_injective false); [|exact HT]. apply digest5_le. apply rmd_final.
Qed.
Theorem sha1_len m : zlen (sha1 m) = 20.
Proof. pose proof (digest5_be _ (sha1_final m)) as HT. apply (texts_zlen true) in HT. unfold sha1. rewrite HT. now destruct (fold_left _ _ _). Qed.
Theorem sha1_ok m : bytes_ok (sha1 m) = true.
Proof. pose proof (digest5_be _ (sha1_final m)) as HT. now apply (texts_bytes true) in HT. Qed.
Theorem ripemd160_len m : zlen (ripemd160 m) = 20.
Proof. pose proof (digest5_le _ (rmd_final m)) as HT. apply (texts_zlen false) in HT. unfold ripemd160. rewrite HT. now destruct (fold_left _ _ _). Qed.
Theorem ripemd160_ok m : bytes_ok (ripemd160 m) = true.
Proof. pose proof (digest5_le _ (rmd_final m)) as HT. now apply (texts_bytes false) in HT. Qed.
Definition ripemd160_collision (m m' : bytes) : Prop := collision rmd_compress IV160 (md_blocks 64 8 false m) (md_blocks 64 8 false m').
Theorem ripemd160_collides m m' : bytes_ok m = true -> bytes_ok m' = true -> zlen m < 2 ^ 61 -> zlen m' < 2 ^ 61 -> m <> m' -> ripemd160 m = ripemd160 m' -> ripemd160_collision m m'.
Proof.
  intros HM HM' HL HL' HN HE.
  assert (fold_left rmd_compress (md_blocks 64 8 false m) IV160 = fold_left rmd_compress (md_blocks 64 8 false m') IV160) as HF.
  { apply list5_inj. eapply (texts_functional false 4); [lia|apply digest5_le; apply rmd_final|]. unfold ripemd160 in HE. rewrite HE. apply digest5_le; apply rmd_final. }
  refine (md_collision rmd_compress state5_eq_dec 64 8 false IV160 _ _ m m' HM HM' _ _ HN HF); lia.
Qed.

(** ** Compositions *)
Lemma double_sha256_len x : zlen (double_sha256 x) = 32. Proof. apply sha256_len. Qed.
Lemma double_sha256_ok x : bytes_ok (double_sha256 x) = true. Proof. apply sha256_ok. Qed.
Lemma hash160_len x : zlen (hash160 x) = 20. Proof. apply ripemd160_len. Qed.
Lemma hash160_ok x : bytes_ok (hash160 x) = true. Proof. apply ripemd160_ok. Qed.
Lemma hmac_sha512_len k m : zlen (hmac_sha512 k m) = 64. Proof. apply sha512_len. Qed.
Lemma hmac_sha512_ok k m : bytes_ok (hmac_sha512 k m) = true. Proof. apply sha512_ok. Qed.
Lemma hmac_sha256_len k m : zlen (hmac_sha256 k m) = 32. Proof. apply sha256_len. Qed.
Lemma hmac_sha256_ok k m : bytes_ok (hmac_sha256 k m) = true. Proof. apply sha256_ok. Qed.
Theorem double_sha256_collides m m' : bytes_ok m = true -> bytes_ok m' = true -> zlen m < 2 ^ 61 -> zlen m' < 2 ^ 61 -> m <> m' -> double_sha256 m = double_sha256 m' -> sha256_collision m m' \/ sha256_collision (sha256 m) (sha256 m').
Proof.
  intros HM HM' HL HL' HN HE. destruct (bytes_eq_dec (sha256 m) (sha256 m')) as [E|E]; [left; now apply (sha256_collides m m')|].
  right. apply (sha256_collides (sha256 m) (sha256 m')); rewrite ?sha256_len; auto using sha256_ok; lia.
Qed.
Theorem hash160_collides m m' : bytes_ok m = true -> bytes_ok m' = true -> zlen m < 2 ^ 61 -> zlen m' < 2 ^ 61 -> m <> m' -> hash160 m = hash160 m' -> sha256_collision m m' \/ ripemd160_collision (sha256 m) (sha256 m').
Proof.
  intros HM HM' HL HL' HN HE. destruct (bytes_eq_dec (sha256 m) (sha256 m')) as [E|E]; [left; now apply (sha256_collides m m')|].
  right. apply (ripemd160_collides (sha256 m) (sha256 m')); rewrite ?sha256_len; auto using sha256_ok; lia.
Qed.
