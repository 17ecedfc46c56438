(** Words of the hash functions: rotations, digests, ranges, lengths. *)
From Verif.Model Require Import Py Hashes.
From Verif.Spec Require Import HashSpec.
From Verif.Proofs Require Import PyFacts WorkFacts CashaddrFacts HashesFacts.

Lemma wmod_in w x : 0 <= w -> word_in w (wmod w x).
Proof. intros Hw. apply Z.mod_pos_bound. apply Z.pow_pos_nonneg; lia. Qed.
Lemma wmod_id w x : word_in w x -> wmod w x = x.
Proof. apply Z.mod_small. Qed.

Lemma rotr_ror w n x : 0 <= n <= w -> word_in w x -> rotr w n x = ror w n x.
Proof.
  intros Hn [H0 Hx]. unfold rotr, ror, wmod. pose proof (Z.pow_pos_nonneg 2 n ltac:(lia) ltac:(lia)) as Pn. pose proof (Z.pow_pos_nonneg 2 (w - n) ltac:(lia) ltac:(lia)) as Pw.
  assert (2 ^ w = 2 ^ n * 2 ^ (w - n)) as EP by (rewrite <- Z.pow_add_r by lia; f_equal; lia).
  pose proof (Z.div_mod x (2 ^ n) ltac:(lia)) as ED. pose proof (Z.mod_pos_bound x (2 ^ n) Pn) as HB.
  rewrite Z.shiftr_div_pow2 by lia. rewrite lor_shiftl_add; [|lia| |lia].
  2: { split; [apply Z.div_pos; lia|]. apply Z.div_lt_upper_bound; lia. }
  set (q := x / 2 ^ n) in *. set (r := x mod 2 ^ n) in *. rewrite ED at 1. rewrite EP.
  replace (q + 2 ^ (w - n) * (2 ^ n * q + r)) with (q + 2 ^ (w - n) * r + q * (2 ^ n * 2 ^ (w - n))) by ring.
  rewrite Z.mod_add by nia. apply Z.mod_small. assert (0 <= q < 2 ^ (w - n)) by (unfold q; split; [apply Z.div_pos; lia|apply Z.div_lt_upper_bound; lia]). nia.
Qed.
Lemma rotl_rol w n x : 0 <= n <= w -> word_in w x -> rotl w n x = rol w n x.
Proof.
  intros Hn Hx. unfold rotl. rewrite rotr_ror by (try lia; assumption). unfold ror, rol. replace (w - (w - n)) with n by ring.
  assert (2 ^ w = 2 ^ n * 2 ^ (w - n)) as EP by (rewrite <- Z.pow_add_r by lia; f_equal; lia).
  rewrite EP, Z.mul_mod_distr_l; [lia| |]; apply Z.pow_nonzero; lia.
Qed.
Lemma rotr_in w n x : 0 <= w -> word_in w (rotr w n x).
Proof. intros. now apply wmod_in. Qed.
Lemma ror_in w n x : 0 <= n <= w -> word_in w x -> word_in w (ror w n x).
Proof. intros. rewrite <- rotr_ror by assumption. apply rotr_in. lia. Qed.
Lemma rol_in w n x : 0 <= n <= w -> word_in w x -> word_in w (rol w n x).
Proof. intros. rewrite <- rotl_rol by assumption. apply rotr_in. lia. Qed.
Lemma rol_ror w n x : 0 <= n <= w -> word_in w x -> rol w n (ror w n x) = x.
Proof.
  intros Hn [H0 Hx]. unfold rol, ror. pose proof (Z.pow_pos_nonneg 2 n ltac:(lia) ltac:(lia)) as Pn. pose proof (Z.pow_pos_nonneg 2 (w - n) ltac:(lia) ltac:(lia)) as Pw.
  assert (2 ^ w = 2 ^ n * 2 ^ (w - n)) as EP by (rewrite <- Z.pow_add_r by lia; f_equal; lia).
  pose proof (Z.div_mod x (2 ^ n) ltac:(lia)) as ED. pose proof (Z.mod_pos_bound x (2 ^ n) Pn) as HB.
  assert (0 <= x / 2 ^ n < 2 ^ (w - n)) as HQ by (split; [apply Z.div_pos; lia|apply Z.div_lt_upper_bound; lia]).
  set (q := x / 2 ^ n) in *. set (r := x mod 2 ^ n) in *. rewrite (Z.add_comm q), (Z.mul_comm (2 ^ (w - n))), Z.div_add_l, (Z.div_small q) by lia.
  replace (2 ^ n * (r * 2 ^ (w - n) + q)) with (2 ^ n * q + r * 2 ^ w) by (rewrite EP; ring). rewrite Z.mod_add by lia. rewrite Z.mod_small by nia. lia.
Qed.
Lemma bitwise3_unique f g h : bitwise3 f g -> bitwise3 f h -> forall x y z, g x y z = h x y z.
Proof. intros G H x y z. apply Z.bits_inj'. intros i Hi. now rewrite G, H. Qed.
Lemma Ch_bits : bitwise3 choose Ch.
Proof. intros x y z i Hi. unfold Ch. rewrite Z.lxor_spec, Z.land_spec, Z.ldiff_spec. now destruct (Z.testbit x i), (Z.testbit y i), (Z.testbit z i). Qed.
Lemma Maj_bits : bitwise3 majority Maj.
Proof. intros x y z i Hi. unfold Maj. rewrite !Z.lxor_spec, !Z.land_spec. now destruct (Z.testbit x i), (Z.testbit y i), (Z.testbit z i). Qed.
Lemma Parity_bits : bitwise3 parity3 Parity.
Proof. intros x y z i Hi. unfold Parity. rewrite !Z.lxor_spec. now destruct (Z.testbit x i), (Z.testbit y i), (Z.testbit z i). Qed.
Lemma xor3_assoc x y z : xor3 x y z = Z.lxor x (Z.lxor y z).
Proof. apply Z.lxor_assoc. Qed.
(** Exclusive or of words is a word. *)
Lemma lxor_in w x y : 0 <= w -> word_in w x -> word_in w y -> word_in w (Z.lxor x y).
Proof. intros. now apply lxor_range. Qed.

(** ** Texts of words *)
Definition wsays (big : bool) (k : Z) : Z -> bytes -> Prop := lendian big k.
Definition wtext (big : bool) (w x : Z) : bytes := if big then be_word w x else le_word w x.
Lemma wtext_says big w x : 0 <= w -> w mod 8 = 0 -> word_in w x -> lendian big (w / 8) x (wtext big w x).
Proof.
  intros Hw H8 Hx. pose proof (lendian_digits big (w / 8) x ltac:(lia)) as H. cbn zeta in H. replace (8 * (w / 8)) with w in H by lia.
  rewrite Z.mod_small in H by exact Hx. exact H.
Qed.
Lemma wtext_says_mod big w x : 0 <= w -> w mod 8 = 0 -> lendian big (w / 8) (x mod 2 ^ w) (wtext big w x).
Proof. intros Hw H8. pose proof (lendian_digits big (w / 8) x ltac:(lia)) as H. cbn zeta in H. replace (8 * (w / 8)) with w in H by lia. exact H. Qed.
Lemma lendian_in big k x b : 0 <= k -> lendian big k x b -> 0 <= x < 2 ^ (8 * k).
Proof.
  intros Hk HL. destruct big; destruct HL as (HL & HO & HV); subst x k; [unfold be_int; rewrite <- zlen_rev; apply le_int_bound; now rewrite bytes_ok_rev|now apply le_int_bound].
Qed.
Lemma texts_ok (big : bool) w ws : 0 <= w -> w mod 8 = 0 -> Forall (word_in w) ws ->
  words_text (lendian big (w / 8)) ws (flat_map (wtext big w) ws).
Proof.
  intros Hw H8 HF. exists (map (wtext big w) ws). split; [apply flat_map_concat_map|].
  induction HF; constructor; [now apply wtext_says|assumption].
Qed.
Lemma texts_lengths big k ws bs : Forall2 (lendian big k) ws bs -> Forall (fun b => zlen b = k) bs.
Proof. induction 1 as [|x b ws bs H _ IH]; constructor; [eapply lendian_zlen; exact H|exact IH]. Qed.
Lemma texts_functional big k : 0 < k -> forall ws ws' b, words_text (lendian big k) ws b -> words_text (lendian big k) ws' b -> ws = ws'.
Proof.
  intros Hk ws ws' b (bs & -> & HF) (bs' & HE & HF').
  assert (bs = bs') as <- by (eapply (concat_unique (Z.to_nat k)); [lia|apply Forall_zlen; [lia|eapply texts_lengths; exact HF]|apply Forall_zlen; [lia|eapply texts_lengths; exact HF']|exact HE]).
  clear HE. revert ws' HF'. induction HF as [|x b ws bs H _ IH]; intros ws' HF'; inversion HF'; subst; [reflexivity|]. f_equal; [eapply lendian_fun; eassumption|now apply IH].
Qed.
Lemma texts_injective big k ws b b' : words_text (lendian big k) ws b -> words_text (lendian big k) ws b' -> b = b'.
Proof.
  intros (bs & -> & HF) (bs' & -> & HF'). f_equal. revert bs' HF'. induction HF as [|x b ws bs H _ IH]; intros bs' HF'; inversion HF'; subst; [reflexivity|].
  f_equal; [eapply lendian_inj; eassumption|now apply IH].
Qed.
Lemma texts_in big k ws b : 0 <= k -> words_text (lendian big k) ws b -> Forall (word_in (8 * k)) ws.
Proof. intros Hk (bs & _ & HF). induction HF; constructor; [eapply lendian_in; eassumption|assumption]. Qed.
Lemma texts_zlen big k ws b : words_text (lendian big k) ws b -> zlen b = k * zlen ws.
Proof.
  intros (bs & -> & HF). rewrite (zlen_concat _ k) by (eapply texts_lengths; exact HF). f_equal. induction HF as [|x b ws bs _ _ IH]; [reflexivity|]. now rewrite !zlen_cons, IH.
Qed.
Lemma texts_bytes big k ws b : words_text (lendian big k) ws b -> bytes_ok b = true.
Proof. intros (bs & -> & HF). apply bytes_ok_concat. induction HF as [|x b ws bs H _ IH]; constructor; [destruct big; destruct H as (_ & H & _); exact H|exact IH]. Qed.

Definition words_of (big : bool) (w : Z) : bytes -> list Z := if big then words_be w else words_le w.
Lemma pieces_text big w : 0 < w -> w mod 8 = 0 -> forall cs, Forall (fun c => length c = Z.to_nat (w / 8)) cs -> Forall (fun c => bytes_ok c = true) cs ->
  Forall2 (lendian big (w / 8)) (map (fun c => wmod w (if big then be_int c else le_int c)) cs) cs.
Proof.
  intros Hw H8. assert (0 < w / 8) as Hk by lia. induction cs as [|c cs IH]; intros HF HB; [constructor|]. inversion HF; inversion HB; subst. constructor; [|auto].
  assert (zlen c = w / 8) as HL by (unfold zlen, bytes in *; lia).
  destruct big; (split; [exact HL|]; split; [assumption|]); symmetry; apply wmod_id; unfold word_in, be_int.
  - replace w with (8 * zlen (rev c)) by (rewrite zlen_rev; lia). apply le_int_bound. now rewrite bytes_ok_rev.
  - replace w with (8 * zlen c) by lia. now apply le_int_bound.
Qed.
Lemma words_of_text big w b : 0 < w -> w mod 8 = 0 -> bytes_ok b = true -> zlen b mod (w / 8) = 0 ->
  words_text (lendian big (w / 8)) (words_of big w b) b.
Proof.
  intros Hw H8 HO HM. assert (0 < w / 8) as Hk by lia. exists (cut (length b) (Z.to_nat (w / 8)) b). split; [symmetry; apply cut_concat; lia|].
  pose proof (len_exact b (w / 8) Hk HM) as HL. destruct (cut_sizes (Z.to_nat (w / 8)) ltac:(lia) _ (length b) _ HL ltac:(lia)) as [HF _].
  assert (Forall (fun c => bytes_ok c = true) (cut (length b) (Z.to_nat (w / 8)) b)) as HB by (apply bytes_ok_concat; rewrite cut_concat by lia; exact HO).
  pose proof (pieces_text big w Hw H8 _ HF HB) as HP. destruct big; exact HP.
Qed.
Lemma words_of_zlen big w b n : 0 < w -> w mod 8 = 0 -> bytes_ok b = true -> zlen b = n * (w / 8) -> zlen (words_of big w b) = n.
Proof.
  intros Hw H8 HO HL. assert (0 < w / 8) as Hk by lia. pose proof (words_of_text big w b Hw H8 HO ltac:(rewrite HL; apply Z.mod_mul; lia)) as HT.
  apply texts_zlen in HT. nia.
Qed.
Lemma words_of_in big w b : 0 <= w -> Forall (word_in w) (words_of big w b).
Proof. intros Hw. unfold words_of, words_be, words_le. destruct big; induction (cut _ _ _); constructor; auto using wmod_in. Qed.
