(** Decryption of blocks and of CBC mode undoes encryption, and the other way round. *)
From Verif.Model Require Import Py Hashes Cipher.
From Verif.Spec Require Import AesSpec.
From Verif.Proofs Require Import PyFacts HashesFacts HmacFacts CipherField.

Definition good (n : nat) (s : bytes) : Prop := length s = n /\ Forall byte s.
Lemma good_ok n s : good n s <-> length s = n /\ bytes_ok s = true.
Proof.
  unfold good. split; intros [HL HF]; split; auto.
  - unfold bytes_ok. apply forallb_forall. intros x Hx. apply byte_ok_byte. eapply Forall_forall; eauto.
  - apply Forall_forall. intros x Hx. apply byte_ok_byte. unfold bytes_ok in HF. eapply forallb_forall in HF; eauto.
Qed.
Lemma xor_good n a b : good n a -> good n b -> good n (xor_bytes a b).
Proof.
  rewrite !good_ok. intros [HA OA] [HB OB]. split; [|now apply xor_bytes_ok]. unfold xor_bytes. rewrite map_length, combine_length. lia.
Qed.
Lemma xor_undo a : forall b, length a = length b -> xor_bytes (xor_bytes a b) b = a.
Proof.
  induction a as [|x a IH]; intros [|y b] HL; try discriminate; [reflexivity|]. cbn in HL |- *. unfold xor_bytes in IH. rewrite IH by lia. now rewrite Z.lxor_assoc, Z.lxor_nilpotent, Z.lxor_0_r.
Qed.
Lemma sub_good n s : good n s -> good n (map sub_byte s).
Proof. intros [HL HF]. split; [now rewrite map_length|]. apply Forall_map. eapply Forall_impl; [|exact HF]. exact sub_byte_byte. Qed.
Lemma inv_sub_good n s : good n s -> good n (map inv_sub_byte s).
Proof. intros [HL HF]. split; [now rewrite map_length|]. apply Forall_map. eapply Forall_impl; [|exact HF]. exact inv_sub_byte_byte. Qed.
Lemma sub_undo n s : good n s -> map inv_sub_byte (map sub_byte s) = s.
Proof. intros [_ HF]. rewrite map_map. rewrite <- (map_id s) at 2. apply map_ext_in. intros x Hx. apply inv_sub_sub. eapply Forall_forall; eauto. Qed.
Lemma inv_sub_undo n s : good n s -> map sub_byte (map inv_sub_byte s) = s.
Proof. intros [_ HF]. rewrite map_map. rewrite <- (map_id s) at 2. apply map_ext_in. intros x Hx. apply sub_inv_sub. eapply Forall_forall; eauto. Qed.
Lemma list_16 {A} (s : list A) : length s = 16%nat -> exists a b c d e f g h i j k l m n o p, s = [a; b; c; d; e; f; g; h; i; j; k; l; m; n; o; p].
Proof.
  intros H. do 16 (destruct s as [|? s]; [discriminate H|]). destruct s; [|discriminate H]. repeat eexists.
Qed.
Ltac open16 H := apply list_16 in H as (s0 & s1 & s2 & s3 & s4 & s5 & s6 & s7 & s8 & s9 & s10 & s11 & s12 & s13 & s14 & s15 & ->).
Ltac forall_split := repeat match goal with H : Forall _ (_ :: _) |- _ => apply Forall_cons_iff in H as [? H] end; repeat first [apply Forall_nil | apply Forall_cons]; auto.
Lemma shift_good s : good 16 s -> good 16 (shift_rows s).
Proof. intros [HL HF]. open16 HL. split; [reflexivity|]. cbn [shift_rows]. forall_split. Qed.
Lemma inv_shift_good s : good 16 s -> good 16 (inv_shift_rows s).
Proof. intros [HL HF]. open16 HL. split; [reflexivity|]. cbn [inv_shift_rows]. forall_split. Qed.
Lemma shift_undo s : length s = 16%nat -> inv_shift_rows (shift_rows s) = s.
Proof. intros HL. open16 HL. reflexivity. Qed.
Lemma inv_shift_undo s : length s = 16%nat -> shift_rows (inv_shift_rows s) = s.
Proof. intros HL. open16 HL. reflexivity. Qed.
Lemma mix_good a b c d : byte a -> byte b -> byte c -> byte d -> good 4 (mix_column a b c d).
Proof. intros. split; [reflexivity|]. unfold mix_column, xor4, mul3. repeat first [apply Forall_nil | apply Forall_cons]; repeat apply lxor_byte; auto using xtime_byte. Qed.
Lemma inv_mix_good a b c d : byte a -> byte b -> byte c -> byte d -> good 4 (inv_mix_column a b c d).
Proof. intros. split; [reflexivity|]. unfold inv_mix_column, xor4, mul9, mul11, mul13, mul14. repeat first [apply Forall_nil | apply Forall_cons]; repeat apply lxor_byte; auto using xtime_byte. Qed.
Lemma columns_good f s : (forall a b c d, byte a -> byte b -> byte c -> byte d -> good 4 (f a b c d)) -> good 16 s -> good 16 (columns f s).
Proof.
  intros HG [HL HF]. open16 HL. cbn [columns]. repeat match goal with H : Forall _ (_ :: _) |- _ => apply Forall_cons_iff in H as [? H] end.
  destruct (HG s0 s1 s2 s3) as [L1 F1]; auto. destruct (HG s4 s5 s6 s7) as [L2 F2]; auto. destruct (HG s8 s9 s10 s11) as [L3 F3]; auto. destruct (HG s12 s13 s14 s15) as [L4 F4]; auto.
  split; [rewrite !app_length, L1, L2, L3, L4; reflexivity|]. repeat (apply Forall_app; split; auto). 
Qed.
Lemma columns_undo s : length s = 16%nat -> columns inv_mix_column (columns mix_column s) = s.
Proof.
  intros HL. open16 HL. pose proof inv_mix_mix as HI. unfold mix_column in HI. cbn [columns mix_column app]. rewrite !HI. reflexivity.
Qed.
Lemma inv_columns_undo s : length s = 16%nat -> columns mix_column (columns inv_mix_column s) = s.
Proof.
  intros HL. open16 HL. pose proof mix_inv_mix as HI. unfold inv_mix_column in HI. cbn [columns inv_mix_column app]. rewrite !HI. reflexivity.
Qed.
Lemma round_good k s : good 16 k -> good 16 s -> good 16 (cipher_round k s).
Proof. intros HK HS. apply xor_good; [|exact HK]. apply columns_good; [exact mix_good|]. now apply shift_good, sub_good. Qed.
Lemma inv_round_good k s : good 16 k -> good 16 s -> good 16 (inv_cipher_round k s).
Proof. intros HK HS. apply inv_sub_good, inv_shift_good. apply columns_good; [exact inv_mix_good|]. now apply xor_good. Qed.
Lemma round_undo k s : good 16 k -> good 16 s -> inv_cipher_round k (cipher_round k s) = s.
Proof.
  intros HK HS. unfold inv_cipher_round, cipher_round. pose proof (shift_good _ (sub_good _ _ HS)) as H1. pose proof (columns_good _ _ mix_good H1) as H2.
  rewrite xor_undo by (destruct H2, HK; congruence). rewrite columns_undo by apply H1. rewrite shift_undo by apply (sub_good _ _ HS). now apply (sub_undo 16).
Qed.
Lemma inv_round_undo k s : good 16 k -> good 16 s -> cipher_round k (inv_cipher_round k s) = s.
Proof.
  intros HK HS. unfold inv_cipher_round, cipher_round. pose proof (xor_good _ _ _ HS HK) as H1. pose proof (columns_good _ _ inv_mix_good H1) as H2.
  rewrite (inv_sub_undo 16) by now apply inv_shift_good. rewrite inv_shift_undo by apply H2. rewrite inv_columns_undo by apply H1. apply xor_undo. destruct HS, HK. congruence.
Qed.

(** ** The key schedule *)
Definition words (ws : list bytes) : Prop := Forall (good 4) ws.
Lemma nth_word ws i : words ws -> (i < length ws)%nat -> good 4 (nth i ws []).
Proof. intros HW HI. eapply Forall_forall; [exact HW|]. now apply nth_In. Qed.
Lemma rot_good w : good 4 w -> good 4 (rot_word w).
Proof. intros [HL HF]. do 4 (destruct w as [|? w]; [discriminate HL|]). destruct w; [|discriminate HL]. cbn. split; [reflexivity|]. forall_split. Qed.
Lemma rcon_byte i : byte (rcon i).
Proof.
  unfold rcon. set (l := [_; _; _; _; _; _; _; _; _; _]). destruct (nth_in_or_default (Z.to_nat (i - 1)) l 0) as [H| ->]; [|unfold byte; lia].
  assert (Forall byte l) as HF by (unfold l; repeat first [apply Forall_nil | apply Forall_cons]; unfold byte; lia). eapply Forall_forall in HF; eauto.
Qed.
Lemma next_good nk ws : 0 < nk <= zlen ws -> words ws -> good 4 (next_word nk ws).
Proof.
  intros HN HW. unfold next_word. cbv zeta. unfold zlen in *. apply xor_good; [apply nth_word; [exact HW|lia]|].
  assert (good 4 (nth (Z.to_nat (Z.of_nat (length ws) - 1)) ws [])) as HT by (apply nth_word; [exact HW|lia]).
  destruct (_ =? 0).
  - apply xor_good; [now apply sub_good, rot_good|]. split; [reflexivity|]. repeat first [apply Forall_nil | apply Forall_cons]; [apply rcon_byte|unfold byte; lia..].
  - destruct (_ && _); [now apply sub_good|exact HT].
Qed.
Lemma expand_words nk n : forall ws, 0 < nk <= zlen ws -> words ws -> words (expand n nk ws) /\ length (expand n nk ws) = (n + length ws)%nat.
Proof.
  induction n as [|n IH]; intros ws HN HW; [auto|]. cbn [expand]. destruct (IH (ws ++ [next_word nk ws])) as [H1 H2].
  - rewrite zlen_app. pose proof (zlen_nonneg [next_word nk ws]). lia.
  - apply Forall_app. split; [exact HW|]. constructor; [now apply next_good|constructor].
  - split; [exact H1|]. rewrite H2, app_length. cbn [length]. lia.
Qed.
Definition key_ok (key : bytes) : Prop := (zlen key = 16 \/ zlen key = 24 \/ zlen key = 32) /\ bytes_ok key = true.
Lemma cut_good n k : (0 < n)%nat -> forall m, bytes_ok m = true -> length m = (k * n)%nat -> Forall (good n) (cut (length m) n m) /\ length (cut (length m) n m) = k.
Proof.
  intros HN m HM HL. destruct (cut_sizes n HN k (length m) m HL ltac:(lia)) as [HF HK]. split; [|exact HK].
  pose proof (cut_concat n HN (length m) m ltac:(lia)) as HC. rewrite <- HC in HM. apply bytes_ok_concat in HM. revert HF HM. generalize (cut (length m) n m). intros l HF HM.
  apply Forall_forall. intros x Hx. apply good_ok. split; [eapply Forall_forall in HF; eauto|eapply Forall_forall in HM; eauto].
Qed.
Lemma schedule_words key : key_ok key -> words (key_schedule key) /\ zlen (key_schedule key) = 4 * (zlen key / 4 + 7).
Proof.
  intros [HK HO]. unfold key_schedule. cbv zeta. assert (exists k, (k = 4 \/ k = 6 \/ k = 8) /\ zlen key = 4 * k) as (k & Hk & E) by (destruct HK as [->|[->| ->]]; [exists 4|exists 6|exists 8]; lia).
  replace (zlen key / 4) with k by (rewrite E; symmetry; rewrite Z.mul_comm; apply Z.div_mul; lia). unfold zlen in E.
  destruct (cut_good 4 (Z.to_nat k) ltac:(lia) key HO ltac:(lia)) as [H1 H2].
  destruct (expand_words k (Z.to_nat (4 * (k + 7) - k)) (cut (length key) 4 key)) as [H3 H4]; [unfold zlen; lia|exact H1|]. split; [exact H3|]. unfold zlen. lia.
Qed.
Lemma round_key_good ws r : words ws -> 0 <= r -> 4 * r + 4 <= zlen ws -> good 16 (round_key ws r).
Proof.
  intros HW HR HL. unfold round_key. set (n := Z.to_nat (4 * r)). assert (n + 4 <= length ws)%nat as HN by (unfold zlen in HL; lia). clearbody n.
  assert (Forall (good 4) (firstn 4 (skipn n ws))) as HF. { apply Forall_forall. intros x Hx. eapply Forall_forall; [exact HW|]. apply In_firstn in Hx || idtac. revert Hx. intros Hx.
    assert (In x (skipn n ws)) as H1 by (rewrite <- (firstn_skipn 4 (skipn n ws)); apply in_or_app; now left). rewrite <- (firstn_skipn n ws). apply in_or_app. now right. }
  assert (length (firstn 4 (skipn n ws)) = 4%nat) as HL4 by (rewrite firstn_length, skipn_length; lia).
  destruct (firstn 4 (skipn n ws)) as [|a [|b [|c [|d [|]]]]]; try discriminate HL4. cbn [concat]. rewrite app_nil_r.
  repeat match goal with H : Forall _ (_ :: _) |- _ => apply Forall_cons_iff in H as [[? ?] H] end. split; [rewrite !app_length; lia|]. repeat (apply Forall_app; split; auto).
Qed.

(** ** Blocks *)
Section Rounds.
  Context {A : Type} (ok : bytes -> Prop) (f g : A -> bytes -> bytes).
  Lemma fold_keeps l : forall s, (forall r s, In r l -> ok s -> ok (f r s)) -> ok s -> ok (fold_left (fun s r => f r s) l s).
  Proof. induction l as [|r l IH]; intros s HF HS; [exact HS|]. cbn [fold_left]. apply IH; [|apply HF; [now left|exact HS]]. intros. apply HF; [now right|assumption]. Qed.
  Lemma fold_undo l : forall s, (forall r s, In r l -> ok s -> ok (f r s) /\ g r (f r s) = s) -> ok s -> fold_left (fun s r => g r s) (rev l) (fold_left (fun s r => f r s) l s) = s.
  Proof.
    induction l as [|r l IH]; intros s HF HS; [reflexivity|]. cbn [fold_left rev]. rewrite fold_left_app. rewrite IH; [|intros; apply HF; [now right|assumption]|apply HF; [now left|exact HS]].
    cbn [fold_left]. apply HF; [now left|exact HS].
  Qed.
End Rounds.
Lemma zrange_nat_in r n : forall a, In r (zrange_nat a n) -> a <= r < a + Z.of_nat n.
Proof. induction n as [|n IH]; intros a H; [destruct H|]. cbn [zrange_nat] in H. destruct H as [<-|H]; [lia|]. apply IH in H. lia. Qed.
Lemma zrange_in r a b : In r (zrange a b) -> a <= r < b.
Proof. intros H. apply zrange_nat_in in H. lia. Qed.
Section Block.
  Variables (ws : list bytes) (nr : Z).
  Hypothesis ws_ok : words ws.
  Hypothesis nr_ok : 1 <= nr.
  Hypothesis len_ok : zlen ws = 4 * (nr + 1).
  Lemma rk r : 0 <= r <= nr -> good 16 (round_key ws r).
  Proof. intros Hr. apply round_key_good; [exact ws_ok|lia|lia]. Qed.
  Lemma encrypt_good b : good 16 b -> good 16 (encrypt_block ws nr b).
  Proof.
    intros HB. unfold encrypt_block. cbv zeta. apply xor_good; [|apply rk; lia]. apply shift_good, sub_good.
    apply (fold_keeps (good 16) (fun r s => cipher_round (round_key ws r) s)).
    - intros r s Hr Hs. apply zrange_in in Hr. apply round_good; [apply rk; lia|exact Hs].
    - apply xor_good; [exact HB|apply rk; lia].
  Qed.
  Lemma decrypt_good b : good 16 b -> good 16 (decrypt_block ws nr b).
  Proof.
    intros HB. unfold decrypt_block. cbv zeta. apply xor_good; [|apply rk; lia].
    apply (fold_keeps (good 16) (fun r s => inv_cipher_round (round_key ws r) s)).
    - intros r s Hr Hs. apply in_rev in Hr. apply zrange_in in Hr. apply inv_round_good; [apply rk; lia|exact Hs].
    - apply inv_sub_good, inv_shift_good. apply xor_good; [exact HB|apply rk; lia].
  Qed.
  Lemma decrypt_encrypt b : good 16 b -> decrypt_block ws nr (encrypt_block ws nr b) = b.
  Proof.
    intros HB. unfold encrypt_block. cbv zeta. set (s0 := xor_bytes b (round_key ws 0)). assert (good 16 s0) as H0 by (apply xor_good; [exact HB|apply rk; lia]).
    set (s1 := fold_left _ (zrange 1 nr) s0). assert (good 16 s1) as H1.
    { apply (fold_keeps (good 16) (fun r s => cipher_round (round_key ws r) s)); [|exact H0]. intros r s Hr Hs. apply zrange_in in Hr. apply round_good; [apply rk; lia|exact Hs]. }
    unfold decrypt_block. cbv zeta. pose proof (shift_good _ (sub_good _ _ H1)) as H2. rewrite xor_undo by (destruct H2, (rk nr ltac:(lia)); congruence).
    rewrite shift_undo by apply (sub_good _ _ H1). rewrite (sub_undo 16) by exact H1. unfold s1.
    rewrite (fold_undo (good 16) (fun r s => cipher_round (round_key ws r) s) (fun r s => inv_cipher_round (round_key ws r) s)); [|intros r s Hr Hs; apply zrange_in in Hr|exact H0].
    - unfold s0. apply xor_undo. destruct HB, (rk 0 ltac:(lia)). congruence.
    - split; [apply round_good|apply round_undo]; try exact Hs; apply rk; lia.
  Qed.
  Lemma encrypt_decrypt b : good 16 b -> encrypt_block ws nr (decrypt_block ws nr b) = b.
  Proof.
    intros HB. unfold decrypt_block. cbv zeta. set (s0 := map inv_sub_byte _). assert (good 16 s0) as H0 by (apply inv_sub_good, inv_shift_good, xor_good; [exact HB|apply rk; lia]).
    set (s1 := fold_left (fun s r => inv_cipher_round (round_key ws r) s) (rev (zrange 1 nr)) s0). assert (good 16 s1) as H1.
    { apply (fold_keeps (good 16) (fun r s => inv_cipher_round (round_key ws r) s)); [|exact H0]. intros r s Hr Hs. apply in_rev in Hr. apply zrange_in in Hr. apply inv_round_good; [apply rk; lia|exact Hs]. }
    unfold encrypt_block. cbv zeta. rewrite xor_undo by (destruct H1, (rk 0 ltac:(lia)); congruence). unfold s1.
    rewrite <- (rev_involutive (zrange 1 nr)) at 1.
    rewrite (fold_undo (good 16) (fun r s => inv_cipher_round (round_key ws r) s) (fun r s => cipher_round (round_key ws r) s)); [|intros r s Hr Hs; apply in_rev, zrange_in in Hr|exact H0].
    - unfold s0. pose proof (xor_good _ _ _ HB (rk nr ltac:(lia))) as HX. rewrite (inv_sub_undo 16) by now apply inv_shift_good. rewrite inv_shift_undo by apply HX. apply xor_undo. destruct HB, (rk nr ltac:(lia)). congruence.
    - split; [apply inv_round_good|apply inv_round_undo]; try exact Hs; apply rk; lia.
  Qed.
End Block.
