(** CBC mode: encryption and decryption undo one another, and encryption is what SP 800-38A says. *)
From Verif.Model Require Import Py Hashes Cipher.
From Verif.Spec Require Import AesSpec.
From Verif.Proofs Require Import PyFacts HashesFacts HmacFacts CipherField CipherFacts.

Lemma cut_step n fuel b r : (0 < n)%nat -> length b = n -> cut (S fuel) n (b ++ r) = b :: cut fuel n r.
Proof.
  intros HN HL. cbn [cut]. destruct (b ++ r) eqn:E; [destruct b; [cbn in HL; lia|discriminate]|]. rewrite <- E. subst n. rewrite firstn_app, Nat.sub_diag, firstn_all, firstn_O, app_nil_r, skipn_app, Nat.sub_diag, skipn_all. reflexivity.
Qed.
Lemma cut_of_blocks n : (0 < n)%nat -> forall bs fuel, Forall (fun b => length b = n) bs -> (length bs <= fuel)%nat -> cut fuel n (concat bs) = bs.
Proof.
  intros HN bs. induction bs as [|b bs IH]; intros fuel HF HL; [destruct fuel; reflexivity|]. apply Forall_cons_iff in HF as [HB HF]. destruct fuel as [|fuel]; [cbn in HL; lia|]. cbn [concat]. rewrite cut_step by assumption. f_equal. apply IH; [exact HF|]. cbn in HL. lia.
Qed.
Lemma blocks_length n bs : Forall (fun b : bytes => length b = n) bs -> length (concat bs) = (length bs * n)%nat.
Proof. induction 1 as [|b bs HB _ IH]; [reflexivity|]. cbn [concat]. rewrite app_length, IH, HB. cbn [length]. lia. Qed.
Lemma good_lengths n bs : Forall (good n) bs -> Forall (fun b => length b = n) bs.
Proof. apply Forall_impl. intros b H. apply H. Qed.
Lemma good_blocks_ok n bs : Forall (good n) bs -> bytes_ok (concat bs) = true.
Proof. intros H. apply bytes_ok_concat. eapply Forall_impl; [|exact H]. intros b Hb. now apply good_ok in Hb. Qed.

Section Cbc.
  Variables f g : bytes -> bytes.
  Hypothesis f_good : forall b, good 16 b -> good 16 (f b).
  Hypothesis g_good : forall b, good 16 b -> good 16 (g b).
  Hypothesis g_f : forall b, good 16 b -> g (f b) = b.
  Hypothesis f_g : forall b, good 16 b -> f (g b) = b.
  Fixpoint enc_blocks (iv : bytes) (bs : list bytes) : list bytes :=
    match bs with [] => [] | b :: r => let c := f (xor_bytes b iv) in c :: enc_blocks c r end.
  Fixpoint dec_blocks (iv : bytes) (bs : list bytes) : list bytes :=
    match bs with [] => [] | b :: r => xor_bytes (g b) iv :: dec_blocks b r end.
  Lemma enc_concat bs : forall iv, cbc_encrypt_blocks f iv bs = concat (enc_blocks iv bs).
  Proof. clear. induction bs as [|b bs IH]; intros iv; [reflexivity|]. cbn [cbc_encrypt_blocks enc_blocks concat]. cbv zeta. now rewrite IH. Qed.
  Lemma dec_concat bs : forall iv, cbc_decrypt_blocks g iv bs = concat (dec_blocks iv bs).
  Proof. clear. induction bs as [|b bs IH]; intros iv; [reflexivity|]. cbn [cbc_decrypt_blocks dec_blocks concat]. now rewrite IH. Qed.
  Lemma enc_good bs : forall iv, good 16 iv -> Forall (good 16) bs -> Forall (good 16) (enc_blocks iv bs) /\ length (enc_blocks iv bs) = length bs.
  Proof using f_good.
    clear g_good g_f f_g g. induction bs as [|b bs IH]; intros iv HI HF; [auto|]. apply Forall_cons_iff in HF as [HB HF]. cbn [enc_blocks]. cbv zeta. pose proof (f_good _ (xor_good _ _ _ HB HI)) as HC. destruct (IH _ HC HF) as [H1 H2]. split; [now constructor|]. cbn [length]. lia.
  Qed.
  Lemma dec_good bs : forall iv, good 16 iv -> Forall (good 16) bs -> Forall (good 16) (dec_blocks iv bs) /\ length (dec_blocks iv bs) = length bs.
  Proof using g_good.
    clear f_good g_f f_g f. induction bs as [|b bs IH]; intros iv HI HF; [auto|]. apply Forall_cons_iff in HF as [HB HF]. cbn [dec_blocks]. destruct (IH _ HB HF) as [H1 H2]. split; [constructor; [|exact H1]; apply xor_good; auto|]. cbn [length]. lia.
  Qed.
  Lemma dec_enc bs : forall iv, good 16 iv -> Forall (good 16) bs -> dec_blocks iv (enc_blocks iv bs) = bs.
  Proof using f_good g_f.
    clear g_good f_g. induction bs as [|b bs IH]; intros iv HI HF; [reflexivity|]. apply Forall_cons_iff in HF as [HB HF]. pose proof (xor_good _ _ _ HB HI) as HX. cbn [enc_blocks]. cbv zeta. cbn [dec_blocks]. rewrite g_f by exact HX. f_equal; [apply xor_undo; destruct HB, HI; congruence|]. apply IH; [now apply f_good|exact HF].
  Qed.
  Lemma enc_dec bs : forall iv, good 16 iv -> Forall (good 16) bs -> enc_blocks iv (dec_blocks iv bs) = bs.
  Proof using g_good f_g.
    clear f_good g_f. induction bs as [|b bs IH]; intros iv HI HF; [reflexivity|]. apply Forall_cons_iff in HF as [HB HF]. cbn [dec_blocks enc_blocks]. cbv zeta. pose proof (g_good _ HB) as HG.
    rewrite xor_undo by (destruct HG, HI; congruence). rewrite f_g by exact HB. f_equal. now apply IH.
  Qed.
End Cbc.

Section Key.
  Variable key : bytes.
  Hypothesis HK : key_ok key.
  Definition nr := zlen key / 4 + 6.
  Lemma nr_facts : 1 <= nr /\ zlen (key_schedule key) = 4 * (nr + 1).
  Proof using HK. destruct (schedule_words key HK) as [_ HL]. unfold nr. split; [|lia]. pose proof (Z.div_pos (zlen key) 4 (zlen_nonneg key) ltac:(lia)). lia. Qed.
  Definition E := encrypt_block (key_schedule key) nr.
  Definition D := decrypt_block (key_schedule key) nr.
  Lemma E_good b : good 16 b -> good 16 (E b).
  Proof using HK. destruct nr_facts as [H1 H2]. apply encrypt_good; [apply (schedule_words key HK)|exact H1|exact H2]. Qed.
  Lemma D_good b : good 16 b -> good 16 (D b).
  Proof using HK. destruct nr_facts as [H1 H2]. apply decrypt_good; [apply (schedule_words key HK)|exact H1|exact H2]. Qed.
  Lemma D_E b : good 16 b -> D (E b) = b.
  Proof using HK. destruct nr_facts as [H1 H2]. apply decrypt_encrypt; [apply (schedule_words key HK)|exact H1|exact H2]. Qed.
  Lemma E_D b : good 16 b -> E (D b) = b.
  Proof using HK. destruct nr_facts as [H1 H2]. apply encrypt_decrypt; [apply (schedule_words key HK)|exact H1|exact H2]. Qed.

  Definition whole (iv d : bytes) : Prop := zlen iv = 16 /\ bytes_ok iv = true /\ zlen d mod 16 = 0 /\ bytes_ok d = true.
  Lemma whole_blocks iv d : whole iv d -> cbc_args key iv d = true /\ good 16 iv /\ exists bs, d = concat bs /\ Forall (good 16) bs.
  Proof using HK.
    intros (H1 & H2 & H3 & H4). split; [|split].
    - unfold cbc_args. destruct HK as [[->|[->| ->]] _]; rewrite H1, H3; reflexivity.
    - apply good_ok. unfold zlen in H1. split; [lia|exact H2].
    - apply Z.mod_divide in H3 as [q Hq]; [|lia]. pose proof (zlen_nonneg d). unfold zlen in *. destruct (cut_good 16 (Z.to_nat q) ltac:(lia) d H4 ltac:(lia)) as [HF _].
      exists (cut (length d) 16 d). split; [|exact HF]. symmetry. apply cut_concat; lia.
  Qed.
  Lemma cut_here bs : Forall (good 16) bs -> cut (length (concat bs)) 16 (concat bs) = bs.
  Proof using. intros HF. apply good_lengths in HF. apply cut_of_blocks; [lia|exact HF|]. rewrite (blocks_length 16) by exact HF. unfold bytes in *. lia. Qed.
  Lemma args_blocks iv bs : good 16 iv -> Forall (good 16) bs -> cbc_args key iv (concat bs) = true.
  Proof using HK.
    intros [HI _] HF. unfold cbc_args. assert (zlen (concat bs) mod 16 = 0) as -> by (unfold zlen; rewrite (blocks_length 16) by (now apply good_lengths); rewrite Nat2Z.inj_mul; apply Z.mod_mul; lia).
    assert (zlen iv = 16) as -> by (unfold zlen; lia). destruct HK as [[->|[->| ->]] _]; reflexivity.
  Qed.
  Lemma encrypts_as iv bs : good 16 iv -> Forall (good 16) bs -> aes_cbc_encrypt key iv (concat bs) = Ok (concat (enc_blocks E iv bs)).
  Proof using HK. intros HI HF. unfold aes_cbc_encrypt. rewrite args_blocks, cut_here by assumption. f_equal. apply enc_concat. Qed.
  Lemma decrypts_as iv bs : good 16 iv -> Forall (good 16) bs -> aes_cbc_decrypt key iv (concat bs) = Ok (concat (dec_blocks D iv bs)).
  Proof using HK. intros HI HF. unfold aes_cbc_decrypt. rewrite args_blocks, cut_here by assumption. f_equal. apply dec_concat. Qed.
  Lemma same_zlen (bs cs : list bytes) : Forall (good 16) bs -> Forall (good 16) cs -> length cs = length bs -> zlen (concat cs) = zlen (concat bs).
  Proof using. intros H1 H2 H3. unfold zlen. rewrite !(blocks_length 16) by now apply good_lengths. now rewrite H3. Qed.
  Theorem cbc_encrypted iv d : whole iv d ->
    exists c, aes_cbc_encrypt key iv d = Ok c /\ zlen c = zlen d /\ bytes_ok c = true /\ aes_cbc_decrypt key iv c = Ok d.
  Proof using HK.
    intros HW. destruct (whole_blocks iv d HW) as (_ & HI & bs & -> & HF). destruct (enc_good E E_good bs iv HI HF) as [H1 H2].
    exists (concat (enc_blocks E iv bs)). split; [now apply encrypts_as|]. split; [now apply same_zlen|]. split; [now apply (good_blocks_ok 16)|].
    rewrite decrypts_as by assumption. rewrite (dec_enc E D E_good D_E) by assumption. reflexivity.
  Qed.
  Theorem cbc_decrypted iv c : whole iv c ->
    exists d, aes_cbc_decrypt key iv c = Ok d /\ zlen d = zlen c /\ bytes_ok d = true /\ aes_cbc_encrypt key iv d = Ok c.
  Proof using HK.
    intros HW. destruct (whole_blocks iv c HW) as (_ & HI & bs & -> & HF). destruct (dec_good D D_good bs iv HI HF) as [H1 H2].
    exists (concat (dec_blocks D iv bs)). split; [now apply decrypts_as|]. split; [now apply same_zlen|]. split; [now apply (good_blocks_ok 16)|].
    rewrite encrypts_as by assumption. rewrite (enc_dec E D D_good E_D) by assumption. reflexivity.
  Qed.
End Key.
