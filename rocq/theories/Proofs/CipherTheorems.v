(** What the functions of aes.py return. *)
From Verif.Model Require Import Py Hashes Aes Cipher.
From Verif.Spec Require Import AesSpec MiscSpec.
From Verif.Proofs Require Import PyFacts HashesFacts HmacFacts MiscFacts CipherField CipherFacts CipherCbc CipherExact.

Lemma xored_iff a b c : length a = 16%nat -> length b = 16%nat -> (xored a b c <-> c = xor_bytes a b).
Proof.
  intros HA HB. assert (length (xor_bytes a b) = 16%nat) as HX by (unfold xor_bytes; rewrite map_length, combine_length; lia). unfold xored. split.
  - intros (_ & HL & HC). assert (length c = 16%nat) as HCL by (unfold zlen in HL; unfold bytes in *; lia). apply (nth_ext c _ 0 0); [congruence|]. intros n Hn. rewrite HCL in Hn. rewrite xor_nth by lia.
    specialize (HC (Z.of_nat n) (nth n a 0) (nth n b 0)). rewrite !znth_nth, Nat2Z.id in HC by (rewrite ?Nat2Z.id; lia). specialize (HC eq_refl eq_refl). injection HC as HC. exact HC.
  - intros ->. unfold zlen. split; [now rewrite HA, HB|]. split; [now rewrite HA, HX|]. intros i x y Hx Hy. pose proof (znth_Some _ _ _ Hx) as Hi. unfold zlen in Hi.
    rewrite znth_nth in Hx by lia. rewrite znth_nth in Hy by lia. injection Hx as <-. injection Hy as <-. rewrite znth_nth by lia. f_equal. apply xor_nth; lia.
Qed.
Section Key.
  Variable key : bytes.
  Hypothesis HK : key_ok key.
  Lemma E_exact b c : good 16 b -> (E key b = c <-> aes_says key b c).
  Proof using HK.
    intros HB. unfold E, nr. assert (exists nk, zlen key = 4 * nk) as (nk & Hnk) by (destruct HK as [[->|[->| ->]] _]; [exists 4|exists 6|exists 8]; reflexivity).
    replace (zlen key / 4) with nk by (rewrite Hnk, (Z.mul_comm 4 nk), Z.div_mul; lia). apply (block_exact key HK nk Hnk b HB c).
  Qed.
  Lemma says_of bs : forall iv, good 16 iv -> Forall (good 16) bs -> cbc_says (aes_says key) iv (concat bs) (concat (enc_blocks (E key) iv bs)).
  Proof using HK.
    induction bs as [|b bs IH]; intros iv HI HF; [constructor|]. apply Forall_cons_iff in HF as [HB HF]. cbn [enc_blocks concat]. cbv zeta. pose proof (xor_good _ _ _ HB HI) as HX.
    apply (cbc_block _ iv b (xor_bytes b iv)).
    - destruct HB as [HB _]. unfold zlen. lia.
    - apply xored_iff; [apply HB|apply HI|reflexivity].
    - now apply E_exact.
    - apply IH; [now apply E_good|exact HF].
  Qed.
  Lemma says_to iv d c : cbc_says (aes_says key) iv d c -> good 16 iv -> bytes_ok d = true -> exists bs, Forall (good 16) bs /\ d = concat bs /\ c = concat (enc_blocks (E key) iv bs).
  Proof using HK.
    induction 1 as [iv|iv b x c d e HL HX HC _ IH]; intros HI HO; [exists []; auto|]. rewrite bytes_ok_app in HO. apply andb_true_iff in HO as [HOb HOd].
    assert (good 16 b) as HB by (apply good_ok; split; [unfold zlen in HL; lia|exact HOb]). apply xored_iff in HX as ->; [|apply HB|apply HI]. pose proof (xor_good _ _ _ HB HI) as HX.
    apply (E_exact _ c HX) in HC as <-. destruct (IH (E_good key HK _ HX) HOd) as (bs & HF & -> & ->). exists (b :: bs). split; [now constructor|]. split; reflexivity.
  Qed.
  Theorem cbc_exact iv d c : whole iv d -> (aes_cbc_encrypt key iv d = Ok c <-> cbc_says (aes_says key) iv d c).
  Proof using HK.
    intros HW. destruct (whole_blocks key HK iv d HW) as (_ & HI & bs & -> & HF). split.
    - rewrite encrypts_as by assumption. intros HE. injection HE as <-. now apply says_of.
    - intros HS. apply says_to in HS as (bs' & HF' & HE & ->); [|exact HI|apply HW]. rewrite HE. now apply encrypts_as.
  Qed.
  Theorem cbc_decrypt_exact iv d c : whole iv c -> (aes_cbc_decrypt key iv c = Ok d <-> bytes_ok d = true /\ cbc_says (aes_says key) iv d c).
  Proof using HK.
    intros HW. destruct (cbc_decrypted key HK iv c HW) as (d' & HD & HL & HO & HE). assert (whole iv d') as HW' by (destruct HW as (H1 & H2 & H3 & H4); repeat split; [exact H1|exact H2|rewrite HL; exact H3|exact HO]).
    split.
    - rewrite HD. intros HX. injection HX as <-. split; [exact HO|]. now apply cbc_exact.
    - intros [HOd HS]. assert (whole iv d) as HWd.
      { destruct HW as (H1 & H2 & H3 & H4). repeat split; [exact H1|exact H2| |exact HOd]. apply says_to in HS as (bs & HF & -> & _); [|apply good_ok; unfold zlen in H1; split; [lia|exact H2]|exact HOd].
        unfold zlen. rewrite (blocks_length 16) by now apply good_lengths. rewrite Nat2Z.inj_mul. apply Z.mod_mul. lia. }
      apply cbc_exact in HS; [|exact HWd]. destruct (cbc_encrypted key HK iv d HWd) as (c' & HC & _ & _ & HB). rewrite HC in HS. injection HS as ->. exact HB.
  Qed.
End Key.
Lemma cbc_args_iff key iv d : cbc_args key iv d = true <-> (zlen key = 16 \/ zlen key = 24 \/ zlen key = 32) /\ zlen iv = 16 /\ zlen d mod 16 = 0.
Proof. unfold cbc_args. rewrite !andb_true_iff, !orb_true_iff, !Z.eqb_eq. tauto. Qed.
