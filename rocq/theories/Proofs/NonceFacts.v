(** The nonces are the candidates of RFC 6979. *)
From Verif.Model Require Import Py Hashes Nonce.
From Verif.Spec Require Import Numbers HashSpec NonceSpec.
From Verif.Proofs Require Import PyFacts NumbersFacts KeysFacts DerFacts HashesExact HmacFacts.

#[local] Opaque hmac_sha256.
Lemma mac_iff k m d : bytes_ok k = true -> bytes_ok m = true -> (mac k m d <-> hmac_sha256 k m = d).
Proof. intros HK HM. symmetry. now apply hmac_sha256_exact. Qed.
Definition fine (st : bytes * bytes) : Prop := bytes_ok (fst st) = true /\ bytes_ok (snd st) = true.
Lemma step_fine st sep data : fine (drbg_step st sep data).
Proof. destruct st as [k v]. split; apply hmac_sha256_ok. Qed.
Lemma run_fine n st : fine st -> fine (drbg_run n st).
Proof.
  intros HS. destruct n; cbn [drbg_run]; unfold drbg_generate.
  - destruct st as [k v]. split; [apply HS|apply hmac_sha256_ok].
  - pose proof (step_fine (drbg_run n st) 0 []) as HF. destruct (drbg_step _ _ _) as [k v]. split; [apply HF|apply hmac_sha256_ok].
Qed.
Lemma nonce_ok m s c : bytes_ok (rfc6979_nonce m s c) = true.
Proof. unfold rfc6979_nonce. destruct c as [|c]; cbn [drbg_run]; unfold drbg_generate; [destruct (drbg_init _)|destruct (drbg_step (drbg_run c _) _ _)]; apply hmac_sha256_ok. Qed.
Lemma nonce_len m s c : zlen (rfc6979_nonce m s c) = 32.
Proof. unfold rfc6979_nonce. destruct c as [|c]; cbn [drbg_run]; unfold drbg_generate; [destruct (drbg_init _)|destruct (drbg_step (drbg_run c _) _ _)]; apply hmac_sha256_len. Qed.
Lemma octets_unique n a b : octets n a -> octets n b -> a = b.
Proof. intros (LA & OA & VA) (LB & OB & VB). rewrite val_be_int in *. apply be_int_inj; [assumption|assumption|congruence|congruence]. Qed.
Section Exact.
  Variables (q x : Z) (h1 secret : bytes).
  Hypothesis secret_ok : octets x secret.
  Hypothesis h1_len : zlen h1 = 32.
  Hypothesis h1_ok : bytes_ok h1 = true.
  Hypothesis h1_low : val_be h1 < q.
  Let st0 := drbg_init (secret ++ h1).
  Lemma h1_octets : octets (val_be h1 mod q) h1.
  Proof using h1_len h1_ok h1_low. rewrite Z.mod_small; [split; [exact h1_len|split; [exact h1_ok|reflexivity]]|]. split; [rewrite val_be_int; now apply be_int_nonneg|exact h1_low]. Qed.
  Lemma st0_fine : fine st0. Proof using. apply step_fine. Qed.
  Lemma seeded_iff K V : seeded q x h1 K V <-> st0 = (K, V).
  Proof using secret_ok h1_len h1_ok h1_low.
    pose proof h1_octets as HH. assert (bytes_ok (secret ++ h1) = true) as HO by (destruct secret_ok as (_ & HO & _); rewrite bytes_ok_app, HO; exact h1_ok).
    assert (forall s v, bytes_ok [s] = true -> bytes_ok v = true -> bytes_ok (v ++ [s] ++ secret ++ h1) = true) as HX by (intros s v Hs Hv; rewrite !bytes_ok_app in *; rewrite Hv, Hs; exact HO).
    unfold st0, drbg_init, drbg_step. unfold seeded. split.
    - intros (xo & ho & K1 & V1 & Hx & Hh & M1 & M2 & M3 & M4). pose proof (octets_unique _ _ _ Hx secret_ok) as ->. pose proof (octets_unique _ _ _ Hh HH) as ->.
      apply mac_iff in M1 as <-; [|reflexivity|now apply HX]. apply mac_iff in M2 as <-; [|apply hmac_sha256_ok|reflexivity].
      apply mac_iff in M3 as <-; [|apply hmac_sha256_ok|apply HX; [reflexivity|apply hmac_sha256_ok]]. apply mac_iff in M4 as <-; [|apply hmac_sha256_ok..]. reflexivity.
    - intros HE. injection HE as <- <-. exists secret, h1, (hmac_sha256 (zrepeat 0 32) (zrepeat 1 32 ++ [0] ++ secret ++ h1)), (hmac_sha256 (hmac_sha256 (zrepeat 0 32) (zrepeat 1 32 ++ [0] ++ secret ++ h1)) (zrepeat 1 32)).
      split; [exact secret_ok|]. split; [exact HH|]. split; [apply mac_iff; [reflexivity|now apply HX|reflexivity]|]. split; [apply mac_iff; [apply hmac_sha256_ok|reflexivity|reflexivity]|].
      split; apply mac_iff; try apply hmac_sha256_ok; try reflexivity. apply HX; [reflexivity|apply hmac_sha256_ok].
  Qed.
  Lemma candidate_iff i : forall K T, candidate q x h1 i K T <-> drbg_run i st0 = (K, T).
  Proof using secret_ok h1_len h1_ok h1_low.
    induction i as [|i IH]; intros K T; cbn [drbg_run]; unfold drbg_generate.
    - split.
      + inversion 1 as [K' V T' HS HM|]; subst. apply seeded_iff in HS. pose proof st0_fine as [F1 F2]. rewrite HS in *. apply mac_iff in HM as <-; [reflexivity|exact F1|exact F2].
      + intros HE. pose proof st0_fine as [F1 F2]. destruct st0 as [K' V] eqn:E0. injection HE as -> <-. apply (cand_first _ _ _ K V); [now apply seeded_iff|]. now apply mac_iff.
    - assert (bytes_ok [0] = true) as H0 by reflexivity. pose proof (run_fine i st0 st0_fine) as HF. split.
      + inversion 1 as [|i' K0 V0 K' V' T' HC M1 M2 M3]; subst. apply IH in HC. rewrite HC in *. destruct HF as [F1 F2]. cbn [fst snd] in F1, F2. unfold drbg_step.
        apply mac_iff in M1 as <-; [|exact F1|rewrite bytes_ok_app, F2; exact H0]. apply mac_iff in M2 as <-; [|apply hmac_sha256_ok|exact F2]. apply mac_iff in M3 as <-; [|apply hmac_sha256_ok..]. now rewrite app_nil_r.
      + intros HE. destruct (drbg_run i st0) as [K0 V0] eqn:ER. unfold drbg_step in HE. rewrite app_nil_r in HE. injection HE as <- <-. destruct HF as [F1 F2]. cbn [fst snd] in F1, F2. set (K' := hmac_sha256 K0 (V0 ++ [0])).
        apply (cand_next _ _ _ i K0 V0 _ (hmac_sha256 K' V0)); [now apply IH| | |]; unfold K'; apply mac_iff; try apply hmac_sha256_ok; try reflexivity; try assumption. rewrite bytes_ok_app, F2. exact H0.
  Qed.
  Theorem nonce_exact i T : rfc6979_nonce h1 secret i = T <-> exists K, candidate q x h1 i K T.
  Proof using secret_ok h1_len h1_ok h1_low.
    unfold rfc6979_nonce. fold st0. split.
    - intros <-. exists (fst (drbg_run i st0)). apply candidate_iff. now destruct (drbg_run i st0).
    - intros (K & HC). apply candidate_iff in HC. now rewrite HC.
  Qed.
End Exact.
