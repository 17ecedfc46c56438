(** What signing returns. *)
From Verif.Model Require Import Py Curve Ecdsa Keys Signature Hashes Nonce.
From Verif.Spec Require Import Numbers CurveSpec EcdsaSpec HashSpec NonceSpec.
From Verif.Proofs Require Import PyFacts NumbersFacts CurveFacts KeysFacts DerFacts EcdsaFacts NonceFacts.

#[local] Opaque hmac_sha256 rfc6979_nonce.
Section Exact.
  Variable C : curve.
  Hypothesis L : curve_laws C.
  Variable K : coords C.
  Hypothesis KL : coords_laws C K.
  Notation N := CURVE_ORDER.

  Lemma sig_sign_iff x z k r s recid : 0 < k < N -> sig_sign C K x (z mod N) k = Some (r, s, recid) <-> signed_with C K x z k r s recid.
  Proof using L KL.
    intros Hk. unfold sig_sign, signed_with. pose proof order_pos as HP. pose proof order_odd as HO. pose proof order_field as HF. rewrite (mult_smul C L).
    destruct (smul C k (Some (gen C))) as [R|]; [|split; [discriminate|intros (_ & R & s1 & HE & _); discriminate HE]]. cbv zeta.
    pose proof (law_px C K KL R) as HX. set (r0 := px K R mod N). set (s0 := scalar_mul (scalar_inverse k) ((scalar_mul r0 x + z mod N) mod N)).
    assert (0 <= s0 < N) as Hs0 by apply modN. destruct (inverse_spec k Hk) as [HI HIR].
    assert (forall t, 0 <= t < N -> (k * t) mod N = (z + r0 * x) mod N <-> t = s0) as HT.
    { intros t Ht. assert ((scalar_mul r0 x + z mod N) mod N = (z + r0 * x) mod N) as HM by (unfold scalar_mul; rewrite <- Zplus_mod; f_equal; lia).
      unfold s0. rewrite HM. unfold scalar_mul. rewrite Zmult_mod_idemp_r. split.
      - intros HE. rewrite <- Zmult_mod_idemp_r, <- HE, Zmult_mod_idemp_r, Z.mul_assoc, (Z.mul_comm (scalar_inverse k)), <- Zmult_mod_idemp_l, HI, Z.mul_1_l. symmetry. now apply Z.mod_small.
      - intros ->. rewrite Zmult_mod_idemp_r, Z.mul_assoc, <- Zmult_mod_idemp_l, HI, Z.mul_1_l. reflexivity. }
    assert (px K R / N = if N <=? px K R then 1 else 0) as HD.
    { clear - HX HF HP. destruct (Z.leb_spec N (px K R)) as [HG|HG]; [|apply Z.div_small; split; [apply HX|exact HG]]. symmetry. apply (Z.div_unique _ _ _ (px K R - N)); lia. }
    assert (forall b, scalar_is_high s0 = b -> (b = true <-> N < 2 * s0)) as HH by (intros b <-; unfold scalar_is_high; rewrite Z.ltb_lt; clear - HO; lia).
    assert (0 < s0 -> scalar_negate s0 = N - s0) as HN by (intros; unfold scalar_negate; rewrite Z.mod_opp_l_nz; rewrite ?(Z.mod_small s0); lia).
    set (odd := if podd K R then 1 else 0). assert (Z.lxor ((if N <=? px K R then 2 else 0) + odd) 1 = 2 * (px K R / N) + (1 - odd)) as HXo by (rewrite HD; unfold odd; destruct (N <=? px K R), (podd K R); reflexivity).
    assert ((if N <=? px K R then 2 else 0) + odd = 2 * (px K R / N) + odd) as HXe by (rewrite HD; destruct (N <=? px K R); reflexivity). rewrite HXo, HXe. clear HXo HXe HD HX.
    split.
    - destruct (Z.eqb_spec r0 0) as [|Hr]; [discriminate|]. destruct (Z.eqb_spec s0 0) as [|Hs]; [discriminate|]. cbn [orb]. intros HE. split; [exact Hk|]. exists R, s0. split; [reflexivity|].
      destruct (scalar_is_high s0) eqn:EH; injection HE as <- <- <-; (split; [reflexivity|]); (split; [exact Hr|]); (split; [lia|]); (split; [now apply HT|]).
      + right. split; [now apply (HH true)|]. split; [apply HN; lia|reflexivity].
      + left. split; [|split; reflexivity]. destruct (Z.lt_ge_cases (2 * s0) N) as [|HG]; [assumption|]. exfalso. assert (N < 2 * s0) as HG' by (clear - HG HO; lia). apply (HH false eq_refl) in HG'. discriminate.
    - intros (_ & R' & s1 & HE & -> & Hr & Hs & HM & HC). injection HE as <-. fold r0 in Hr, HM |- *. apply HT in HM; [|lia]. subst s1. destruct (Z.eqb_spec r0 0); [contradiction|]. destruct (Z.eqb_spec s0 0); [lia|]. cbn [orb].
      destruct HC as [(HC & -> & ->)|(HC & -> & ->)].
      + destruct (scalar_is_high s0) eqn:EH; [pose proof (proj1 (HH true eq_refl) eq_refl); lia|reflexivity].
      + apply (HH _ eq_refl) in HC. rewrite HC, HN by lia. reflexivity.
  Qed.

  Variables (q x : Z) (h1 secret : bytes).
  Hypothesis secret_ok : octets x secret.
  Hypothesis h1_len : zlen h1 = 32.
  Hypothesis h1_ok : bytes_ok h1 = true.
  Hypothesis h1_low : val_be h1 < q.
  Definition signs (n : nat) (r s recid : Z) : Prop := signed_with C K x (val_be h1) (val_be (rfc6979_nonce h1 secret n)) r s recid.
  Lemma attempt_iff n r s recid :
    (let non := be_int (rfc6979_nonce h1 secret n) in if (N <=? non) || (non =? 0) then None else sig_sign C K (be_int secret) (scalar_of_hash h1) non) = Some (r, s, recid) <-> signs n r s recid.
  Proof using L KL secret_ok.
    cbv zeta. unfold signs. rewrite !val_be_int. set (non := be_int (rfc6979_nonce h1 secret n)). assert (0 <= non) as H0 by (unfold non; apply be_int_nonneg; apply NonceFacts.nonce_ok). destruct secret_ok as (_ & _ & HS). rewrite val_be_int in HS. rewrite HS. clearbody non.
    destruct (Z.leb_spec N non); cbn [orb]; [split; [discriminate|intros (? & _); lia]|]. destruct (Z.eqb_spec non 0); [split; [discriminate|intros (? & _); lia]|].
    unfold scalar_of_hash. apply sig_sign_iff. lia.
  Qed.
  Lemma attempt_none n : (let non := be_int (rfc6979_nonce h1 secret n) in if (N <=? non) || (non =? 0) then None else sig_sign C K (be_int secret) (scalar_of_hash h1) non) = None <-> ~ exists r s recid, signs n r s recid.
  Proof using L KL secret_ok.
    pose proof (attempt_iff n) as HI. cbv zeta in *. match type of HI with context [?t = Some _] => destruct t as [[[r s] i]|] end.
    - split; [discriminate|]. intros HN. exfalso. apply HN. exists r, s, i. now apply HI.
    - split; [|reflexivity]. intros _ (r & s & i & HS). apply HI in HS. discriminate.
  Qed.
  Lemma sign_loop_iff r s recid fuel : forall c, sign_loop C K rfc6979_nonce fuel c h1 secret = Ok (r, s, recid) <->
    exists n, (c <= n < c + fuel)%nat /\ signs n r s recid /\ forall i, (c <= i < n)%nat -> ~ exists r s recid, signs i r s recid.
  Proof using L KL secret_ok.
    induction fuel as [|f IH]; intros c; cbn [sign_loop]; [split; [discriminate|intros (n & Hn & _); lia]|].
    pose proof (attempt_iff c) as HI. pose proof (attempt_none c) as HN. cbv zeta in *. match type of HI with context [?t = Some _] => destruct t as [[[r' s'] i']|] end.
    - clear HN IH. split.
      + intros HE. injection HE as -> -> ->. exists c. split; [lia|]. split; [now apply HI|]. intros i Hi. lia.
      + intros (n & Hn & HS & HF). destruct (Nat.eq_dec n c) as [->|Hc]; [apply HI in HS; now injection HS as -> -> ->|]. exfalso. apply (HF c); [lia|]. exists r', s', i'. now apply HI.
    - rewrite IH. split.
      + intros (n & Hn & HS & HF). exists n. split; [lia|]. split; [exact HS|]. intros i Hi. destruct (Nat.eq_dec i c) as [->|Hc]; [now apply HN|apply HF; lia].
      + intros (n & Hn & HS & HF). destruct (Nat.eq_dec n c) as [->|Hc]; [exfalso; apply HI in HS; discriminate|]. exists n. split; [lia|]. split; [exact HS|]. intros i Hi. apply HF. lia.
  Qed.
  Lemma first_iff r s recid : first_signed C K q x h1 r s recid <-> exists n, signs n r s recid /\ forall i, (i < n)%nat -> ~ exists r s recid, signs i r s recid.
  Proof using secret_ok h1_len h1_ok h1_low.
    unfold first_signed, signs. split.
    - intros (n & Kn & T & HC & HS & HF). exists n. assert (rfc6979_nonce h1 secret n = T) as E by (apply (nonce_exact q x); eauto). rewrite E. split; [exact HS|]. intros i Hi.
      destruct (proj1 (nonce_exact q x h1 secret secret_ok h1_len h1_ok h1_low i _) eq_refl) as (Ki & HCi). exact (HF i Ki _ Hi HCi).
    - intros (n & HS & HF). destruct (proj1 (nonce_exact q x h1 secret secret_ok h1_len h1_ok h1_low n _) eq_refl) as (Kn & HC). exists n, Kn, (rfc6979_nonce h1 secret n). split; [exact HC|]. split; [exact HS|].
      intros i Ki Ti Hi HCi. assert (rfc6979_nonce h1 secret i = Ti) as <- by (apply (nonce_exact q x); eauto). now apply HF.
  Qed.
  Theorem sign_exact r s recid : (exists fuel, sign_loop C K rfc6979_nonce fuel 0 h1 secret = Ok (r, s, recid)) <-> first_signed C K q x h1 r s recid.
  Proof using L KL secret_ok h1_len h1_ok h1_low.
    rewrite first_iff. split.
    - intros (fuel & HE). apply sign_loop_iff in HE as (n & Hn & HS & HF). exists n. split; [exact HS|]. intros i Hi. apply HF. lia.
    - intros (n & HS & HF). exists (S n). apply sign_loop_iff. exists n. split; [lia|]. split; [exact HS|]. intros i Hi. apply HF. lia.
  Qed.
  Lemma sign_loop_more fuel fuel' g : (fuel <= fuel')%nat -> sign_loop C K rfc6979_nonce fuel 0 h1 secret = Ok g -> sign_loop C K rfc6979_nonce fuel' 0 h1 secret = Ok g.
  Proof using L KL secret_ok.
    intros HF HE. destruct g as [[r s] i]. apply sign_loop_iff in HE as (n & Hn & HS). apply sign_loop_iff. exists n. split; [lia|exact HS].
  Qed.
End Exact.
