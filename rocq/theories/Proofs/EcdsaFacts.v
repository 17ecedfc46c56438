(** ECDSA: signing, verifying and recovering agree. *)
From Coq Require Import Znumtheory.
From Verif.Model Require Import Py Text Packing Misc Curve Base64 Signature Der Keys Ecdsa.
From Verif.Spec Require Import Numbers CurveSpec EcdsaSpec.
From Verif.Proofs Require Import PyFacts Primality ModInverseFacts CurveFacts DerFacts.

#[local] Transparent CURVE_ORDER.
Lemma order_odd : CURVE_ORDER mod 2 = 1.
Proof. reflexivity. Qed.
Lemma order_field : CURVE_ORDER < FIELD < 2 * CURVE_ORDER.
Proof. split; reflexivity. Qed.
Lemma order_bound : 1 < CURVE_ORDER < 2 ^ 256.
Proof. split; reflexivity. Qed.
#[local] Opaque CURVE_ORDER.
#[global] Opaque FIELD.

(** * Inverses *)
Lemma inverse_spec a : 0 < a < CURVE_ORDER -> (a * scalar_inverse a) mod CURVE_ORDER = 1 /\ 0 <= scalar_inverse a < CURVE_ORDER.
Proof. intros Ha. pose proof order_bound as HB. apply mod_inverse_ok; [exact order_odd|lia|exact order_prime|lia|exact Ha]. Qed.
#[global] Opaque scalar_inverse.

Section Facts.
  Variable C : curve.
  Hypothesis L : curve_laws C.
  Notation "a +' b" := (gadd C a b) (at level 50, left associativity).
  Notation N := CURVE_ORDER.
  Notation G := (Some (gen C)).

  (** The action of the integers modulo the order *)
  Definition act (a : Z) (P : option (pt C)) : option (pt C) := smul C (a mod N) P.
  Lemma modN a : 0 <= a mod N < N.
  Proof using. apply Z.mod_pos_bound. pose proof order_pos. lia. Qed.
  Lemma smul_act a P : 0 <= a -> smul C a P = act a P.
  Proof using L. intros Ha. unfold act. symmetry. now apply (smul_mod C L). Qed.
  Lemma act_eq a b P : a mod N = b mod N -> act a P = act b P.
  Proof using. intros HE. unfold act. now rewrite HE. Qed.
  Lemma act_add a b P : act (a + b) P = act a P +' act b P.
  Proof using L. unfold act. rewrite <- (smul_add C L) by apply modN. rewrite <- (smul_mod C L (a mod N + b mod N)) by (pose proof (modN a); pose proof (modN b); lia). now rewrite <- Zplus_mod. Qed.
  Lemma act_mul a b P : act (a * b) P = act a (act b P).
  Proof using L. unfold act. rewrite <- (smul_mul C L) by apply modN. rewrite <- (smul_mod C L (a mod N * (b mod N))) by (pose proof (modN a); pose proof (modN b); nia). now rewrite <- Zmult_mod. Qed.
  Lemma act_gadd a P Q : act a (P +' Q) = act a P +' act a Q.
  Proof using L. unfold act. apply (smul_gadd C L). apply modN. Qed.
  Lemma act_1 a P : a mod N = 1 -> act a P = P.
  Proof using. intros HE. unfold act. rewrite HE. reflexivity. Qed.
  Lemma act_0 a P : a mod N = 0 -> act a P = None.
  Proof using. intros HE. unfold act. rewrite HE. reflexivity. Qed.
  Lemma mult_smul n P : mult C n P = smul C n P.
  Proof using L. destruct n; try reflexivity. cbn [mult smul]. symmetry. apply (pmul_times C L). Qed.
  Lemma mult_act n P : 0 <= n -> mult C n P = act n P.
  Proof using L. intros Hn. rewrite mult_smul. now apply smul_act. Qed.

  Lemma equation_act R r s z Q : 0 <= r -> 0 <= s -> 0 <= z -> ecdsa_equation C R r s z Q <-> act s (Some R) = act z G +' act r (Some Q).
  Proof using L. intros Hr Hs Hz. unfold ecdsa_equation. rewrite !mult_act by assumption. reflexivity. Qed.
  Lemma equation_mod R r s z z' Q : 0 <= r -> 0 <= s -> 0 <= z -> 0 <= z' -> z mod N = z' mod N -> ecdsa_equation C R r s z Q <-> ecdsa_equation C R r s z' Q.
  Proof using L. intros Hr Hs Hz Hz' HE. rewrite !equation_act by assumption. rewrite (act_eq z z' G HE). reflexivity. Qed.

  (** Solved for R and for Q *)
  Lemma solve_R R r s z Q : 0 <= r -> 0 < s < N -> 0 <= z -> ecdsa_equation C R r s z Q <->
    smul C (scalar_mul (scalar_inverse s) r) (Some Q) +' smul C (scalar_mul (scalar_inverse s) z) G = Some R.
  Proof using L.
    intros Hr Hs Hz. rewrite equation_act by lia. destruct (inverse_spec s Hs) as [HI HR]. unfold scalar_mul. fold (act (scalar_inverse s * r) (Some Q)). fold (act (scalar_inverse s * z) G). rewrite !act_mul, <- act_gadd.
    rewrite (law_comm C L (act r (Some Q))). split.
    - intros <-. rewrite <- act_mul, (Z.mul_comm (scalar_inverse s)). now apply act_1.
    - intros <-. rewrite <- act_mul. now apply act_1.
  Qed.
  Lemma solve_Q R r s z Q : 0 < r < N -> 0 <= s -> 0 <= z -> ecdsa_equation C R r s z Q <->
    smul C (scalar_mul (scalar_inverse r) s) (Some R) +' smul C (scalar_negate (scalar_mul (scalar_inverse r) z)) G = Some Q.
  Proof using L.
    intros Hr Hs Hz. rewrite equation_act by lia. destruct (inverse_spec r Hr) as [HI HR]. unfold scalar_mul, scalar_negate. fold (act (scalar_inverse r * s) (Some R)). fold (act (- ((scalar_inverse r * z) mod N)) G).
    rewrite (act_eq (- ((scalar_inverse r * z) mod N)) (scalar_inverse r * - z) G).
    2: { rewrite <- (Z.sub_0_l (_ mod N)). rewrite Zminus_mod_idemp_r. f_equal. lia. }
    rewrite !act_mul, <- act_gadd. split.
    - intros ->. rewrite (law_comm C L (act z G)), (law_assoc C L), <- act_add. rewrite (act_0 (z + - z)) by (rewrite Z.add_opp_diag_r; apply Z.mod_0_l; pose proof order_pos; lia).
      rewrite (add_None C L), <- act_mul, (Z.mul_comm (scalar_inverse r)). now apply act_1.
    - intros <-. rewrite <- act_mul. rewrite (act_1 (r * scalar_inverse r)) by exact HI. rewrite (law_comm C L (act s (Some R))), <- (law_assoc C L), <- act_add.
      rewrite (act_0 (z + - z)) by (rewrite Z.add_opp_diag_r; apply Z.mod_0_l; pose proof order_pos; lia). now rewrite (law_zero C L).
  Qed.
  (** The key is determined by the signature and R. *)
  Lemma equation_unique R r s z Q Q' : 0 < r < N -> 0 <= s -> 0 <= z -> ecdsa_equation C R r s z Q -> ecdsa_equation C R r s z Q' -> Q = Q'.
  Proof using L. intros Hr Hs Hz H1 H2. apply solve_Q in H1, H2; [|assumption..]. congruence. Qed.

  Variable K : coords C.
  Hypothesis KL : coords_laws C K.

  Lemma lift_iff x b R : lift K x b = Some R <-> px K R = x /\ podd K R = b.
  Proof using KL. split; [apply (law_lift_inv C K KL)|]. intros [<- <-]. apply (law_lift C K KL). Qed.
  Lemma hash_scalar h : bytes_ok h = true -> 0 <= scalar_of_hash h < N /\ scalar_of_hash h mod N = be_int h mod N /\ 0 <= be_int h.
  Proof using. intros HB. unfold scalar_of_hash. split; [apply modN|]. split; [apply Z.mod_mod; pose proof order_pos; lia|]. unfold be_int. apply le_int_nonneg. now rewrite bytes_ok_rev. Qed.

  Theorem verify_iff r s h Q : 0 <= r < N -> 0 <= s < N -> bytes_ok h = true ->
    ecdsa_verify C K r s h Q = true <-> ecdsa_signature C K r s (be_int h) Q /\ 2 * s < N.
  Proof using L KL.
    intros Hr Hs HB. destruct (hash_scalar h HB) as (Hz & HE & Hh). unfold ecdsa_verify, ecdsa_signature, scalar_is_high. pose proof order_odd as HO.
    assert (Hhalf : N / 2 < s <-> ~ 2 * s < N) by (clear - HO; lia). destruct (Z.ltb_spec (N / 2) s) as [H1|H1]; [split; [discriminate|intros [_ H2]; apply Hhalf in H1; contradiction]|].
    destruct (Z.eqb_spec r 0) as [->|Hr0]; [split; [discriminate|intros [(H2 & _) _]; lia]|]. destruct (Z.eqb_spec s 0) as [->|Hs0]; [split; [discriminate|intros [(_ & H2 & _) _]; lia]|]. cbn [orb]. cbv zeta.
    split.
    - intros HV. split; [|destruct (Z.lt_ge_cases (2 * s) N) as [|HX]; [assumption|exfalso; apply (Z.lt_irrefl (N / 2)); apply (Z.lt_le_trans _ s); [apply Hhalf; lia|exact H1]]].
      split; [lia|]. split; [lia|]. match type of HV with match ?m with _ => _ end = _ => destruct m as [R|] eqn:ER; [|discriminate] end. exists R. split; [now apply Z.eqb_eq|].
      apply (equation_mod R r s _ (scalar_of_hash h)); [lia..|now rewrite HE|]. apply solve_R; [lia..|exact ER].
    - intros [(_ & _ & R & HX & HQ) _]. apply (equation_mod R r s _ (scalar_of_hash h)) in HQ; [|lia..|now rewrite HE]. apply solve_R in HQ; [|lia..]. rewrite HQ. now apply Z.eqb_eq.
  Qed.

  Lemma recid_bits recid : 0 <= recid <= 3 -> (Z.land recid 2 =? 0) = (recid / 2 =? 0) /\ (Z.land recid 1 =? 0) = negb (recid mod 2 =? 1).
  Proof using. intros Hr. assert (recid = 0 \/ recid = 1 \/ recid = 2 \/ recid = 3) as [-> | [-> | [-> | ->]]] by lia; split; reflexivity. Qed.
  Theorem recover_iff r s recid h Q : 0 <= r < N -> 0 <= s < N -> 0 <= recid <= 3 -> bytes_ok h = true ->
    ecdsa_recover C K r s recid h = Some Q <-> recoverable_signature C K r s recid (be_int h) Q.
  Proof using L KL.
    intros Hr Hs Hid HB. destruct (hash_scalar h HB) as (Hz & HE & Hh). unfold ecdsa_recover, recoverable_signature. destruct (recid_bits recid Hid) as [B1 B2]. rewrite B1, B2, negb_involutive.
    destruct (Z.eqb_spec r 0) as [->|Hr0]; [split; [discriminate|intros (H2 & _); lia]|]. destruct (Z.eqb_spec s 0) as [->|Hs0]; [split; [discriminate|intros (_ & H2 & _); lia]|]. cbn [orb]. cbv zeta.
    assert (HD : recid / 2 = 0 \/ recid / 2 = 1) by lia. split.
    - intros HV. split; [lia|]. split; [lia|].
      match type of HV with match ?m with _ => _ end = _ => destruct m as [x|] eqn:EX; [|discriminate] end. destruct (lift K x (recid mod 2 =? 1)) as [R|] eqn:EL; [|discriminate]. apply lift_iff in EL as [HX HP]. exists R.
      split; [|split; [exact HP|]].
      + rewrite HX. destruct HD as [HD|HD]; rewrite HD in EX |- *; cbn [Z.eqb] in EX; [injection EX as <-; lia|]. destruct (FIELD - N <=? r); [discriminate|]. injection EX as <-. lia.
      + apply (equation_mod R r s _ (scalar_of_hash h)); [lia..|now rewrite HE|]. apply solve_Q; [lia..|exact HV].
    - intros (_ & _ & R & HX & HP & HQ). pose proof (law_px C K KL R) as HF. pose proof order_field. apply (equation_mod R r s _ (scalar_of_hash h)) in HQ; [|lia..|now rewrite HE]. apply solve_Q in HQ; [|lia..].
      assert (EX : (if recid / 2 =? 0 then Some r else if FIELD - N <=? r then None else Some (r + N)) = Some (px K R)).
      { rewrite HX. destruct HD as [HD|HD]; rewrite HD in HX |- *; cbn [Z.eqb]; [f_equal; lia|]. destruct (Z.leb_spec (FIELD - N) r); [lia|]. f_equal; lia. }
      rewrite EX. rewrite <- HP, (law_lift C K KL). exact HQ.
  Qed.

  Theorem sign_correct sec msg non r s recid Q : 0 < sec < N -> 0 <= msg < N -> 0 < non < N -> smul C sec G = Some Q ->
    sig_sign C K sec msg non = Some (r, s, recid) ->
    0 <= recid <= 3 /\ 2 * s < N /\ recoverable_signature C K r s recid msg Q.
  Proof using L KL.
    intros Hsec Hmsg Hnon HQ. unfold sig_sign. destruct (smul C non G) as [R|] eqn:ER; [|discriminate]. cbv zeta.
    set (r0 := px K R mod N). set (s0 := scalar_mul (scalar_inverse non) ((scalar_mul r0 sec + msg) mod N)). set (id0 := (if N <=? px K R then 2 else 0) + (if podd K R then 1 else 0)).
    pose proof (modN (px K R)) as Hr0. fold r0 in Hr0. pose proof (modN (scalar_inverse non * ((scalar_mul r0 sec + msg) mod N))) as Hs0. fold (scalar_mul (scalar_inverse non) ((scalar_mul r0 sec + msg) mod N)) in Hs0. fold s0 in Hs0.
    destruct (Z.eqb_spec r0 0) as [|Hr]; [discriminate|]. destruct (Z.eqb_spec s0 0) as [|Hs]; [discriminate|]. cbn [orb].
    pose proof (law_px C K KL R) as HF. pose proof order_field as HO. pose proof order_odd as HOdd.
    assert (HEq : act s0 (Some R) = act msg G +' act r0 (Some Q)).
    { rewrite <- ER, <- HQ, !smul_act, <- !act_mul, <- act_add by lia. apply act_eq. destruct (inverse_spec non Hnon) as [HI _]. subst s0. unfold scalar_mul. clear - HI.
      rewrite Zmult_mod_idemp_l. rewrite (Z.mul_comm (scalar_inverse non)), <- Z.mul_assoc, (Z.mul_comm (scalar_inverse non)). rewrite Zmult_mod, HI, Z.mul_1_r, Z.mod_mod, Z.mod_mod by (pose proof order_pos; lia).
      rewrite Zplus_mod_idemp_l. f_equal. lia. }
    assert (HX : px K R = r0 + (if N <=? px K R then 1 else 0) * N).
    { subst r0. pose proof (Z.div_mod (px K R) N ltac:(lia)). destruct (Z.leb_spec N (px K R)).
      - assert (px K R / N = 1); [|lia]. symmetry. apply (Z.div_unique _ _ _ (px K R - N)); lia.
      - rewrite Z.mod_small by lia. lia. }
    assert (HID : 0 <= id0 <= 3 /\ id0 / 2 = (if N <=? px K R then 1 else 0) /\ (id0 mod 2 =? 1) = podd K R /\ (Z.lxor id0 1) / 2 = (if N <=? px K R then 1 else 0) /\ (Z.lxor id0 1 mod 2 =? 1) = negb (podd K R) /\ 0 <= Z.lxor id0 1 <= 3).
    { subst id0. destruct (N <=? px K R), (podd K R); repeat apply conj; try reflexivity; vm_compute; discriminate. }
    clearbody id0 s0. destruct HID as (I1 & I2 & I3 & I4 & I5 & I6). unfold scalar_is_high. destruct (Z.ltb_spec (N / 2) s0) as [Hh|Hh]; intros HE; injection HE as <- <- <-.
    - assert (HN : scalar_negate s0 = N - s0) by (unfold scalar_negate; rewrite Z.mod_opp_l_nz, Z.mod_small; rewrite ?Z.mod_small; lia). rewrite HN. split; [exact I6|]. split; [clear - Hh HOdd; lia|]. split; [lia|]. split; [lia|].
      destruct (smul C (N - 1) (Some R)) as [R'|] eqn:ER'.
      2: { apply (smul_zero C L) in ER'; [|lia]. apply Z.divide_pos_le in ER'; lia. }
      assert (HOpp : gadd C (Some R) (Some R') = None).
      { rewrite <- ER'. rewrite <- (smul_1 C (Some R)) at 1. rewrite <- (smul_add C L) by lia. replace (1 + (N - 1)) with N by lia. apply (smul_order C L). }
      destruct (law_opposite C K KL R R' HOpp) as [OX OP]. exists R'. split; [rewrite OX, I4; exact HX|]. split; [rewrite OP, I5; reflexivity|].
      apply equation_act; [lia..|]. rewrite <- HEq, <- ER', smul_act, <- act_mul by lia. apply act_eq.
      replace ((N - s0) * (N - 1)) with (s0 + (N - 1 - s0) * N) by lia. apply Z.mod_add. lia.
    - split; [exact I1|]. split; [clear - Hh HOdd Hs; lia|]. split; [lia|]. split; [lia|]. exists R. split; [rewrite I2; exact HX|]. split; [now rewrite I3|]. apply equation_act; [lia..|exact HEq].
  Qed.

  Lemma recoverable_plain r s recid z Q : 0 <= recid <= 3 -> recoverable_signature C K r s recid z Q -> ecdsa_signature C K r s z Q.
  Proof using.
    intros Hid (Hr & Hs & R & HX & _ & HE). split; [exact Hr|]. split; [exact Hs|]. exists R. split; [|exact HE]. pose proof order_pos. rewrite HX, Z.mod_add by lia. apply Z.mod_small. lia.
  Qed.

  Variable nonce : bytes -> bytes -> nat -> bytes.
  Hypothesis nonce_ok : forall m s c, bytes_ok (nonce m s c) = true.
  Lemma sign_loop_spec fuel h sec sig : forall c, sign_loop C K nonce fuel c h sec = Ok sig -> exists non, 0 < non < N /\ sig_sign C K (be_int sec) (scalar_of_hash h) non = Some sig.
  Proof using nonce_ok.
    induction fuel as [|f IH]; intros c; [discriminate|]. cbn [sign_loop]. cbv zeta. set (non := be_int (nonce h sec c)). assert (Hn : 0 <= non) by (unfold non, be_int; apply le_int_nonneg; rewrite bytes_ok_rev; apply nonce_ok).
    destruct (Z.leb_spec N non); cbn [orb]; [apply IH|]. destruct (Z.eqb_spec non 0); [apply IH|]. destruct (sig_sign C K (be_int sec) (scalar_of_hash h) non) as [g|] eqn:E; [|apply IH]. intros HE. injection HE as <-. exists non. split; [lia|exact E].
  Qed.
  Theorem ecdsa_sign_correct fuel h sec r s recid : bytes_ok h = true -> ecdsa_sign C K nonce fuel h sec = Ok (r, s, recid) ->
    exists Q, pubkey_create C sec = Some Q /\ 0 <= recid <= 3 /\ 2 * s < N /\ recoverable_signature C K r s recid (be_int h) Q.
  Proof using L KL nonce_ok.
    intros HB. unfold ecdsa_sign, pubkey_create. destruct (seckey_verify sec) eqn:ES; [|discriminate]. intros HS. apply sign_loop_spec in HS as (non & Hn & HS). unfold seckey_verify in ES. apply andb_true_iff in ES as [E1 E2]. apply Z.ltb_lt in E1, E2.
    destruct (smul_Some C L (be_int sec) (gen C)) as (Q & HQ); [lia|]. exists Q. split; [exact HQ|]. destruct (hash_scalar h HB) as (Hz & HE & Hh).
    destruct (sign_correct (be_int sec) (scalar_of_hash h) non r s recid Q (conj E1 E2) Hz Hn HQ HS) as (H1 & H2 & Hr & Hs & R & HX & HP & HQE). split; [exact H1|]. split; [exact H2|]. split; [exact Hr|]. split; [exact Hs|]. exists R. split; [exact HX|]. split; [exact HP|].
    apply (proj1 (equation_mod R r s (scalar_of_hash h) (be_int h) Q ltac:(lia) ltac:(lia) ltac:(lia) Hh HE) HQE).
  Qed.
End Facts.
