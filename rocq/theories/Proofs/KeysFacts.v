(** Keys: arithmetic of secrets and points, WIF, shared secrets, ECIES. *)
From Coq Require Import Znumtheory Permutation.
From Verif.Model Require Import Py Text Packing Misc Curve Coin Base58 Aes Keys.
From Verif.Spec Require Import Numbers CurveSpec KeysSpec Base58Spec MiscSpec.
From Verif.Proofs Require Import PyFacts NumbersFacts PackingFacts ScriptFacts ScriptTheorems Digits Base58Facts MiscFacts TextFacts Primality CurveFacts.

Lemma val_be_int b : val_be b = be_int b.
Proof. rewrite val_be_rev. reflexivity. Qed.
Lemma valid_verify s : valid_secret s -> seckey_verify s = true.
Proof. intros (_ & _ & Hr). rewrite val_be_int in Hr. unfold seckey_verify. apply andb_true_iff. rewrite !Z.ltb_lt. lia. Qed.
Lemma verify_valid s : bytes_ok s = true -> zlen s = 32 -> seckey_verify s = true -> valid_secret s.
Proof. intros HB HL HV. unfold seckey_verify in HV. apply andb_true_iff in HV as [H1 H2]. rewrite Z.ltb_lt in H1, H2. unfold valid_secret. rewrite val_be_int. repeat split; assumption. Qed.
Lemma make_privkey_Ok s c co k : bytes_ok s = true -> make_privkey s c co = Ok k ->
  valid_privkey k /\ sk_secret k = s /\ sk_compressed k = c /\ sk_coin k = match co with Some c => c | None => Bitcoin end.
Proof.
  unfold make_privkey. intros HB. destruct (Z.eqb_spec (zlen s) 32) as [HL|]; [|discriminate]. cbn [negb]. destruct (seckey_verify s) eqn:HV; [|discriminate]. cbn [negb]. intros E. injection E as <-.
  cbn. unfold valid_privkey. cbn. split; [now apply verify_valid|auto].
Qed.
Lemma make_privkey_valid s c co : valid_secret s -> make_privkey s c co = Ok (mk_privkey s c (match co with Some c => c | None => Bitcoin end)).
Proof. intros HV. unfold make_privkey. rewrite (proj1 (proj2 HV)). cbn [Z.eqb Pos.eqb negb]. rewrite valid_verify by exact HV. reflexivity. Qed.
Lemma make_privkey_Err s c co e : make_privkey s c co = Err e -> e = ValueError.
Proof. unfold make_privkey. destruct (negb _); [now injection 1|]. destruct (negb _); [now injection 1|discriminate]. Qed.

Lemma to_32_Ok v : zlen v = 32 -> to_32_bytes v = Ok v.
Proof. intros HL. unfold to_32_bytes. now rewrite HL. Qed.
Lemma to_32_cases v : (zlen v = 32 /\ to_32_bytes v = Ok v) \/ to_32_bytes v = Err ValueError.
Proof. unfold to_32_bytes. destruct (Z.eqb_spec (zlen v) 32); [left; split; [assumption|reflexivity]|now right]. Qed.
Lemma be_int_nonneg b : bytes_ok b = true -> 0 <= be_int b.
Proof. intros HB. unfold be_int. apply le_int_nonneg. now rewrite bytes_ok_rev. Qed.

Lemma bytes32_valid v : 0 < v < CURVE_ORDER -> valid_secret (bytes32 v) /\ be_int (bytes32 v) = v.
Proof.
  intros Hv. pose proof order_lt. destruct (bytes32_ok v) as [HB HL]. assert (HE : be_int (bytes32 v) = v) by (apply be_bytes32; lia). split; [|exact HE].
  unfold valid_secret. rewrite val_be_int, HE. auto.
Qed.

(** Adding to and multiplying a secret *)
Lemma privkey_add_spec k t : valid_privkey k -> bytes_ok t = true ->
  (exists s, zlen t = 32 /\ be_int t < CURVE_ORDER /\ privkey_add k t = Ok (mk_privkey s (sk_compressed k) (sk_coin k)) /\ valid_secret s /\
     be_int s = (be_int (sk_secret k) + be_int t) mod CURVE_ORDER) \/
  (privkey_add k t = Err ValueError /\ (zlen t <> 32 \/ CURVE_ORDER <= be_int t \/ (be_int (sk_secret k) + be_int t) mod CURVE_ORDER = 0)).
Proof.
  intros HV HB. unfold privkey_add, to_32_bytes, privkey_tweak_add. destruct (Z.eqb_spec (zlen t) 32) as [HL|]; [|right; auto]. cbn [bind].
  destruct (Z.leb_spec CURVE_ORDER (be_int t)); [right; auto|]. cbv zeta. destruct (Z.eqb_spec ((be_int (sk_secret k) + be_int t) mod CURVE_ORDER) 0) as [|HN]; [right; auto|].
  left. pose proof order_pos. pose proof (Z.mod_pos_bound (be_int (sk_secret k) + be_int t) CURVE_ORDER ltac:(lia)).
  destruct (bytes32_valid ((be_int (sk_secret k) + be_int t) mod CURVE_ORDER) ltac:(lia)) as [Hv1 Hv2]. eexists. split; [exact HL|]. split; [assumption|]. split; [reflexivity|]. split; assumption.
Qed.
Lemma privkey_mul_spec k t : valid_privkey k -> bytes_ok t = true ->
  (exists s, zlen t = 32 /\ 0 < be_int t < CURVE_ORDER /\ privkey_multiply k t = Ok (mk_privkey s (sk_compressed k) (sk_coin k)) /\ valid_secret s /\
     be_int s = (be_int (sk_secret k) * be_int t) mod CURVE_ORDER) \/
  (privkey_multiply k t = Err ValueError /\ (zlen t <> 32 \/ CURVE_ORDER <= be_int t \/ be_int t = 0)).
Proof.
  intros HV HB. unfold privkey_multiply, to_32_bytes, privkey_tweak_mul. destruct (Z.eqb_spec (zlen t) 32) as [HL|]; [|right; auto]. cbn [bind].
  destruct (Z.leb_spec CURVE_ORDER (be_int t)); [right; auto|]. cbn [orb]. destruct (Z.eqb_spec (be_int t) 0) as [|HN]; [right; auto|].
  left. pose proof order_pos. pose proof (be_int_nonneg t HB). pose proof (Z.mod_pos_bound (be_int (sk_secret k) * be_int t) CURVE_ORDER ltac:(lia)).
  destruct HV as (_ & _ & HR). rewrite val_be_int in HR.
  assert (HZ : (be_int (sk_secret k) * be_int t) mod CURVE_ORDER <> 0).
  { intros Hz. apply Z.mod_divide in Hz; [|lia]. apply prime_mult in Hz; [|exact order_prime]. destruct Hz as [Hz|Hz]; apply Z.divide_pos_le in Hz; lia. }
  destruct (bytes32_valid ((be_int (sk_secret k) * be_int t) mod CURVE_ORDER) ltac:(lia)) as [Hv1 Hv2]. eexists. split; [exact HL|]. split; [lia|]. split; [reflexivity|]. split; assumption.
Qed.

Lemma message_hash_Ok m h d : message_hash m h = Ok d -> zlen d = 32 /\ d = match h with Some f => f m | None => m end.
Proof. unfold message_hash. cbv zeta. match goal with |- context [Z.eqb ?a 32] => destruct (Z.eqb_spec a 32) end; [|discriminate]. injection 1 as <-. auto. Qed.
Lemma message_hash_Err m h e : message_hash m h = Err e -> e = ValueError.
Proof. unfold message_hash. cbv zeta. match goal with |- context [Z.eqb ?a 32] => destruct (Z.eqb_spec a 32) end; [discriminate|]. now injection 1 as <-. Qed.

Section Points.
  Variable C : curve.
  Hypothesis L : curve_laws C.

  Lemma gen_times_smul n : gen_times C n = smul C n (Some (gen C)).
  Proof using L. destruct n; [reflexivity| |reflexivity]. cbn [gen_times smul]. symmetry. apply (pmul_times C L). Qed.
  (** The public key of a valid private key *)
  Lemma public_key_spec k : valid_privkey k -> exists p, privkey_public_key C k = Ok (mk_pubkey p (sk_compressed k) (sk_coin k)) /\ gen_times C (val_be (sk_secret k)) = Some p.
  Proof using L.
    intros HV. destruct HV as (HB & HL & HR). pose proof (valid_verify _ (conj HB (conj HL HR))) as HS. rewrite gen_times_smul. unfold privkey_public_key, privkey_point, pubkey_create.
    rewrite HS. rewrite val_be_int in *. destruct (smul_Some C L (be_int (sk_secret k)) (gen C) HR) as (p & HP). exists p. rewrite HP. split; reflexivity.
  Qed.
  Lemma public_key_point k P : valid_privkey k -> privkey_public_key C k = Ok P -> smul C (be_int (sk_secret k)) (Some (gen C)) = Some (pk_point P) /\ pk_compressed P = sk_compressed k /\ pk_coin P = sk_coin k.
  Proof using L.
    intros HV HP. destruct (public_key_spec k HV) as (p & H1 & H2). rewrite H1 in HP. injection HP as <-. rewrite gen_times_smul, val_be_int in H2. cbn. auto.
  Qed.
  Lemma pubkey_eqb_point (a b : pubkey C) : pubkey_eqb C a b = true <-> pk_point a = pk_point b.
  Proof using L.
    unfold pubkey_eqb, pubkey_to_bytes. rewrite bytes_eqb_eq. split; [apply (ser_inj C L)|now intros ->].
  Qed.

  Lemma pubkey_add_spec (P : pubkey C) t : pubkey_add C P t = if (zlen t =? 32) && (be_int t <? CURVE_ORDER) then
      match gadd C (Some (pk_point P)) (smul C (be_int t) (Some (gen C))) with Some q => Ok (mk_pubkey q (pk_compressed P) (pk_coin P)) | None => Err ValueError end else Err ValueError.
  Proof.
    unfold pubkey_add, to_32_bytes, pubkey_tweak_add. destruct (zlen t =? 32); [|reflexivity]. cbn [bind andb]. destruct (Z.leb_spec CURVE_ORDER (be_int t)), (Z.ltb_spec (be_int t) CURVE_ORDER); try lia; reflexivity.
  Qed.
  Lemma pubkey_mul_spec (P : pubkey C) t : bytes_ok t = true -> pubkey_multiply C P t = if (zlen t =? 32) && ((0 <? be_int t) && (be_int t <? CURVE_ORDER)) then
      match smul C (be_int t) (Some (pk_point P)) with Some q => Ok (mk_pubkey q (pk_compressed P) (pk_coin P)) | None => Err ValueError end else Err ValueError.
  Proof.
    intros HB. unfold pubkey_multiply, to_32_bytes, pubkey_tweak_mul. destruct (zlen t =? 32); [|reflexivity]. cbn [bind andb]. pose proof (be_int_nonneg t HB).
    destruct (Z.leb_spec CURVE_ORDER (be_int t)), (Z.ltb_spec (be_int t) CURVE_ORDER), (Z.eqb_spec (be_int t) 0), (Z.ltb_spec 0 (be_int t)); try lia; reflexivity.
  Qed.
  Lemma pubkey_mul_valid (P : pubkey C) t : valid_secret t -> exists q, pubkey_multiply C P t = Ok (mk_pubkey q (pk_compressed P) (pk_coin P)) /\ smul C (be_int t) (Some (pk_point P)) = Some q.
  Proof using L.
    intros (HB & HL & HR). rewrite val_be_int in HR. rewrite pubkey_mul_spec, HL by exact HB. cbn [Z.eqb Pos.eqb andb]. destruct (Z.ltb_spec 0 (be_int t)), (Z.ltb_spec (be_int t) CURVE_ORDER); try lia. cbn [andb].
    destruct (smul_Some C L (be_int t) (pk_point P) HR) as (q & Hq). rewrite Hq. exists q. split; reflexivity.
  Qed.

  (** C67 *)
  Theorem add_commutes k t P : valid_privkey k -> bytes_ok t = true -> privkey_public_key C k = Ok P ->
    pubkey_add C P t = match privkey_add k t with Ok k' => privkey_public_key C k' | Err e => Err e end.
  Proof using L.
    intros HV HB HP. destruct (public_key_point k P HV HP) as (HPt & HPc & HPo). pose proof HV as (HBs & _ & HRs). rewrite val_be_int in HRs. pose proof (be_int_nonneg t HB) as Ht0.
    rewrite pubkey_add_spec. rewrite <- HPt, <- (smul_add C L) by lia. rewrite <- (smul_mod C L) by lia.
    destruct (privkey_add_spec k t HV HB) as [(s & HL & HT & HA & HS & HE)|(HA & HF)]; rewrite HA.
    - rewrite HL. destruct (Z.ltb_spec (be_int t) CURVE_ORDER); [|lia]. cbn [Z.eqb Pos.eqb andb]. rewrite <- HE.
      destruct (public_key_spec (mk_privkey s (sk_compressed k) (sk_coin k)) HS) as (q & H1 & H2). rewrite gen_times_smul, val_be_int in H2. cbn [sk_secret] in H2. rewrite H2, H1. cbn. now rewrite HPc, HPo.
    - destruct (Z.eqb_spec (zlen t) 32); [|reflexivity]. destruct (Z.ltb_spec (be_int t) CURVE_ORDER); [|reflexivity]. cbn [andb]. destruct HF as [HF|[HF|HF]]; try lia. rewrite HF. reflexivity.
  Qed.
  Theorem multiply_commutes k t P : valid_privkey k -> bytes_ok t = true -> privkey_public_key C k = Ok P ->
    pubkey_multiply C P t = match privkey_multiply k t with Ok k' => privkey_public_key C k' | Err e => Err e end.
  Proof using L.
    intros HV HB HP. destruct (public_key_point k P HV HP) as (HPt & HPc & HPo). pose proof HV as (HBs & _ & HRs). rewrite val_be_int in HRs. pose proof (be_int_nonneg t HB) as Ht0.
    rewrite pubkey_mul_spec by exact HB. rewrite <- HPt, <- (smul_mul C L) by lia. rewrite <- (smul_mod C L) by nia.
    destruct (privkey_mul_spec k t HV HB) as [(s & HL & HT & HA & HS & HE)|(HA & HF)]; rewrite HA.
    - rewrite HL. destruct (Z.ltb_spec (be_int t) CURVE_ORDER); [|lia]. destruct (Z.ltb_spec 0 (be_int t)); [|lia]. cbn [Z.eqb Pos.eqb andb]. rewrite Z.mul_comm, <- HE.
      destruct (public_key_spec (mk_privkey s (sk_compressed k) (sk_coin k)) HS) as (q & H1 & H2). rewrite gen_times_smul, val_be_int in H2. cbn [sk_secret] in H2. rewrite H2, H1. cbn. now rewrite HPc, HPo.
    - destruct (Z.eqb_spec (zlen t) 32); [|reflexivity]. destruct (Z.ltb_spec 0 (be_int t)), (Z.ltb_spec (be_int t) CURVE_ORDER); try reflexivity. destruct HF as [HF|[HF|HF]]; lia.
  Qed.
  Lemma combine_sum l : forall a, fold_left (fun a p => gadd C a (Some p)) l a = gadd C a (point_sum C l).
  Proof using L.
    induction l as [|p l IH]; intros a; cbn [fold_left point_sum fold_right]; [now rewrite (add_None C L)|]. rewrite IH. unfold point_sum. now rewrite (law_assoc C L).
  Qed.
  Lemma pubkey_combine_sum l : pubkey_combine C l = point_sum C l.
  Proof using L. unfold pubkey_combine. rewrite combine_sum. apply (law_zero C L). Qed.
  Lemma point_sum_perm l m : Permutation l m -> point_sum C l = point_sum C m.
  Proof using L. unfold point_sum. induction 1 as [|x l m _ IH|x y l|l m n _ IH1 _ IH2]; cbn [fold_right]; [reflexivity|now rewrite IH|apply (add_swap C L)|congruence]. Qed.
  (** The sum of the public keys of some private keys is the public key of the sum of the secrets. *)
  Lemma point_sum_secrets ks Ps : Forall valid_privkey ks -> Forall2 (fun k P => privkey_public_key C k = Ok P) ks Ps ->
    point_sum C (map pk_point Ps) = gen_times C (fold_right (fun k acc => (val_be (sk_secret k) + acc) mod CURVE_ORDER) 0 ks).
  Proof using L.
    intros HV HF. rewrite gen_times_smul. pose proof order_pos. induction HF as [|k P ks Ps HP HF IH]; [reflexivity|]. inversion HV as [|? ? HVk HVs]; subst. cbn [map point_sum fold_right].
    fold (point_sum C (map pk_point Ps)). rewrite (IH HVs). set (n := fold_right _ 0 ks). assert (Hn : 0 <= n). { unfold n. destruct ks; cbn [fold_right]; [lia|]. apply Z.mod_pos_bound. lia. }
    destruct (public_key_point k P HVk HP) as (HPt & _). rewrite <- HPt. destruct HVk as (_ & _ & HR). rewrite val_be_int in *. rewrite (smul_mod C L), (smul_add C L) by lia. reflexivity.
  Qed.

  (** C55 *)
  Theorem shared_secrets_agree A B PA PB m h : valid_privkey A -> valid_privkey B -> bytes_ok m = true -> (forall f, h = Some f -> forall x, bytes_ok (f x) = true) ->
    privkey_public_key C A = Ok PA -> privkey_public_key C B = Ok PB ->
    agree (fun p q => pk_point p = pk_point q) (shared_secret C A PB m h) (shared_secret C B PA m h).
  Proof using L.
    intros HA HB Hm Hh HPA HPB. unfold shared_secret. destruct (message_hash m h) as [d|e] eqn:HD; cbn [bind].
    2:{ apply message_hash_Err in HD as ->. cbn. auto. }
    assert (Hd : bytes_ok d = true /\ zlen d = 32).
    { apply message_hash_Ok in HD as [HdL ->]. split; [|exact HdL]. destruct h as [f|]; [now apply (Hh f)|exact Hm]. }
    destruct Hd as [Hdb HdL]. rewrite (add_commutes B d PB HB Hdb HPB), (add_commutes A d PA HA Hdb HPA).
    destruct (privkey_add_spec A d HA Hdb) as [(sa & _ & _ & EA & HSa & HEa)|(EA & HFa)]; rewrite EA; cbn [bind].
    2:{ destruct (privkey_add_spec B d HB Hdb) as [(sb & _ & _ & EB & HSb & HEb)|(EB & HFb)]; rewrite EB; cbn [bind agree]; auto. }
    destruct (privkey_add_spec B d HB Hdb) as [(sb & _ & _ & EB & HSb & HEb)|(EB & HFb)]; rewrite EB; cbn [bind agree]; [|auto].
    destruct (public_key_spec (mk_privkey sb (sk_compressed B) (sk_coin B)) HSb) as (pb & H1 & H2). destruct (public_key_spec (mk_privkey sa (sk_compressed A) (sk_coin A)) HSa) as (pa & H3 & H4).
    rewrite H1, H3. cbn [bind sk_secret sk_compressed sk_coin] in *. rewrite gen_times_smul, val_be_int in H2, H4.
    destruct (pubkey_mul_valid (mk_pubkey pb (sk_compressed B) (sk_coin B)) sa HSa) as (q & -> & Hq). destruct (pubkey_mul_valid (mk_pubkey pa (sk_compressed A) (sk_coin A)) sb HSb) as (r & -> & Hr).
    cbn [agree pk_point] in *. rewrite <- H2 in Hq. rewrite <- H4 in Hr. destruct HSa as (_ & _ & Ra), HSb as (_ & _ & Rb). rewrite val_be_int in Ra, Rb.
    rewrite <- (smul_mul C L) in Hq, Hr by lia. rewrite Z.mul_comm in Hr. congruence.
  Qed.
  Theorem shared_secret_fails A B PB m h : valid_privkey A -> valid_privkey B -> bytes_ok m = true -> (forall f, h = Some f -> forall x, bytes_ok (f x) = true) ->
    privkey_public_key C B = Ok PB ->
    (shared_secret C A PB m h = Err ValueError <->
     let d := match h with Some f => f m | None => m end in
     zlen d <> 32 \/ CURVE_ORDER <= val_be d \/ (val_be (sk_secret A) + val_be d) mod CURVE_ORDER = 0 \/ (val_be (sk_secret B) + val_be d) mod CURVE_ORDER = 0).
  Proof using L.
    intros HA HB Hm Hh HPB. cbv zeta. unfold shared_secret. destruct (message_hash m h) as [d|e] eqn:HD; cbn [bind].
    2:{ pose proof (message_hash_Err _ _ _ HD). subst e. split; [|reflexivity]. intros _. left. unfold message_hash in HD. cbv zeta in HD.
        match type of HD with context [Z.eqb ?a 32] => destruct (Z.eqb_spec a 32); [discriminate|assumption] end. }
    apply message_hash_Ok in HD as [HdL HdE]. rewrite <- HdE. assert (Hdb : bytes_ok d = true) by (rewrite HdE; destruct h as [f|]; [now apply (Hh f)|exact Hm]). clear HdE.
    rewrite (add_commutes B d PB HB Hdb HPB). rewrite !val_be_int.
    destruct (privkey_add_spec A d HA Hdb) as [(sa & _ & Hlt & EA & HSa & HEa)|(EA & HFa)]; rewrite EA; cbn [bind].
    2:{ split; [intros _|reflexivity]. destruct HFa as [|[|]]; tauto. }
    destruct (privkey_add_spec B d HB Hdb) as [(sb & _ & _ & EB & HSb & HEb)|(EB & HFb)]; rewrite EB; cbn [bind].
    2:{ split; [intros _|reflexivity]. destruct HFb as [|[|]]; tauto. }
    destruct (public_key_spec (mk_privkey sb (sk_compressed B) (sk_coin B)) HSb) as (pb & -> & _). cbn [bind sk_secret sk_compressed sk_coin].
    destruct (pubkey_mul_valid (mk_pubkey pb (sk_compressed B) (sk_coin B)) sa HSa) as (q & -> & _). split; [discriminate|]. intros HO.
    rewrite <- HEa, <- HEb in HO. destruct HSa as (_ & _ & Ra), HSb as (_ & _ & Rb). rewrite val_be_int in Ra, Rb. lia.
  Qed.
  Theorem ecdh_agree A B PA PB : valid_privkey A -> valid_privkey B -> privkey_public_key C A = Ok PA -> privkey_public_key C B = Ok PB ->
    exists p q, ecdh_shared_secret C A PB = Ok p /\ ecdh_shared_secret C B PA = Ok q /\ pk_point p = pk_point q.
  Proof using L.
    intros HA HB HPA HPB. unfold ecdh_shared_secret. destruct (pubkey_mul_valid PB (sk_secret A) HA) as (q & -> & Hq). destruct (pubkey_mul_valid PA (sk_secret B) HB) as (r & -> & Hr).
    eexists _, _. split; [reflexivity|]. split; [reflexivity|]. cbn. destruct (public_key_point A PA HA HPA) as (HA1 & _). destruct (public_key_point B PB HB HPB) as (HB1 & _).
    rewrite <- HB1 in Hq. rewrite <- HA1 in Hr. destruct HA as (_ & _ & Ra), HB as (_ & _ & Rb). rewrite val_be_int in Ra, Rb. rewrite <- (smul_mul C L) in Hq, Hr by lia. rewrite Z.mul_comm in Hr. congruence.
  Qed.

  Lemma from_bytes_ser (P : pubkey C) c : pubkey_from_bytes C (pubkey_to_bytes C P (Some c)) = Ok (mk_pubkey (pk_point P) c Bitcoin).
  Proof using L. unfold pubkey_from_bytes, pubkey_to_bytes. rewrite (law_parse C L), (law_length C L). destruct c; reflexivity. Qed.
End Points.
