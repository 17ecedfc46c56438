(** Signed messages. *)
From Verif.Model Require Import Py Text Packing Misc Curve Coin Base58 Base64 Signature Der Keys Address Ecdsa.
From Verif.Spec Require Import Numbers CurveSpec KeysSpec EcdsaSpec.
From Verif.Proofs Require Import PyFacts NumbersFacts PackingFacts ScriptFacts ScriptTheorems MiscFacts CurveFacts KeysFacts DerFacts Base64Facts EcdsaFacts.

Lemma pyindex_last {A} (l : list A) x : pyindex (l ++ [x]) (-1) = Ok x.
Proof.
  unfold pyindex. change (-1 <? 0) with true. cbv iota. rewrite zlen_app. change (zlen [x]) with 1. replace (-1 + (zlen l + 1)) with (zlen l) by lia.
  rewrite znth_app_r by lia. rewrite Z.sub_diag. reflexivity.
Qed.

(** * The layout of signatures *)
Lemma split65 (b : bytes) : zlen b = 65 -> exists br bs x, b = br ++ bs ++ [x] /\ zlen br = 32 /\ zlen bs = 32.
Proof.
  intros HL. exists (ztake 32 b), (ztake 32 (zdrop 32 b)). pose proof (ztake_zdrop 32 b) as H1. pose proof (ztake_zdrop 32 (zdrop 32 b)) as H2.
  assert (HZ : zlen (zdrop 32 (zdrop 32 b)) = 1) by (rewrite !zlen_zdrop; lia). destruct (zdrop 32 (zdrop 32 b)) as [|x [|y r]]; [rewrite zlen_nil in HZ; lia| |rewrite !zlen_cons in HZ; pose proof (zlen_nonneg r); lia].
  exists x. split; [rewrite H2; symmetry; exact H1|]. rewrite !zlen_ztake, zlen_zdrop. lia.
Qed.
Lemma recsig_layout br bs x : zlen br = 32 -> zlen bs = 32 ->
  cdata_recsig (br ++ bs ++ [x]) = if (0 <=? x) && (x <=? 3) && negb ((CURVE_ORDER <=? be_int br) || (CURVE_ORDER <=? be_int bs)) then Ok (be_int br, be_int bs, x) else Err InvalidSignatureError.
Proof.
  intros H1 H2. unfold cdata_recsig. rewrite !zlen_app, H1, H2. change (zlen [x]) with 1. change (32 + (32 + 1) =? 65) with true. cbn [negb]. rewrite app_assoc, pyindex_last. cbn [bind]. rewrite <- app_assoc.
  destruct ((0 <=? x) && (x <=? 3)); [|reflexivity]. cbn [negb andb]. unfold parse_compact. rewrite ztake_app_exact, zdrop_app_exact, ztake_app_exact by (symmetry; assumption).
  destruct ((CURVE_ORDER <=? be_int br) || (CURVE_ORDER <=? be_int bs)); reflexivity.
Qed.
Lemma recsig_other b : zlen b <> 65 -> cdata_recsig b = Err InvalidSignatureError.
Proof. intros HL. unfold cdata_recsig. destruct (Z.eqb_spec (zlen b) 65); [contradiction|reflexivity]. Qed.
Lemma recsig_Ok b r s id : bytes_ok b = true -> cdata_recsig b = Ok (r, s, id) <->
  exists br bs, b = br ++ bs ++ [id] /\ zlen br = 32 /\ zlen bs = 32 /\ be_int br = r /\ be_int bs = s /\ 0 <= id <= 3 /\ 0 <= r < CURVE_ORDER /\ 0 <= s < CURVE_ORDER.
Proof.
  intros HB. split.
  - intros HE. destruct (Z.eq_dec (zlen b) 65) as [HL|HL]; [|rewrite recsig_other in HE by exact HL; discriminate]. destruct (split65 b HL) as (br & bs & x & -> & H1 & H2). rewrite recsig_layout in HE by assumption.
    rewrite !bytes_ok_app in HB. apply andb_true_iff in HB as [B1 HB]. apply andb_true_iff in HB as [B2 _].
    destruct ((0 <=? x) && (x <=? 3)) eqn:E1; [|discriminate]. destruct (Z.leb_spec CURVE_ORDER (be_int br)); [discriminate|]. destruct (Z.leb_spec CURVE_ORDER (be_int bs)); [discriminate|]. cbn [andb orb negb] in HE. injection HE as <- <- <-.
    exists br, bs. pose proof (be_int_bound br B1). pose proof (be_int_bound bs B2). repeat split; try assumption; lia.
  - intros (br & bs & -> & H1 & H2 & <- & <- & Hid & Hr & Hs). rewrite recsig_layout by assumption. destruct (Z.leb_spec 0 id), (Z.leb_spec id 3), (Z.leb_spec CURVE_ORDER (be_int br)), (Z.leb_spec CURVE_ORDER (be_int bs)); try lia. reflexivity.
Qed.
Lemma recsig_Err b e : cdata_recsig b = Err e -> e = InvalidSignatureError.
Proof.
  destruct (Z.eq_dec (zlen b) 65) as [HL|HL]; [|rewrite recsig_other by exact HL; congruence]. destruct (split65 b HL) as (br & bs & x & -> & H1 & H2). rewrite recsig_layout by assumption. destruct (_ && _); congruence.
Qed.
Lemma compact_layout r s : 0 <= r < CURVE_ORDER -> 0 <= s < CURVE_ORDER -> bytes_ok (serialize_compact r s) = true /\ zlen (serialize_compact r s) = 64 /\
  forall id, 0 <= id <= 3 -> cdata_recsig (serialize_compact r s ++ [id]) = Ok (r, s, id).
Proof.
  intros Hr Hs. destruct (bytes32_ok r) as [B1 L1], (bytes32_ok s) as [B2 L2]. unfold serialize_compact. rewrite bytes_ok_app, B1, B2, zlen_app, L1, L2. split; [reflexivity|]. split; [reflexivity|]. intros id Hid. pose proof order_lt.
  rewrite <- app_assoc, recsig_layout, !be_bytes32 by (assumption || lia). destruct (Z.leb_spec 0 id), (Z.leb_spec id 3), (Z.leb_spec CURVE_ORDER r), (Z.leb_spec CURVE_ORDER s); try lia. reflexivity.
Qed.

(** Message signatures: header, r, s *)
Lemma to_rec_layout v body : zlen body = 64 -> 27 <= v <= 34 -> to_recoverable_signature (v :: body) = Ok (body ++ [(v - 27) mod 4]).
Proof.
  intros HL Hv. unfold to_recoverable_signature. rewrite zlen_cons, HL. change (1 + 64 =? 65) with true. cbn [negb]. rewrite pyindex_0. cbn [bind]. destruct (Z.leb_spec 27 v); [|lia]. destruct (Z.ltb_spec v 35); [|lia]. cbn [andb negb]. rewrite take1, land_3 by lia.
  pose proof (Z.mod_pos_bound (v - 27) 4 ltac:(lia)). rewrite pack_byte_ok by lia. reflexivity.
Qed.

(** * Framing *)
Lemma utf8_bytes t b : utf8_encode t = Ok b -> bytes_ok b = true.
Proof.
  unfold utf8_encode. intros HE. apply bind_Ok in HE as (l & HM & HE). injection HE as <-. rewrite mapM_Ok_iff in HM. induction HM as [|c a t l Hc HM IH]; [reflexivity|]. cbn [concat]. rewrite bytes_ok_app, IH, andb_true_r. clear - Hc.
  unfold utf8_char in Hc. apply bytes_ok_In. intros x Hx.
  repeat match type of Hc with (if ?t then _ else _) = _ => destruct t eqn:? end; try discriminate; injection Hc as <-; cbn [In] in Hx; repeat destruct Hx as [<-|Hx]; try contradiction; lia.
Qed.
Definition prefix_bytes : bytes := 24 :: txt "Bitcoin Signed Message:" ++ [10].
Lemma prefix_value : SIGNED_MESSAGE_PREFIX = Ok prefix_bytes.
Proof. reflexivity. Qed.
Lemma normalize_iff m pre : normalize_message m = Ok pre <-> exists b v, message_bytes m = Ok b /\ pack_varbytes b = Ok v /\ pre = prefix_bytes ++ v.
Proof.
  unfold normalize_message. fold (message_bytes m). rewrite prefix_value. split.
  - intros HE. apply bind_Ok in HE as (b & HB & HE). cbn [bind] in HE. apply bind_Ok in HE as (v & HV & HE). injection HE as <-. exists b, v. auto.
  - intros (b & v & -> & HV & ->). cbn [bind]. rewrite HV. reflexivity.
Qed.
Lemma varbytes_inj a b v : pack_varbytes a = Ok v -> pack_varbytes b = Ok v -> a = b.
Proof.
  unfold pack_varbytes. intros Ea Eb. apply bind_Ok in Ea as (p & Pa & Ea). apply bind_Ok in Eb as (q & Pb & Eb). apply Ok_inj in Ea, Eb.
  assert (HR : forall n x, pack_varint n = Ok x -> varint_range n) by (intros n x Hx; destruct (pack_varint_cases n) as [[HH E]|[[HH E]|[[HH E]|[[HH E]|[HH E]]]]]; unfold varint_range; try lia; congruence).
  pose proof (c_rt varint_codec _ p a (HR _ _ Pa) Pa) as R1. pose proof (c_rt varint_codec _ q b (HR _ _ Pb) Pb) as R2. rewrite Ea in R1. rewrite Eb in R2. congruence.
Qed.
Lemma val_le_digits n v : 0 <= v < 2 ^ (8 * Z.of_nat n) -> val_le (le_digits n v) = v.
Proof. intros Hv. rewrite val_le_int. apply le_int_digits. exact Hv. Qed.
Lemma framed_iff b pre : framed b pre <-> exists v, pack_varbytes b = Ok v /\ pre = prefix_bytes ++ v.
Proof.
  assert (HS : forall n v, 0 <= n -> compact_size n v <-> pack_varint n = Ok v).
  { intros n v Hn. split.
    - intros (HB & HC). destruct (pack_varint_cases n) as [[HH E]|[[HH E]|[[HH E]|[[HH E]|[HH E]]]]]; rewrite E;
      destruct HC as [(HL & ->)|(t & w & -> & HV & HC)];
        try (rewrite bytes_ok_cons in HB; apply andb_true_iff in HB as [_ HB]);
        try (rewrite val_le_int in HV; pose proof (le_int_bound w HB) as HW; subst n);
        try (f_equal; cbn [le_digits]; rewrite Z.mod_small by lia; reflexivity);
        unfold varint_range in *; try lia;
        destruct HC as [(-> & HC & HZ)|[(-> & HC & HZ)|(-> & HC & HZ)]]; rewrite HZ in HW; try lia; unfold varint_range in *; try lia;
        f_equal; f_equal; apply le_digits_int; try assumption; unfold zlen in HZ; lia.
    - intros HE. destruct (pack_varint_cases n) as [[HH E]|[[HH E]|[[HH E]|[[HH E]|[HH E]]]]]; rewrite E in HE; try discriminate HE; apply Ok_inj in HE; subst v; (split; [rewrite ?bytes_ok_cons, le_digits_ok; reflexivity|]).
      + left. split; [lia|]. cbn [le_digits]. now rewrite Z.mod_small by lia.
      + right. exists 253, (le_digits 2 n). split; [reflexivity|]. split; [apply val_le_digits; lia|]. left. repeat split; lia.
      + right. exists 254, (le_digits 4 n). split; [reflexivity|]. split; [apply val_le_digits; lia|]. right; left. repeat split; lia.
      + right. exists 255, (le_digits 8 n). split; [reflexivity|]. split; [apply val_le_digits; lia|]. right; right. repeat split; lia. }
  unfold framed, pack_varbytes. split.
  - intros (v & HC & ->). apply HS in HC; [|apply zlen_nonneg]. rewrite HC. cbn [bind]. eexists. split; reflexivity.
  - intros (x & HV & ->). apply bind_Ok in HV as (v & HV & HX). apply Ok_inj in HX. subst x. exists v. split; [apply HS; [apply zlen_nonneg|exact HV]|reflexivity].
Qed.
Lemma normalize_framed m pre : normalize_message m = Ok pre <-> exists b, message_bytes m = Ok b /\ framed b pre.
Proof.
  rewrite normalize_iff. split.
  - intros (b & v & HB & HV & ->). exists b. split; [exact HB|]. apply framed_iff. exists v. split; [exact HV|reflexivity].
  - intros (b & HB & HF). apply framed_iff in HF as (v & HV & ->). exists b, v. auto.
Qed.
Lemma framed_inj a b p : framed a p -> framed b p -> a = b.
Proof.
  intros Ha Hb. apply framed_iff in Ha as (v & Ha & ->). apply framed_iff in Hb as (w & Hb & HE). apply app_inv_head in HE. subst w. now apply (varbytes_inj a b v).
Qed.

Section Messages.
  Variable C : curve.
  Hypothesis L : curve_laws C.
  Variable K : coords C.
  Hypothesis KL : coords_laws C K.
  Variable ex : Z -> Z -> bool.
  Variable H : bytes -> bytes.
  Hypothesis H_ok : forall x, bytes_ok (H x) = true.
  Notation N := CURVE_ORDER.

  Lemma hash_some m : message_hash m (Some H) = if zlen (H m) =? 32 then Ok (H m) else Err ValueError.
  Proof using. reflexivity. Qed.

  (** What verify_message and from_signed_message look at *)
  Definition parsed (b : bytes) (m : text_or_bytes) (v r s : Z) (h : bytes) : Prop :=
    exists pre br bs, normalize_message m = Ok pre /\ h = H pre /\ zlen h = 32 /\ b = v :: br ++ bs /\ zlen br = 32 /\ zlen bs = 32 /\ be_int br = r /\ be_int bs = s /\ 27 <= v <= 34 /\ 0 <= r < N /\ 0 <= s < N.

  Lemma rec_parsed b m : bytes_ok b = true -> forall (A : Type) (f : Z -> Z -> Z -> bytes -> result A) x,
    (pre <- normalize_message m ;; rs <- to_recoverable_signature b ;; h <- message_hash pre (Some H) ;; '(r, s, id) <- cdata_recsig rs ;; f r s id h) = Ok x <->
    exists v r s h, parsed b m v r s h /\ f r s ((v - 27) mod 4) h = Ok x.
  Proof using.
    clear H_ok L KL ex. intros HB A f x. split.
    - intros HE. apply bind_Ok in HE as (pre & HP & HE). apply bind_Ok in HE as (rs & HR & HE). apply bind_Ok in HE as (h & HH & HE). apply bind_Ok in HE as ([[r s] id] & HC & HE).
      apply message_of_rec in HR as (v & sig & -> & HL & Hv & -> & _). rewrite bytes_ok_cons in HB. apply andb_true_iff in HB as [_ HB].
      apply recsig_Ok in HC as (br & bs & HE1 & L1 & L2 & R1 & R2 & Hid & Hr & Hs).
      2: { rewrite bytes_ok_app, HB. cbn [andb]. apply bytes_ok_In. intros y [<-|[]]. lia. }
      rewrite app_assoc in HE1. apply app_inj_tail in HE1 as [-> <-]. rewrite hash_some in HH. destruct (Z.eqb_spec (zlen (H pre)) 32) as [H32|]; [|discriminate HH]. injection HH as <-.
      exists v, r, s, (H pre). split; [|exact HE]. exists pre, br, bs. repeat split; try assumption; lia.
    - intros (v & r & s & h & (pre & br & bs & HP & -> & H32 & -> & L1 & L2 & R1 & R2 & Hv & Hr & Hs) & HE). rewrite HP. cbn [bind]. rewrite to_rec_layout by (rewrite ?zlen_app; lia). cbn [bind]. rewrite hash_some, H32. cbn [Z.eqb Pos.eqb bind].
      rewrite <- app_assoc, recsig_layout, R1, R2 by assumption. assert (0 <= (v - 27) mod 4 <= 3) by lia.
      destruct (Z.leb_spec 0 ((v - 27) mod 4)), (Z.leb_spec ((v - 27) mod 4) 3), (Z.leb_spec N r), (Z.leb_spec N s); try lia. exact HE.
  Qed.

  Lemma verify_unfold P b m : verify_message C K ex P (AsBytes b) m (Some H) =
    (pre <- normalize_message m ;; rs <- to_recoverable_signature b ;; h <- message_hash pre (Some H) ;; '(r, s, id) <- cdata_recsig rs ;; Ok (ecdsa_verify C K r s h (pk_point P))).
  Proof using. reflexivity. Qed.
  Lemma recover_unfold b m : pubkey_from_signed_message C K ex (AsBytes b) m (Some H) =
    (pre <- normalize_message m ;; rs <- to_recoverable_signature b ;; h <- message_hash pre (Some H) ;; '(r, s, id) <- cdata_recsig rs ;;
     match ecdsa_recover C K r s id h with Some Q => Ok (mk_pubkey Q true Bitcoin) | None => Err InvalidSignatureError end).
  Proof using.
    unfold pubkey_from_signed_message, pubkey_from_recoverable_signature, public_key_from_recoverable_signature, to_recoverable. destruct (normalize_message m); [|reflexivity]. cbn [bind]. destruct (to_recoverable_signature b); [|reflexivity]. cbn [bind].
    destruct (message_hash a (Some H)); [|reflexivity]. cbn [bind]. destruct (cdata_recsig a0) as [[[r s] id]|]; [|reflexivity]. cbn [bind]. destruct (ecdsa_recover C K r s id a1); reflexivity.
  Qed.

  (** verify_message answers false otherwise, or raises on what it cannot read *)
  Theorem verify_message_iff P b m : bytes_ok b = true -> verify_message C K ex P (AsBytes b) m (Some H) = Ok true <->
    exists v r s h, parsed b m v r s h /\ ecdsa_signature C K r s (be_int h) (pk_point P) /\ 2 * s < N.
  Proof using L KL H_ok.
    intros HB. rewrite verify_unfold, (rec_parsed b m HB bool (fun r s _ h => Ok (ecdsa_verify C K r s h (pk_point P)))). split; intros (v & r & s & h & HP & HV); exists v, r, s, h; (split; [exact HP|]);
    destruct HP as (pre & br & bs & _ & -> & _ & _ & _ & _ & _ & _ & _ & Hr & Hs).
    - apply (verify_iff C L K KL r s (H pre) (pk_point P) Hr Hs (H_ok _)). congruence.
    - f_equal. now apply (verify_iff C L K KL r s (H pre) (pk_point P) Hr Hs (H_ok _)).
  Qed.
  Theorem recover_message_iff b m P : bytes_ok b = true -> pubkey_from_signed_message C K ex (AsBytes b) m (Some H) = Ok P <->
    pk_compressed P = true /\ pk_coin P = Bitcoin /\ exists v r s h, parsed b m v r s h /\ recoverable_signature C K r s ((v - 27) mod 4) (be_int h) (pk_point P).
  Proof using L KL H_ok.
    intros HB. rewrite recover_unfold. rewrite (rec_parsed b m HB (pubkey C) (fun r s id h => match ecdsa_recover C K r s id h with Some Q => Ok (mk_pubkey Q true Bitcoin) | None => Err InvalidSignatureError end)). split.
    - intros (v & r & s & h & HP & HV). destruct (ecdsa_recover C K r s ((v - 27) mod 4) h) as [Q|] eqn:ER; [|discriminate]. injection HV as <-. split; [reflexivity|]. split; [reflexivity|]. exists v, r, s, h. split; [exact HP|]. cbn [pk_point].
      destruct HP as (pre & br & bs & _ & -> & _ & _ & _ & _ & _ & _ & Hv & Hr & Hs). apply (recover_iff C L K KL); auto. lia.
    - intros (H1 & H2 & v & r & s & h & HP & HV). exists v, r, s, h. split; [exact HP|]. destruct HP as (pre & br & bs & _ & -> & _ & _ & _ & _ & _ & _ & Hv & Hr & Hs). apply (recover_iff C L K KL) in HV; [|auto; lia..|apply H_ok]. rewrite HV. destruct P; cbn in *; subst; reflexivity.
  Qed.

  (** * Malleability: negating s and R *)
  Lemma flipped r s id z Q : 0 <= id <= 3 -> 0 <= z -> recoverable_signature C K r s id z Q -> recoverable_signature C K r (N - s) (Z.lxor id 1) z Q.
  Proof using L KL.
    intros Hid Hz (Hr & Hs & R & HX & HO & HE). split; [exact Hr|]. split; [clear - Hs; lia|]. pose proof order_pos as HP.
    destruct (CurveFacts.inverse C L (Some R)) as [[R'|] HI].
    2: { rewrite (law_comm C L), (law_zero C L) in HI. discriminate HI. }
    exists R'. destruct (law_opposite C K KL R R' HI) as [HX' HO']. assert (HB : Z.lxor id 1 / 2 = id / 2 /\ (Z.lxor id 1 mod 2 =? 1) = negb (id mod 2 =? 1)). { clear - Hid. assert (id = 0 \/ id = 1 \/ id = 2 \/ id = 3) as [-> | [-> | [-> | ->]]] by lia; split; reflexivity. }
    destruct HB as [B1 B2]. split; [rewrite HX', B1; exact HX|]. split; [rewrite HO', B2, HO; reflexivity|].
    apply (equation_act C L) in HE; [|clear - Hr Hs Hz; lia..]. apply (equation_act C L); [clear - Hr Hs Hz; lia..|]. rewrite <- HE.
    (* (N - s) R' = s R *)
    assert (H1 : gadd C (act C s (Some R)) (act C s (Some R')) = None). { rewrite <- (act_gadd C L), HI. rewrite <- (act_0 C 0 (Some R)) by reflexivity. rewrite <- (act_mul C L), Z.mul_0_r. reflexivity. }
    assert (H2 : gadd C (act C s (Some R')) (act C (N - s) (Some R')) = None). { rewrite <- (act_add C L). apply act_0. replace (s + (N - s)) with N by (clear; lia). apply Z.mod_same. clear - HP; lia. }
    rewrite <- (law_zero C L (act C (N - s) (Some R'))). rewrite <- H1. rewrite (law_assoc C L), H2. rewrite (law_comm C L). apply (law_zero C L).
  Qed.
  Lemma flip_header v : 27 <= v <= 34 -> exists w, 27 <= w <= 34 /\ (w - 27) mod 4 = Z.lxor ((v - 27) mod 4) 1.
  Proof using.
    clear. intros Hv. exists (27 + Z.lxor ((v - 27) mod 4) 1). assert ((v - 27) mod 4 = 0 \/ (v - 27) mod 4 = 1 \/ (v - 27) mod 4 = 2 \/ (v - 27) mod 4 = 3) as [-> | [-> | [-> | ->]]] by lia; split; try reflexivity; cbn; lia.
  Qed.
  Theorem malleable b m P : bytes_ok b = true -> pubkey_from_signed_message C K ex (AsBytes b) m (Some H) = Ok P -> verify_message C K ex P (AsBytes b) m (Some H) = Ok true ->
    exists b', pubkey_from_signed_message C K ex (AsBytes b') m (Some H) = Ok P /\ verify_message C K ex P (AsBytes b') m (Some H) = Ok false.
  Proof using L KL H_ok.
    intros HB HR HV. apply recover_message_iff in HR as (Hc & Hn & v & r & s & h & HP & HR); [|exact HB]. apply verify_message_iff in HV as (v' & r' & s' & h' & HP' & _ & Hlow); [|exact HB].
    assert (s' = s). { clear - HP HP'. destruct HP as (pre & br & bs & _ & _ & _ & -> & L1 & L2 & R1 & R2 & _). destruct HP' as (pre' & br' & bs' & _ & _ & _ & HE' & L1' & L2' & R1' & R2' & _). injection HE' as _ HE'.
      apply (f_equal (zdrop 32)) in HE'. rewrite !zdrop_app_exact in HE' by (symmetry; assumption). subst bs'. congruence. }
    subst s'. clear HP'. pose proof HP as (pre & br & bs & HN & -> & H32 & _ & _ & _ & _ & _ & Hv & Rr & Rs). pose proof HR as (Hr & Hs & _). pose proof order_lt as HLT.
    destruct (flip_header v Hv) as (w & Hw & HF). pose proof (be_int_bound (H pre) (H_ok pre)) as HZ.
    apply flipped in HR; [|clear; lia|clear - HZ; lia]. rewrite <- HF in HR. destruct (bytes32_ok r) as [B1 L1], (bytes32_ok (N - s)) as [B2 L2].
    assert (HBB : bytes_ok (w :: bytes32 r ++ bytes32 (N - s)) = true) by (rewrite bytes_ok_cons, bytes_ok_app, B1, B2, andb_true_r; apply byte_ok_iff; clear - Hw; lia).
    assert (HPP : parsed (w :: bytes32 r ++ bytes32 (N - s)) m w r (N - s) (H pre)).
    { exists pre, (bytes32 r), (bytes32 (N - s)). rewrite !be_bytes32 by (clear - Hr Hs HLT; lia). repeat split; try assumption; try reflexivity; clear - Hw Hr Hs; lia. }
    exists (w :: bytes32 r ++ bytes32 (N - s)). split.
    - apply recover_message_iff; [exact HBB|]. split; [exact Hc|]. split; [exact Hn|]. exists w, r, (N - s), (H pre). split; [exact HPP|exact HR].
    - destruct HPP as (pre' & br' & bs' & HN' & HE & _ & HE' & M1 & M2 & M3 & M4 & _). rewrite verify_unfold, HN. cbn [bind]. rewrite to_rec_layout by (rewrite ?zlen_app; clear - L1 L2 Hw; lia). cbn [bind]. rewrite hash_some, H32. cbn [Z.eqb Pos.eqb bind].
      rewrite <- app_assoc, recsig_layout, !be_bytes32 by (assumption || (clear - Hr Hs HLT; lia)).
      replace (_ && _) with true by (clear - Hr Hs; lia). cbn [bind]. f_equal. apply not_true_is_false. intros HT. apply (verify_iff C L K KL) in HT as [_ HT]; [|clear - Hr Hs; lia..|apply H_ok]. clear - HT Hlow. lia.
  Qed.

  (** * Signing *)
  Variable nonce : bytes -> bytes -> nat -> bytes.
  Hypothesis nonce_ok : forall m s c, bytes_ok (nonce m s c) = true.

  Theorem sign_message_spec fuel k m sig P : privkey_public_key C k = Ok P -> sign_message C K nonce fuel k m (Some H) = Ok sig ->
    zlen sig = 65 /\ bytes_ok sig = true /\ exists v r s h, parsed sig m v r s h /\ (31 <= v <-> sk_compressed k = true) /\ 2 * s < N /\
    recoverable_signature C K r s ((v - 27) mod 4) (be_int h) (pk_point P).
  Proof using L KL H_ok nonce_ok.
    clear ex. intros HPk HS. unfold sign_message in HS. apply bind_Ok in HS as (pre & HP & HS). apply bind_Ok in HS as (rsig & HR & HS). unfold privkey_sign_recoverable, sign_recoverable in HR. apply bind_Ok in HR as (h & HH & HR). apply bind_Ok in HR as ([[r s] id] & HG & HR). apply Ok_inj in HR. subst rsig.
    rewrite hash_some in HH. destruct (Z.eqb_spec (zlen (H pre)) 32) as [H32|]; [|discriminate HH]. injection HH as <-.
    apply (ecdsa_sign_correct C L K KL nonce nonce_ok) in HG as (Q & HQ & Hid & Hlow & HRS); [|apply H_ok]. pose proof HRS as (Hr & Hs & _).
    assert (Rr : 0 <= r < N) by (clear - Hr; lia). assert (Rs : 0 <= s < N) by (clear - Hs; lia).
    destruct (compact_layout r s Rr Rs) as (HB & HL & _). unfold to_message_signature in HS. rewrite pyindex_last in HS. cbn [bind] in HS.
    set (v := 27 + (if sk_compressed k then 4 else 0) + id) in HS. assert (Hv : 27 <= v <= 34) by (subst v; destruct (sk_compressed k); lia). rewrite pack_byte_ok in HS by lia. cbn [bind] in HS. rewrite slice_to_nonneg, ztake_app_exact in HS by lia. apply Ok_inj in HS. subst sig. cbn [app].
    split; [rewrite zlen_cons, HL; reflexivity|]. split; [rewrite bytes_ok_cons, HB, andb_true_r; apply byte_ok_iff; lia|]. exists v, r, s, (H pre). split.
    { exists pre, (bytes32 r), (bytes32 s). destruct (bytes32_ok r) as [_ L1], (bytes32_ok s) as [_ L2]. pose proof order_lt. rewrite !be_bytes32 by lia. repeat split; try assumption; lia. }
    split; [subst v; destruct (sk_compressed k); split; intros; try reflexivity; try discriminate; lia|]. split; [exact Hlow|].
    assert (HQP : Q = pk_point P). { unfold privkey_public_key, privkey_point in HPk. rewrite HQ in HPk. injection HPk as <-. reflexivity. } rewrite <- HQP.
    replace ((v - 27) mod 4) with id; [exact HRS|]. subst v. destruct (sk_compressed k).
    - replace (27 + 4 + id - 27) with (id + 1 * 4) by lia. rewrite Z.mod_add, Z.mod_small; lia.
    - replace (27 + 0 + id - 27) with id by lia. rewrite Z.mod_small; lia.
  Qed.
  Theorem signed_verifies fuel k m sig P : privkey_public_key C k = Ok P -> sign_message C K nonce fuel k m (Some H) = Ok sig ->
    verify_message C K ex P (AsBytes sig) m (Some H) = Ok true /\ pubkey_from_signed_message C K ex (AsBytes sig) m (Some H) = Ok (mk_pubkey (pk_point P) true Bitcoin).
  Proof using L KL H_ok nonce_ok.
    intros HPk HS. destruct (sign_message_spec fuel k m sig P HPk HS) as (_ & HB & v & r & s & h & HP & _ & Hlow & HR). split.
    - apply verify_message_iff; [exact HB|]. exists v, r, s, h. split; [exact HP|]. split; [|exact Hlow]. apply (recoverable_plain C K _ _ ((v - 27) mod 4)); [lia|exact HR].
    - apply recover_message_iff; [exact HB|]. cbn. split; [reflexivity|]. split; [reflexivity|]. exists v, r, s, h. split; [exact HP|exact HR].
  Qed.
  (** In text form *)
  Lemma recoverable_text t b : b64decode ex t = Ok b -> to_recoverable ex (AsText t) = to_recoverable ex (AsBytes b).
  Proof using. intros HE. unfold to_recoverable. now rewrite HE. Qed.
  Lemma verify_text P t b m h : b64decode ex t = Ok b -> verify_message C K ex P (AsText t) m h = verify_message C K ex P (AsBytes b) m h.
  Proof using. intros HE. unfold verify_message. destruct h; [|reflexivity]. now rewrite (recoverable_text t b HE). Qed.
  Lemma recover_text t b m h : b64decode ex t = Ok b -> pubkey_from_signed_message C K ex (AsText t) m h = pubkey_from_signed_message C K ex (AsBytes b) m h.
  Proof using. intros HE. unfold pubkey_from_signed_message. destruct h; [|reflexivity]. now rewrite (recoverable_text t b HE). Qed.

  (** Signing fails only for messages or hashes that are too long, or if no nonce works. *)
  Lemma sign_loop_Err fuel h sec e : forall c, sign_loop C K nonce fuel c h sec = Err e -> e = OutOfFuel.
  Proof using.
    induction fuel as [|f IH]; intros c; cbn [sign_loop]; [congruence|]. cbv zeta. match goal with |- match ?m with _ => _ end = _ -> _ => destruct m end; [discriminate|apply IH].
  Qed.
  Lemma sign_loop_total h sec n : forall fuel c, (n < fuel)%nat -> sig_sign C K (be_int sec) (scalar_of_hash h) (be_int (nonce h sec (c + n))) <> None -> 0 < be_int (nonce h sec (c + n)) < N ->
    exists g, sign_loop C K nonce fuel c h sec = Ok g.
  Proof using.
    clear nonce_ok H_ok H ex L KL. induction n as [|n IH]; intros fuel c Hf HA HN; (destruct fuel as [|f]; [clear - Hf; lia|]); cbn [sign_loop]; cbv zeta.
    - rewrite Nat.add_0_r in HN, HA. destruct (Z.leb_spec N (be_int (nonce h sec c))) as [HZ|HZ]; [clear - HN HZ; lia|]. destruct (Z.eqb_spec (be_int (nonce h sec c)) 0) as [HZ'|HZ']; [clear - HN HZ'; lia|]. cbn [orb]. destruct (sig_sign _ _ _ _ _) as [g|]; [exists g; reflexivity|contradiction].
    - match goal with |- exists g, match ?m with _ => _ end = _ => destruct m as [g|] end; [exists g; reflexivity|]. rewrite Nat.add_succ_r in HN, HA. apply IH; [clear - Hf; lia|exact HA|exact HN].
  Qed.
  Lemma sig_sign_total sec z non R : 0 < non < N -> smul C non (Some (gen C)) = Some R -> px K R mod N <> 0 -> (px K R mod N * sec + z) mod N <> 0 -> sig_sign C K sec z non <> None.
  Proof using.
    clear nonce_ok H_ok H ex L KL. intros Hn HR H0 H1. unfold sig_sign. rewrite HR. cbv zeta. destruct (Z.eqb_spec (px K R mod N) 0); [contradiction|]. cbn [orb].
    destruct (Z.eqb_spec (scalar_mul (scalar_inverse non) ((scalar_mul (px K R mod N) sec + z) mod N)) 0) as [HZ|]; [|destruct (scalar_is_high _); discriminate].
    exfalso. apply H1. destruct (inverse_spec non Hn) as [HI _]. unfold scalar_mul in HZ. rewrite Zplus_mod_idemp_l, Zmult_mod_idemp_r in HZ. set (y := px K R mod N * sec + z) in *. pose proof order_pos.
    rewrite <- (Z.mul_1_l y), <- HI, Zmult_mod_idemp_l, <- Z.mul_assoc, <- Zmult_mod_idemp_r, HZ, Z.mul_0_r. apply Z.mod_0_l. lia.
  Qed.
  Theorem sign_message_total k m pre n R : valid_privkey k -> normalize_message m = Ok pre -> zlen (H pre) = 32 ->
    let k_n := be_int (nonce (H pre) (sk_secret k) n) in
    0 < k_n < N -> smul C k_n (Some (gen C)) = Some R -> px K R mod N <> 0 -> (px K R mod N * be_int (sk_secret k) + be_int (H pre)) mod N <> 0 ->
    forall fuel, (n < fuel)%nat -> exists sig, sign_message C K nonce fuel k m (Some H) = Ok sig.
  Proof using L KL H_ok nonce_ok.
    clear ex. intros HV HP H32 k_n Hk HR H0 H1 fuel Hf. unfold sign_message. rewrite HP. cbn [bind]. unfold privkey_sign_recoverable. rewrite hash_some, H32. cbn [Z.eqb Pos.eqb bind]. unfold sign_recoverable.
    assert (HS : seckey_verify (sk_secret k) = true). { destruct HV as (_ & _ & HV). rewrite val_be_int in HV. unfold seckey_verify. apply andb_true_iff. clear - HV. lia. }
    assert (HG : exists g, ecdsa_sign C K nonce fuel (H pre) (sk_secret k) = Ok g).
    { unfold ecdsa_sign. rewrite HS. apply (sign_loop_total _ _ n); [exact Hf| |exact Hk]. apply (sig_sign_total _ _ _ R); [exact Hk|exact HR|exact H0|]. unfold scalar_of_hash. rewrite Zplus_mod_idemp_r. exact H1. }
    destruct HG as [[[r s] id] HG]. rewrite HG. cbn [bind]. apply (ecdsa_sign_correct C L K KL nonce nonce_ok) in HG as (_ & _ & Hid & _); [|apply H_ok].
    unfold to_message_signature. rewrite pyindex_last. cbn [bind]. rewrite pack_byte_ok by (destruct (sk_compressed k); clear - Hid; lia). eexists. reflexivity.
  Qed.

  (** DER signatures *)
  Theorem signed_der_verifies fuel k m hasher d P : (forall h, hasher = Some h -> forall x, bytes_ok (h x) = true) -> (hasher = None -> bytes_ok m = true) -> privkey_public_key C k = Ok P -> privkey_sign C K nonce fuel k m hasher = Ok d ->
    zlen d <= 72 /\ bytes_ok d = true /\ pubkey_verify_der_signature C K P d m hasher = Ok true.
  Proof using L KL nonce_ok.
    clear H_ok H ex. intros HO HM HPk HS. unfold privkey_sign, sign_der in HS. apply bind_Ok in HS as (h & HH & HS). apply bind_Ok in HS as ([[r s] id] & HG & HS). apply Ok_inj in HS. subst d.
    assert (HB : bytes_ok h = true). { unfold message_hash in HH. destruct hasher as [f|]; destruct (_ =? 32) in HH; try discriminate HH; injection HH as <-; [now apply HO|now apply HM]. }
    apply (ecdsa_sign_correct C L K KL nonce nonce_ok) in HG as (Q & HQ & Hid & Hlow & HRS); [|exact HB]. pose proof HRS as (Hr & Hs & _). destruct (serialize_length r s) as [HL HBs]; [lia..|].
    split; [lia|]. split; [exact HBs|]. unfold pubkey_verify_der_signature. rewrite HH. cbn [bind]. unfold verify_der_signature, der_signature_to_cdata. rewrite parse_serialize by lia. cbn [bind]. f_equal.
    assert (HQP : Q = pk_point P). { unfold privkey_public_key, privkey_point in HPk. rewrite HQ in HPk. injection HPk as <-. reflexivity. } rewrite <- HQP.
    apply (verify_iff C L K KL); [lia..|exact HB|]. split; [|exact Hlow]. now apply (recoverable_plain C K _ _ id).
  Qed.
  Theorem verify_der_iff P d m hasher : (forall h, hasher = Some h -> forall x, bytes_ok (h x) = true) -> (hasher = None -> bytes_ok m = true) -> bytes_ok d = true ->
    pubkey_verify_der_signature C K P d m hasher = Ok true <->
    exists h r s, message_hash m hasher = Ok h /\ d = serialize_der r s /\ ecdsa_signature C K r s (be_int h) (pk_point P) /\ 2 * s < N.
  Proof using L KL.
    clear H_ok H ex nonce_ok nonce. intros HO HM HB. unfold pubkey_verify_der_signature, verify_der_signature, der_signature_to_cdata. split.
    - intros HV. apply bind_Ok in HV as (h & HH & HV). apply bind_Ok in HV as ([r s] & HD & HV). destruct (parse_der d) as [[r' s']|] eqn:EP; [|discriminate HD]. injection HD as -> ->. apply Ok_inj in HV.
      assert (HBh : bytes_ok h = true). { unfold message_hash in HH. destruct hasher as [f|]; destruct (_ =? 32) in HH; try discriminate HH; injection HH as <-; [now apply HO|now apply HM]. }
      destruct (parse_der_range d r s HB EP) as [Rr Rs]. apply (verify_iff C L K KL) in HV; [|assumption..]. pose proof HV as [(Hr & Hs & _) _]. exists h, r, s. split; [exact HH|]. split; [apply parse_der_canonical; [assumption..|lia|lia]|exact HV].
    - intros (h & r & s & HH & -> & HV). pose proof HV as [(Hr & Hs & _) _]. rewrite HH. cbn [bind]. rewrite parse_serialize by lia. cbn [bind]. f_equal.
      assert (HBh : bytes_ok h = true). { unfold message_hash in HH. destruct hasher as [f|]; destruct (_ =? 32) in HH; try discriminate HH; injection HH as <-; [now apply HO|now apply HM]. }
      apply (verify_iff C L K KL); [lia..|exact HBh|exact HV].
  Qed.

  (** * Addresses *)
  Variable D H160 : bytes -> bytes.
  Theorem verify_address_iff b m a : bytes_ok b = true ->
    verify_message_and_address C K ex D H160 (AsBytes b) m a (Some H) = Ok true <->
    exists v r s h Q hash, parsed b m v r s h /\ recoverable_signature C K r s ((v - 27) mod 4) (be_int h) Q /\ 2 * s < N /\
      ((exists c, a = AddrObject (P2PKH hash c)) \/ (exists t x, a = AddrText t /\ base58_decode_check D t = Ok (x :: hash)) \/ (exists t, a = AddrText t /\ base58_decode_check D t = Ok [] /\ hash = [])) /\
      (hash = H160 (pubkey_serialize C true Q) \/ hash = H160 (pubkey_serialize C false Q)).
  Proof using L KL H_ok.
    clear nonce_ok nonce. intros HB. unfold verify_message_and_address. split.
    - destruct (pubkey_from_signed_message C K ex (AsBytes b) m (Some H)) as [P|e] eqn:EP; [|destruct e; discriminate]. intros HE. apply bind_Ok in HE as (hash & HA & HE). apply bind_Ok in HE as (ok & HV & HE). injection HE as HE. apply andb_true_iff in HE as [-> HE].
      apply verify_message_iff in HV; [|exact HB]. apply recover_message_iff in EP as (_ & _ & v & r & s & h & HP & HR); [|exact HB]. exists v, r, s, h, (pk_point P), hash. split; [exact HP|]. split; [exact HR|]. split.
      { destruct HV as (v' & r' & s' & h' & HP' & _ & Hlow). destruct HP as (pre & br & bs & _ & _ & _ & -> & L1 & L2 & R1 & R2 & _). destruct HP' as (pre' & br' & bs' & _ & _ & _ & HE' & L1' & L2' & R1' & R2' & _). injection HE' as _ HE'.
        apply (f_equal (zdrop 32)) in HE'. rewrite !zdrop_app_exact in HE' by (symmetry; assumption). subst bs'. congruence. }
      split.
      + destruct a as [[hh c|hh c]|t|]; try discriminate; [injection HA as ->; left; now exists c|]. apply bind_Ok in HA as (raw & HD & HA). injection HA as <-. destruct raw as [|x raw]; [right; right; exists t; auto|]. right; left. exists t, x. split; [reflexivity|]. rewrite slice_from_nonneg by lia. cbn [zdrop]. change (1 <=? 0) with false. cbv iota. change (1 - 1) with 0. rewrite zdrop_0 by lia. exact HD.
      + apply orb_true_iff in HE as [HE|HE]; apply bytes_eqb_eq in HE; [left|right]; exact HE.
    - intros (v & r & s & h & Q & hash & HP & HR & Hlow & HA & HH).
      assert (EP : pubkey_from_signed_message C K ex (AsBytes b) m (Some H) = Ok (mk_pubkey Q true Bitcoin)) by (apply recover_message_iff; [exact HB|]; cbn; repeat split; auto; exists v, r, s, h; auto).
      assert (EV : verify_message C K ex (mk_pubkey Q true Bitcoin) (AsBytes b) m (Some H) = Ok true).
      { apply verify_message_iff; [exact HB|]. exists v, r, s, h. split; [exact HP|]. split; [|exact Hlow]. apply (recoverable_plain C K _ _ ((v - 27) mod 4)); [lia|exact HR]. }
      rewrite EP. assert (EA : match a with AddrObject (P2PKH h _) => Ok h | AddrText t => raw <- base58_decode_check D t ;; Ok (slice_from raw 1) | _ => Err TypeError end = Ok hash).
      { destruct HA as [(c & ->)|[(t & x & -> & HD)|(t & -> & HD & ->)]]; [reflexivity| |rewrite HD; reflexivity]. rewrite HD. cbn [bind]. rewrite slice_from_nonneg by lia. cbn [zdrop]. change (1 <=? 0) with false. cbv iota. change (1 - 1) with 0. rewrite zdrop_0 by lia. reflexivity. }
      rewrite EA. cbn [bind]. rewrite EV. cbn [bind andb]. unfold pubkey_hash160, pubkey_to_bytes. cbn [pk_point]. destruct HH as [->| ->]; rewrite bytes_eqb_refl; [reflexivity|]. now rewrite orb_true_r.
  Qed.
End Messages.

(** Recoverable signatures, as signed and verified without framing *)
Section Recoverable.
  Variable C : curve.
  Hypothesis L : curve_laws C.
  Variable K : coords C.
  Hypothesis KL : coords_laws C K.
  Variable nonce : bytes -> bytes -> nat -> bytes.
  Hypothesis nonce_ok : forall m s c, bytes_ok (nonce m s c) = true.

  Theorem signed_recoverable_verifies fuel k m hasher sig P : (forall h, hasher = Some h -> forall x, bytes_ok (h x) = true) -> (hasher = None -> bytes_ok m = true) ->
    privkey_public_key C k = Ok P -> privkey_sign_recoverable C K nonce fuel k m hasher = Ok sig ->
    zlen sig = 65 /\ bytes_ok sig = true /\ pubkey_verify_recoverable_signature C K P sig m hasher = Ok true /\ pubkey_from_recoverable_signature C K sig m hasher = Ok (mk_pubkey (pk_point P) true Bitcoin).
  Proof using L KL nonce_ok.
    intros HO HM HPk HS. unfold privkey_sign_recoverable, sign_recoverable in HS. apply bind_Ok in HS as (h & HH & HS). apply bind_Ok in HS as ([[r s] id] & HG & HS). apply Ok_inj in HS. subst sig.
    assert (HB : bytes_ok h = true). { unfold message_hash in HH. destruct hasher as [f|]; destruct (_ =? 32) in HH; try discriminate HH; injection HH as <-; [now apply HO|now apply HM]. }
    apply (ecdsa_sign_correct C L K KL nonce nonce_ok) in HG as (Q & HQ & Hid & Hlow & HRS); [|exact HB]. pose proof HRS as (Hr & Hs & _). assert (Rr : 0 <= r < CURVE_ORDER) by (clear - Hr; lia). assert (Rs : 0 <= s < CURVE_ORDER) by (clear - Hs; lia).
    destruct (compact_layout r s Rr Rs) as (HBc & HLc & HC).
    assert (HQP : Q = pk_point P). { unfold privkey_public_key, privkey_point in HPk. rewrite HQ in HPk. injection HPk as <-. reflexivity. }
    split; [rewrite zlen_app, HLc; reflexivity|]. split; [rewrite bytes_ok_app, HBc, bytes_ok_cons, andb_true_r; apply byte_ok_iff; clear - Hid; lia|].
    unfold pubkey_verify_recoverable_signature, pubkey_from_recoverable_signature, verify_recoverable_signature, public_key_from_recoverable_signature. rewrite HH. cbn [bind]. rewrite (HC id Hid). cbn [bind]. rewrite <- HQP. split.
    - f_equal. apply (verify_iff C L K KL); [assumption..|]. split; [|exact Hlow]. now apply (recoverable_plain C K _ _ id).
    - apply (recover_iff C L K KL) in HRS; [|assumption..]. rewrite HRS. reflexivity.
  Qed.
  (** What signing can raise *)
  Lemma ecdsa_sign_Err fuel h sec e : ecdsa_sign C K nonce fuel h sec = Err e -> seckey_verify sec = true -> e = OutOfFuel.
  Proof using. unfold ecdsa_sign. intros HE HV. rewrite HV in HE. now apply sign_loop_Err in HE. Qed.
  Theorem sign_message_errors H fuel k m e : (forall x, bytes_ok (H x) = true) -> valid_privkey k -> sign_message C K nonce fuel k m (Some H) = Err e ->
    e = OutOfFuel \/ normalize_message m = Err e \/ (e = ValueError /\ exists pre, normalize_message m = Ok pre /\ zlen (H pre) <> 32).
  Proof using L KL nonce_ok.
    intros HO HV HE. unfold sign_message in HE. apply bind_Err in HE as [HE|(pre & HP & HE)]; [auto|]. apply bind_Err in HE as [HE|(rs & HR & HE)].
    - unfold privkey_sign_recoverable in HE. apply bind_Err in HE as [HE|(h & HH & HE)].
      + unfold message_hash in HE. destruct (Z.eqb_spec (zlen (H pre)) 32) as [|HZ]; [discriminate HE|]. injection HE as <-. right; right. split; [reflexivity|]. exists pre. split; assumption.
      + unfold sign_recoverable in HE. apply bind_Err in HE as [HE|([[r s] id] & _ & HE)]; [|discriminate HE]. left. apply ecdsa_sign_Err in HE; [exact HE|]. destruct HV as (_ & _ & HV). rewrite val_be_int in HV. unfold seckey_verify. apply andb_true_iff. clear - HV. lia.
    - exfalso. assert (HX : forall x, bytes_ok (H x) = true -> True) by auto. clear HX.
      unfold privkey_sign_recoverable, sign_recoverable in HR. apply bind_Ok in HR as (h & HH & HR). apply bind_Ok in HR as ([[r s] id] & HG & HR). apply Ok_inj in HR. subst rs.
      unfold message_hash in HH. destruct (Z.eqb_spec (zlen (H pre)) 32) as [|HZ]; [|discriminate HH]. injection HH as <-.
      apply (ecdsa_sign_correct C L K KL nonce nonce_ok) in HG as (Q & HQ & Hid & Hlow & HRS); [|apply HO]. unfold to_message_signature in HE. rewrite pyindex_last in HE. cbn [bind] in HE. rewrite pack_byte_ok in HE by (destruct (sk_compressed k); clear - Hid; lia). discriminate HE.
  Qed.
End Recoverable.
