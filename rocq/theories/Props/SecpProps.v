(** The curve secp256k1 itself: C91 to C93.  No hypothesis about the curve is left in these theorems. *)
From Verif.Model Require Import Py Text Packing Misc Curve Secp256k1 Coin Base64 Script Keys Address Ecdsa.
From Verif.Spec Require Import Numbers ScriptSpec CurveSpec KeysSpec EcdsaSpec AddressSpec SecpSpec.
From Verif.Proofs Require Import PyFacts NumbersFacts ScriptTheorems CurveFacts KeysFacts SecpField SecpGroup SecpOrder SecpLaws.
From Verif.Props Require Import KeysProps KeyFormsProps AddressProps EcdsaProps.

(** C91.  The points are the solutions of the equation and infinity. *)
Definition has_coords (p : pt secp256k1) (x y : Z) : Prop := proj1_sig p = (x, y).
Lemma coords_raw p x y : has_coords p x y <-> raw (Some p) = Some (x, y).
Proof. destruct p as [xy H]. unfold has_coords. cbn. split; congruence. Qed.
Theorem C91_points x y : secp_point x y <-> exists! p, has_coords p x y.
Proof.
  rewrite point_iff. split.
  - intros H. exists (exist _ (x, y) H : pt secp256k1). split; [reflexivity|]. intros q HQ. apply coords_raw in HQ. assert (HE : Some (exist _ (x, y) H) = Some q) by (apply raw_inj; rewrite HQ; reflexivity). congruence.
  - intros (p & HP & _). apply coords_raw in HP. exact (raw_on _ _ _ HP).
Qed.
Theorem C91_coords p : exists x y, has_coords p x y /\ secp_point x y.
Proof. destruct (raw_some p) as (x & y & HE & _ & HO). exists x, y. split; [exact HE|now apply point_iff]. Qed.
(** Addition is that of chords and tangents. *)
Theorem C91_addition p q x1 y1 x2 y2 : has_coords p x1 y1 -> has_coords q x2 y2 ->
  match gadd secp256k1 (Some p) (Some q) with
  | Some r => exists x3 y3, has_coords r x3 y3 /\ secp_point x3 y3 /\ point_sum x1 y1 x2 y2 x3 y3
  | None => x1 = x2 /\ y1 + y2 = P256
  end.
Proof.
  rewrite !coords_raw. intros HP HQ. pose proof (raw_gadd (Some p) (Some q)) as HA. rewrite HP, HQ in HA. pose proof (raw_on _ _ _ HP) as H1. pose proof (raw_on _ _ _ HQ) as H2.
  destruct (gadd secp256k1 (Some p) (Some q)) as [r|].
  - destruct (raw_some r) as (x3 & y3 & HC & HE & HO). exists x3, y3. split; [exact HC|]. split; [now apply point_iff|]. pose proof (eq_trans (eq_sym HA) HE) as HX. now apply add_some in HX.
  - symmetry in HA. now apply add_none in HA.
Qed.
Theorem C91_sum_unique x1 y1 x2 y2 x3 y3 x4 y4 : secp_point x1 y1 -> secp_point x2 y2 -> element x3 -> element y3 -> element x4 -> element y4 ->
  point_sum x1 y1 x2 y2 x3 y3 -> point_sum x1 y1 x2 y2 x4 y4 -> x3 = x4 /\ y3 = y4.
Proof.
  rewrite !point_iff. intros H1 H2 HX3 HY3 HX4 HY4 HS HT. assert (HE : Some (x3, y3) = Some (x4, y4)); [|now injection HE as -> ->].
  transitivity (raw_add (Some (x1, y1)) (Some (x2, y2))); [symmetry|]; now apply add_some.
Qed.
(** It makes a commutative group, CURVE_ORDER times any point of which is infinity; and both forms of points read back. *)
Theorem C91_laws : curve_laws secp256k1.
Proof. exact secp_laws. Qed.
Theorem C91_uncompressed : uncompressed_laws secp256k1.
Proof. exact secp_uncompressed. Qed.
Theorem C91_coords_laws : coords_laws secp256k1 secp_coords.
Proof. exact secp_coords_laws. Qed.
(** Every point is a multiple of the generator, of exactly one number below the order. *)
Theorem C91_generated p : exists! k, 0 < k < CURVE_ORDER /\ mult secp256k1 k (Some (gen secp256k1)) = Some p.
Proof.
  pose proof secp_laws as L. pose proof order_pos as HO. assert (HM : forall k, mult secp256k1 k (Some (gen secp256k1)) = smul secp256k1 k (Some (gen secp256k1))) by (intros [|k|k]; [reflexivity|symmetry; apply (pmul_times secp256k1 L)|reflexivity]).
  destruct (secp_generated p) as (k & Hk & HE). exists k. split; [split; [exact Hk|exact (eq_trans (HM k) HE)]|]. intros j [Hj HJ]. apply (eq_trans (eq_sym (HM j))) in HJ.
  assert (HS : smul secp256k1 (k + (CURVE_ORDER - j)) (Some (gen secp256k1)) = None).
  { rewrite (smul_add secp256k1 L) by lia. rewrite HE, <- HJ, <- (smul_add secp256k1 L) by lia. replace (j + (CURVE_ORDER - j)) with CURVE_ORDER by lia. apply (smul_order secp256k1 L). }
  apply (smul_zero secp256k1 L) in HS; [|lia]. destruct HS as [m HS]. assert (m = 1) by nia. lia.
Qed.
Print Assumptions C91_points.
Print Assumptions C91_coords.
Print Assumptions C91_addition.
Print Assumptions C91_sum_unique.
Print Assumptions C91_laws.
Print Assumptions C91_uncompressed.
Print Assumptions C91_coords_laws.
Print Assumptions C91_generated.
Example C91_ex : secp_point GX GY /\
  raw_add (Some (GX, GY)) (Some (GX, GY)) = Some (0xC6047F9441ED7D6D3045406E95C07CD85C778E4B8CEF3CA7ABAC09B95C709EE5, 0x1AE168FEA63DC339A3C58419466CEAEEF7F632653266D0E1236431A950CFE52A) /\
  ~ secp_point 5 1 /\ raw (Some (gen secp256k1)) = Some (GX, GY).
Proof. split; [apply point_iff; vm_compute; reflexivity|]. split; [vm_compute; reflexivity|]. split; [rewrite point_iff; vm_compute; discriminate|reflexivity]. Qed.

(** C92.  PublicKey.from_bytes reads exactly the compressed, uncompressed and hybrid forms of points. *)
Theorem C92_from_bytes b (k : pubkey secp256k1) : pubkey_from_bytes secp256k1 b = Ok k <->
  exists x y, secp_point x y /\ point_text b x y /\ has_coords (pk_point k) x y /\ pk_compressed k = (zlen b =? 33) /\ pk_coin k = Bitcoin.
Proof.
  unfold pubkey_from_bytes. split.
  - destruct (pubkey_parse secp256k1 b) as [p|] eqn:E; [|discriminate]. intros HE. apply Ok_inj in HE. subst k. apply parse_some in E as (x & y & HE & HT). exists x, y. cbn [pk_point pk_compressed pk_coin]. split; [apply point_iff; exact (raw_on _ _ _ HE)|]. split; [exact HT|]. split; [now apply coords_raw|]. split; reflexivity.
  - intros (x & y & HP & HT & HC & H1 & H2). assert (HE : pubkey_parse secp256k1 b = Some (pk_point k)). { apply parse_some. exists x, y. split; [now apply coords_raw|exact HT]. }
    rewrite HE. destruct k as [p c co]. cbn in *. congruence.
Qed.
Theorem C92_from_bytes_raises b e : pubkey_from_bytes secp256k1 b = Err e <-> e = ValueError /\ forall x y, secp_point x y -> ~ point_text b x y.
Proof.
  unfold pubkey_from_bytes. destruct (pubkey_parse secp256k1 b) as [p|] eqn:E.
  - split; [discriminate|]. intros [_ HN]. exfalso. apply parse_some in E as (x & y & HE & HT). apply (HN x y); [apply point_iff; exact (raw_on _ _ _ HE)|exact HT].
  - split; [intros HE; split; [congruence|]|intros [-> _]; reflexivity]. intros x y HP HT. apply C91_points in HP as (p & HP & _). assert (HX : pubkey_parse secp256k1 b = Some p) by (apply parse_some; exists x, y; split; [now apply coords_raw|exact HT]). congruence.
Qed.
(** to_point gives the coordinates; from_point takes exactly the points of the curve. *)
Theorem C92_to_point (k : pubkey secp256k1) : has_coords (pk_point k) (fst (pubkey_to_point secp256k1 k)) (snd (pubkey_to_point secp256k1 k)).
Proof.
  pose proof (C82_to_point secp256k1 k secp_laws secp_uncompressed) as HT. destruct (pubkey_to_point secp256k1 k) as [x y] eqn:E. cbn [fst snd]. destruct HT as (Hx & Hy & HT).
  unfold pubkey_from_point in HT. rewrite !be_32 in HT by assumption. cbn [bind] in HT. apply C92_from_bytes in HT as (u & v & HP & HX & HC & _). cbn [pk_point] in HC.
  pose proof (text_4 _ _ _ HX) as HD. destruct (bytes32_ok x) as [_ Lx], (bytes32_ok u) as [_ Lu]. apply point_iff, on_curve_iff in HP as (Hu & Hv & _). apply field_256 in Hu, Hv.
  assert (H1 : bytes32 x = bytes32 u) by (apply (f_equal (ztake 32)) in HD; now rewrite !ztake_app_exact in HD by (symmetry; assumption)).
  assert (H2 : bytes32 y = bytes32 v) by (apply (f_equal (zdrop 32)) in HD; now rewrite !zdrop_app_exact in HD by (symmetry; assumption)).
  apply (f_equal be_int) in H1, H2. rewrite !be_bytes32 in H1, H2 by assumption. subst u v. exact HC.
Qed.
Theorem C92_from_point x y : (exists k, pubkey_from_point secp256k1 x y = Ok k) <-> secp_point x y.
Proof.
  split.
  - intros (k & HE). pose proof (C82_from_point secp256k1 x y secp_laws secp_uncompressed) as HF. rewrite HE in HF. destruct HF as [HF _]. pose proof (C92_to_point k) as HC. rewrite HF in HC. cbn [fst snd] in HC.
    destruct (C91_coords (pk_point k)) as (u & v & HC2 & HP). unfold has_coords in *. congruence.
  - intros HP. apply C91_points in HP as (p & HP & _). pose proof (C92_to_point (mk_pubkey p true Bitcoin)) as HC. pose proof (C82_to_point secp256k1 (mk_pubkey p true Bitcoin) secp_laws secp_uncompressed) as HT.
    destruct (pubkey_to_point secp256k1 (mk_pubkey p true Bitcoin)) as [u v]. cbn [fst snd pk_point] in HC. destruct HT as (_ & _ & HT). eexists. unfold has_coords in *. replace x with u by congruence. replace y with v by congruence. exact HT.
Qed.
(** Each public key is that of exactly one secret. *)
Theorem C92_one_secret (P : pubkey secp256k1) : exists! s, valid_secret s /\ privkey_public_key secp256k1 (mk_privkey s (pk_compressed P) (pk_coin P)) = Ok P.
Proof.
  destruct P as [p c co]. cbn [pk_compressed pk_coin]. destruct (C91_generated p) as (k & [Hk HE] & HU). pose proof order_lt as HL. exists (bytes32 k). destruct (bytes32_valid k Hk) as [HV HB].
  assert (HS : forall s, valid_secret s -> privkey_public_key secp256k1 (mk_privkey s c co) = Ok (mk_pubkey p c co) <-> mult secp256k1 (val_be s) (Some (gen secp256k1)) = Some p).
  { intros s Hs. destruct (C55_public_key secp256k1 secp_laws (mk_privkey s c co) Hs) as (q & HQ & HG). cbn [sk_secret sk_compressed sk_coin] in HQ, HG. rewrite HQ. change (mult secp256k1 (val_be s) (Some (gen secp256k1))) with (gen_times secp256k1 (val_be s)). rewrite HG. split; [intros HX; apply Ok_inj in HX; congruence|congruence]. }
  split.
  - split; [exact HV|]. apply HS; [exact HV|]. rewrite val_be_int, HB. exact HE.
  - intros s [HVs HX]. apply HS in HX; [|exact HVs]. destruct HVs as (B1 & B2 & B3). rewrite (HU (val_be s) (conj B3 HX)), val_be_int. now apply bytes32_be.
Qed.
(** Signed messages verify, and give the key back. *)
Theorem C92_message ex H nonce fuel k m sig P : (forall x, bytes_ok (H x) = true) -> (forall m s c, bytes_ok (nonce m s c) = true) ->
  privkey_public_key secp256k1 k = Ok P -> sign_message secp256k1 secp_coords nonce fuel k m (Some H) = Ok sig ->
  zlen sig = 65 /\ verify_message secp256k1 secp_coords ex P (AsBytes sig) m (Some H) = Ok true /\
  exists P', pubkey_from_signed_message secp256k1 secp_coords ex (AsBytes sig) m (Some H) = Ok P' /\ pk_point P' = pk_point P.
Proof.
  intros HH HN HP HS. destruct (C73_message secp256k1 secp_laws secp_coords secp_coords_laws ex H HH nonce HN fuel k m sig P HP HS) as (H1 & _ & H2 & P' & H3 & H4 & _).
  split; [exact H1|]. split; [exact H2|]. exists P'. split; assumption.
Qed.
Print Assumptions C92_from_bytes.
Print Assumptions C92_from_bytes_raises.
Print Assumptions C92_to_point.
Print Assumptions C92_from_point.
Print Assumptions C92_one_secret.
Print Assumptions C92_message.
Definition secp_hex (r : result (pubkey secp256k1)) : result pystr := p <- r ;; Ok (pubkey_to_hex secp256k1 p None).
Definition hybrid_G : bytes := 6 :: bytes32 GX ++ bytes32 GY.
Example C92_ex : secp_hex (privkey_public_key secp256k1 (mk_privkey (bytes32 3) true Bitcoin)) = Ok (txt "02f9308a019258c31049344f85f89d5229b531c845836f99b08601f113bce036f9") /\
  secp_hex (pubkey_from_bytes secp256k1 hybrid_G) = Ok (to_hex (4 :: bytes32 GX ++ bytes32 GY)) /\
  secp_hex (pubkey_from_bytes secp256k1 (7 :: bytes32 GX ++ bytes32 GY)) = Err ValueError /\
  secp_hex (pubkey_from_point secp256k1 GX (GY + 1)) = Err ValueError.
Proof. do 3 (split; [vm_compute; reflexivity|]). vm_compute. reflexivity. Qed.

(** C93.  An output paying to a key, once classified, gives its script back exactly if the key is not in the hybrid form. *)
Definition hybrid (b : bytes) : Prop := exists r, b = 6 :: r \/ b = 7 :: r.
Theorem C93_exactly b (k : pubkey secp256k1) c : pubkey_from_bytes secp256k1 b = Ok k ->
  let s := zlen b :: b ++ [172] in
  classify_output_script secp256k1 s c = Ok (OP2PK k c) /\ (to_script_bytes secp256k1 (OP2PK k c) = Ok s <-> ~ hybrid b).
Proof.
  intros HK s. pose proof HK as HX. apply C92_from_bytes in HX as (x & y & HP & HT & HC & H1 & H2). pose proof (text_length b x y HT) as HL.
  assert (HB : bytes_ok b = true).
  { destruct HT as [(bx & -> & Bx & _)|(bx & bw & HT & (Bx & _) & (Bw & _))]; [|destruct HT as [->| ->]]; rewrite bytes_ok_cons, ?bytes_ok_app, Bx, ?Bw; try reflexivity; rewrite parity_odd; destruct (Z.odd y); reflexivity. }
  assert (HR : reads_as b k).
  { unfold reads_as. split; [|split; assumption]. unfold pubkey_from_bytes in HK. destruct (pubkey_parse secp256k1 b) as [p|]; [|discriminate HK]. apply Ok_inj in HK. subst k. reflexivity. }
  assert (HZ : zlen b = 33 \/ zlen b = 65) by tauto. split.
  - apply C43_P2PK.
    + unfold s. rewrite bytes_ok_cons, bytes_ok_app, HB. destruct HZ as [-> | ->]; reflexivity.
    + split; [reflexivity|]. exists (std_P2PK b), b. split; [|split; [constructor|exact HR]]. exists [zlen b :: b; [172]]. split; [reflexivity|]. constructor; [apply enc_direct; lia|]. constructor; [constructor; lia|constructor].
  - assert (HS : pubkey_to_bytes secp256k1 k None = if zlen b =? 33 then (2 + parity y) :: bytes32 x else 4 :: bytes32 x ++ bytes32 y).
    { unfold pubkey_to_bytes. rewrite H1. apply coords_raw in HC. apply (serialize_text (zlen b =? 33) (pk_point k) x y HC). }
    assert (HPI : forall d, zlen d = 33 \/ zlen d = 65 -> push_item d = Ok (zlen d :: d)).
    { intros d HD. unfold push_item. destruct d as [|d0 [|d1 d]]; [destruct HD; discriminate|destruct HD; discriminate|]. destruct HD as [HD|HD]; rewrite HD; reflexivity. }
    assert (HW : zlen (pubkey_to_bytes secp256k1 k None) = zlen b).
    { destruct (bytes32_ok x) as [_ Lx], (bytes32_ok y) as [_ Ly]. rewrite HS. destruct HZ as [-> | ->]; cbn [Z.eqb Pos.eqb]; rewrite zlen_cons, ?zlen_app, Lx, ?Ly; reflexivity. }
    cbn [to_script_bytes]. rewrite HPI by (rewrite HW; exact HZ). rewrite HW. cbn [bind]. change (pack_byte OP_CHECKSIG) with (Ok [172]). cbn [bind]. unfold s. split.
    + intros HE (r & Hr). apply Ok_inj in HE. injection HE as HE. apply app_inv_tail in HE. apply (eq_trans (eq_sym HS)) in HE. destruct HL as [[HL HL2]|[HL HL2]]; rewrite HL in HE; cbn [Z.eqb Pos.eqb] in HE.
      * rewrite parity_odd in HE. destruct Hr as [-> | ->], (Z.odd y); discriminate HE.
      * destruct Hr as [-> | ->]; discriminate HE.
    + intros HN. f_equal. cbn [app]. f_equal. f_equal. rewrite HS. destruct HL as [[HL HL2]|[HL [HL2|HL2]]]; rewrite HL; cbn [Z.eqb Pos.eqb]; [now symmetry|now symmetry|].
      exfalso. apply HN. exists (bytes32 x ++ bytes32 y). rewrite HL2, parity_odd. destruct (Z.odd y); auto.
Qed.
Theorem C93_refuted : exists s o s', bytes_ok s = true /\ classify_output_script secp256k1 s Bitcoin = Ok o /\ o <> OUnknown /\ o <> OReturn /\ to_script_bytes secp256k1 o = Ok s' /\ s' <> s.
Proof.
  assert (HK : exists k, pubkey_from_bytes secp256k1 hybrid_G = Ok k).
  { destruct (pubkey_from_bytes secp256k1 hybrid_G) as [k|e] eqn:E; [now exists k|]. exfalso. apply C92_from_bytes_raises in E as [_ HN]. apply (HN GX GY); [apply C91_ex|]. right. exists (bytes32 GX), (bytes32 GY). split; [right; reflexivity|]. split; apply word_ok; vm_compute; split; (discriminate || reflexivity). }
  destruct HK as (k & HK). destruct (C93_exactly hybrid_G k Bitcoin HK) as [H1 H2]. destruct (C42_script_exists secp256k1 (OP2PK k Bitcoin) secp_laws I) as (s' & HS); [discriminate|].
  exists (zlen hybrid_G :: hybrid_G ++ [172]), (OP2PK k Bitcoin), s'. split; [reflexivity|]. split; [exact H1|]. split; [discriminate|]. split; [discriminate|]. split; [exact HS|]. intros ->. apply (proj1 H2 HS). eexists. left. reflexivity.
Qed.
Print Assumptions C93_exactly.
Print Assumptions C93_refuted.
Example C93_ex : hybrid hybrid_G /\ ~ hybrid (4 :: bytes32 GX ++ bytes32 GY).
Proof. split; [eexists; left; reflexivity|]. intros (r & [H|H]); discriminate H. Qed.
