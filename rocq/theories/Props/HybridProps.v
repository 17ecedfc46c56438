(** C93 for all kinds of output: which classified outputs give back the script they came from. *)
From Verif.Model Require Import Py Text Packing Misc Curve Secp256k1 Coin Base64 Script Keys Address Ecdsa.
From Verif.Spec Require Import Numbers ScriptSpec CurveSpec KeysSpec EcdsaSpec AddressSpec SecpSpec.
From Verif.Proofs Require Import PyFacts NumbersFacts ScriptTheorems CurveFacts KeysFacts SecpField SecpGroup SecpOrder SecpLaws.
From Verif.Props Require Import KeysProps KeyFormsProps AddressProps EcdsaProps SecpProps.

Lemma key_push b (k : pubkey secp256k1) : pubkey_from_bytes secp256k1 b = Ok k ->
  (zlen b = 33 \/ zlen b = 65) /\ bytes_ok b = true /\ reads_as b k /\
  exists d, push_item (pubkey_to_bytes secp256k1 k None) = Ok (zlen b :: d) /\ zlen d = zlen b /\ (d = b <-> ~ hybrid b).
Proof.
  intros HK. pose proof HK as HX. apply C92_from_bytes in HX as (x & y & HP & HT & HC & H1 & H2). pose proof (text_length b x y HT) as HL.
  assert (HZ : zlen b = 33 \/ zlen b = 65) by tauto. split; [exact HZ|]. split.
  { destruct HT as [(bx & -> & Bx & _)|(bx & bw & HT & (Bx & _) & (Bw & _))]; [|destruct HT as [->| ->]]; rewrite bytes_ok_cons, ?bytes_ok_app, Bx, ?Bw; try reflexivity; rewrite parity_odd; destruct (Z.odd y); reflexivity. }
  split.
  { unfold reads_as. split; [|split; assumption]. unfold pubkey_from_bytes in HK. destruct (pubkey_parse secp256k1 b) as [p|]; [|discriminate HK]. apply Ok_inj in HK. subst k. reflexivity. }
  assert (HS : pubkey_to_bytes secp256k1 k None = if zlen b =? 33 then (2 + parity y) :: bytes32 x else 4 :: bytes32 x ++ bytes32 y).
  { unfold pubkey_to_bytes. rewrite H1. apply coords_raw in HC. apply (serialize_text (zlen b =? 33) (pk_point k) x y HC). }
  assert (HPI : forall d, zlen d = 33 \/ zlen d = 65 -> push_item d = Ok (zlen d :: d)).
  { intros d HD. unfold push_item. destruct d as [|d0 [|d1 d]]; [destruct HD; discriminate|destruct HD; discriminate|]. destruct HD as [HD|HD]; rewrite HD; reflexivity. }
  assert (HW : zlen (pubkey_to_bytes secp256k1 k None) = zlen b).
  { destruct (bytes32_ok x) as [_ Lx], (bytes32_ok y) as [_ Ly]. rewrite HS. destruct HZ as [-> | ->]; cbn [Z.eqb Pos.eqb]; rewrite zlen_cons, ?zlen_app, Lx, ?Ly; reflexivity. }
  exists (pubkey_to_bytes secp256k1 k None). rewrite HPI by (rewrite HW; exact HZ). rewrite HW. split; [reflexivity|]. split; [reflexivity|]. split.
  - intros HE (r & Hr). apply (eq_trans (eq_sym HS)) in HE. destruct HL as [[HL HL2]|[HL HL2]]; rewrite HL in HE; cbn [Z.eqb Pos.eqb] in HE.
    + rewrite parity_odd in HE. destruct Hr as [-> | ->], (Z.odd y); discriminate HE.
    + destruct Hr as [-> | ->]; discriminate HE.
  - intros HN. rewrite HS. destruct HL as [[HL HL2]|[HL [HL2|HL2]]]; rewrite HL; cbn [Z.eqb Pos.eqb]; [now symmetry|now symmetry|].
    exfalso. apply HN. exists (bytes32 x ++ bytes32 y). rewrite HL2, parity_odd. destruct (Z.odd y); auto.
Qed.
Lemma push_small n : 1 <= n <= 16 -> push_int n = Ok [80 + n].
Proof.
  intros Hn. assert (HA : forallb (fun n => match push_int n with Ok [x] => x =? 80 + n | _ => false end) (zrange 1 17) = true) by (vm_compute; reflexivity).
  apply (ScriptFacts.zrange_all _ 1 17) with (x := n) in HA; [|lia]. cbv beta in HA. destruct (push_int n) as [[|x [|]]|]; try discriminate. apply Z.eqb_eq in HA. now subst x.
Qed.
Lemma number_small n : 1 <= n <= 16 -> number [n] n.
Proof. intros Hn. right. exists [], n. split; [reflexivity|]. left. split; [lia|]. change (256 ^ zlen (@nil Z)) with 1. change (val_le []) with 0. lia. Qed.
Lemma pushes bs (ks : list (pubkey secp256k1)) : Forall2 (fun b k => pubkey_from_bytes secp256k1 b = Ok k) bs ks ->
  zlen ks = zlen bs /\ bytes_ok (concat (map (fun b => zlen b :: b) bs)) = true /\ Forall2 reads_as bs ks /\ Forall2 encodes (map (fun b => zlen b :: b) bs) (map Data bs) /\
  exists ps, mapM (fun k => push_item (pubkey_to_bytes secp256k1 k None)) ks = Ok ps /\ zlen (concat ps) = zlen (concat (map (fun b => zlen b :: b) bs)) /\
    (concat ps = concat (map (fun b => zlen b :: b) bs) <-> Forall (fun b => ~ hybrid b) bs).
Proof.
  induction 1 as [|b k bs ks HK HF (HL & HB & HR & HE & ps & HM & HZ & HI)].
  - repeat split; try constructor. exists []. repeat split; constructor.
  - destruct (key_push b k HK) as (Hb & Bb & Rb & d & HP & Hd & HD). split; [rewrite !zlen_cons; lia|]. split.
    { cbn [map concat app]. rewrite bytes_ok_cons, bytes_ok_app, Bb, HB. destruct Hb as [-> | ->]; reflexivity. }
    split; [constructor; assumption|]. split; [cbn [map]; constructor; [apply enc_direct; lia|exact HE]|].
    exists ((zlen b :: d) :: ps). cbn [mapM]. rewrite HP. cbn [bind]. rewrite HM. split; [reflexivity|]. cbn [map concat app]. split; [rewrite !zlen_cons, !zlen_app; lia|]. split.
    + intros HX. injection HX as HX. assert (length d = length b) as HLn by (unfold zlen in Hd; lia). pose proof (f_equal (firstn (length d)) HX) as H1. pose proof (f_equal (skipn (length d)) HX) as H2.
      rewrite firstn_app, firstn_all, Nat.sub_diag, firstn_O, app_nil_r in H1. rewrite HLn, firstn_app, firstn_all, Nat.sub_diag, firstn_O, app_nil_r in H1. subst d.
      rewrite !skipn_app, !skipn_all, !Nat.sub_diag in H2. cbn in H2. constructor; [now apply HD|now apply HI].
    + intros HA. inversion HA; subst. f_equal. f_equal; [now apply HD|now apply HI].
Qed.

(** A script of m keys, of which t must sign, gives itself back exactly if none of the keys is in the hybrid form. *)
Theorem C93_multisig bs (ks : list (pubkey secp256k1)) t c : Forall2 (fun b k => pubkey_from_bytes secp256k1 b = Ok k) bs ks -> 1 <= t <= zlen bs -> zlen bs <= 16 ->
  let s := [80 + t] ++ concat (map (fun b => zlen b :: b) bs) ++ [80 + zlen bs; 174] in
  classify_output_script secp256k1 s c = Ok (OMultiSig ks t) /\
  (to_script_bytes secp256k1 (OMultiSig ks t) = Ok s <-> forall b, In b bs -> ~ hybrid b).
Proof.
  intros HF Ht Hn s. destruct (pushes bs ks HF) as (HL & HB & HR & HE & ps & HM & HZ & HI). split.
  - apply C43_multisig.
    + unfold s. rewrite !bytes_ok_app, HB. cbn [bytes_ok forallb]. rewrite !(proj2 (byte_ok_iff _)) by lia. reflexivity.
    + exists (std_multisig [t] bs [zlen bs]), [t], bs, [zlen bs]. split; [|split; [constructor|split; [apply number_small; lia|split; [apply number_small; lia|split; [exact HR|lia] ] ] ] ].
      exists ([80 + t] :: map (fun b => zlen b :: b) bs ++ [ [80 + zlen bs]; [174] ]). split; [unfold s; cbn [concat app]; rewrite concat_app; cbn [concat app]; reflexivity|].
      unfold std_multisig. cbn [app]. constructor; [apply enc_small; lia|]. apply Forall2_app; [exact HE|]. constructor; [apply enc_small; lia|]. constructor; [constructor; lia|constructor].
  - cbn [to_script_bytes]. rewrite push_small by lia. cbn [bind]. rewrite HM. cbn [bind]. rewrite HL, push_small by lia. cbn [bind]. change (pack_byte OP_CHECKMULTISIG) with (Ok [174]). cbn [bind].
    rewrite Forall_forall in HI. rewrite <- HI. unfold s. cbn [app]. split.
    + intros HX. apply Ok_inj in HX. injection HX as HX. now apply app_inv_tail in HX.
    + intros ->. reflexivity.
Qed.
Print Assumptions C93_multisig.
(** Addresses always do. *)
Theorem C93_addresses h c : bytes_ok h = true -> zlen h = 20 ->
  (let s := [118; 169; 20] ++ h ++ [136; 172] in classify_output_script secp256k1 s c = Ok (OAddress (P2PKH h c)) /\ to_script_bytes secp256k1 (OAddress (P2PKH h c)) = Ok s) /\
  (let s := [169; 20] ++ h ++ [135] in classify_output_script secp256k1 s c = Ok (OAddress (P2SH h c)) /\ to_script_bytes secp256k1 (OAddress (P2SH h c)) = Ok s).
Proof.
  intros HB HL. assert (HP : push_item h = Ok (20 :: h)) by (unfold push_item; destruct h as [|d0 [|d1 d]]; [discriminate HL|discriminate HL|]; rewrite HL; reflexivity).
  split; cbv zeta; split.
  - apply C43_P2PKH; [rewrite !bytes_ok_app, HB; reflexivity|]. split; [reflexivity|]. split; [exact HL|]. exists (std_P2PKH h). split; [|constructor]. exists [ [118]; [169]; 20 :: h; [136]; [172] ]. split; [reflexivity|].
    repeat (constructor; [first [apply enc_direct; lia|constructor; lia]|]). constructor.
  - cbn [to_script_bytes address_script]. rewrite HP. reflexivity.
  - apply C43_P2SH; [rewrite !bytes_ok_app, HB; reflexivity|]. split; [reflexivity|]. split; [exact HL|]. exists (std_P2SH h). split; [|constructor]. exists [ [169]; 20 :: h; [135] ]. split; [reflexivity|].
    repeat (constructor; [first [apply enc_direct; lia|constructor; lia]|]). constructor.
  - cbn [to_script_bytes address_script]. rewrite HP. reflexivity.
Qed.
Print Assumptions C93_addresses.
(** 1 of the generator and the generator in the hybrid form: the two keys are the same, and the script given back has the one text twice. *)
Example C93_multisig_ex : exists k j, Forall2 (fun b k => pubkey_from_bytes secp256k1 b = Ok k) [hybrid_G; 4 :: bytes32 GX ++ bytes32 GY] [k; j] /\ hybrid hybrid_G.
Proof.
  assert (HK : forall b, b = hybrid_G \/ b = 4 :: bytes32 GX ++ bytes32 GY -> exists k, pubkey_from_bytes secp256k1 b = Ok k).
  { intros b Hb. destruct (pubkey_from_bytes secp256k1 b) as [k|e] eqn:E; [now exists k|]. exfalso. apply C92_from_bytes_raises in E as [_ HN]. apply (HN GX GY); [apply C91_ex|]. right. exists (bytes32 GX), (bytes32 GY).
    split; [destruct Hb as [-> | ->]; [right|left]; reflexivity|]. split; apply word_ok; vm_compute; split; congruence. }
  destruct (HK hybrid_G (or_introl eq_refl)) as (k & Hk). destruct (HK _ (or_intror eq_refl)) as (j & Hj). exists k, j. split; [repeat constructor; assumption|]. eexists. left. reflexivity.
Qed.
