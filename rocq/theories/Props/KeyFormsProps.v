(** Forms of keys: C81 (private) and C82 (public). *)
From Verif.Model Require Import Py Text Packing Misc Curve Coin Base58 Keys.
From Verif.Spec Require Import Numbers CurveSpec KeysSpec Base58Spec MiscSpec.
From Verif.Proofs Require Import PyFacts NumbersFacts MiscFacts DerFacts CurveFacts ToyCoords KeysFacts WifFacts Base58Facts EciesFacts HexFacts.
From Verif.Props Require Import Base58Props MiscProps KeysProps.

(** C81.  from_int takes exactly the numbers from 1 to the order less one. *)
Theorem C81_from_int v :
  match privkey_from_int v with
  | Ok k => 0 < v < CURVE_ORDER /\ valid_privkey k /\ val_be (sk_secret k) = v /\ sk_compressed k = true /\ sk_coin k = Bitcoin /\ privkey_to_int k = v
  | Err e => ~ 0 < v < CURVE_ORDER /\ e = if (0 <=? v) && (v <? 2 ^ 256) then ValueError else OverflowError
  end.
Proof.
  unfold privkey_from_int. destruct (C64_sized v 32 ltac:(lia)) as [H1 H2]. change (256 ^ 32) with (2 ^ 256) in *. pose proof order_lt as HO.
  destruct (Z.leb_spec 0 v) as [Hv|Hv]; [destruct (Z.ltb_spec v (2 ^ 256)) as [Hw|Hw]|].
  - destruct (H1 ltac:(lia)) as (b & _ & HE & HB & HL & _ & HV). rewrite HE. cbn [bind]. destruct (make_privkey (rev b) true None) as [k|e] eqn:E.
    + apply make_privkey_Ok in E as (HVk & HS & HC & HCo); [|now rewrite bytes_ok_rev]. pose proof HVk as (_ & _ & HR). rewrite HS in HR. rewrite HV in HR.
      split; [exact HR|]. split; [exact HVk|]. rewrite HS. split; [exact HV|]. split; [exact HC|]. split; [exact HCo|]. unfold privkey_to_int, be_bytes_to_int. rewrite HS, <- val_be_int. exact HV.
    + split; [|now apply make_privkey_Err in E]. intros HR. rewrite (make_privkey_valid (rev b) true None) in E; [discriminate E|]. split; [now rewrite bytes_ok_rev|]. split; [now rewrite zlen_rev|]. now rewrite HV.
  - destruct (H2 ltac:(lia)) as [_ ->]. cbn [bind andb]. split; [lia|reflexivity].
  - destruct (H2 ltac:(lia)) as [_ ->]. cbn [bind andb]. split; [lia|reflexivity].
Qed.
Theorem C81_to_int k : valid_privkey k -> 0 < privkey_to_int k < CURVE_ORDER /\ privkey_from_int (privkey_to_int k) = Ok (mk_privkey (sk_secret k) true Bitcoin).
Proof.
  intros HV. pose proof HV as (HB & HL & HR). assert (HI : privkey_to_int k = val_be (sk_secret k)) by (rewrite val_be_int; reflexivity). rewrite HI. split; [exact HR|].
  pose proof (C81_from_int (val_be (sk_secret k))) as HF. destruct (privkey_from_int (val_be (sk_secret k))) as [k'|e]; [|destruct HF; contradiction].
  destruct HF as (_ & (HB' & HL' & _) & HE & HC & HCo & _). rewrite !val_be_int in HE. f_equal. destruct k' as [s c co]. cbn [sk_secret sk_compressed sk_coin] in *. subst c co. f_equal. rewrite <- (bytes32_be s), <- (bytes32_be (sk_secret k)) by assumption. now rewrite HE.
Qed.
(** from_arbitrary_bytes takes any bytes that are no multiple of the order, and reduces them. *)
Theorem C81_arbitrary_bytes b : bytes_ok b = true ->
  match privkey_from_arbitrary_bytes b with
  | Ok k => valid_privkey k /\ sk_compressed k = true /\ (val_be b - val_be (sk_secret k)) mod CURVE_ORDER = 0
  | Err e => e = ValueError /\ val_be b mod CURVE_ORDER = 0
  end.
Proof.
  intros HB. unfold privkey_from_arbitrary_bytes, be_bytes_to_int. rewrite <- val_be_int. pose proof order_pos. pose proof (Z.mod_pos_bound (val_be b) CURVE_ORDER ltac:(lia)). pose proof order_lt.
  pose proof (C81_from_int (val_be b mod CURVE_ORDER)) as HF. destruct (privkey_from_int _) as [k|e].
  - destruct HF as (_ & HV & HE & HC & _). split; [exact HV|]. split; [exact HC|]. rewrite HE, Zminus_mod_idemp_r, Z.sub_diag. reflexivity.
  - destruct HF as [HN HE]. assert (HZ : val_be b mod CURVE_ORDER = 0) by lia. rewrite HZ in HE. split; [exact HE|exact HZ].
Qed.
(** from_random returns the first draw that is a key; == compares the numbers. *)
Theorem C81_random source k : Forall (fun b => bytes_ok b = true) source -> privkey_from_random source = Ok k ->
  sk_compressed k = true /\ sk_coin k = Bitcoin /\ exists bad rest, source = bad ++ sk_secret k :: rest /\ valid_secret (sk_secret k) /\ Forall (fun b => ~ valid_secret b) bad.
Proof.
  induction 1 as [|b r HB _ IH]; [discriminate|]. cbn [privkey_from_random]. destruct (make_privkey b true None) as [k'|e] eqn:E.
  - intros E'. apply Ok_inj in E'. subst k'. apply make_privkey_Ok in E as (HV & HS & HC & HCo); [|exact HB]. split; [exact HC|]. split; [exact HCo|]. exists [], r. rewrite HS. split; [reflexivity|]. split; [rewrite <- HS; exact HV|constructor].
  - intros HE. assert (is_ValueError e = true) as HX by (apply make_privkey_Err in E as ->; reflexivity). rewrite HX in HE. destruct (IH HE) as (HC & HCo & bad & rest & -> & HV & HF). split; [exact HC|]. split; [exact HCo|]. exists (b :: bad), rest. split; [reflexivity|]. split; [exact HV|].
    constructor; [|exact HF]. intros HVb. rewrite (make_privkey_valid b true None HVb) in E. discriminate E.
Qed.
Theorem C81_equal k k' : valid_privkey k -> valid_privkey k' -> privkey_eqb k k' = true <-> val_be (sk_secret k) = val_be (sk_secret k').
Proof.
  intros (HB & HL & _) (HB' & HL' & _). unfold privkey_eqb. rewrite !val_be_int. destruct (bytes_eqb_spec (sk_secret k) (sk_secret k')) as [->|HN]; [tauto|]. split; [discriminate|]. intros HE. exfalso. apply HN.
  rewrite <- (bytes32_be (sk_secret k)), <- (bytes32_be (sk_secret k')) by assumption. now rewrite HE.
Qed.
Theorem C81_hex s : match privkey_from_hex s with
  | Ok k => from_hex s = Ok (sk_secret k) /\ valid_privkey k /\ sk_compressed k = true /\ sk_coin k = Bitcoin
  | Err e => e = ValueError /\ forall b, from_hex s = Ok b -> ~ valid_secret b end.
Proof.
  unfold privkey_from_hex. destruct (from_hex s) as [b|e] eqn:E; cbn [bind]; [|apply from_hex_err in E; split; [exact E|discriminate]].
  destruct (make_privkey b true None) as [k|e] eqn:EM.
  - apply make_privkey_Ok in EM as (HV & <- & HC & HCo); [|now apply from_hex_ok in E]. repeat (split; [first [reflexivity|assumption]|]). exact HCo.
  - split; [now apply make_privkey_Err in EM|]. intros b' HE HV. apply Ok_inj in HE. subst b'. rewrite (make_privkey_valid _ _ _ HV) in EM. discriminate EM.
Qed.

(** A minikey: 22 or 30 base58 characters, the first 'S', such that the hash of it with '?' begins with a zero byte. *)
Definition minikey (S : bytes -> bytes) (t : pystr) : Prop :=
  (zlen t = 22 \/ zlen t = 30) /\ (exists r, t = 83 :: r) /\ Forall (fun c => In c alphabet) t /\ exists r, S (t ++ [63]) = 0 :: r.
Theorem C81_minikey (S : bytes -> bytes) t : (forall x, zlen (S x) = 32) -> is_minikey S t = Ok true <-> minikey S t.
Proof.
  intros HS. unfold is_minikey, minikey. destruct (Z.eqb_spec (zlen t) 22) as [E|E]; [|destruct (Z.eqb_spec (zlen t) 30) as [E'|E']]; cbn [orb].
  3: { split; [discriminate|]. intros ([?|?] & _); contradiction. }
  all: destruct t as [|c r]; [cbn in *; discriminate|]; change (pyindex (c :: r) 0) with (Ok c); cbn [bind]; destruct (Z.eqb_spec c 83) as [->|HN]; [|split; [discriminate|intros (_ & (r' & HE) & _); congruence]];
    assert (HA : forallb (fun c => match cvalue c with Some _ => true | None => false end) (83 :: r) = true <-> Forall (fun c => In c alphabet) (83 :: r))
      by (rewrite forallb_forall, Forall_forall; split; intros HX x HI; specialize (HX x HI); destruct (cvalue x) eqn:EC; try discriminate; try reflexivity; [destruct (in_dec Z.eq_dec x alphabet) as [?|HN]; [assumption|apply cvalue_None in HN; congruence]|exfalso; revert HX; now apply cvalue_None]);
    destruct (forallb _ (83 :: r)); [|split; [discriminate|intros (_ & _ & HF & _); apply HA in HF; discriminate]];
    specialize (HS ((83 :: r) ++ [63])); destruct (S ((83 :: r) ++ [63])) as [|h w] eqn:EH; [cbn in HS; discriminate|]; change (pyindex (h :: w) 0) with (Ok h); cbn [bind];
    split; [intros HH; apply Ok_inj in HH; apply Z.eqb_eq in HH; subst h; split; [auto|split; [eauto|split; [now apply HA|eauto]]]|intros (_ & _ & _ & (r' & HE)); injection HE as -> _; reflexivity].
Qed.
Theorem C81_from_minikey (S : bytes -> bytes) t : (forall x, zlen (S x) = 32) ->
  match privkey_from_minikey S t with Ok k => minikey S t /\ sk_secret k = S t /\ sk_compressed k = false /\ sk_coin k = Bitcoin | Err e => e = ValueError /\ (minikey S t -> ~ valid_secret (S t)) end.
Proof.
  intros HS. unfold privkey_from_minikey. pose proof (C81_minikey S t HS) as HM. destruct (is_minikey S t) as [[]|e] eqn:E; cbn [bind negb].
  - destruct (make_privkey (S t) false None) as [k|e] eqn:EM.
    + split; [now apply HM|]. unfold make_privkey in EM. destruct (negb _); [discriminate EM|]. destruct (negb _); [discriminate EM|]. apply Ok_inj in EM. subst k. repeat split.
    + split; [now apply make_privkey_Err in EM|]. intros _ HV. rewrite (make_privkey_valid _ _ _ HV) in EM. discriminate EM.
  - split; [reflexivity|]. intros HX. apply HM in HX. discriminate HX.
  - exfalso. revert E. unfold is_minikey. destruct (_ || _) eqn:EL; [|discriminate]. destruct t as [|c r]; [discriminate EL|]. change (pyindex (c :: r) 0) with (Ok c). cbn [bind]. destruct (c =? 83); [|discriminate]. destruct (forallb _ _); [|discriminate].
    specialize (HS ((c :: r) ++ [63])). destruct (S ((c :: r) ++ [63])) as [|h w]; [cbn in HS; discriminate|]. discriminate.
Qed.
Print Assumptions C81_from_int.
Print Assumptions C81_to_int.
Print Assumptions C81_arbitrary_bytes.
Print Assumptions C81_random.
Print Assumptions C81_equal.
Print Assumptions C81_hex.
Print Assumptions C81_minikey.
Print Assumptions C81_from_minikey.
Example C81_ex : privkey_from_int CURVE_ORDER = Err ValueError /\ privkey_from_int (-1) = Err OverflowError /\ privkey_from_int 0 = Err ValueError /\
  (k <- privkey_from_int 77 ;; Ok (privkey_to_int k)) = Ok 77 /\
  (k <- privkey_from_arbitrary_bytes (zrepeat 255 40) ;; Ok (privkey_to_int k)) = Ok ((2 ^ 320 - 1) mod CURVE_ORDER) /\
  privkey_from_arbitrary_bytes (bytes32 CURVE_ORDER) = Err ValueError /\
  (k <- privkey_from_random [zrepeat 0 32; zrepeat 255 32; zrepeat 1 32; zrepeat 2 32] ;; Ok (sk_secret k)) = Ok (zrepeat 1 32) /\
  privkey_eqb (sample_key 5 true) (sample_key 5 false) = true /\ privkey_eqb (sample_key 5 true) (sample_key 6 true) = false /\
  minikey (fun _ => zrepeat 0 32) (txt "S6c56bnXQiBjk9mqSYE7yk").
Proof.
  do 9 (split; [vm_compute; reflexivity|]). split; [left; reflexivity|]. split; [eexists; reflexivity|]. split; [|eexists; reflexivity].
  apply Forall_forall. intros c Hc. revert c Hc. apply Forall_forall. repeat (constructor; [vm_compute; tauto|]). constructor.
Qed.

(** C82.  Both serializations read back, as a key with the flag of the form, and the hexadecimal ones do. *)
Theorem C82_roundtrip (C : curve) (k : pubkey C) oc : curve_laws C -> let c := match oc with Some c => c | None => pk_compressed k end in
  pubkey_from_bytes C (pubkey_to_bytes C k oc) = Ok (mk_pubkey (pk_point k) c Bitcoin) /\
  pubkey_from_hex C (pubkey_to_hex C k oc) = Ok (mk_pubkey (pk_point k) c Bitcoin) /\
  zlen (pubkey_to_bytes C k oc) = if c then 33 else 65.
Proof.
  intros L c. assert (HF : pubkey_from_bytes C (pubkey_to_bytes C k oc) = Ok (mk_pubkey (pk_point k) c Bitcoin)).
  { unfold pubkey_from_bytes, pubkey_to_bytes. fold c. rewrite (law_parse C L), (law_length C L). destruct c; reflexivity. }
  split; [exact HF|]. split; [|apply (law_length C L)]. unfold pubkey_from_hex, pubkey_to_hex. rewrite from_hex_to_hex by apply (law_bytes C L). exact HF.
Qed.
(** What is read serializes in its own form, the same bytes if it is the short one. *)
Theorem C82_from_bytes (C : curve) b : curve_laws C ->
  match pubkey_from_bytes C b with
  | Ok k => pubkey_parse C b = Some (pk_point k) /\ (zlen b = 33 \/ zlen b = 65) /\ pk_compressed k = (zlen b =? 33) /\ pk_coin k = Bitcoin /\
            zlen (pubkey_to_bytes C k None) = zlen b /\ (zlen b = 33 -> pubkey_to_bytes C k None = b)
  | Err e => e = ValueError /\ pubkey_parse C b = None
  end.
Proof.
  intros L. unfold pubkey_from_bytes, pubkey_to_bytes. destruct (pubkey_parse C b) as [p|] eqn:E; [|split; reflexivity]. cbn [pk_point pk_compressed pk_coin].
  pose proof (law_parse_length C L b p E) as HL. split; [reflexivity|]. split; [exact HL|]. split; [reflexivity|]. split; [reflexivity|]. rewrite (law_length C L). destruct HL as [HL|HL]; rewrite HL; cbn [Z.eqb Pos.eqb]; split; try reflexivity; try lia.
  intros _. symmetry. now apply (law_compressed C L).
Qed.
(** == is equality of the points, however they serialize; the complement is equal and serializes in the other form. *)
Theorem C82_equal (C : curve) (a b : pubkey C) : curve_laws C -> pubkey_eqb C a b = true <-> pk_point a = pk_point b.
Proof. intros L. apply (pubkey_eqb_point C L). Qed.
Theorem C82_complement (C : curve) (k : pubkey C) : curve_laws C ->
  pubkey_eqb C (pubkey_complement C k) k = true /\ pubkey_to_bytes C (pubkey_complement C k) None = pubkey_to_bytes C k (Some (negb (pk_compressed k))) /\
  zlen (pubkey_to_bytes C (pubkey_complement C k) None) + zlen (pubkey_to_bytes C k None) = 98 /\ pubkey_complement C (pubkey_complement C k) = k /\ pk_coin (pubkey_complement C k) = pk_coin k.
Proof.
  intros L. split; [now apply (C82_equal C _ _ L)|]. split; [reflexivity|]. split; [unfold pubkey_to_bytes; rewrite !(law_length C L); cbn; now destruct (pk_compressed k)|]. split; [|reflexivity]. destruct k as [p c co]. unfold pubkey_complement. cbn. now rewrite negb_involutive.
Qed.
Lemma be_32 v : 0 <= v < 2 ^ 256 -> int_to_be_bytes v (Some 32) = Ok (bytes32 v).
Proof.
  intros Hv. destruct (proj1 (C64_sized v 32 ltac:(lia)) Hv) as (b & _ & HE & HB & HL & _ & HV). rewrite HE. f_equal. rewrite <- HV, val_be_int. symmetry. apply bytes32_be; [now rewrite bytes_ok_rev|now rewrite zlen_rev].
Qed.
(** The coordinates of a key give it back, and from_point takes exactly the coordinates of points. *)
Theorem C82_to_point (C : curve) (k : pubkey C) : curve_laws C -> uncompressed_laws C ->
  let (x, y) := pubkey_to_point C k in 0 <= x < 2 ^ 256 /\ 0 <= y < 2 ^ 256 /\ pubkey_from_point C x y = Ok (mk_pubkey (pk_point k) false Bitcoin).
Proof.
  intros L U. unfold pubkey_to_point, pubkey_to_bytes. destruct (law_first C U (pk_point k)) as (r & HE). pose proof (law_length C L false (pk_point k)) as HL. pose proof (law_bytes C L false (pk_point k)) as HB. pose proof (law_parse C L false (pk_point k)) as HP. rewrite HE in *.
  rewrite zlen_cons in HL. rewrite bytes_ok_cons in HB. apply andb_true_iff in HB as [_ HB]. destruct (bytes_len_split r 32 ltac:(lia)) as (x & y & -> & Hx). rewrite zlen_app in HL. rewrite bytes_ok_app in HB. apply andb_true_iff in HB as [Bx By].
  assert (HX : pyslice (4 :: x ++ y) 1 33 = x). { rewrite pyslice_nonneg by lia. change (zdrop 1 (4 :: x ++ y)) with (zdrop 0 (x ++ y)). rewrite zdrop_0 by lia. apply ztake_app_exact. lia. }
  assert (HY : slice_from (4 :: x ++ y) 33 = y). { rewrite slice_from_nonneg by lia. change (4 :: x ++ y) with ([4] ++ x ++ y). rewrite app_assoc. apply zdrop_app_exact. rewrite zlen_app. change (zlen [4]) with 1. lia. }
  rewrite HX, HY. unfold be_bytes_to_int.
  assert (Rx : 0 <= be_int x < 2 ^ 256) by (pose proof (be_int_bound x Bx) as HH; rewrite Hx in HH; exact HH). assert (Ry : 0 <= be_int y < 2 ^ 256) by (pose proof (be_int_bound y By) as HH; replace (zlen y) with 32 in HH by lia; exact HH).
  split; [exact Rx|]. split; [exact Ry|]. unfold pubkey_from_point. rewrite !be_32 by assumption. cbn [bind]. rewrite !bytes32_be by (assumption || lia). change ([4] ++ x ++ y) with (4 :: x ++ y). unfold pubkey_from_bytes. rewrite HP. rewrite zlen_cons, zlen_app. replace (1 + (zlen x + zlen y) =? 33) with false by lia. reflexivity.
Qed.
Theorem C82_from_point (C : curve) x y : curve_laws C -> uncompressed_laws C ->
  match pubkey_from_point C x y with
  | Ok k => pubkey_to_point C k = (x, y) /\ pk_compressed k = false
  | Err e => (forall k, pubkey_to_point C k <> (x, y)) /\ e = if (0 <=? x) && (x <? 2 ^ 256) && (0 <=? y) && (y <? 2 ^ 256) then ValueError else OverflowError
  end.
Proof.
  intros L U. assert (HK : forall k, pubkey_to_point C k = (x, y) -> 0 <= x < 2 ^ 256 /\ 0 <= y < 2 ^ 256 /\ pubkey_from_point C x y = Ok (mk_pubkey (pk_point k) false Bitcoin)).
  { intros k HE. pose proof (C82_to_point C k L U) as HT. rewrite HE in HT. exact HT. }
  destruct (pubkey_from_point C x y) as [k|e] eqn:E.
  - unfold pubkey_from_point in E. apply bind_Ok in E as (xb & Ex & E). apply bind_Ok in E as (yb & Ey & E).
    assert (HR : forall v b, int_to_be_bytes v (Some 32) = Ok b -> 0 <= v < 2 ^ 256).
    { intros v b HE. destruct (C64_sized v 32 ltac:(lia)) as [_ H2]. change (256 ^ 32) with (2 ^ 256) in H2. destruct (Z_le_dec 0 v), (Z_lt_dec v (2 ^ 256)); try lia; rewrite (proj2 (H2 ltac:(lia))) in HE; discriminate HE. }
    pose proof (HR x xb Ex) as Rx. pose proof (HR y yb Ey) as Ry. rewrite be_32 in Ex, Ey by assumption. apply Ok_inj in Ex, Ey. subst xb yb. unfold pubkey_from_bytes in E. change ([4] ++ bytes32 x ++ bytes32 y) with (4 :: bytes32 x ++ bytes32 y) in E.
    destruct (pubkey_parse C (4 :: bytes32 x ++ bytes32 y)) as [p|] eqn:EP; [|discriminate E]. apply Ok_inj in E. subst k. destruct (bytes32_ok x) as [_ Lx], (bytes32_ok y) as [_ Ly]. split; [|cbn [pk_compressed]; rewrite zlen_cons, zlen_app, Lx, Ly; reflexivity].
    unfold pubkey_to_point, pubkey_to_bytes. cbn [pk_point]. rewrite (law_uncompressed C U _ _ EP). unfold be_bytes_to_int. f_equal.
    + rewrite pyslice_nonneg by lia. change (zdrop 1 (4 :: bytes32 x ++ bytes32 y)) with (zdrop 0 (bytes32 x ++ bytes32 y)). rewrite zdrop_0, ztake_app_exact by lia. now apply be_bytes32.
    + rewrite slice_from_nonneg by lia. change (4 :: bytes32 x ++ bytes32 y) with ([4] ++ bytes32 x ++ bytes32 y). rewrite app_assoc, zdrop_app_exact by (rewrite zlen_app, Lx; reflexivity). now apply be_bytes32.
  - split; [intros k HE; destruct (HK k HE) as (_ & _ & HX); discriminate HX|]. unfold pubkey_from_point in E. pose proof (C64_sized x 32 ltac:(lia)) as [_ Hx]. pose proof (C64_sized y 32 ltac:(lia)) as [_ Hy]. change (256 ^ 32) with (2 ^ 256) in *.
    destruct (Z.leb_spec 0 x) as [X1|X1]; [destruct (Z.ltb_spec x (2 ^ 256)) as [X2|X2]|]; cbn [andb].
    2,3: rewrite (proj2 (Hx ltac:(lia))) in E; cbn [bind] in E; congruence.
    rewrite (be_32 x ltac:(lia)) in E. cbn [bind] in E. destruct (Z.leb_spec 0 y) as [Y1|Y1]; [destruct (Z.ltb_spec y (2 ^ 256)) as [Y2|Y2]|]; cbn [andb].
    2,3: rewrite (proj2 (Hy ltac:(lia))) in E; cbn [bind] in E; congruence.
    rewrite (be_32 y ltac:(lia)) in E. cbn [bind] in E. unfold pubkey_from_bytes in E. destruct (pubkey_parse C _); congruence.
Qed.
Print Assumptions C82_roundtrip.
Print Assumptions C82_from_bytes.
Print Assumptions C82_equal.
Print Assumptions C82_complement.
Print Assumptions C82_to_point.
Print Assumptions C82_from_point.
Example C82_ex : curve_laws toy /\ uncompressed_laws toy /\ pubkey_to_point toy (toy_pub 7) = (7, 0) /\
  (k <- pubkey_from_point toy 7 0 ;; Ok (pubkey_eqb toy k (toy_pub 7))) = Ok true /\ (k <- pubkey_from_point toy 7 1 ;; Ok (pk_compressed k)) = Err ValueError /\ (k <- pubkey_from_point toy (2 ^ 256) 1 ;; Ok (pk_compressed k)) = Err OverflowError /\
  (k <- pubkey_from_hex toy (pubkey_to_hex toy (toy_pub 7) (Some false)) ;; Ok (pk_compressed k)) = Ok false.
Proof. split; [exact toy_laws|]. split; [exact toy_uncompressed|]. do 4 (split; [vm_compute; reflexivity|]). vm_compute. reflexivity. Qed.
