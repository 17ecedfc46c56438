(** What the DER parser accepts. *)
From Verif.Model Require Import Py Text Packing Misc Curve Signature Der.
From Verif.Spec Require Import Numbers EcdsaSpec.
From Verif.Proofs Require Import PyFacts NumbersFacts CurveFacts KeysFacts DerFacts.

Lemma zlen_pos {A} (x : A) l : 0 < zlen (x :: l).
Proof. rewrite zlen_cons. pose proof (zlen_nonneg l). lia. Qed.

(** Lengths *)
Lemma read_len_iff sig n rest : bytes_ok sig = true -> der_read_len sig = Some (n, rest) <->
  exists l, der_length n l /\ sig = l ++ rest /\ (128 <= n -> n <= zlen rest).
Proof.
  intros HB. split.
  - unfold der_read_len. destruct sig as [|b1 r]; [discriminate|]. rewrite bytes_ok_cons in HB. apply andb_true_iff in HB as [H1 HB]. pose proof H1 as H1'. apply byte_ok_iff in H1'.
    destruct (Z.eqb_spec b1 255); [discriminate|]. destruct (Z.ltb_spec b1 128).
    + intros HE. injection HE as <- <-. exists [b1]. split; [|split; [reflexivity|lia]]. split; [cbn; now rewrite H1|]. left. split; [lia|reflexivity].
    + destruct (Z.eqb_spec b1 128); [discriminate|]. cbv zeta. destruct (Z.ltb_spec (zlen r) (b1 - 128)); [discriminate|]. destruct r as [|x r]; [discriminate|].
      destruct (Z.eqb_spec x 0); [discriminate|]. destruct (Z.ltb_spec 8 (b1 - 128)); [discriminate|]. cbn [orb].
      pose proof (ztake_zdrop (b1 - 128) (x :: r)) as HS. pose proof (zlen_ztake (b1 - 128) (x :: r)) as HZ. assert (HT : exists w, ztake (b1 - 128) (x :: r) = x :: w). { cbn [ztake]. destruct (Z.leb_spec (b1 - 128) 0); [lia|]. eexists; reflexivity. }
      destruct HT as [w HT]. rewrite HT in *. set (rest' := zdrop (b1 - 128) (x :: r)) in *. destruct (Z.ltb_spec (zlen rest') (be_int (x :: w))); [discriminate|]. destruct (Z.ltb_spec (be_int (x :: w)) 128); [discriminate|]. cbn [orb]. intros HE.
      apply (f_equal (fun o => match o with Some p => p | None => (0, []) end)) in HE. cbv beta iota in HE. assert (HE1 : be_int (x :: w) = n) by congruence. assert (HE2 : rest' = rest) by congruence.
      exists (b1 :: x :: w). rewrite <- HE2, <- HE1. split; [|split; [cbn [app]; f_equal; symmetry; exact HS|intros _; assumption]]. split.
      * rewrite bytes_ok_cons, H1. cbn [andb]. rewrite <- HT. now apply bytes_ok_ztake.
      * right. exists x, w. rewrite val_be_int. repeat split; try lia. f_equal. lia.
  - intros (l & (HBl & [(Hn & ->)|(x & w & -> & Hx & Hw & Hv & Hn)]) & -> & HN).
    + cbn [app]. apply read_short. rewrite bytes_ok_cons in HBl. apply andb_true_iff in HBl as [HBl _]. apply byte_ok_iff in HBl. lia.
    + cbn [app]. unfold der_read_len. pose proof (zlen_pos x w). rewrite val_be_int in Hv. set (k := zlen (x :: w)) in *.
      destruct (Z.eqb_spec (128 + k) 255); [lia|]. destruct (Z.ltb_spec (128 + k) 128); [lia|]. destruct (Z.eqb_spec (128 + k) 128); [lia|]. cbv zeta. replace (128 + k - 128) with k by lia.
      change (x :: w ++ rest) with ((x :: w) ++ rest). rewrite zlen_app. fold k. pose proof (zlen_nonneg rest). destruct (Z.ltb_spec (k + zlen rest) k); [lia|]. cbn [app]. destruct (Z.eqb_spec x 0); [contradiction|]. destruct (Z.ltb_spec 8 k); [lia|]. cbn [orb].
      change (x :: w ++ rest) with ((x :: w) ++ rest). rewrite ztake_app_exact, zdrop_app_exact, Hv by reflexivity. specialize (HN Hn). destruct (Z.ltb_spec (zlen rest) n); [lia|]. destruct (Z.ltb_spec n 128); [lia|]. reflexivity.
Qed.

(** Integers *)
Definition stripped (b : bytes) : bytes := match b with x :: b1 => if x =? 0 then b1 else b | [] => b end.
Lemma stripped_val b : be_int (stripped b) = be_int b.
Proof. destruct b as [|x b]; [reflexivity|]. cbn [stripped]. destruct (Z.eqb_spec x 0) as [->|]; [now rewrite be_int_0|reflexivity]. Qed.
Lemma long_value b : der_integer_bytes b -> 32 < zlen (stripped b) -> 2 ^ 256 <= be_int b.
Proof.
  intros (HB & HM) HL. assert (HX : forall (x : Z) (l : bytes), bytes_ok (x :: l) = true -> x <> 0 -> 32 < zlen (x :: l) -> 2 ^ 256 <= be_int (x :: l)).
  { intros x l HBx Hx Hl. rewrite bytes_ok_cons in HBx. apply andb_true_iff in HBx as [H1 H2]. apply byte_ok_iff in H1. pose proof (be_int_bound l H2). rewrite be_int_cons. rewrite zlen_cons in Hl. assert (2 ^ 256 <= 2 ^ (8 * zlen l)) by (apply Z.pow_le_mono_r; lia). nia. }
  destruct b as [|x b]; [destruct HM|]. cbn [stripped] in HL. destruct (Z.eqb_spec x 0) as [->|Hx].
  - rewrite be_int_0. destruct b as [|y b]; [rewrite zlen_nil in HL; lia|]. apply HX; [rewrite bytes_ok_cons in HB; apply andb_true_iff in HB; apply HB| |exact HL]. intros ->. apply HM. lia.
  - now apply HX.
Qed.
Lemma reads_as_unique b v w : reads_as b v -> reads_as b w -> v = w.
Proof. destruct b as [|x b]; [intros []|]. cbn [reads_as]. lia. Qed.
Lemma value_spec b : der_integer_bytes b ->
  reads_as b (if match b with x :: _ => 128 <=? x | [] => false end || (32 <? zlen (stripped b)) || (CURVE_ORDER <=? be_int (stripped b)) then 0 else be_int (stripped b)).
Proof.
  intros HD. pose proof (long_value b HD) as HL. rewrite stripped_val. pose proof order_lt as HO. destruct HD as [HB HM]. destruct b as [|x b]; [destruct HM|]. cbn [reads_as]. rewrite val_be_int.
  destruct (Z.leb_spec 128 x); cbn [orb]; [right; split; [now left|reflexivity]|]. destruct (Z.ltb_spec 32 (zlen (stripped (x :: b)))); cbn [orb]; [right; split; [right|reflexivity]; specialize (HL H0); lia|].
  destruct (Z.leb_spec CURVE_ORDER (be_int (x :: b))); [right; split; [right|reflexivity]; assumption|left; repeat split; assumption].
Qed.
Lemma parse_integer_iff sig v rest : bytes_ok sig = true -> der_parse_integer sig = Some (v, rest) <->
  exists l b, der_length (zlen b) l /\ der_integer_bytes b /\ reads_as b v /\ sig = [2] ++ l ++ b ++ rest.
Proof.
  intros HB. split.
  - unfold der_parse_integer. destruct sig as [|t r]; [discriminate|]. destruct (Z.eqb_spec t 2) as [->|]; [|discriminate]. cbn [negb]. rewrite bytes_ok_cons in HB. apply andb_true_iff in HB as [_ HB].
    destruct (der_read_len r) as [[n r']|] eqn:ER; [|discriminate]. apply read_len_iff in ER as (l & HL & -> & _); [|exact HB]. rewrite bytes_ok_app in HB. apply andb_true_iff in HB as [_ HB].
    destruct (Z.eqb_spec n 0); [discriminate|]. destruct (Z.ltb_spec (zlen r') n); [discriminate|]. cbn [orb]. cbv zeta.
    assert (Hn : 0 < n). { destruct HL as (HBl & [(HL & ->)|(x & w & _ & _ & _ & _ & HL)]); [|lia]. cbn in HBl. rewrite andb_true_r in HBl. apply byte_ok_iff in HBl. lia. }
    pose proof (ztake_zdrop n r') as HS. pose proof (zlen_ztake n r') as HZ. pose proof (bytes_ok_ztake n r' HB) as HBt. set (b := ztake n r') in *. set (rest' := zdrop n r') in *.
    match goal with |- (if ?e then _ else _) = _ -> _ => destruct e eqn:EX end; [discriminate|]. intros HE.
    assert (HE1 : rest' = rest) by congruence. rewrite <- HE1. assert (HD : der_integer_bytes b).
    { split; [exact HBt|]. destruct b as [|x [|y b]]; [rewrite zlen_nil in HZ; lia|exact I|]. apply orb_false_iff in EX as [X1 X2]. apply andb_false_iff in X1, X2. clear - X1 X2. lia. }
    exists l, b. split; [replace (zlen b) with n by lia; exact HL|]. split; [exact HD|]. split; [|cbn [app]; f_equal; now rewrite HS].
    pose proof (value_spec b HD) as HV. unfold stripped in HV. apply (f_equal (fun o => match o with Some p => fst p | None => 0 end)) in HE. cbv beta iota delta [fst] in HE. exact (eq_ind _ (reads_as b) HV _ HE).
  - intros (l & b & HL & HD & HV & ->). cbn [app] in HB |- *. rewrite bytes_ok_cons in HB. apply andb_true_iff in HB as [_ HB]. unfold der_parse_integer. change (negb (2 =? 2)) with false. cbv iota.
    assert (ER : der_read_len (l ++ b ++ rest) = Some (zlen b, b ++ rest)). { apply read_len_iff; [exact HB|]. exists l. split; [exact HL|]. split; [reflexivity|]. intros _. rewrite zlen_app. pose proof (zlen_nonneg rest). lia. }
    rewrite ER. rewrite zlen_app, ztake_app_exact, zdrop_app_exact by reflexivity. pose proof (zlen_nonneg rest). assert (0 < zlen b) by (destruct HD as [_ HD]; destruct b; [destruct HD|apply zlen_pos]).
    destruct (Z.eqb_spec (zlen b) 0); [lia|]. destruct (Z.ltb_spec (zlen b + zlen rest) (zlen b)); [lia|]. cbn [orb]. cbv zeta.
    match goal with |- (if ?e then _ else _) = _ => replace e with false end.
    2: { destruct HD as [_ HD]. destruct b as [|x [|y b]]; try reflexivity. symmetry. clear - HD. lia. }
    f_equal. f_equal. pose proof (value_spec b HD) as HW. unfold stripped in HW. exact (reads_as_unique b _ _ HW HV).
Qed.

(** Signatures *)
Theorem parse_der_iff d r s : bytes_ok d = true -> parse_der d = Some (r, s) <-> exists R S, der_sequence d R S /\ reads_as R r /\ reads_as S s.
Proof.
  intros HB. unfold parse_der. split.
  - destruct d as [|t d]; [discriminate|]. destruct (Z.eqb_spec t 48) as [->|]; [|discriminate]. cbn [negb]. rewrite bytes_ok_cons in HB. apply andb_true_iff in HB as [_ HB].
    destruct (der_read_len d) as [[n d']|] eqn:ER; [|discriminate]. apply read_len_iff in ER as (l & HL & -> & _); [|exact HB]. rewrite bytes_ok_app in HB. apply andb_true_iff in HB as [_ HB].
    destruct (Z.eqb_spec n (zlen d')) as [->|]; [|discriminate]. cbn [negb]. destruct (der_parse_integer d') as [[r1 d1]|] eqn:E1; [|discriminate]. apply parse_integer_iff in E1 as (lR & R & HLR & HR & HVR & ->); [|exact HB].
    rewrite !bytes_ok_app in HB. apply andb_true_iff in HB as [_ HB]. apply andb_true_iff in HB as [_ HB]. apply andb_true_iff in HB as [_ HB].
    destruct (der_parse_integer d1) as [[s1 d2]|] eqn:E2; [|discriminate]. apply parse_integer_iff in E2 as (lS & S & HLS & HS & HVS & ->); [|exact HB]. destruct d2; [|discriminate]. intros HE. injection HE as <- <-. rewrite app_nil_r in *.
    exists R, S. split; [|split; assumption]. exists lR, lS, l. repeat (split; [assumption|]). reflexivity.
  - intros (R & S & (lR & lS & l & HR & HS & HLR & HLS & HL & ->) & HVR & HVS). cbv zeta in HL. cbn [app] in *. rewrite bytes_ok_cons in HB. apply andb_true_iff in HB as [_ HB]. change (negb (48 =? 48)) with false. cbv iota.
    set (body := 2 :: lR ++ R ++ 2 :: lS ++ S) in *. assert (ER : der_read_len (l ++ body) = Some (zlen body, body)). { apply read_len_iff; [exact HB|]. exists l. split; [exact HL|]. split; [reflexivity|]. lia. }
    rewrite ER, Z.eqb_refl. cbn [negb]. rewrite bytes_ok_app in HB. apply andb_true_iff in HB as [_ HB]. assert (E1 : der_parse_integer body = Some (r, 2 :: lS ++ S)) by (apply parse_integer_iff; [exact HB|]; exists lR, R; repeat (split; [assumption|]); reflexivity).
    rewrite E1. subst body. rewrite bytes_ok_cons, !bytes_ok_app in HB. apply andb_true_iff in HB as [_ HB]. apply andb_true_iff in HB as [_ HB]. apply andb_true_iff in HB as [_ HB].
    assert (E2 : der_parse_integer (2 :: lS ++ S) = Some (s, [])) by (apply parse_integer_iff; [exact HB|]; exists lS, S; repeat (split; [assumption|]); rewrite app_nil_r; reflexivity). rewrite E2. reflexivity.
Qed.
Lemma reads_as_exists R : der_integer_bytes R -> exists v, reads_as R v.
Proof. intros HD. eexists. now apply value_spec. Qed.
(** The canonical form *)
Theorem serialize_der_iff r s d : 0 <= r < CURVE_ORDER -> 0 <= s < CURVE_ORDER -> der_form r s d <-> d = serialize_der r s.
Proof.
  assert (HN : forall v b, 0 <= v < CURVE_ORDER -> der_number v b <-> b = der_integer v).
  { intros v b Hv. destruct (der_integer_spec v Hv) as (H1 & H2 & H3 & H4 & _). split.
    - intros (HB & HV & HM). rewrite val_be_int in HV. rewrite <- HV. apply der_integer_unique; [exact HB|exact HM|lia|].
      assert (HD : der_integer_bytes b). { split; [exact HB|]. destruct b as [|x [|y b]]; [exact HM|exact I|]. lia. }
      pose proof (long_value b HD) as HL. pose proof order_lt. destruct (Z.ltb_spec 32 (zlen (stripped b))); [lia|]. destruct b as [|x b]; [destruct HM|]. cbn [stripped] in *. destruct (Z.eqb_spec x 0) as [->|]; [|lia]. rewrite zlen_cons. match goal with HX : zlen b <= 32 |- _ => clear - HX end. destruct (Z.eq_dec (zlen b) 32) as [E|E]; [right; split; [lia|exists b; reflexivity]|left; lia].
    - intros ->. split; [exact H2|]. split; [rewrite val_be_int; exact H3|]. exact H1. }
  intros Hr Hs. unfold der_form, serialize_der. cbv zeta. split.
  - intros (R & S & HR & HS & ->). apply HN in HR, HS; [|assumption..]. subst. f_equal. f_equal. f_equal. lia.
  - intros ->. exists (der_integer r), (der_integer s). split; [now apply HN|]. split; [now apply HN|]. f_equal. f_equal. f_equal. lia.
Qed.
