(** DER signatures: parsing undoes serialization, and a parsed signature with nonzero numbers was serialized
    in the only possible way. *)
From Verif.Model Require Import Py Text Packing Misc Curve Signature Der.
From Verif.Proofs Require Import PyFacts CurveFacts.

Lemma be_int_cons x b : be_int (x :: b) = x * 2 ^ (8 * zlen b) + be_int b.
Proof. unfold be_int. cbn [rev]. rewrite le_int_app, zlen_rev. cbn [le_int]. lia. Qed.
Lemma be_int_0 b : be_int (0 :: b) = be_int b.
Proof. rewrite be_int_cons. lia. Qed.
Lemma be_int_bound b : bytes_ok b = true -> 0 <= be_int b < 2 ^ (8 * zlen b).
Proof. intros HB. unfold be_int. rewrite <- (zlen_rev b). apply le_int_bound. now rewrite bytes_ok_rev. Qed.
Lemma be_int_inj a b : bytes_ok a = true -> bytes_ok b = true -> zlen a = zlen b -> be_int a = be_int b -> a = b.
Proof.
  intros HA HB HL HE. unfold be_int in HE. apply le_int_inj in HE; rewrite ?bytes_ok_rev, ?zlen_rev; try assumption. apply (f_equal (@rev Z)) in HE. now rewrite !rev_involutive in HE.
Qed.
Lemma be_int_zeros k b : be_int (repeat 0 k ++ b) = be_int b.
Proof. induction k as [|k IH]; [reflexivity|]. cbn [repeat app]. now rewrite be_int_0. Qed.

(** The shortest form of a number that does not look negative *)
Definition minimal (b : bytes) : Prop :=
  match b with [] => False | [x] => x < 128 | x :: y :: _ => x < 128 /\ (x = 0 -> 128 <= y) end.
Definition nonneg (b : bytes) : Prop := match b with [] => False | x :: _ => x < 128 end.

Lemma strip_cons x y r : strip_zeros (x :: y :: r) = if (x =? 0) && (y <? 128) then strip_zeros (y :: r) else x :: y :: r.
Proof. reflexivity. Qed.
Lemma strip_spec b : bytes_ok b = true -> nonneg b ->
  minimal (strip_zeros b) /\ bytes_ok (strip_zeros b) = true /\ be_int (strip_zeros b) = be_int b /\ (strip_zeros b = b \/ zlen (strip_zeros b) < zlen b).
Proof.
  induction b as [|x b IH]; [intros _ []|]. intros HB HN. destruct b as [|y r].
  - split; [exact HN|]. split; [exact HB|]. split; [reflexivity|]. now left.
  - rewrite strip_cons. destruct ((x =? 0) && (y <? 128)) eqn:E.
    + apply andb_true_iff in E as [E1 E2]. apply Z.eqb_eq in E1. apply Z.ltb_lt in E2. subst x. rewrite bytes_ok_cons in HB. apply andb_true_iff in HB as [_ HB].
      destruct (IH HB E2) as (H1 & H2 & H3 & H4). split; [exact H1|]. split; [exact H2|]. split; [rewrite H3, be_int_0; reflexivity|]. right. rewrite (zlen_cons 0). destruct H4 as [->|H4]; lia.
    + split; [|split; [exact HB|split; [reflexivity|now left]]]. cbn in HN |- *. split; [exact HN|]. intros ->. cbn in E. apply Z.ltb_ge in E. exact E.
Qed.
Lemma strip_minimal b : minimal b -> strip_zeros b = b.
Proof.
  destruct b as [|x [|y r]]; [intros []|reflexivity|]. intros [H1 H2]. rewrite strip_cons. destruct (Z.eqb_spec x 0) as [->|]; [|reflexivity]. specialize (H2 eq_refl). destruct (Z.ltb_spec y 128); [lia|reflexivity].
Qed.
Lemma strip_repeat k b : minimal b -> strip_zeros (repeat 0 k ++ b) = b.
Proof.
  intros HM. induction k as [|k IH]; [now apply strip_minimal|]. cbn [repeat app]. assert (HX : exists y r, repeat 0 k ++ b = y :: r /\ y < 128).
  { destruct k; cbn [repeat app]; [|exists 0; eexists; split; [reflexivity|lia]]. destruct b as [|y [|z r]]; [destruct HM|exists y, []; split; [reflexivity|exact HM]|]. exists y, (z :: r). split; [reflexivity|]. apply HM. }
  destruct HX as (y & r & HE & Hy). rewrite HE in IH |- *. rewrite strip_cons, Z.eqb_refl. destruct (Z.ltb_spec y 128); [exact IH|lia].
Qed.

Lemma der_integer_spec v : 0 <= v < CURVE_ORDER ->
  minimal (der_integer v) /\ bytes_ok (der_integer v) = true /\ be_int (der_integer v) = v /\ 1 <= zlen (der_integer v) <= 33 /\ (zlen (der_integer v) = 33 -> der_integer v = 0 :: bytes32 v).
Proof.
  intros Hv. pose proof order_lt as HO. destruct (bytes32_ok v) as [Hok Hlen]. unfold der_integer.
  destruct (strip_spec (0 :: bytes32 v)) as (H1 & H2 & H3 & H4); [exact Hok|cbn; lia|]. split; [exact H1|]. split; [exact H2|]. split; [rewrite H3, be_int_0; apply be_bytes32; lia|].
  rewrite zlen_cons, Hlen in H4. split.
  - split.
    + destruct (strip_zeros (0 :: bytes32 v)) as [|x r]; [destruct H1|]. rewrite zlen_cons. pose proof (zlen_nonneg r). lia.
    + destruct H4 as [->|H4]; [rewrite zlen_cons, Hlen; lia|lia].
  - intros H33. destruct H4 as [H4|H4]; [exact H4|lia].
Qed.
Lemma der_integer_unique b : bytes_ok b = true -> minimal b -> be_int b < CURVE_ORDER -> (zlen b <= 32 \/ (zlen b = 33 /\ exists r, b = 0 :: r)) -> b = der_integer (be_int b).
Proof.
  intros HB HM HV HL. destruct (bytes32_ok (be_int b)) as [Hok Hlen]. pose proof (be_int_bound b HB) as [H0 _]. pose proof order_lt as HO.
  assert (HE : 0 :: bytes32 (be_int b) = repeat 0 (33 - length b) ++ b).
  { apply be_int_inj.
    - rewrite bytes_ok_cons. exact Hok.
    - rewrite bytes_ok_app, HB, andb_true_r. apply bytes_ok_In. intros x Hx. apply repeat_spec in Hx. lia.
    - rewrite zlen_cons, Hlen, zlen_app. unfold zlen in *. rewrite repeat_length. lia.
    - rewrite be_int_0, be_int_zeros. apply be_bytes32. lia. }
  unfold der_integer. rewrite HE. symmetry. now apply strip_repeat.
Qed.

Lemma read_short l r : 0 <= l < 128 -> der_read_len (l :: r) = Some (l, r).
Proof. intros Hl. unfold der_read_len. destruct (Z.eqb_spec l 255); [lia|]. destruct (Z.ltb_spec l 128); [reflexivity|lia]. Qed.
Lemma read_len_inv sig l r : der_read_len sig = Some (l, r) -> l < 128 -> sig = l :: r.
Proof.
  unfold der_read_len. destruct sig as [|b1 sig]; [discriminate|]. destruct (b1 =? 255); [discriminate|]. destruct (Z.ltb_spec b1 128).
  - intros HE _. now injection HE as -> ->.
  - destruct (b1 =? 128); [discriminate|]. destruct (zlen sig <? b1 - 128); [discriminate|]. destruct sig as [|x sig]; [discriminate|]. destruct ((x =? 0) || (8 <? b1 - 128)); [discriminate|]. cbv zeta.
    set (len := be_int _). set (r' := zdrop _ _). destruct (zlen r' <? len); [discriminate|]. cbn [orb]. destruct (Z.ltb_spec len 128); [discriminate|]. intros HE Hl. injection HE as <- <-. lia.
Qed.

Lemma parse_integer_der v rest : 0 <= v < CURVE_ORDER -> der_parse_integer (2 :: zlen (der_integer v) :: der_integer v ++ rest) = Some (v, rest).
Proof.
  intros Hv. destruct (der_integer_spec v Hv) as (HM & HB & HV & HL & H33). unfold der_parse_integer. cbn [Z.eqb Pos.eqb negb]. rewrite read_short by lia.
  destruct (Z.eqb_spec (zlen (der_integer v)) 0); [lia|]. rewrite zlen_app. pose proof (zlen_nonneg rest). destruct (Z.ltb_spec (zlen (der_integer v) + zlen rest) (zlen (der_integer v))); [lia|]. cbn [orb]. cbv zeta.
  rewrite ztake_app_exact, zdrop_app_exact by reflexivity. set (b := der_integer v) in *. clearbody b.
  assert (HEx : match b with x :: y :: _ => (x =? 0) && (y <? 128) || (x =? 255) && (128 <=? y) | _ => false end = false).
  { destruct b as [|x [|y r]]; try reflexivity. destruct HM as [H1 H2]. destruct (Z.eqb_spec x 255); [lia|]. destruct (Z.eqb_spec x 0) as [->|]; [|reflexivity]. specialize (H2 eq_refl). destruct (Z.ltb_spec y 128); [lia|reflexivity]. }
  rewrite HEx. clear HEx. assert (HNeg : match b with x :: _ => 128 <=? x | [] => false end = false).
  { destruct b as [|x [|y r]]; [reflexivity| |]; cbn in HM; destruct (Z.leb_spec 128 x); [lia|reflexivity|lia|reflexivity]. }
  rewrite HNeg. clear HNeg. cbn [orb]. match goal with |- context [be_int ?m] => set (b' := m) end.
  assert (Hb' : be_int b' = v /\ zlen b' <= 32).
  { subst b'. destruct b as [|x b]; [destruct HM|]. rewrite zlen_cons in HL. destruct (Z.eqb_spec x 0) as [->|Hx].
    - rewrite be_int_0 in HV. split; [exact HV|]. lia.
    - split; [exact HV|]. destruct (Z.eq_dec (zlen (x :: b)) 33) as [E|E]; [specialize (H33 E); injection H33 as -> _; contradiction|]. rewrite zlen_cons in E |- *. lia. }
  destruct Hb' as [-> Hb']. destruct (Z.ltb_spec 32 (zlen b')); [lia|]. destruct (Z.leb_spec CURVE_ORDER v); [lia|]. reflexivity.
Qed.
Lemma parse_integer_range sig v rest : bytes_ok sig = true -> der_parse_integer sig = Some (v, rest) -> 0 <= v < CURVE_ORDER /\ bytes_ok rest = true /\ zlen rest < zlen sig.
Proof.
  intros HB. unfold der_parse_integer. destruct sig as [|t sig]; [discriminate|]. destruct (negb (t =? 2)); [discriminate|]. destruct (der_read_len sig) as [[rlen r]|] eqn:ER; [|discriminate].
  assert (Hr : bytes_ok r = true /\ zlen r <= zlen sig).
  { rewrite bytes_ok_cons in HB. apply andb_true_iff in HB as [_ HB]. unfold der_read_len in ER. destruct sig as [|b1 sig]; [discriminate|]. rewrite bytes_ok_cons in HB. apply andb_true_iff in HB as [_ HB]. rewrite zlen_cons.
    repeat match type of ER with (if ?b then _ else _) = _ => destruct b end; try discriminate; [injection ER as _ <-; split; [exact HB|lia]|]. destruct sig as [|x sig]; [discriminate|]. cbv zeta in ER. repeat match type of ER with (if ?b then _ else _) = _ => destruct b end; try discriminate.
    apply (f_equal (option_map snd)) in ER. cbn [option_map snd] in ER. apply (f_equal (fun o => match o with Some x => x | None => [] end)) in ER. cbv beta iota in ER. subst r.
    split; [now apply bytes_ok_zdrop|]. rewrite zlen_zdrop. pose proof (zlen_nonneg (x :: sig)). lia. }
  destruct Hr as [Hr1 Hr2]. destruct ((rlen =? 0) || (zlen r <? rlen)); [discriminate|]. cbv zeta. destruct (match ztake rlen r with x :: y :: _ => _ | _ => false end); [discriminate|]. intros HE. pose proof order_pos.
  set (b' := match ztake rlen r with x :: b1 => if x =? 0 then b1 else ztake rlen r | [] => ztake rlen r end) in HE.
  assert (HB' : bytes_ok b' = true).
  { subst b'. pose proof (bytes_ok_ztake rlen r Hr1) as HT. destruct (ztake rlen r) as [|x b1]; [reflexivity|]. destruct (x =? 0); [|exact HT]. rewrite bytes_ok_cons in HT. now apply andb_true_iff in HT as [_ HT]. }
  clearbody b'. injection HE as HV <-. split; [|split; [now apply bytes_ok_zdrop|rewrite zlen_cons, zlen_zdrop; pose proof (zlen_nonneg r); lia]].
  destruct (match ztake rlen r with x :: _ => 128 <=? x | [] => false end); cbn [orb] in HV; [lia|]. destruct (32 <? zlen b'); cbn [orb] in HV; [lia|]. destruct (Z.leb_spec CURVE_ORDER (be_int b')); [lia|]. subst v. pose proof (be_int_bound b' HB'). lia.
Qed.
Lemma parse_integer_inv sig v rest : bytes_ok sig = true -> der_parse_integer sig = Some (v, rest) -> v <> 0 -> sig = 2 :: zlen (der_integer v) :: der_integer v ++ rest.
Proof.
  intros HB HP HV. pose proof (parse_integer_range _ _ _ HB HP) as (HR & _). revert HP. unfold der_parse_integer. destruct sig as [|t sig]; [discriminate|]. destruct (Z.eqb_spec t 2) as [->|]; [|discriminate]. cbn [negb]. destruct (der_read_len sig) as [[rlen r]|] eqn:ER; [|discriminate].
  destruct (Z.eqb_spec rlen 0) as [|H0]; [discriminate|]. destruct (Z.ltb_spec (zlen r) rlen) as [|Hle]; [discriminate|]. cbn [orb]. cbv zeta.
  destruct (match ztake rlen r with x :: y :: _ => _ | _ => false end) eqn:EX; [discriminate|]. intros HE. apply (f_equal (fun o => match o with Some x => x | None => (0, []) end)) in HE. cbv beta iota in HE. injection HE as HV' HR'.
  assert (HRl : 0 < rlen).
  { destruct sig as [|b1 sig]; [discriminate|]. unfold der_read_len in ER. rewrite !bytes_ok_cons in HB. apply andb_true_iff in HB as [_ HB]. apply andb_true_iff in HB as [Hb1 _]. apply byte_ok_iff in Hb1. destruct (b1 =? 255); [discriminate|]. destruct (b1 <? 128); [injection ER as <- <-; lia|].
    destruct (b1 =? 128); [discriminate|]. destruct (zlen sig <? b1 - 128); [discriminate|]. destruct sig as [|x sig]; [discriminate|]. destruct ((x =? 0) || (8 <? b1 - 128)); [discriminate|]. cbv zeta in ER. set (len := be_int _) in ER. destruct (zlen (zdrop (b1 - 128) (x :: sig)) <? len); [discriminate|]. cbn [orb] in ER. destruct (Z.ltb_spec len 128); [discriminate|].
    apply (f_equal (fun o => match o with Some (x, _) => x | None => 0 end)) in ER. cbv beta iota in ER. lia. }
  assert (HSlen : zlen (ztake rlen r) = rlen) by (rewrite zlen_ztake; pose proof (zlen_nonneg r); lia).
  assert (HBr : bytes_ok r = true).
  { rewrite bytes_ok_cons in HB. apply andb_true_iff in HB as [_ HB]. destruct sig as [|b1 sig]; [discriminate|]. unfold der_read_len in ER. rewrite bytes_ok_cons in HB. apply andb_true_iff in HB as [_ HB].
    destruct (b1 =? 255); [discriminate|]. destruct (b1 <? 128); [injection ER as <- <-; exact HB|]. destruct (b1 =? 128); [discriminate|]. destruct (zlen sig <? b1 - 128); [discriminate|]. destruct sig as [|x sig]; [discriminate|]. destruct ((x =? 0) || (8 <? b1 - 128)); [discriminate|]. cbv zeta in ER. destruct ((_ <? _) || (_ <? _)); [discriminate|].
    apply (f_equal (fun o => match o with Some (_, x) => x | None => [] end)) in ER. cbv beta iota in ER. subst r. now apply bytes_ok_zdrop. }
  pose proof (bytes_ok_ztake rlen r HBr) as HBb. pose proof (ztake_zdrop rlen r) as HTZ. rewrite HR' in HTZ. set (b := ztake rlen r) in *. clearbody b.
  destruct b as [|x b]; [rewrite zlen_nil in HSlen; lia|].
  destruct (Z.leb_spec 128 x) as [|Hx]; [cbn [orb] in HV'; congruence|]. cbn [orb] in HV'.
  set (b' := if x =? 0 then b else x :: b) in HV'. destruct (Z.ltb_spec 32 (zlen b')) as [|H32]; [cbn [orb] in HV'; congruence|]. cbn [orb] in HV'. destruct (Z.leb_spec CURVE_ORDER (be_int b')) as [|Hlt]; [congruence|].
  assert (Hbb : be_int (x :: b) = v).
  { subst b'. destruct (Z.eqb_spec x 0) as [->|]; [rewrite be_int_0; exact HV'|exact HV']. }
  assert (HL : zlen (x :: b) <= 32 \/ (zlen (x :: b) = 33 /\ exists r, x :: b = 0 :: r)).
  { subst b'. destruct (Z.eqb_spec x 0) as [->|]; [|left; exact H32]. rewrite zlen_cons. destruct (Z.eq_dec (zlen b) 32); [right|left; lia]. split; [lia|]. now exists b. }
  assert (HM : minimal (x :: b)).
  { destruct b as [|y b]; [exact Hx|]. split; [exact Hx|]. intros ->. rewrite Z.eqb_refl in EX. cbn [andb] in EX. apply orb_false_iff in EX as [EX _]. apply Z.ltb_ge in EX. exact EX. }
  assert (HU : x :: b = der_integer v) by (rewrite <- Hbb; apply der_integer_unique; [exact HBb|exact HM|rewrite Hbb; apply HR|exact HL]).
  apply read_len_inv in ER; [|destruct HL as [HL|[HL _]]; lia]. subst sig. rewrite <- HU. rewrite HSlen. cbn [app] in HTZ |- *. now rewrite HTZ.
Qed.

Theorem parse_serialize r s : 0 <= r < CURVE_ORDER -> 0 <= s < CURVE_ORDER -> parse_der (serialize_der r s) = Some (r, s).
Proof.
  intros Hr Hs. destruct (der_integer_spec r Hr) as (_ & _ & _ & HLr & _). destruct (der_integer_spec s Hs) as (_ & _ & _ & HLs & _). unfold serialize_der, parse_der. cbn [app Z.eqb Pos.eqb negb].
  rewrite read_short by lia. rewrite !zlen_cons, zlen_app, !zlen_cons. replace (4 + zlen (der_integer s) + zlen (der_integer r)) with (1 + (1 + (zlen (der_integer r) + (1 + (1 + zlen (der_integer s)))))) by lia. rewrite Z.eqb_refl. cbn [negb].
  rewrite parse_integer_der by assumption. rewrite <- (app_nil_r (der_integer s)) at 2. rewrite parse_integer_der by assumption. reflexivity.
Qed.
Theorem serialize_length r s : 0 <= r < CURVE_ORDER -> 0 <= s < CURVE_ORDER -> 8 <= zlen (serialize_der r s) <= 72 /\ bytes_ok (serialize_der r s) = true.
Proof.
  intros Hr Hs. destruct (der_integer_spec r Hr) as (_ & HBr & _ & HLr & _). destruct (der_integer_spec s Hs) as (_ & HBs & _ & HLs & _). unfold serialize_der. split.
  - rewrite !zlen_app. change (zlen [48; _; 2; _]) with 4. change (zlen [2; _]) with 2. lia.
  - rewrite !bytes_ok_app, HBr, HBs. cbn [bytes_ok]. assert (HX : forall v, 0 <= v < 256 -> byte_ok v = true) by (intros; now apply byte_ok_iff). unfold bytes_ok. cbn [forallb]. rewrite !HX by lia. reflexivity.
Qed.
Theorem parse_der_range d r s : bytes_ok d = true -> parse_der d = Some (r, s) -> 0 <= r < CURVE_ORDER /\ 0 <= s < CURVE_ORDER.
Proof.
  unfold parse_der. intros HB. destruct d as [|t d]; [discriminate|]. destruct (negb (t =? 48)); [discriminate|]. destruct (der_read_len d) as [[rlen d']|] eqn:ER; [|discriminate]. destruct (negb (rlen =? zlen d')); [discriminate|].
  assert (HB' : bytes_ok d' = true).
  { rewrite bytes_ok_cons in HB. apply andb_true_iff in HB as [_ HB]. unfold der_read_len in ER. destruct d as [|b1 d]; [discriminate|]. rewrite bytes_ok_cons in HB. apply andb_true_iff in HB as [_ HB].
    destruct (b1 =? 255); [discriminate|]. destruct (b1 <? 128); [injection ER as <- <-; exact HB|]. destruct (b1 =? 128); [discriminate|]. destruct (zlen d <? b1 - 128); [discriminate|]. destruct d as [|x d]; [discriminate|]. destruct ((x =? 0) || (8 <? b1 - 128)); [discriminate|]. cbv zeta in ER. destruct ((_ <? _) || (_ <? _)); [discriminate|].
    apply (f_equal (fun o => match o with Some (_, x) => x | None => [] end)) in ER. cbv beta iota in ER. subst d'. now apply bytes_ok_zdrop. }
  destruct (der_parse_integer d') as [[rr d1]|] eqn:E1; [|discriminate]. destruct (parse_integer_range _ _ _ HB' E1) as (R1 & B1 & _). destruct (der_parse_integer d1) as [[rs d2]|] eqn:E2; [|discriminate]. destruct (parse_integer_range _ _ _ B1 E2) as (R2 & _).
  destruct d2; [|discriminate]. intros HE. injection HE as <- <-. now split.
Qed.
Theorem parse_der_canonical d r s : bytes_ok d = true -> parse_der d = Some (r, s) -> r <> 0 -> s <> 0 -> d = serialize_der r s.
Proof.
  intros HB HP Hr Hs. pose proof (parse_der_range d r s HB HP) as [Rr Rs]. revert HP. unfold parse_der. destruct d as [|t d]; [discriminate|]. destruct (Z.eqb_spec t 48) as [->|]; [|discriminate]. cbn [negb]. destruct (der_read_len d) as [[rlen d']|] eqn:ER; [|discriminate]. destruct (Z.eqb_spec rlen (zlen d')) as [HLen|]; [|discriminate]. cbn [negb].
  assert (HB' : bytes_ok d' = true).
  { rewrite bytes_ok_cons in HB. apply andb_true_iff in HB as [_ HB]. unfold der_read_len in ER. destruct d as [|b1 d]; [discriminate|]. rewrite bytes_ok_cons in HB. apply andb_true_iff in HB as [_ HB].
    destruct (b1 =? 255); [discriminate|]. destruct (b1 <? 128); [injection ER as <- <-; exact HB|]. destruct (b1 =? 128); [discriminate|]. destruct (zlen d <? b1 - 128); [discriminate|]. destruct d as [|x d]; [discriminate|]. destruct ((x =? 0) || (8 <? b1 - 128)); [discriminate|]. cbv zeta in ER. destruct ((_ <? _) || (_ <? _)); [discriminate|].
    apply (f_equal (fun o => match o with Some (_, x) => x | None => [] end)) in ER. cbv beta iota in ER. subst d'. now apply bytes_ok_zdrop. }
  destruct (der_parse_integer d') as [[rr d1]|] eqn:E1; [|discriminate]. destruct (parse_integer_range _ _ _ HB' E1) as (R1 & B1 & _). destruct (der_parse_integer d1) as [[rs d2]|] eqn:E2; [|discriminate]. destruct d2; [|discriminate]. intros HE. injection HE as -> ->.
  apply parse_integer_inv in E1; [|exact HB'|exact Hr]. apply parse_integer_inv in E2; [|exact B1|exact Hs]. rewrite app_nil_r in E2.
  destruct (der_integer_spec r Rr) as (_ & _ & _ & HLr & _). destruct (der_integer_spec s Rs) as (_ & _ & _ & HLs & _).
  assert (HZ : rlen = 4 + zlen (der_integer s) + zlen (der_integer r)) by (rewrite HLen, E1, E2; rewrite !zlen_cons, zlen_app, !zlen_cons; lia).
  apply read_len_inv in ER; [|lia]. unfold serialize_der. cbn [app]. rewrite ER, E1, E2, HZ. reflexivity.
Qed.
