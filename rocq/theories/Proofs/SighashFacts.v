(** Proofs about signature hashes. *)
From Verif.Model Require Import Py Packing Tx.
From Verif.Spec Require Import Numbers TxSpec.
From Verif.Proofs Require Import PyFacts PackingFacts TxFacts.

Lemma sighash_base_of h : sighash_base h = base_of h.
Proof. unfold sighash_base, base_of. change 31 with (Z.ones 5). now rewrite Z.land_ones by lia. Qed.
Lemma land_pow2 h n : 0 <= n -> Z.land h (2 ^ n) = if Z.testbit h n then 2 ^ n else 0.
Proof.
  intros Hn. apply Z.bits_inj'. intros m Hm. rewrite Z.land_spec, Z.pow2_bits_eqb by lia.
  destruct (Z.eqb_spec n m) as [->|Hne].
  - rewrite andb_true_r. destruct (Z.testbit h m); [now rewrite Z.pow2_bits_true|now rewrite Z.bits_0].
  - rewrite andb_false_r. destruct (Z.testbit h n); [now rewrite Z.pow2_bits_false|now rewrite Z.bits_0].
Qed.
Lemma sighash_acp_of h : sighash_anyone_can_pay h = acp_of h.
Proof.
  unfold sighash_anyone_can_pay, acp_of, SIGHASH_ANYONE_CAN_PAY. change 128 with (2 ^ 7).
  rewrite land_pow2 by lia. destruct (Z.testbit h 7); reflexivity.
Qed.

Lemma mapM_map {A B C} (f : A -> B) (g : B -> result C) l : mapM g (map f l) = mapM (fun x => g (f x)) l.
Proof. induction l as [|x l IH]; cbn [map mapM]; auto. now rewrite IH. Qed.

Lemma prevouts_map l : mapM prevout_bytes l = mapM pack_outpoint (map outpoint l).
Proof. now rewrite mapM_map. Qed.
Lemma sequences_map l : mapM (fun i => pack_le_uint32 (sequence i)) l
  = mapM pack_le_uint32 (map sequence l).
Proof. now rewrite mapM_map. Qed.

Lemma pyindex_nth {A} (l : list A) i : 0 <= i < zlen l ->
  exists x, pyindex l i = Ok x /\ nth_error l (Z.to_nat i) = Some x.
Proof.
  intros H. unfold pyindex. replace (i <? 0) with false by lia.
  destruct (znth_is_Some l i H) as [x Hx]. rewrite Hx. exists x. split; auto.
  now rewrite <- znth_nth_error by lia.
Qed.
Lemma nth_Some_lt {A} (l : list A) i x : 0 <= i -> nth_error l (Z.to_nat i) = Some x -> i < zlen l.
Proof.
  intros Hi H. assert (nth_error l (Z.to_nat i) <> None) as HN by congruence.
  apply nth_error_Some in HN. unfold zlen. lia.
Qed.

(** The preimage as a function of the committed parts only. *)
Definition preimage_of (H : bytes -> bytes) (version locktime sighash value : Z) (script : bytes)
  (op : bytes * Z) (seq : Z) (ops : list (bytes * Z)) (seqs : list Z) (outs : list tx_output)
  (out : option tx_output) : result bytes :=
  hp <- (if negb (acp_of sighash)
         then l <- mapM pack_outpoint ops ;; Ok (H (concat l)) else Ok ZERO) ;;
  let nsn := negb ((base_of sighash =? 3) || (base_of sighash =? 2)) in
  hs <- (if negb (acp_of sighash) && nsn
         then l <- mapM pack_le_uint32 seqs ;; Ok (H (concat l)) else Ok ZERO) ;;
  ho <- (if nsn then l <- mapM output_to_bytes outs ;; Ok (H (concat l))
         else if base_of sighash =? 3
              then match out with
                   | Some o => b <- output_to_bytes o ;; Ok (H b)
                   | None => Ok ZERO
                   end
              else Ok ZERO) ;;
  v <- pack_le_int32 version ;;
  ti <- (p <- pack_outpoint op ;; s <- pack_varbytes script ;; w <- pack_le_int64 value ;;
         q <- pack_le_uint32 seq ;; Ok (p ++ s ++ w ++ q)) ;;
  l <- pack_le_uint32 locktime ;;
  h <- pack_le_uint32 sighash ;;
  Ok (v ++ hp ++ hs ++ ti ++ ho ++ l ++ h).

Lemma signature_preimage_of H t i v s h txin :
  0 <= i < zlen (inputs t) -> 0 <= v -> nth_error (inputs t) (Z.to_nat i) = Some txin ->
  signature_preimage H t i v s h =
  preimage_of H (version t) (locktime t) h v s (outpoint txin) (sequence txin)
    (map outpoint (inputs t)) (map sequence (inputs t)) (outputs t)
    (nth_error (outputs t) (Z.to_nat i)).
Proof.
  intros Hi Hv Hn. unfold signature_preimage.
  replace ((0 <=? i) && (i <? zlen (inputs t))) with true by lia. cbn [negb].
  replace (v <? 0) with false by lia.
  destruct (pyindex_nth (inputs t) i Hi) as (x & -> & Hx). rewrite Hn in Hx. injection Hx as <-.
  cbn [bind]. rewrite sighash_base_of, sighash_acp_of. unfold preimage_of, SIGHASH_SINGLE, SIGHASH_NONE.
  unfold hash_prevouts, hash_sequence, hash_outputs. rewrite prevouts_map, sequences_map.
  replace (if (base_of h =? 3) && (i <? zlen (outputs t)) then
             o <- pyindex (outputs t) i ;; b <- output_to_bytes o ;; Ok (H b) else Ok ZERO)
    with (if base_of h =? 3
              then match nth_error (outputs t) (Z.to_nat i) with
                   | Some o => b <- output_to_bytes o ;; Ok (H b)
                   | None => Ok ZERO
                   end
              else Ok ZERO); [reflexivity|].
  destruct (base_of h =? 3); cbn [andb]; auto.
  destruct (Z.ltb_spec i (zlen (outputs t))).
  - destruct (pyindex_nth (outputs t) i) as (o & -> & ->); [lia|]. reflexivity.
  - replace (nth_error (outputs t) (Z.to_nat i)) with (@None tx_output); auto.
    symmetry. apply nth_error_None. unfold zlen in *. lia.
Qed.

Lemma none_or_single_dec h : negb ((base_of h =? 3) || (base_of h =? 2)) = true -> ~ is_none_or_single h.
Proof. unfold is_none_or_single. lia. Qed.

Lemma signature_hash_respects H c d : same_commitment c d -> call_index_ok c -> call_index_ok d ->
  signature_hash H (c_tx c) (c_index c) (c_value c) (c_script c) (c_sighash c) =
  signature_hash H (c_tx d) (c_index d) (c_value d) (c_script d) (c_sighash d).
Proof.
  intros (H1 & H2 & H3 & H4 & H5 & H6 & H7 & H8 & H9 & H10 & H11) Ic Id.
  unfold signature_hash. f_equal.
  destruct (Z.ltb_spec (c_value c) 0) as [Hneg|Hpos].
  { unfold signature_preimage. unfold call_index_ok in *.
    replace ((0 <=? c_index c) && _) with true by lia.
    replace ((0 <=? c_index d) && _) with true by lia. cbn [negb]. rewrite <- H4.
    replace (c_value c <? 0) with true by lia. reflexivity. }
  unfold call_index_ok in *.
  destruct (pyindex_nth _ _ Ic) as (x & _ & Hx), (pyindex_nth _ _ Id) as (y & _ & Hy).
  unfold signed_input in *. rewrite Hx, Hy in H6, H7. cbn [option_map] in H6, H7.
  injection H6 as H6a H6b. injection H7 as H7.
  rewrite (signature_preimage_of H _ _ _ _ _ x), (signature_preimage_of H _ _ _ _ _ y) by (auto; lia).
  rewrite <- H1, <- H2, <- H3, <- H4, <- H5, H7.
  replace (outpoint y) with (outpoint x) by (unfold outpoint; congruence).
  unfold preimage_of.
  destruct (acp_of (c_sighash c)) eqn:EA; cbn [negb andb];
  destruct ((base_of (c_sighash c) =? 3) || (base_of (c_sighash c) =? 2)) eqn:EB; cbn [negb];
  try rewrite <- H8 by auto;
  try (rewrite <- H9 by (try apply none_or_single_dec; rewrite ?EB; auto));
  try (rewrite <- H10 by (try apply none_or_single_dec; rewrite ?EB; auto)); auto.
  - destruct (Z.eqb_spec (base_of (c_sighash c)) 3); [rewrite H11 by auto|]; reflexivity.
  - destruct (Z.eqb_spec (base_of (c_sighash c)) 3); [rewrite H11 by auto|]; reflexivity.
Qed.

(** ** Binding *)
Lemma codec_inj {A} (wf : A -> Prop) enc dec (C : codec wf enc dec) a b x y s t :
  wf a -> wf b -> enc a = Ok x -> enc b = Ok y -> x ++ s = y ++ t -> a = b /\ x = y /\ s = t.
Proof.
  intros Wa Wb Ea Eb H.
  pose proof (c_rt C a x s Wa Ea) as Ra. pose proof (c_rt C b y t Wb Eb) as Rb.
  rewrite H, Rb in Ra. injection Ra as -> ->. rewrite Ea in Eb. injection Eb as ->. auto.
Qed.
Lemma app_inj_len {A} (a b s t : list A) : zlen a = zlen b -> a ++ s = b ++ t -> a = b /\ s = t.
Proof.
  intros Hl H. split.
  - rewrite <- (ztake_app_exact (zlen a) a s) by auto. rewrite H. now apply ztake_app_exact.
  - rewrite <- (zdrop_app_exact (zlen a) a s) by auto. rewrite H. now apply zdrop_app_exact.
Qed.
Lemma concat_inj {A} (wf : A -> Prop) enc dec (C : codec wf enc dec) :
  (forall a b, enc a = Ok b -> b <> []) ->
  forall l m x y, Forall wf l -> Forall wf m -> mapM enc l = Ok x -> mapM enc m = Ok y ->
  concat x = concat y -> l = m.
Proof.
  intros Hne. induction l as [|a l IH]; intros m x y Wl Wm El Em HE.
  - cbn in El. injection El as <-. destruct m as [|b m]; auto. exfalso.
    cbn [mapM] in Em. bind_inv Em. injection Em as <-. cbn in HE. symmetry in HE.
    apply app_eq_nil in HE as [HE _]. eapply Hne; eauto.
  - cbn [mapM] in El. bind_inv El. injection El as <-. destruct m as [|b m].
    + cbn in Em. injection Em as <-. cbn in HE. apply app_eq_nil in HE as [HE _]. exfalso; eapply Hne; eauto.
    + cbn [mapM] in Em. bind_inv Em. injection Em as <-. cbn [concat] in HE.
      inversion Wl; inversion Wm; subst.
      destruct (codec_inj _ _ _ C a b _ _ _ _ H1 H5 E E1 HE) as (-> & _ & HE').
      f_equal. eapply IH; eauto.
Qed.

Lemma ZERO_len : zlen ZERO = 32.
Proof. reflexivity. Qed.

Lemma outpoint_wf_of i : input_wf i ->
  (bytes_ok (fst (outpoint i)) = true /\ zlen (fst (outpoint i)) = 32) /\ uint_range 4 (snd (outpoint i)).
Proof. intros (A & B & C & _). cbn. repeat split; auto; apply C. Qed.
Lemma Forall_map {A B} (f : A -> B) (P : B -> Prop) l : Forall (fun x => P (f x)) l -> Forall P (map f l).
Proof. induction 1; cbn; constructor; auto. Qed.

Section Binding.
  Variable H : bytes -> bytes.
  Hypothesis Hlen : forall x, zlen (H x) = 32.

  Lemma binding_core v1 l1 h1 w1 s1 op1 q1 ops1 qs1 outs1 out1 v2 l2 h2 w2 s2 op2 q2 ops2 qs2 outs2 out2 p :
    preimage_of H v1 l1 h1 w1 s1 op1 q1 ops1 qs1 outs1 out1 = Ok p ->
    preimage_of H v2 l2 h2 w2 s2 op2 q2 ops2 qs2 outs2 out2 = Ok p ->
    (bytes_ok (fst op1) = true /\ zlen (fst op1) = 32) /\ uint_range 4 (snd op1) ->
    (bytes_ok (fst op2) = true /\ zlen (fst op2) = 32) /\ uint_range 4 (snd op2) ->
    varbytes_wf s1 -> varbytes_wf s2 ->
    v1 = v2 /\ l1 = l2 /\ h1 = h2 /\ w1 = w2 /\ s1 = s2 /\ op1 = op2 /\ q1 = q2 /\
    (acp_of h1 = false -> exists x y, mapM pack_outpoint ops1 = Ok x /\ mapM pack_outpoint ops2 = Ok y /\ H (concat x) = H (concat y)) /\
    (acp_of h1 = false -> ~ is_none_or_single h1 -> exists x y, mapM pack_le_uint32 qs1 = Ok x /\ mapM pack_le_uint32 qs2 = Ok y /\ H (concat x) = H (concat y)) /\
    (~ is_none_or_single h1 -> exists x y, mapM output_to_bytes outs1 = Ok x /\ mapM output_to_bytes outs2 = Ok y /\ H (concat x) = H (concat y)) /\
    (base_of h1 = 3 -> exists x y,
       (match out1 with Some o => exists b, output_to_bytes o = Ok b /\ x = H b | None => x = ZERO end) /\
       (match out2 with Some o => exists b, output_to_bytes o = Ok b /\ y = H b | None => y = ZERO end) /\ x = y).
  Proof.
    intros E1 E2 O1 O2 S1 S2. unfold preimage_of in E1, E2.
    apply bind_Ok in E1 as (hp1 & Ehp1 & E1). apply bind_Ok in E1 as (hs1 & Ehs1 & E1).
    apply bind_Ok in E1 as (ho1 & Eho1 & E1). apply bind_Ok in E1 as (xv1 & Ev1 & E1).
    apply bind_Ok in E1 as (ti1 & Eti1 & E1). apply bind_Ok in E1 as (xl1 & El1 & E1).
    apply bind_Ok in E1 as (xh1 & Eh1 & E1). injection E1 as E1.
    apply bind_Ok in Eti1 as (xo1 & Eo1 & Eti1). apply bind_Ok in Eti1 as (xs1 & Es1 & Eti1).
    apply bind_Ok in Eti1 as (xw1 & Ew1 & Eti1). apply bind_Ok in Eti1 as (xq1 & Eq1 & Eti1).
    injection Eti1 as <-.
    apply bind_Ok in E2 as (hp2 & Ehp2 & E2). apply bind_Ok in E2 as (hs2 & Ehs2 & E2).
    apply bind_Ok in E2 as (ho2 & Eho2 & E2). apply bind_Ok in E2 as (xv2 & Ev2 & E2).
    apply bind_Ok in E2 as (ti2 & Eti2 & E2). apply bind_Ok in E2 as (xl2 & El2 & E2).
    apply bind_Ok in E2 as (xh2 & Eh2 & E2). injection E2 as E2.
    apply bind_Ok in Eti2 as (xo2 & Eo2 & Eti2). apply bind_Ok in Eti2 as (xs2 & Es2 & Eti2).
    apply bind_Ok in Eti2 as (xw2 & Ew2 & Eti2). apply bind_Ok in Eti2 as (xq2 & Eq2 & Eti2).
    injection Eti2 as <-.
    rewrite <- E2 in E1. clear E2 p.
    assert (Lhp : forall h ops hp, (if negb (acp_of h) then l <- mapM pack_outpoint ops ;; Ok (H (concat l)) else Ok ZERO) = Ok hp -> zlen hp = 32).
    { intros h ops hp HH. destruct (negb (acp_of h)); [bind_inv HH|]; injection HH as <-; auto using ZERO_len. }
    assert (Lhs : forall (b : bool) qs hs, (if b then l <- mapM pack_le_uint32 qs ;; Ok (H (concat l)) else Ok ZERO) = Ok hs -> zlen hs = 32).
    { intros b qs hs HH. destruct b; [bind_inv HH|]; injection HH as <-; auto using ZERO_len. }
    assert (Lho : forall (b b' : bool) outs (out : option tx_output) ho, (if b then l <- mapM output_to_bytes outs ;; Ok (H (concat l))
         else if b' then match out with Some o => b <- output_to_bytes o ;; Ok (H b) | None => Ok ZERO end else Ok ZERO) = Ok ho -> zlen ho = 32).
    { intros b b' outs out ho HH. destruct b; [bind_inv HH; injection HH as <-; auto|].
      destruct b'; [|injection HH as <-; auto using ZERO_len].
      destruct out; [bind_inv HH|]; injection HH as <-; auto using ZERO_len. }
    (* peel the concatenation *)
    pose proof (pack_int_le_inv 4 _ _ ltac:(lia) Ev1) as [Rv1 _].
    pose proof (pack_int_le_inv 4 _ _ ltac:(lia) Ev2) as [Rv2 _].
    destruct (codec_inj _ _ _ int32_codec _ _ _ _ _ _ Rv1 Rv2 Ev1 Ev2 E1) as (-> & _ & E1a). clear E1.
    apply app_inj_len in E1a as [Ehp E1a]; [|rewrite (Lhp _ _ _ Ehp1), (Lhp _ _ _ Ehp2); auto].
    apply app_inj_len in E1a as [Ehs E1a]; [|rewrite (Lhs _ _ _ Ehs1), (Lhs _ _ _ Ehs2); auto].
    rewrite <- !app_assoc in E1a.
    destruct (codec_inj _ _ _ outpoint_codec _ _ _ _ _ _ O1 O2 Eo1 Eo2 E1a) as (-> & _ & E1b).
    destruct (codec_inj _ _ _ varbytes_codec _ _ _ _ _ _ S1 S2 Es1 Es2 E1b) as (-> & _ & E1c).
    pose proof (pack_int_le_inv 8 _ _ ltac:(lia) Ew1) as [Rw1 _].
    pose proof (pack_int_le_inv 8 _ _ ltac:(lia) Ew2) as [Rw2 _].
    destruct (codec_inj _ _ _ int64_codec _ _ _ _ _ _ Rw1 Rw2 Ew1 Ew2 E1c) as (-> & _ & E1d).
    pose proof (pack_uint_le_inv 4 _ _ Eq1) as [Rq1 _].
    pose proof (pack_uint_le_inv 4 _ _ Eq2) as [Rq2 _].
    destruct (codec_inj _ _ _ uint32_codec _ _ _ _ _ _ Rq1 Rq2 Eq1 Eq2 E1d) as (-> & _ & E1e).
    apply app_inj_len in E1e as [Eho E1e]; [|rewrite (Lho _ _ _ _ _ Eho1), (Lho _ _ _ _ _ Eho2); auto].
    pose proof (pack_uint_le_inv 4 _ _ El1) as [Rl1 _].
    pose proof (pack_uint_le_inv 4 _ _ El2) as [Rl2 _].
    destruct (codec_inj _ _ _ uint32_codec _ _ _ _ _ _ Rl1 Rl2 El1 El2 E1e) as (-> & _ & E1f).
    pose proof (pack_uint_le_inv 4 _ _ Eh1) as [Rh1 _].
    pose proof (pack_uint_le_inv 4 _ _ Eh2) as [Rh2 _].
    assert (E1g : xh1 ++ [] = xh2 ++ []) by (rewrite !app_nil_r; auto).
    destruct (codec_inj _ _ _ uint32_codec _ _ _ _ _ _ Rh1 Rh2 Eh1 Eh2 E1g) as (-> & _ & _).
    repeat (split; [reflexivity|]). subst hp2 hs2 ho2.
    split; [|split; [|split]].
    - intros Ha. rewrite Ha in Ehp1, Ehp2. cbn [negb] in *. bind_inv Ehp1. bind_inv Ehp2.
      injection Ehp1 as <-. injection Ehp2 as Ehp2. eauto 8.
    - intros Ha Hb. rewrite Ha in Ehs1, Ehs2. unfold is_none_or_single in Hb.
      replace (negb ((base_of h2 =? 3) || (base_of h2 =? 2))) with true in Ehs1, Ehs2 by lia.
      cbn [negb andb] in *. bind_inv Ehs1. bind_inv Ehs2.
      injection Ehs1 as <-. injection Ehs2 as Ehs2. eauto 8.
    - intros Hb. unfold is_none_or_single in Hb.
      replace (negb ((base_of h2 =? 3) || (base_of h2 =? 2))) with true in Eho1, Eho2 by lia.
      bind_inv Eho1. bind_inv Eho2.
      injection Eho1 as <-. injection Eho2 as Eho2. eauto 8.
    - intros Hb. rewrite Hb in Eho1, Eho2. cbn [Z.eqb Pos.eqb orb negb] in Eho1, Eho2.
      exists ho1, ho1. split; [|split; auto].
      + destruct out1; [bind_inv Eho1|]; injection Eho1 as <-; eauto.
      + destruct out2; [bind_inv Eho2|]; injection Eho2 as <-; eauto.
  Qed.

  Lemma signature_hash_binds c d hash :
    call_wf c -> call_wf d ->
    collision_free H (hashed_strings H c ++ hashed_strings H d) ->
    signature_hash H (c_tx c) (c_index c) (c_value c) (c_script c) (c_sighash c) = Ok hash ->
    signature_hash H (c_tx d) (c_index d) (c_value d) (c_script d) (c_sighash d) = Ok hash ->
    same_commitment c d.
  Proof.
    intros (Tc & Ic & Vc & Sc & Hc) (Td & Id & Vd & Sd & Hd) [CF NZ] E1 E2.
    unfold signature_hash in E1, E2. apply bind_Ok in E1 as (p1 & P1 & E1). apply bind_Ok in E2 as (p2 & P2 & E2).
    injection E1 as E1. injection E2 as E2.
    assert (p1 = p2) as <-.
    { apply CF; [| |congruence].
      - apply in_or_app; left. unfold hashed_strings. rewrite P1. left; auto.
      - apply in_or_app; right. unfold hashed_strings. rewrite P2. left; auto. }
    unfold call_index_ok in *.
    destruct (pyindex_nth _ _ Ic) as (x & _ & Hx), (pyindex_nth _ _ Id) as (y & _ & Hy).
    pose proof P1 as P1'. pose proof P2 as P2'.
    rewrite (signature_preimage_of H _ _ _ _ _ x) in P1' by (auto; lia).
    rewrite (signature_preimage_of H _ _ _ _ _ y) in P2' by (auto; lia).
    destruct Tc as (Tv & (Ti & Til) & (To & Tol) & Tl), Td as (Uv & (Ui & Uil) & (Uo & Uol) & Ul).
    assert (Wx : input_wf x) by (rewrite Forall_forall in Ti; eapply Ti, nth_error_In; eauto).
    assert (Wy : input_wf y) by (rewrite Forall_forall in Ui; eapply Ui, nth_error_In; eauto).
    destruct (binding_core _ _ _ _ _ _ _ _ _ _ _ _ _ _ _ _ _ _ _ _ _ _ _ P1' P2'
      (outpoint_wf_of _ Wx) (outpoint_wf_of _ Wy) Sc Sd)
      as (R1 & R2 & R3 & R4 & R5 & R6 & R7 & R8 & R9 & R10 & R11).
    unfold same_commitment, signed_input. rewrite Hx, Hy. cbn [option_map].
    split; [auto|]. split; [auto|]. split; [auto|]. split; [auto|]. split; [auto|].
    split; [congruence|]. split; [congruence|].
    split; [|split; [|split]].
    - intros Ha. destruct (R8 Ha) as (b1 & b2 & M1 & M2 & HH).
      assert (concat b1 = concat b2) as HE.
      { rewrite <- prevouts_map in M1, M2. apply CF; auto; apply in_or_app; [left|right]; unfold hashed_strings;
        apply in_or_app; right; apply in_or_app; left; rewrite ?M1, ?M2; left; auto. }
      refine (concat_inj _ _ _ outpoint_codec _ _ _ _ _ _ _ M1 M2 HE).
      + intros op b HB. unfold pack_outpoint in HB. bind_inv HB. injection HB as <-.
        apply uint32_len in E. intros HN. apply app_eq_nil in HN as [_ ->]. discriminate.
      + apply Forall_map. eapply Forall_impl; [|exact Ti]. apply outpoint_wf_of.
      + apply Forall_map. eapply Forall_impl; [|exact Ui]. apply outpoint_wf_of.
    - intros Ha Hb. destruct (R9 Ha Hb) as (b1 & b2 & M1 & M2 & HH).
      assert (concat b1 = concat b2) as HE.
      { rewrite <- sequences_map in M1, M2. apply CF; auto; apply in_or_app; [left|right]; unfold hashed_strings;
        apply in_or_app; right; apply in_or_app; right; apply in_or_app; left; rewrite ?M1, ?M2; left; auto. }
      refine (concat_inj _ _ _ uint32_codec _ _ _ _ _ _ _ M1 M2 HE).
      + intros op b HB HN. apply uint32_len in HB. subst b. discriminate.
      + apply Forall_map. eapply Forall_impl; [|exact Ti]. intros i (_ & _ & _ & _ & Hq). exact Hq.
      + apply Forall_map. eapply Forall_impl; [|exact Ui]. intros i (_ & _ & _ & _ & Hq). exact Hq.
    - intros Hb. destruct (R10 Hb) as (b1 & b2 & M1 & M2 & HH).
      assert (concat b1 = concat b2) as HE.
      { apply CF; auto; apply in_or_app; [left|right]; unfold hashed_strings;
        apply in_or_app; right; apply in_or_app; right; apply in_or_app; right;
        apply in_or_app; left; rewrite ?M1, ?M2; left; auto. }
      refine (concat_inj _ _ _ output_codec _ _ _ _ _ _ _ M1 M2 HE); auto.
      intros op b HB HN. unfold output_to_bytes in HB. bind_inv HB. injection HB as <-.
      apply int64_len in E. apply app_eq_nil in HN as [-> _]. discriminate.
    - intros Hb. destruct (R11 Hb) as (h1 & h2 & M1 & M2 & HH). subst h2.
      assert (Hin : forall c0 o b, nth_error (outputs (c_tx c0)) (Z.to_nat (c_index c0)) = Some o -> output_to_bytes o = Ok b ->
        In b (hashed_strings H c0)).
      { intros c0 o b N B. unfold hashed_strings. rewrite N, B.
        apply in_or_app; right; apply in_or_app; right; apply in_or_app; right; apply in_or_app; right. left; auto. }
      destruct (nth_error (outputs (c_tx c)) (Z.to_nat (c_index c))) as [o1|] eqn:N1;
      destruct (nth_error (outputs (c_tx d)) (Z.to_nat (c_index d))) as [o2|] eqn:N2; auto.
      + destruct M1 as (b1 & B1 & ->), M2 as (b2 & B2 & HH).
        assert (b1 = b2) as <-.
        { apply CF; auto; apply in_or_app; [left|right]; eapply Hin; eauto. }
        f_equal. rewrite Forall_forall in To, Uo.
        assert (W1 : output_wf o1) by (eapply To, nth_error_In; eauto).
        assert (W2 : output_wf o2) by (eapply Uo, nth_error_In; eauto).
        destruct (codec_inj _ _ _ output_codec o1 o2 b1 b1 [] [] W1 W2 B1 B2 eq_refl) as (-> & _); auto.
      + destruct M1 as (b1 & B1 & ->). exfalso. eapply (NZ b1); [|exact M2].
        apply in_or_app; left; eapply Hin; eauto.
      + destruct M2 as (b1 & B1 & ->). exfalso. eapply (NZ b1); [|exact M1].
        apply in_or_app; right; eapply Hin; eauto.
  Qed.
End Binding.

(** ** When it raises *)
Lemma signature_hash_errors H t i v s h : tx_wf t -> script_wf s ->
  (signature_hash H t i v s h = Err IndexError <-> ~ (0 <= i < zlen (inputs t))) /\
  (signature_hash H t i v s h = Err ValueError <-> 0 <= i < zlen (inputs t) /\ v < 0) /\
  (signature_hash H t i v s h = Err StructError <->
     0 <= i < zlen (inputs t) /\ 0 <= v /\ (2 ^ 63 <= v \/ h < 0 \/ 2 ^ 32 <= h)) /\
  ((exists x, signature_hash H t i v s h = Ok x) <->
     0 <= i < zlen (inputs t) /\ 0 <= v < 2 ^ 63 /\ 0 <= h < 2 ^ 32).
Proof.
  intros (Tv & (Ti & Til) & (To & Tol) & Tl) Hs.
  assert (Hcase :
    (~ (0 <= i < zlen (inputs t)) /\ signature_hash H t i v s h = Err IndexError) \/
    (0 <= i < zlen (inputs t) /\ v < 0 /\ signature_hash H t i v s h = Err ValueError) \/
    (0 <= i < zlen (inputs t) /\ 0 <= v /\ (2 ^ 63 <= v \/ h < 0 \/ 2 ^ 32 <= h) /\
       signature_hash H t i v s h = Err StructError) \/
    (0 <= i < zlen (inputs t) /\ 0 <= v < 2 ^ 63 /\ 0 <= h < 2 ^ 32 /\
       exists x, signature_hash H t i v s h = Ok x)).
  { destruct (Z.leb_spec 0 i) as [Hi1|Hi1]; [destruct (Z.ltb_spec i (zlen (inputs t))) as [Hi2|Hi2]|].
    2,3: left; (split; [lia|]); unfold signature_hash, signature_preimage;
         replace ((0 <=? i) && (i <? zlen (inputs t))) with false by lia; reflexivity.
    right. destruct (Z.ltb_spec v 0) as [Hv|Hv].
    { left. split; [lia|]. split; [auto|]. unfold signature_hash, signature_preimage.
      replace ((0 <=? i) && (i <? zlen (inputs t))) with true by lia.
      replace (v <? 0) with true by lia. reflexivity. }
    right. destruct (pyindex_nth (inputs t) i) as (x & _ & Hx); [lia|].
    assert (Wx : input_wf x) by (rewrite Forall_forall in Ti; eapply Ti, nth_error_In; eauto).
    unfold signature_hash. rewrite (signature_preimage_of H t i v s h x) by (auto; lia).
    unfold preimage_of.
    destruct (items_enc _ _ _ outpoint_codec (map outpoint (inputs t))) as (b1 & -> & _).
    { apply Forall_map. eapply Forall_impl; [|exact Ti]. apply outpoint_wf_of. }
    destruct (items_enc _ _ _ uint32_codec (map sequence (inputs t))) as (b2 & -> & _).
    { apply Forall_map. eapply Forall_impl; [|exact Ti]. intros j (_ & _ & _ & _ & Hq). exact Hq. }
    destruct (items_enc _ _ _ output_codec (outputs t) To) as (b3 & -> & _).
    destruct (c_enc outpoint_codec (outpoint x) (outpoint_wf_of _ Wx)) as (b4 & -> & _).
    destruct (c_enc varbytes_codec s Hs) as (b5 & -> & _).
    destruct (c_enc uint32_codec (sequence x)) as (b6 & -> & _); [apply Wx|].
    destruct (c_enc uint32_codec (locktime t)) as (b7 & -> & _); [apply Tl|].
    destruct (c_enc int32_codec (version t)) as (b8 & -> & _); [apply Tv|].
    cbn [bind].
    assert (Hho : exists ho, (if negb ((base_of h =? 3) || (base_of h =? 2)) then Ok (H (concat b3))
       else if base_of h =? 3 then match nth_error (outputs t) (Z.to_nat i) with
              | Some o => b <- output_to_bytes o;; Ok (H b) | None => Ok ZERO end else Ok ZERO) = Ok ho).
    { destruct (negb _); [eauto|]. destruct (base_of h =? 3); [|eauto].
      destruct (nth_error (outputs t) (Z.to_nat i)) as [o|] eqn:N; [|eauto].
      destruct (c_enc output_codec o) as (b & -> & _); [|cbn; eauto].
      rewrite Forall_forall in To. eapply To, nth_error_In; eauto. }
    destruct Hho as [ho Hho]. rewrite Hho.
    destruct (negb (acp_of h)); destruct (negb ((base_of h =? 3) || (base_of h =? 2))); cbn [bind andb];
    (destruct (Z.leb_spec (2 ^ 63) v);
      [left; repeat (split; [auto; lia|]);
       unfold pack_le_int64, pack_int_le; change (8 * Z.of_nat 8 - 1) with 63;
       replace ((v <? - 2 ^ 63) || (2 ^ 63 <=? v)) with true by lia; reflexivity|]);
    (destruct (c_enc int64_codec v) as (b9 & -> & _); [apply sint_range_8; lia|]); cbn [bind];
    (destruct ((h <? 0) || (2 ^ 32 <=? h)) eqn:EH;
     [left; split; [lia|]; split; [lia|]; split; [lia|]; unfold pack_le_uint32, pack_uint_le;
      change (8 * Z.of_nat 4) with 32; rewrite EH; reflexivity|
      right; split; [lia|]; split; [lia|]; split; [lia|];
      destruct (c_enc uint32_codec h) as (b10 & -> & _); [apply uint_range_4; lia|]; cbn [bind]; eauto]). }
  destruct Hcase as [[A E]|[[A [B E]]|[[A [B [C E]]]|[A [B [C [x E]]]]]]]; rewrite E;
  (split; [|split; [|split]]); (split; intros HH; try discriminate; try lia; auto;
   try (destruct HH; discriminate); eauto).
Qed.
Lemma signature_hash_len (H : bytes -> bytes) t i v s h x : (forall y, zlen (H y) = 32) ->
  signature_hash H t i v s h = Ok x -> zlen x = 32.
Proof. intros HL E. unfold signature_hash in E. bind_inv E. injection E as <-. auto. Qed.
