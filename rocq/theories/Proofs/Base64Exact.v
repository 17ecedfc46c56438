(** Base64 is what the standard says. *)
From Verif.Model Require Import Py Text Base64.
From Verif.Spec Require Import Numbers Base64Spec.
From Verif.Proofs Require Import PyFacts NumbersFacts Digits DerFacts KeysFacts Base64Facts.

Lemma digit_char v : 0 <= v < 64 -> b64_digit v (b64_char v).
Proof.
  intros Hv. assert (HA : forallb (fun v => if v <? 26 then b64_char v =? v + 65 else if v <? 52 then b64_char v =? v - 26 + 97 else if v <? 62 then b64_char v =? v - 52 + 48 else b64_char v =? (if v =? 62 then 43 else 47)) (zrange 0 64) = true) by (vm_compute; reflexivity).
  rewrite forallb_forall in HA. assert (HI : In v (zrange 0 64)) by (unfold zrange; change (Z.to_nat (64 - 0)) with 64%nat; cbn [zrange_nat In]; lia). specialize (HA v HI). cbv beta in HA. unfold b64_digit.
  destruct (Z.ltb_spec v 26); [left; lia|]. destruct (Z.ltb_spec v 52); [right; left; lia|]. destruct (Z.ltb_spec v 62); [do 2 right; left; lia|]. destruct (Z.eqb_spec v 62); [do 3 right; left; lia|do 4 right; lia].
Qed.
Lemma digit_range v c : b64_digit v c -> 0 <= v < 64. Proof. unfold b64_digit. lia. Qed.
Lemma digit_fun v c c' : b64_digit v c -> b64_digit v c' -> c = c'. Proof. unfold b64_digit. lia. Qed.
Lemma find_char_nth l c v : find_char l c = Some v -> znth l v = Some c.
Proof.
  revert v. induction l as [|x l IH]; intros v; [discriminate|]. cbn [find_char]. destruct (Z.eqb_spec x c) as [->|].
  - intros HE. injection HE as <-. reflexivity.
  - destruct (find_char l c) as [w|] eqn:E; [|discriminate]. intros HE. injection HE as <-. pose proof (find_char_range _ _ _ E). specialize (IH w eq_refl). cbn [znth]. destruct (Z.eqb_spec (Z.succ w) 0); [lia|]. destruct (Z.ltb_spec (Z.succ w) 0); [lia|]. replace (Z.succ w - 1) with w by lia. exact IH.
Qed.
Lemma b64_val_iff c v : b64_val c = Some v <-> b64_digit v c.
Proof.
  split.
  - intros HE. unfold b64_val in HE. pose proof (find_char_range _ _ _ HE) as HR. apply find_char_nth in HE. change (zlen b64_alphabet) with 64 in HR. pose proof (digit_char v HR) as HD. unfold b64_char in HD. rewrite HE in HD. exact HD.
  - intros HD. pose proof (digit_range _ _ HD) as HR. rewrite (digit_fun _ _ _ HD (digit_char v HR)). now apply b64_char_facts.
Qed.

Lemma vbe64 ds : fold_left (fun a d => 64 * a + d) ds 0 = vbe 64 ds.
Proof. unfold vbe. generalize 0 as a. induction ds as [|d ds IH]; intros a; [reflexivity|]. cbn [fold_left]. rewrite IH. f_equal. lia. Qed.
Lemma val_be_cons x b : val_be (x :: b) = x * 256 ^ zlen b + val_be b.
Proof. rewrite !val_be_int, <- !vbe_256. change (x :: b) with ([x] ++ b). rewrite vbe_app by lia. cbn. lia. Qed.
Lemma vbe_cons x b : vbe 64 (x :: b) = x * 64 ^ zlen b + vbe 64 b.
Proof. change (x :: b) with ([x] ++ b). rewrite vbe_app by lia. cbn. lia. Qed.

(** Bits waiting in the loop *)
Definition waiting (q : Z) : Z := if q =? 0 then 0 else 8 - 2 * q.
Lemma waiting_nonneg m : 0 <= waiting (m mod 4).
Proof. unfold waiting. pose proof (Z.mod_pos_bound m 4 ltac:(lia)). destruct (Z.eqb_spec (m mod 4) 0); lia. Qed.
Lemma step_value w n L B lc' x lc v V rest b : 0 <= n -> 0 <= L -> 0 <= w -> w + 6 * L = 8 * B + n -> 0 <= B -> lc * 64 + v = x * 2 ^ w + lc' -> lc' * 64 ^ L + V = b * 2 ^ n + rest ->
  lc * (64 * 64 ^ L) + (v * 64 ^ L + V) = (x * 256 ^ B + b) * 2 ^ n + rest.
Proof.
  intros Hn HL Hw HE HB H1 H2. assert (2 ^ w * 64 ^ L = 256 ^ B * 2 ^ n) as HP by (change 64 with (2 ^ 6); change 256 with (2 ^ 8); rewrite <- !Z.pow_mul_r, <- !Z.pow_add_r by lia; f_equal; lia).
  replace (lc * (64 * 64 ^ L) + (v * 64 ^ L + V)) with ((lc * 64 + v) * 64 ^ L + V) by ring. rewrite H1. replace ((x * 2 ^ w + lc') * 64 ^ L + V) with (x * (2 ^ w * 64 ^ L) + (lc' * 64 ^ L + V)) by ring. rewrite HP, H2. ring.
Qed.
Lemma a2b_value l : forall q lc, Forall (fun v => 0 <= v < 64) l -> 0 <= q < 4 -> 0 <= lc < 2 ^ waiting q ->
  exists n rest, waiting q + 6 * zlen l = 8 * zlen (a2b q lc l) + n /\ n = waiting ((q + zlen l) mod 4) /\ 0 <= rest < 2 ^ n /\ lc * 64 ^ zlen l + vbe 64 l = val_be (a2b q lc l) * 2 ^ n + rest.
Proof.
  induction l as [|v l IH]; intros q lc HF Hq Hlc.
  - exists (waiting q), lc. cbn [a2b]. change (zlen (@nil Z)) with 0. rewrite Z.add_0_r, Z.mod_small by lia. repeat split; try lia; [now rewrite Z.add_0_r|]. change (64 ^ 0) with 1. change (vbe 64 []) with 0. change (val_be []) with 0. lia.
  - inversion HF as [|? ? Hv HF']; subst. rewrite zlen_cons, vbe_cons. pose proof (zlen_nonneg l) as HL. rewrite Z.pow_add_r by lia. change (64 ^ 1) with 64. cbn [a2b].
    assert (q = 0 \/ q = 1 \/ q = 2 \/ q = 3) as [->|[->|[->| ->]]] by lia; cbn [Z.eqb Pos.eqb]; unfold waiting in Hlc; cbn in Hlc.
    + destruct (IH 1 v HF' ltac:(lia) ltac:(cbn; lia)) as (n & rest & E1 & E2 & E3 & E4). exists n, rest. change (waiting 0) with 0. change (waiting 1) with 6 in E1. split; [lia|]. split; [rewrite E2; do 2 f_equal; lia|]. split; [exact E3|]. lia.
    + destruct (IH 2 (v mod 16) HF' ltac:(lia) ltac:(cbn; lia)) as (n & rest & E1 & E2 & E3 & E4). exists n, rest. change (waiting 1) with 6. change (waiting 2) with 4 in E1. rewrite zlen_cons, val_be_cons. split; [lia|]. split; [rewrite E2; do 2 f_equal; lia|]. split; [exact E3|].
      apply (step_value 4 n (zlen l) _ (v mod 16)); try assumption; try lia; [subst n; apply waiting_nonneg|apply zlen_nonneg].
    + destruct (IH 3 (v mod 4) HF' ltac:(lia) ltac:(cbn; lia)) as (n & rest & E1 & E2 & E3 & E4). exists n, rest. change (waiting 2) with 4. change (waiting 3) with 2 in E1. rewrite zlen_cons, val_be_cons. split; [lia|]. split; [rewrite E2; do 2 f_equal; lia|]. split; [exact E3|].
      apply (step_value 2 n (zlen l) _ (v mod 4)); try assumption; try lia; [subst n; apply waiting_nonneg|apply zlen_nonneg].
    + destruct (IH 0 0 HF' ltac:(lia) ltac:(cbn; lia)) as (n & rest & E1 & E2 & E3 & E4). exists n, rest. change (waiting 3) with 2. change (waiting 0) with 0 in E1. rewrite zlen_cons, val_be_cons. split; [lia|]. split; [rewrite E2; f_equal; replace (3 + (1 + zlen l)) with (0 + zlen l + 1 * 4) by lia; now rewrite Z.mod_add by lia|]. split; [exact E3|].
      apply (step_value 0 n (zlen l) _ 0); try assumption; try lia; [subst n; apply waiting_nonneg|apply zlen_nonneg].
Qed.

Lemma span_digits ds cs t : Forall2 b64_digit ds cs -> match t with [] => True | c :: _ => b64_val c = None end -> b64_span (cs ++ t) = (ds, t).
Proof.
  intros HF HT. induction HF as [|v c ds cs HD HF IH]; cbn [app].
  - destruct t as [|c t]; [reflexivity|]. cbn [b64_span]. now rewrite HT.
  - cbn [b64_span]. apply b64_val_iff in HD. rewrite HD, IH. reflexivity.
Qed.
Lemma digits_span s : exists cs, s = cs ++ snd (b64_span s) /\ Forall2 b64_digit (fst (b64_span s)) cs.
Proof.
  induction s as [|c s IH]; [exists []; split; [reflexivity|constructor]|]. cbn [b64_span]. destruct (b64_val c) as [v|] eqn:E.
  - destruct (b64_span s) as [l t]. cbn [fst snd] in *. destruct IH as (cs & -> & HF). exists (c :: cs). split; [reflexivity|]. constructor; [now apply b64_val_iff|exact HF].
  - exists []. split; [reflexivity|constructor].
Qed.
Lemma pad_no_digit pad : match zrepeat 61 pad with [] => True | c :: _ => b64_val c = None end.
Proof. unfold zrepeat. destruct (Z.to_nat pad); [exact I|reflexivity]. Qed.
Lemma digits_ascii ds cs pad : Forall2 b64_digit ds cs -> ascii_ok (cs ++ zrepeat 61 pad) = true.
Proof.
  intros HF. unfold ascii_ok. apply forallb_forall. intros c Hc. apply in_app_or in Hc as [Hc|Hc].
  - induction HF as [|v d ds cs HD HF IH]; [contradiction|]. destruct Hc as [->|Hc]; [unfold b64_digit in HD; lia|auto].
  - apply repeat_spec in Hc. subst c. reflexivity.
Qed.
Lemma digits_range ds cs : Forall2 b64_digit ds cs -> Forall (fun v => 0 <= v < 64) ds /\ zlen ds = zlen cs.
Proof. induction 1 as [|v c ds cs HD HF [IH1 IH2]]; [split; [constructor|reflexivity]|]. split; [constructor; [exact (digit_range v c HD)|exact IH1]|]. rewrite !zlen_cons. lia. Qed.
Lemma bits_bytes b ds rest : Forall (fun v => 0 <= v < 64) ds -> bytes_ok b = true -> b64_bits b ds rest -> a2b 0 0 ds = b.
Proof.
  intros HF HB (n & E1 & E2 & E3 & E4). destruct (a2b_value ds 0 0 HF ltac:(lia) ltac:(cbn; lia)) as (n' & rest' & E1' & E2' & E3' & E4'). change (waiting 0) with 0 in E1'.
  assert (n' <= 6 /\ 0 <= n') as HN by (subst n'; unfold waiting; pose proof (Z.mod_pos_bound (0 + zlen ds) 4 ltac:(lia)); destruct (Z.eqb_spec ((0 + zlen ds) mod 4) 0); lia).
  assert (n' = n /\ zlen (a2b 0 0 ds) = zlen b) as [-> HL] by lia. rewrite vbe64 in E4. rewrite E4, Z.mul_0_l, Z.add_0_l in E4'.
  apply be_int_inj; [apply a2b_ok; auto|exact HB|exact HL|]. rewrite <- !val_be_int. assert (0 < 2 ^ n) by (apply Z.pow_pos_nonneg; lia). nia.
Qed.
Lemma bytes_bits ds : Forall (fun v => 0 <= v < 64) ds -> zlen ds mod 4 <> 1 -> exists rest, b64_bits (a2b 0 0 ds) ds rest.
Proof.
  intros HF HM. destruct (a2b_value ds 0 0 HF ltac:(lia) ltac:(cbn; lia)) as (n & rest & E1 & E2 & E3 & E4). exists rest, n. change (waiting 0) with 0 in E1. rewrite vbe64. split; [lia|]. split; [|split; [exact E3|lia]].
  subst n. rewrite Z.add_0_l. unfold waiting. pose proof (Z.mod_pos_bound (zlen ds) 4 ltac:(lia)). destruct (Z.eqb_spec (zlen ds mod 4) 0); lia.
Qed.
Lemma bits_mod b ds rest : b64_bits b ds rest -> zlen ds mod 4 <> 1.
Proof. intros (n & E1 & E2 & _) HM. pose proof (Z.div_mod (zlen ds) 4 ltac:(lia)). lia. Qed.

(** Decoding *)
Lemma b64decode_exact ex t b : b64decode ex t = Ok b <-> bytes_ok b = true /\ exists rest cs pad, base64_text b rest cs pad t /\ 0 <= pad <= 2 /\
  (zlen t mod 4 = 0 \/ (4 * ((zlen cs + 3) / 4) < zlen t /\ ex (zlen cs) pad = true)).
Proof.
  split.
  - intros HE. split; [exact (b64_bytes ex t b HE)|]. unfold b64decode in HE. destruct (forallb _ t); [|discriminate]. cbn [negb] in HE. destruct (digits_span t) as (cs & HT & HF). destruct (b64_span t) as [l r]. cbn [fst snd] in *.
    destruct (bytes_eqb r (zrepeat 61 (zlen r))) eqn:EP; [|discriminate]. destruct (Z.leb_spec (zlen r) 2) as [HP|]; [|discriminate]. cbn [andb negb] in HE. apply bytes_eqb_eq in EP. destruct (digits_range _ _ HF) as [HR HL].
    destruct (Z.eqb_spec (zlen l mod 4) 1) as [|H1]; [discriminate|]. cbn [orb] in HE. destruct (Z.ltb_spec (zlen r) (if zlen l mod 4 =? 0 then 0 else 4 - zlen l mod 4)) as [|HN]; [discriminate|].
    destruct ((if zlen l mod 4 =? 0 then 0 else 4 - zlen l mod 4) <? zlen r) eqn:EX; cbn [andb] in HE.
    + destruct (ex (zlen l) (zlen r)) eqn:EE; [|discriminate]. cbn [negb] in HE. apply Ok_inj in HE. subst b. destruct (bytes_bits l HR H1) as [rest HB]. exists rest, cs, (zlen r). pose proof (zlen_nonneg r). split; [exists l; rewrite <- EP; auto|]. split; [lia|]. right. rewrite <- HL. split; [|exact EE].
      rewrite HT, zlen_app, <- HL. pose proof (Z.div_mod (zlen l) 4 ltac:(lia)). apply Z.ltb_lt in EX. destruct (Z.eqb_spec (zlen l mod 4) 0); lia.
    + apply Ok_inj in HE. subst b. destruct (bytes_bits l HR H1) as [rest HB]. exists rest, cs, (zlen r). pose proof (zlen_nonneg r). split; [exists l; rewrite <- EP; auto|]. split; [lia|]. left. rewrite HT, zlen_app, <- HL. apply Z.ltb_ge in EX. pose proof (Z.div_mod (zlen l) 4 ltac:(lia)). destruct (Z.eqb_spec (zlen l mod 4) 0); lia.
  - intros (HB & rest & cs & pad & (ds & HF & HX & ->) & HP & HM). unfold b64decode. fold (ascii_ok (cs ++ zrepeat 61 pad)). rewrite (digits_ascii ds cs pad HF). cbn [negb]. rewrite (span_digits ds cs _ HF (pad_no_digit pad)). destruct (digits_range _ _ HF) as [HR HL].
    rewrite zlen_app in HM. rewrite zlen_repeat in * by lia. rewrite bytes_eqb_refl. destruct (Z.leb_spec pad 2); [|lia]. cbn [andb negb]. pose proof (bits_mod _ _ _ HX) as H1. pose proof (Z.div_mod (zlen ds) 4 ltac:(lia)) as HD. pose proof (Z.mod_pos_bound (zlen ds) 4 ltac:(lia)) as HD2. rewrite <- HL in HM.
    destruct (Z.eqb_spec (zlen ds mod 4) 1) as [|_]; [lia|]. cbn [orb]. rewrite (bits_bytes b ds rest HR HB HX). destruct (Z.eqb_spec (zlen ds mod 4) 0) as [H0|H0].
    + destruct (Z.ltb_spec pad 0); [lia|]. destruct (Z.ltb_spec 0 pad) as [HH|HH]; cbn [andb]; [|reflexivity]. destruct HM as [HM|[_ ->]]; [exfalso; lia|reflexivity].
    + destruct HM as [HM|[HM HE]].
      * destruct (Z.ltb_spec pad (4 - zlen ds mod 4)) as [HH|HH]; [exfalso; lia|]. destruct (Z.ltb_spec (4 - zlen ds mod 4) pad) as [H3|H3]; [exfalso; lia|]. reflexivity.
      * rewrite HE, andb_false_r. destruct (Z.ltb_spec pad (4 - zlen ds mod 4)) as [HH|HH]; [exfalso; lia|]. reflexivity.
Qed.

(** Encoding *)
Lemma bits_group x y z r ds rest : 0 <= x < 256 -> 0 <= y < 256 -> 0 <= z < 256 -> b64_bits r ds rest ->
  b64_bits (x :: y :: z :: r) (x / 4 :: x mod 4 * 16 + y / 16 :: y mod 16 * 4 + z / 64 :: z mod 64 :: ds) rest.
Proof.
  intros Hx Hy Hz (n & E1 & E2 & E3 & E4). exists n. rewrite !zlen_cons. split; [lia|]. split; [exact E2|]. split; [exact E3|]. rewrite vbe64 in *.
  rewrite !vbe_cons, !val_be_cons, E4, !zlen_cons. pose proof (zlen_nonneg ds). pose proof (zlen_nonneg r).
  assert (64 ^ zlen ds = 256 ^ zlen r * 2 ^ n) as HP by (change 64 with (2 ^ 6); change 256 with (2 ^ 8); rewrite <- !Z.pow_mul_r, <- !Z.pow_add_r by lia; f_equal; lia).
  rewrite !(Z.pow_add_r 64), !(Z.pow_add_r 256) by lia. rewrite HP. generalize (256 ^ zlen r) as P. generalize (2 ^ n) as N. generalize (val_be r) as V. intros V N P. change (64 ^ 1) with 64. change (256 ^ 1) with 256.
  pose proof (Z.div_mod x 4 ltac:(lia)) as Dx. pose proof (Z.div_mod y 16 ltac:(lia)) as Dy. pose proof (Z.div_mod z 64 ltac:(lia)) as Dz. set (a := x / 4) in *. set (b := x mod 4) in *. set (c := y / 16) in *. set (d := y mod 16) in *. set (e := z / 64) in *. set (f := z mod 64) in *. rewrite Dx, Dy, Dz. ring.
Qed.
Lemma encode_text_facts : forall n b, (length b <= n)%nat -> bytes_ok b = true -> exists cs pad, base64_text b 0 cs pad (b64encode b) /\ zlen (b64encode b) mod 4 = 0 /\ 0 <= pad <= 2.
Proof.
  induction n as [|n IH]; intros b Hn HB.
  { destruct b; [|cbn in Hn; lia]. exists [], 0. split; [|split; [reflexivity|lia]]. exists []. split; [constructor|]. split; [|reflexivity]. exists 0. split; [reflexivity|]. split; [lia|]. split; [lia|reflexivity]. }
  destruct b as [|x [|y [|z r]]].
  - exists [], 0. split; [|split; [reflexivity|lia]]. exists []. split; [constructor|]. split; [|reflexivity]. exists 0. split; [reflexivity|]. split; [lia|]. split; [lia|reflexivity].
  - rewrite bytes_ok_cons in HB. apply andb_true_iff in HB as [Hx _]. apply byte_ok_iff in Hx. eexists [_; _], 2. split; [|split; [reflexivity|lia]]. exists [x / 4; x mod 4 * 16]. split; [repeat (apply Forall2_cons; [apply digit_char; lia|]); apply Forall2_nil|]. split; [|reflexivity].
    exists 4. rewrite vbe64, !vbe_cons, !val_be_cons. split; [reflexivity|]. split; [lia|]. split; [lia|]. change (vbe 64 []) with 0. change (val_be []) with 0. change (64 ^ zlen [x mod 4 * 16]) with 64. change (64 ^ zlen []) with 1. change (256 ^ zlen []) with 1. lia.
  - rewrite !bytes_ok_cons in HB. apply andb_true_iff in HB as [Hx HB]. apply andb_true_iff in HB as [Hy _]. apply byte_ok_iff in Hx, Hy. eexists [_; _; _], 1. split; [|split; [reflexivity|lia]]. exists [x / 4; x mod 4 * 16 + y / 16; y mod 16 * 4]. split; [repeat (apply Forall2_cons; [apply digit_char; lia|]); apply Forall2_nil|]. split; [|reflexivity].
    exists 2. rewrite vbe64, !vbe_cons, !val_be_cons. split; [reflexivity|]. split; [lia|]. split; [lia|]. change (vbe 64 []) with 0. change (val_be []) with 0. change (64 ^ zlen [x mod 4 * 16 + y / 16; y mod 16 * 4]) with 4096. change (64 ^ zlen [y mod 16 * 4]) with 64. change (64 ^ zlen []) with 1. change (256 ^ zlen [y]) with 256. change (256 ^ zlen []) with 1. lia.
  - rewrite !bytes_ok_cons in HB. apply andb_true_iff in HB as [Hx HB]. apply andb_true_iff in HB as [Hy HB]. apply andb_true_iff in HB as [Hz HB]. apply byte_ok_iff in Hx, Hy, Hz. destruct (IH r) as (cs & pad & (ds & HF & HX & HT) & HM & HP); [cbn [length] in Hn; lia|exact HB|].
    eexists (_ :: _ :: _ :: _ :: cs), pad. split; [|split; [|exact HP]].
    + exists (x / 4 :: x mod 4 * 16 + y / 16 :: y mod 16 * 4 + z / 64 :: z mod 64 :: ds). split; [repeat (apply Forall2_cons; [apply digit_char; lia|]); exact HF|]. split; [now apply bits_group|]. cbn [b64encode app]. now rewrite HT.
    + cbn [b64encode app]. rewrite !zlen_cons. lia.
Qed.
Lemma text_unique b rest cs pad t cs' pad' t' : base64_text b rest cs pad t -> base64_text b rest cs' pad' t' -> zlen t mod 4 = 0 -> zlen t' mod 4 = 0 -> 0 <= pad <= 2 -> 0 <= pad' <= 2 -> t = t'.
Proof.
  intros (ds & HF & HX & ->) (ds' & HF' & HX' & ->) HM HM' HP HP'. rewrite zlen_app, zlen_repeat in HM, HM' by lia. destruct (digits_range _ _ HF) as [HR HL]. destruct (digits_range _ _ HF') as [HR' HL']. destruct HX as (n & E1 & E2 & E3 & E4). destruct HX' as (n' & E1' & E2' & E3' & E4').
  assert (n = n' /\ zlen ds = zlen ds') as [<- HZ] by lia. assert (pad = pad') as <- by lia. f_equal. rewrite vbe64 in *. assert (ds = ds') as <-.
  { apply (vbe_unique 64); [lia|exact HR|exact HR'|unfold zlen in HZ; lia|congruence]. }
  clear - HF HF'. revert cs' HF'. induction HF as [|v c ds cs HD HF IH]; intros cs' HF'; inversion HF'; subst; [reflexivity|]. f_equal; [eapply digit_fun; eassumption|now apply IH].
Qed.
Lemma b64encode_exact b t : bytes_ok b = true -> b64encode b = t <-> exists cs pad, base64_text b 0 cs pad t /\ zlen t mod 4 = 0 /\ 0 <= pad <= 2.
Proof.
  intros HB. destruct (encode_text_facts (length b) b (Nat.le_refl _) HB) as (cs & pad & HT & HM & HP). split.
  - intros <-. exists cs, pad. auto.
  - intros (cs' & pad' & HT' & HM' & HP'). exact (text_unique _ _ _ _ _ _ _ _ HT HT' HM HM' HP HP').
Qed.
