(** Changes to a text that the checksum notices; case; uniqueness. *)
From Verif.Model Require Import Py Text Cashaddr.
From Verif.Spec Require Import CashaddrSpec.
From Verif.Proofs Require Import PyFacts SighashFacts ScriptFacts ScriptTheorems Digits MiscFacts ConvertBits CashaddrFacts CashaddrDecode.

Lemma payload_run p b q data : ~ In 58 p -> decode_payload (p ++ 58 :: b) = Ok (q, data) ->
  exists ds, spelt ds (lower b) /\ run (run 1 (prefix_expand (lower p))) ds = 1 /\ zlen ds <= 124 /\ zlen data = zlen ds - 8.
Proof.
  intros HN HP. apply payload_spec in HP as (p' & body & cs & HS & HI & _ & _ & HL & HD & HL8 & HPm & _). change (p ++ 58 :: b) with (p ++ [58] ++ b) in HS. rewrite !lower_app in HS. change (lower [58]) with [58] in HS.
  pose proof (proj2 (split_once_spec 58 (lower p ++ [58] ++ lower b) p' body) (conj HS HI)) as HE. rewrite (proj2 (split_once_spec 58 (lower p ++ [58] ++ lower b) (lower p) (lower b))) in HE by (split; [reflexivity|now rewrite lower_in_58]).
  injection HE as <- <-. exists (data ++ cs). split; [exact HD|]. split; [rewrite <- run_app; now apply polymod_zero|]. rewrite (spelt_length _ _ HD). split; [lia|]. rewrite <- (spelt_length _ _ HD), zlen_app. lia.
Qed.
Lemma xors_app a a' b b' : length a = length a' -> xors (a ++ b) (a' ++ b') = xors a a' ++ xors b b'.
Proof. revert a'. induction a as [|x a IH]; intros [|y a'] HL; try discriminate HL; [reflexivity|]. unfold xors in *. cbn [app combine map]. f_equal. apply IH. now injection HL. Qed.
Lemma xors_same a : xors a a = repeat 0 (length a).
Proof. induction a as [|x a IH]; [reflexivity|]. unfold xors in *. cbn [combine map fst snd length repeat]. now rewrite Z.lxor_nilpotent, IH. Qed.
Lemma xors_zero a : forall b, length a = length b -> xors a b = repeat 0 (length a) -> a = b.
Proof. induction a as [|x a IH]; intros [|y b] HL HX; try discriminate HL; [reflexivity|]. unfold xors in *. cbn [combine map fst snd length repeat] in HX. injection HX as H1 H2. apply Z.lxor_eq in H1. subst. f_equal. apply IH; [now injection HL|exact H2]. Qed.
Lemma xors_ok a : forall b, symbols_ok a -> symbols_ok b -> symbols_ok (xors a b).
Proof.
  induction a as [|x a IH]; intros [|y b] Ha Hb; try (constructor; fail). inversion Ha; inversion Hb; subst. unfold xors in *. cbn [combine map fst snd]. constructor; [|now apply IH].
  change 32 with (2 ^ 5) in *. apply lxor_range; [lia|assumption|assumption].
Qed.
Lemma xors_length a : forall b, length a = length b -> length (xors a b) = length a.
Proof. intros b HL. unfold xors. rewrite map_length, combine_length. lia. Qed.
Lemma spelt_app ds a b : spelt ds (a ++ b) -> exists da db, ds = da ++ db /\ spelt da a /\ spelt db b.
Proof. intros HF. apply Forall2_app_inv_r in HF as (da & db & H1 & H2 & ->). now exists da, db. Qed.
Lemma spelt_len ds body : spelt ds body -> length ds = length body.
Proof. intros HF. induction HF; cbn; congruence. Qed.
Lemma zlen_eq_length {A B} (a : list A) (b : list B) : zlen a = zlen b -> length a = length b.
Proof. unfold zlen. lia. Qed.
Lemma runs_equal c a b : length a = length b -> run c a = run c b -> run 0 (xors a b) = 0.
Proof. intros HL HR. pose proof (run_xor a b c c HL) as HX. rewrite HR, !Z.lxor_nilpotent in HX. exact HX. Qed.

Lemma window p a w w' b q data q' data' : ~ In 58 p -> zlen w' = zlen w -> zlen w <= 8 ->
  decode_payload (p ++ 58 :: a ++ w ++ b) = Ok (q, data) -> decode_payload (p ++ 58 :: a ++ w' ++ b) = Ok (q', data') -> lower w = lower w'.
Proof.
  intros HN HL H8 HD HD'. apply (payload_run p _ _ _ HN) in HD as (ds & HS & HR & _). apply (payload_run p _ _ _ HN) in HD' as (ds' & HS' & HR' & _). rewrite !lower_app in HS, HS'.
  apply spelt_app in HS as (da & db & -> & Ha & HS). apply spelt_app in HS as (dw & db' & -> & Hw & Hb). apply spelt_app in HS' as (da' & db2 & -> & Ha' & HS'). apply spelt_app in HS' as (dw' & db3 & -> & Hw' & Hb').
  rewrite <- (spelt_inj _ _ _ Ha Ha'), <- (spelt_inj _ _ _ Hb Hb') in *. assert (HLw : length dw = length dw') by (rewrite (spelt_len _ _ Hw), (spelt_len _ _ Hw'); unfold lower; rewrite !map_length; symmetry; now apply zlen_eq_length).
  pose proof (eq_trans HR (eq_sym HR')) as HE. clear HR HR'. rename HE into HR. apply runs_equal in HR; [|rewrite !app_length; lia]. rewrite !xors_app, !xors_same in HR by (try reflexivity; exact HLw).
  assert (HZ : zlen dw <= 8) by (rewrite (spelt_length _ _ Hw); unfold lower; rewrite zlen_map; exact H8).
  apply burst_detected in HR; [|apply xors_ok; [apply (spelt_symbols _ _ Hw)|apply (spelt_symbols _ _ Hw')]|unfold zlen in *; rewrite xors_length by exact HLw; exact HZ]. rewrite xors_length in HR by exact HLw.
  apply xors_zero in HR; [|exact HLw]. subst dw'. exact (spelt_fun _ _ _ Hw Hw').
Qed.
Lemma two_chars p a x x' m y y' b q data q' data' : ~ In 58 p ->
  decode_payload (p ++ 58 :: a ++ [x] ++ m ++ [y] ++ b) = Ok (q, data) -> decode_payload (p ++ 58 :: a ++ [x'] ++ m ++ [y'] ++ b) = Ok (q', data') -> lower [x] = lower [x'].
Proof.
  intros HN HD HD'. apply (payload_run p _ _ _ HN) in HD as (ds & HS & HR & HL & _). apply (payload_run p _ _ _ HN) in HD' as (ds' & HS' & HR' & _). rewrite !lower_app in HS, HS'.
  apply spelt_app in HS as (da & d1 & -> & Ha & HS). apply spelt_app in HS as (dx & d2 & -> & Hx & HS). apply spelt_app in HS as (dm & d3 & -> & Hm & HS). apply spelt_app in HS as (dy & db & -> & Hy & Hb).
  apply spelt_app in HS' as (da' & d1 & -> & Ha' & HS'). apply spelt_app in HS' as (dx' & d2 & -> & Hx' & HS'). apply spelt_app in HS' as (dm' & d3 & -> & Hm' & HS'). apply spelt_app in HS' as (dy' & db' & -> & Hy' & Hb').
  rewrite <- (spelt_inj _ _ _ Ha Ha'), <- (spelt_inj _ _ _ Hb Hb'), <- (spelt_inj _ _ _ Hm Hm') in *.
  unfold lower in Hx, Hx', Hy, Hy'. cbn [map] in *. inversion Hx as [|sx ? ? ? Hsx HF1]; subst. inversion HF1; subst. inversion Hx' as [|sx' ? ? ? Hsx' HF1']; subst. inversion HF1'; subst. inversion Hy as [|sy ? ? ? Hsy HF2]; subst. inversion HF2; subst. inversion Hy' as [|sy' ? ? ? Hsy' HF2']; subst. inversion HF2'; subst.
  pose proof (eq_trans HR (eq_sym HR')) as HE. clear HR HR'. rename HE into HR. apply runs_equal in HR; [|rewrite !app_length; cbn [length]; lia]. rewrite !xors_app, !xors_same in HR by reflexivity. unfold xors in HR. cbn [combine map fst snd] in HR.
  assert (HX : forall u v, 0 <= u < 32 -> 0 <= v < 32 -> 0 <= Z.lxor u v < 32) by (intros u v; apply (lxor_range 5); lia). pose proof (HX sx sx' (proj1 Hsx) (proj1 Hsx')) as HXx. pose proof (HX sy sy' (proj1 Hsy) (proj1 Hsy')) as HXy.
  rewrite !zlen_app in HL. change (zlen [_]) with 1 in HL. change (zlen [_]) with 1 in HL. pose proof (zlen_nonneg da). pose proof (zlen_nonneg db). assert (HLm : (length dm <= 122)%nat) by (unfold zlen in *; lia).
  destruct (Z.eq_dec (Z.lxor sx sx') 0) as [HZ|HZ]; [|exfalso; apply (double_detected (length da) (Z.lxor sx sx') (length dm) (Z.lxor sy sy') (length db)); [lia|exact HXy|exact HLm|exact HR]].
  apply Z.lxor_eq in HZ. subst sx'. unfold lower. cbn [map]. f_equal. destruct Hsx as [_ Hc], Hsx' as [_ Hc']. congruence.
Qed.
Lemma decode_shape t : (exists r, cash_decode t = Ok r) -> exists q data, decode_payload t = Ok (q, data) /\ data <> [].
Proof.
  intros (r & HE). rewrite cash_decode_core in HE. apply bind_Ok in HE as ([q data] & HP & HE). exists q, data. split; [exact HP|]. intros ->. vm_compute in HE. discriminate.
Qed.
Lemma not_payload_err t q data : decode_payload t = Ok (q, data) -> data <> [] -> cash_decode t <> Err IndexError.
Proof. intros HP HN HE. apply decode_errors in HE as [HE|(_ & q' & HE)]; [discriminate|]. rewrite HP in HE. injection HE as _ ->. contradiction. Qed.
(** A text with the same shape as one that decodes: if it does not decode, that is a ValueError. *)
Lemma rejected p b b' : ~ In 58 p -> zlen b = zlen b' -> (exists r, cash_decode (p ++ 58 :: b) = Ok r) -> (forall q data q' data', decode_payload (p ++ 58 :: b) = Ok (q, data) -> decode_payload (p ++ 58 :: b') = Ok (q', data') -> False) ->
  cash_decode (p ++ 58 :: b') = Err ValueError.
Proof.
  intros HN HL HOk HF. apply decode_shape in HOk as (q & data & HP & HD). rewrite cash_decode_core. destruct (decode_payload (p ++ 58 :: b')) as [[q' data']|e] eqn:E; [exfalso; exact (HF _ _ _ _ HP eq_refl)|]. apply payload_err in E. now subst.
Qed.

(** ** The first character is q or p *)
Lemma first_symbol k h v ss : k = 0 \/ k = 1 -> bytes_ok h = true -> version_for k h v -> five_bit_groups (v :: h) ss -> exists s r, ss = s :: r /\ (s = 0 \/ s = 1).
Proof.
  intros HK HB (c & HI & Hv) (HS & pad & Hp & HL & HV). pose proof (size_code_range _ _ HI) as [Hc _]. destruct ss as [|s r]; [rewrite zlen_cons in HL; change (zlen (@nil Z)) with 0 in HL; pose proof (zlen_nonneg h); lia|].
  exists s, r. split; [reflexivity|]. inversion HS as [|? ? Hs HSr]; subst x l. rewrite !val_base_vbe in HV. rewrite !vbe_cons in HV by lia. rewrite !zlen_cons in HL. pose proof (zlen_nonneg r). pose proof (zlen_nonneg h).
  assert (Hr : 0 <= vbe 32 r) by apply (vbe_bound 32 ltac:(lia) r HSr). assert (Hh : 0 <= vbe 256 h < 256 ^ zlen h) by (apply vbe_bound; [lia|now apply digits_256]).
  assert (HP : 256 ^ zlen h * 2 ^ pad * 16 = 2 * 32 ^ zlen r).
  { change 256 with (2 ^ 8). change 32 with (2 ^ 5). change 16 with (2 ^ 4). rewrite <- !Z.pow_mul_r by lia. change 2 with (2 ^ 1) at 4. rewrite <- !Z.pow_add_r by lia. f_equal. lia. }
  assert (HPp : 0 < 2 ^ pad) by (apply Z.pow_pos_nonneg; lia). assert (HPr : 0 < 32 ^ zlen r) by (apply Z.pow_pos_nonneg; lia).
  assert (s * 32 ^ zlen r < 2 * 32 ^ zlen r); [|nia]. rewrite <- HP. assert (v * 256 ^ zlen h + vbe 256 h < 16 * 256 ^ zlen h) by nia. nia.
Qed.
Lemma text_has_letter p k h t : text_of p k h t -> upper t <> t /\ lower t = t.
Proof.
  intros ((HN & HF) & HK & HB & v & ss & body & HV & HG & HD & ->). destruct (first_symbol k h v ss HK HB HV HG) as (s & r & -> & Hs). inversion HD as [|? c ? body' [_ Hc] HF']; subst. split.
  - intros HU. change (p ++ 58 :: c :: body') with (p ++ [58] ++ [c] ++ body') in HU. rewrite !upper_app in HU. apply app_inj_len in HU as [_ HU]; [|unfold upper; now rewrite zlen_map]. cbn [upper map app] in HU. injection HU as HU _.
    destruct Hs as [->| ->]; vm_compute in Hc; injection Hc as <-; vm_compute in HU; discriminate.
  - rewrite lower_app. change (lower (58 :: c :: body')) with (58 :: lower (c :: body')). rewrite (spelt_lower _ _ HD). f_equal. apply lower_id. unfold lower_case. apply Forall_forall. intros x Hx. rewrite Forall_forall in HF. apply HF in Hx. lia.
Qed.
