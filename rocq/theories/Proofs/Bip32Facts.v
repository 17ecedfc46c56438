(** BIP32: extended keys, derivation, chain strings. *)
From Verif.Model Require Import Py Text Packing Misc Curve Coin Base58 Keys Bip32.
From Verif.Spec Require Import Numbers CurveSpec KeysSpec MiscSpec Bip32Spec.
From Verif.Proofs Require Import PyFacts NumbersFacts PackingFacts ScriptFacts ScriptTheorems Base58Facts MiscFacts TextFacts CurveFacts KeysFacts.

(** * Chain strings *)
Lemma split_on_aux_spec sep s : forall cur, ~ In sep cur -> exists ps, split_on_aux sep cur s = ps /\ ps <> [] /\ Forall (fun p => ~ In sep p) ps /\ rev cur ++ s = join [sep] ps.
Proof.
  induction s as [|c s IH]; intros cur Hc; cbn [split_on_aux].
  - exists [rev cur]. split; [reflexivity|]. split; [discriminate|]. split; [constructor; [|constructor]; now rewrite <- in_rev|]. cbn. now rewrite app_nil_r.
  - destruct (Z.eqb_spec c sep) as [->|Hne].
    + destruct (IH [] (fun H => H)) as (ps & -> & Hne & HF & HJ). exists (rev cur :: ps). split; [reflexivity|]. split; [discriminate|]. split; [constructor; [now rewrite <- in_rev|exact HF]|].
      cbn [rev app] in HJ. destruct ps as [|p ps]; [contradiction|]. cbn [join] in *. rewrite <- HJ. reflexivity.
    + destruct (IH (c :: cur)) as (ps & -> & H1 & H2 & H3); [intros [->|H]; [now apply Hne|now apply Hc]|]. exists ps. repeat split; auto. rewrite <- H3. cbn [rev]. now rewrite <- app_assoc.
Qed.
Lemma split_on_slashed s : slashed s (split_on 47 s).
Proof. destruct (split_on_aux_spec 47 s [] (fun H => H)) as (ps & HE & H1 & H2 & H3). unfold split_on. rewrite HE. repeat split; auto. Qed.
Lemma split_on_word sep w rest : ~ In sep w -> forall cur, split_on_aux sep cur (w ++ rest) = split_on_aux sep (rev w ++ cur) rest.
Proof.
  induction w as [|c w IH]; intros HN cur; [reflexivity|]. cbn [app split_on_aux]. destruct (Z.eqb_spec c sep) as [->|Hne]; [exfalso; apply HN; now left|]. rewrite IH by (intros H; apply HN; now right). cbn [rev]. now rewrite <- app_assoc.
Qed.
Lemma split_join_on sep ps : ps <> [] -> Forall (fun p => ~ In sep p) ps -> split_on sep (join [sep] ps) = ps.
Proof.
  intros Hne HF. unfold split_on. induction HF as [|p ps Hp HF IH]; [contradiction|]. destruct ps as [|q ps].
  - cbn [join]. rewrite <- (app_nil_r p) at 1. rewrite split_on_word by exact Hp. cbn [split_on_aux]. now rewrite app_nil_r, rev_involutive.
  - change (join [sep] (p :: q :: ps)) with (p ++ [sep] ++ join [sep] (q :: ps)). rewrite split_on_word by exact Hp. cbn [app split_on_aux]. rewrite Z.eqb_refl, app_nil_r, rev_involutive, IH by discriminate. reflexivity.
Qed.

Lemma numeral_iff s v : numeral s v <-> s <> [] /\ forallb is_digit s = true /\ dec_value s = v.
Proof.
  split.
  - induction 1 as [c Hc|s v c HN (IH1 & IH2 & IH3) Hc]; (split; [destruct s; discriminate || discriminate|]) || (split; [discriminate|]).
    + split; [cbn; unfold is_digit; lia|]. unfold dec_value. cbn [fold_left]. lia.
    + split; [rewrite forallb_app, IH2; cbn; unfold is_digit; lia|]. unfold dec_value in *. rewrite fold_left_app, IH3. reflexivity.
  - intros (Hne & HF & <-). induction s as [|c s IH] using rev_ind; [contradiction|]. rewrite forallb_app in HF. apply andb_true_iff in HF as [HF Hc]. cbn in Hc. rewrite andb_true_r in Hc. unfold is_digit in Hc.
    destruct s as [|c' s'] eqn:E; [unfold dec_value; cbn [app fold_left]; replace (10 * 0 + (c - 48)) with (c - 48) by lia; constructor; lia|]. rewrite <- E in *.
    unfold dec_value. rewrite fold_left_app. cbn [fold_left]. apply numeral_more; [|lia]. apply IH; [subst; discriminate|exact HF].
Qed.
Lemma numeral_nonneg s v : numeral s v -> 0 <= v.
Proof. induction 1; lia. Qed.
Lemma numeral_fun s v w : numeral s v -> numeral s w -> v = w.
Proof. rewrite !numeral_iff. intros (_ & _ & <-) (_ & _ & <-). reflexivity. Qed.
Lemma take_digits_spec s : forall d t, take_digits s = (d, t) <-> s = d ++ t /\ forallb is_digit d = true /\ (forall c r, t = c :: r -> is_digit c = false).
Proof.
  induction s as [|c s IH]; intros d t; cbn [take_digits].
  - split; [intros E; injection E as <- <-; repeat split; discriminate|]. intros (HE & _ & _). symmetry in HE. apply app_eq_nil in HE as [-> ->]. reflexivity.
  - destruct (is_digit c) eqn:Hc.
    + destruct (take_digits s) as [d' t'] eqn:E. split.
      * intros E'. injection E' as <- <-. destruct (proj1 (IH d' t') eq_refl) as (-> & H2 & H3). repeat split; [cbn; now rewrite Hc|exact H3].
      * intros (HE & HF & HT). destruct d as [|x d]; [cbn in HE; subst t; specialize (HT c s eq_refl); congruence|]. cbn in HE. injection HE as <- ->. cbn in HF. apply andb_true_iff in HF as [_ HF].
        assert (E2 := proj2 (IH d t) (conj eq_refl (conj HF HT))). injection E2 as -> ->. reflexivity.
    + split; [intros E; injection E as <- <-; repeat split; intros x r E; injection E as <- <-; exact Hc|]. intros (HE & HF & HT). destruct d as [|x d]; [cbn in HE; now subst t|].
      cbn in HE, HF. injection HE as <- ->. rewrite Hc in HF. discriminate.
Qed.
Lemma at_end_spec s : at_end s = true <-> s = [] \/ s = [10].
Proof.
  split; [|now intros [->| ->]]. unfold at_end. destruct s as [|x [|]]; [auto| |]; intros HE; [right|]; repeat (destruct x as [|x|x]; try discriminate); try reflexivity.
Qed.
Lemma part_match_spec part ds : part_match part = Some ds <->
  ds <> [] /\ forallb is_digit ds = true /\ exists t, part = ds ++ t /\ (t = [] \/ t = [10] \/ t = [39] \/ t = [39; 10]).
Proof.
  unfold part_match. destruct (take_digits part) as [d t] eqn:E. pose proof (proj1 (take_digits_spec part d t) E) as (-> & HF & HT).
  assert (HM : (match t with 39 :: r => at_end r | _ => false end) || at_end t = true <-> (t = [] \/ t = [10] \/ t = [39] \/ t = [39; 10])).
  { rewrite orb_true_iff, at_end_spec. split.
    - intros [HM|[->| ->]]; auto. destruct t as [|x r]; [discriminate|]. assert (Hx : x = 39) by (repeat (destruct x as [|x|x]; try discriminate); reflexivity). subst x. apply at_end_spec in HM as [->| ->]; auto.
    - intros [->|[->|[->| ->]]]; auto. }
  split.
  - intros HS. destruct (Z.eqb_spec (zlen d) 0) as [|HZ]; [discriminate|]. destruct (_ || _) eqn:HB; [|discriminate]. injection HS as <-. split; [intros ->; now apply HZ|]. split; [exact HF|]. exists t. split; [reflexivity|]. now apply HM.
  - intros (Hne & HFd & t' & HE & Ht').
    assert (HU : take_digits (d ++ t) = (ds, t')). { apply take_digits_spec. repeat split; auto. intros c r ->. destruct Ht' as [|[|[|]]]; try discriminate; injection H as -> ->; reflexivity. }
    rewrite E in HU. injection HU as -> ->. destruct (Z.eqb_spec (zlen ds) 0) as [HZ|HZ]; [destruct ds; [contradiction|]; rewrite zlen_cons in HZ; pose proof (zlen_nonneg ds); lia|].
    rewrite (proj2 HM) by exact Ht'. reflexivity.
Qed.
Lemma HARDENED_val : HARDENED = 2 ^ 31.
Proof. reflexivity. Qed.
(** What a part is read as *)
Lemma chain_part_spec part n : chain_part part = Ok n <-> part_reads part n.
Proof.
  unfold chain_part. split.
  - destruct (part_match part) as [ds|] eqn:E; [|discriminate]. apply part_match_spec in E as (Hne & HF & t & -> & Ht). cbv zeta. rewrite HARDENED_val. destruct (Z.leb_spec (2 ^ 31) (dec_value ds)) as [|HV]; [discriminate|].
    assert (HN : numeral ds (dec_value ds)) by (apply numeral_iff; auto). intros HB. apply bind_Ok in HB as (l & Hl & HB). injection HB as <-. unfold part_reads, part_says.
    destruct Ht as [->|[->|[->| ->]]].
    + rewrite app_nil_r in *. left. exists ds, (dec_value ds). split; [exact HN|]. split; [exact HV|]. left. split; [reflexivity|].
      destruct ds as [|x ds _] using rev_ind; [contradiction|]. rewrite last_index in Hl. injection Hl as <-. rewrite forallb_app in HF. apply andb_true_iff in HF as [_ HF]. cbn in HF. unfold is_digit in HF. destruct (Z.eqb_spec x 39); [lia|reflexivity].
    + rewrite last_index in Hl. injection Hl as <-. right. exists ds, (dec_value ds). repeat split; auto.
    + rewrite last_index in Hl. injection Hl as <-. left. exists ds, (dec_value ds). repeat split; auto.
    + change [39; 10] with ([39] ++ [10]) in Hl. rewrite app_assoc, last_index in Hl. injection Hl as <-. right. exists ds, (dec_value ds). repeat split; auto.
  - intros HR. assert (HG : exists s v t, numeral s v /\ v < 2 ^ 31 /\ part = s ++ t /\ ((t = [] \/ t = [10] \/ t = [39; 10]) /\ n = v \/ t = [39] /\ n = v + 2 ^ 31)).
    { destruct HR as [(s & v & HN & HV & [[-> ->]|[-> ->]])|(s & v & HN & HV & -> & [->| ->])].
      - exists s, v, []. rewrite app_nil_r. auto 8.
      - exists s, v, [39]. auto 8.
      - exists s, v, [10]. auto 8.
      - exists s, v, [39; 10]. auto 8. }
    destruct HG as (s & v & t & HN & HV & -> & HT). apply numeral_iff in HN as (Hne & HF & Hv).
    rewrite (proj2 (part_match_spec (s ++ t) s)). 2:{ split; [exact Hne|]. split; [exact HF|]. exists t. split; [reflexivity|]. tauto. }
    cbv zeta. rewrite HARDENED_val, Hv. destruct (Z.leb_spec (2 ^ 31) v); [lia|].
    destruct HT as [[[->|[->| ->]] ->]|[-> ->]].
    + rewrite app_nil_r. destruct s as [|x s _] using rev_ind; [contradiction|]. rewrite last_index. cbn [bind]. rewrite forallb_app in HF. apply andb_true_iff in HF as [_ HF]. cbn in HF. unfold is_digit in HF. destruct (Z.eqb_spec x 39); [lia|reflexivity].
    + rewrite last_index. reflexivity.
    + change [39; 10] with ([39] ++ [10]). rewrite app_assoc, last_index. reflexivity.
    + rewrite last_index. reflexivity.
Qed.
Lemma chain_part_err part e : chain_part part = Err e -> e = ValueError.
Proof.
  unfold chain_part. destruct (part_match part) as [ds|] eqn:E; [|now injection 1]. cbv zeta. destruct (HARDENED <=? dec_value ds); [now injection 1|].
  apply part_match_spec in E as (Hne & _ & t & -> & _). destruct (ds ++ t) as [|x l _] eqn:E using rev_ind; [destruct ds; [contradiction|discriminate]|]. rewrite last_index. discriminate.
Qed.
Lemma mapM_err {A B} (f : A -> result B) e0 : (forall x e, f x = Err e -> e = e0) -> forall l e, mapM f l = Err e -> e = e0.
Proof.
  intros Hf. induction l as [|x l IH]; intros e; cbn [mapM]; [discriminate|]. intros HE. apply bind_Err in HE as [HE|(y & _ & HE)]; [now apply (Hf x)|]. apply bind_Err in HE as [HE|(ys & _ & HE)]; [now apply IH|discriminate].
Qed.
Theorem decompose_spec s ns : bip32_decompose_chain_string s = Ok ns <-> exists parts, slashed s (txt "m" :: parts) /\ Forall2 part_reads parts ns.
Proof.
  unfold bip32_decompose_chain_string. split.
  - destruct (split_on 47 s) as [|m parts] eqn:E; [discriminate|]. destruct (bytes_eqb_spec m (txt "m")) as [->|]; [|discriminate]. cbn [negb]. intros HM. apply mapM_Ok_iff in HM. exists parts. split.
    + rewrite <- E. apply split_on_slashed.
    + clear -HM. induction HM; constructor; auto. now apply chain_part_spec.
  - intros (parts & (_ & HF & ->) & HR). rewrite split_join_on by (auto; discriminate). rewrite bytes_eqb_refl. cbn [negb]. apply mapM_Ok_iff. clear HF. induction HR; constructor; auto. now apply chain_part_spec.
Qed.
Theorem decompose_err s e : bip32_decompose_chain_string s = Err e -> e = ValueError.
Proof.
  unfold bip32_decompose_chain_string. destruct (split_on 47 s) as [|m parts]; [now injection 1|]. destruct (negb _); [now injection 1|]. apply mapM_err. exact chain_part_err.
Qed.
Lemma str_numeral n : 0 <= n -> numeral (str_of_nonneg n) n.
Proof. intros Hn. destruct (str_of_nonneg_ok n Hn) as (H1 & H2 & H3 & _). now apply numeral_iff. Qed.
Lemma numeral_chars s v c : numeral s v -> In c s -> 48 <= c <= 57.
Proof. rewrite numeral_iff. intros (_ & HF & _) Hc. rewrite forallb_forall in HF. specialize (HF c Hc). unfold is_digit in HF. lia. Qed.
Lemma build_part_spec n : 0 <= n < 2 ^ 32 -> part_says (build_part n) n /\ ~ In 47 (build_part n).
Proof.
  intros Hn. unfold build_part. rewrite HARDENED_val. destruct (Z.ltb_spec n (2 ^ 31)) as [HL|HL].
  - split; [exists (str_of_nonneg n), n; split; [apply str_numeral; lia|]; split; [lia|]; now left|]. intros HI. apply (numeral_chars _ n) in HI; [lia|apply str_numeral; lia].
  - split; [exists (str_of_nonneg (n - 2 ^ 31)), (n - 2 ^ 31); split; [apply str_numeral; lia|]; split; [lia|]; right; split; [reflexivity|lia]|].
    intros HI. apply in_app_or in HI as [HI|[HI|[]]]; [|lia]. apply (numeral_chars _ (n - 2 ^ 31)) in HI; [lia|apply str_numeral; lia].
Qed.
Theorem build_spec d : (Forall (fun n => 0 <= n < 2 ^ 32) d -> exists s parts, bip32_build_chain_string d = Ok s /\ slashed s (txt "m" :: parts) /\ Forall2 part_says parts d) /\
  (~ Forall (fun n => 0 <= n < 2 ^ 32) d -> bip32_build_chain_string d = Err ValueError).
Proof.
  assert (HV : forallb (fun n => (0 <=? n) && (n <? Z.shiftl 1 32)) d = true <-> Forall (fun n => 0 <= n < 2 ^ 32) d).
  { rewrite forallb_forall, Forall_forall. change (Z.shiftl 1 32) with (2 ^ 32). split; intros H n Hn; specialize (H n Hn); lia. }
  unfold bip32_build_chain_string, bip32_validate_derivation. split.
  - intros HF. rewrite (proj2 HV HF). cbn [bind]. eexists _, (map build_part d). split; [reflexivity|]. split.
    + split; [discriminate|]. split; [|reflexivity]. constructor; [intros [H|[]]; discriminate|]. apply Forall_map. eapply Forall_impl; [|exact HF]. intros n Hn. now apply build_part_spec.
    + clear HV. induction HF as [|n d Hn _ IH]; cbn [map]; constructor; auto. now apply build_part_spec.
  - intros HN. destruct (forallb _ d); [exfalso; apply HN; now apply HV|]. reflexivity.
Qed.
Theorem decompose_build d s : bip32_build_chain_string d = Ok s -> bip32_decompose_chain_string s = Ok d.
Proof.
  intros HB. destruct (build_spec d) as [H1 H2]. assert (HF : Forall (fun n => 0 <= n < 2 ^ 32) d).
  { apply Forall_forall. intros n Hn. unfold bip32_build_chain_string, bip32_validate_derivation in HB. destruct (forallb _ d) eqn:E; [|discriminate]. rewrite forallb_forall in E. specialize (E n Hn). change (Z.shiftl 1 32) with (2 ^ 32) in E. lia. }
  destruct (H1 HF) as (s' & parts & HB' & HS & HP). rewrite HB in HB'. injection HB' as <-. apply decompose_spec. exists parts. split; [exact HS|]. clear -HP. induction HP; constructor; auto. now left.
Qed.
Lemma part_reads_range p n : part_reads p n -> 0 <= n < 2 ^ 32.
Proof. intros [(s & v & HN & HV & [[_ ->]|[_ ->]])|(s & v & HN & HV & -> & _)]; apply numeral_nonneg in HN; lia. Qed.
