(** What the same hash of different things means: a collision of one step of SHA-256 or RIPEMD-160. *)
From Verif.Model Require Import Py Packing Tx Coin Hashes.
From Verif.Proofs Require Import PyFacts PackingFacts TxFacts SighashFacts.
From Verif.Spec Require Import TxSpec HashSpec.
From Verif.Proofs Require Import HashesFacts HashesWords HashesSha2 HashesFive HashesExact.

Lemma chained_app {S} (step : S -> bytes -> S -> Prop) p b : forall q s t, chained step s (p ++ b :: q) t -> exists H R, chained step s p H /\ step H b R.
Proof.
  induction p as [|x p IH]; intros q s t HC; inversion HC as [|? ? s1 ? ? HS HT]; subst.
  - exists s, s1. split; [constructor|exact HS].
  - destruct (IH _ _ _ HT) as (H & R & H1 & H2). exists H, R. split; [econstructor; eassumption|exact H2].
Qed.
Lemma in_part_ok size lb big m p b q : bytes_ok m = true -> in_blocks size lb (lendian big) m (p ++ b :: q) ->
  Forall (fun x => zlen x = size) (p ++ [b]) /\ Forall (fun x => bytes_ok x = true) (p ++ [b]) /\ Forall (fun x => zlen x = size) p /\ Forall (fun x => bytes_ok x = true) p.
Proof.
  intros HM HI. pose proof (in_blocks_ok _ _ _ _ _ HM HI) as HO. destruct HI as (_ & _ & _ & _ & _ & HF). change (p ++ b :: q) with (p ++ [b] ++ q) in *. rewrite app_assoc in *.
  apply Forall_app in HO as [HO _], HF as [HF _]. repeat split; try assumption; apply Forall_app in HO as [HO _], HF as [HF _]; assumption.
Qed.
Lemma sha256_step_ok m p b q : bytes_ok m = true -> md_blocks 64 8 true m = p ++ b :: q ->
  sha256_step_of m (list8 (fold_left sha256_compress p IV256)) b (list8 (sha256_compress (fold_left sha256_compress p IV256) b)).
Proof.
  intros HM HB. pose proof (blocks_ok 64 8 true m ltac:(lia) ltac:(lia)) as HI. rewrite HB in HI. destruct (in_part_ok _ _ _ _ _ _ _ HM HI) as (HL & HO & HL' & HO').
  exists K256, (list8 IV256), Ch, Maj, p, q. split; [exact K256_roots|]. split; [exact IV256_roots|]. split; [exact Ch_bits|]. split; [exact Maj_bits|]. split; [exact HI|]. cbv zeta.
  assert (good8 32 IV256) as HG by exact (roots_in _ _ _ _ IV256_roots).
  pose proof (chain_exact 32 _ _ _ _ K256 _ _ _ _ w32 sum256_0 sum256_1 sig256_0 sig256_1 Ch Maj Ch_bits Maj_bits) as HC.
  assert (HC1 := proj2 (HC p IV256 _ HG HL' HO') eq_refl). split; [exact HC1|].
  assert (HC2 := proj2 (HC (p ++ [b]) IV256 _ HG HL HO) eq_refl). apply chained_app in HC2 as (H & R & H1 & H2).
  apply (HC p IV256 _ HG HL' HO') in H1. subst H.
  assert (HGp : good8 32 (fold_left sha256_compress p IV256)) by (apply (fold_good sha256_compress (good8 32)); [intros; now apply compress_good|exact HG]).
  assert (HLb : Forall (fun x => zlen x = 2 * 32) [b]) by (apply Forall_app in HL as [_ HL]; exact HL). assert (HOb : Forall (fun x => bytes_ok x = true) [b]) by (apply Forall_app in HO as [_ HO]; exact HO).
  assert (R = list8 (sha256_compress (fold_left sha256_compress p IV256) b)) as <-; [|exact H2].
  apply (HC [b] _ R HGp HLb HOb). econstructor; [exact H2|constructor].
Qed.
Lemma ripemd160_step_ok m p b q : bytes_ok m = true -> md_blocks 64 8 false m = p ++ b :: q ->
  ripemd160_step_of m (list5 (fold_left rmd_compress p IV160)) b (list5 (rmd_compress (fold_left rmd_compress p IV160) b)).
Proof.
  intros HM HB. pose proof (blocks_ok 64 8 false m ltac:(lia) ltac:(lia)) as HI. rewrite HB in HI. destruct (in_part_ok _ _ _ _ _ _ _ HM HI) as (HL & HO & HL' & HO').
  exists rmd_f, (fun j => nth (Z.to_nat (j / 16)) rmd_K 0), (fun j => nth (Z.to_nat (j / 16)) rmd_K' 0), p, q. split; [exact rmd_f_bits|]. split; [exact rmd_consts|]. split; [exact HI|].
  pose proof (rmd_chain_exact rmd_f _ _ rmd_f_bits (fun j Hj => conj eq_refl eq_refl)) as HC. pose proof iv160_good as HG.
  assert (HC1 := proj2 (HC p IV160 _ HG HL' HO') eq_refl). split; [exact HC1|].
  assert (HC2 := proj2 (HC (p ++ [b]) IV160 _ HG HL HO) eq_refl). apply chained_app in HC2 as (H & R & H1 & H2).
  apply (HC p IV160 _ HG HL' HO') in H1. subst H.
  assert (HGp : good5 (fold_left rmd_compress p IV160)) by (apply (fold_good rmd_compress good5); [intros; now apply rmd_good|exact HG]).
  assert (HLb : Forall (fun x => zlen x = 64) [b]) by (apply Forall_app in HL as [_ HL]; exact HL). assert (HOb : Forall (fun x => bytes_ok x = true) [b]) by (apply Forall_app in HO as [_ HO]; exact HO).
  assert (R = list5 (rmd_compress (fold_left rmd_compress p IV160) b)) as <-; [|exact H2].
  apply (HC [b] _ R HGp HLb HOb). econstructor; [exact H2|constructor].
Qed.
Lemma sha256_collision_clash m m' : bytes_ok m = true -> bytes_ok m' = true -> sha256_collision m m' -> sha256_clash m m'.
Proof.
  intros HM HM' (p & b & q & p' & b' & q' & HB & HB' & HN & HE).
  exists (list8 (fold_left sha256_compress p IV256)), b, (list8 (fold_left sha256_compress p' IV256)), b', (list8 (sha256_compress (fold_left sha256_compress p IV256) b)).
  split; [exact (sha256_step_ok m p b q HM HB)|]. split; [rewrite HE; exact (sha256_step_ok m' p' b' q' HM' HB')|].
  destruct HN as [HN|HN]; [left; intros HX; apply HN; now apply list8_inj|now right].
Qed.
Lemma ripemd160_collision_clash m m' : bytes_ok m = true -> bytes_ok m' = true -> ripemd160_collision m m' -> ripemd160_clash m m'.
Proof.
  intros HM HM' (p & b & q & p' & b' & q' & HB & HB' & HN & HE).
  exists (list5 (fold_left rmd_compress p IV160)), b, (list5 (fold_left rmd_compress p' IV160)), b', (list5 (rmd_compress (fold_left rmd_compress p IV160) b)).
  split; [exact (ripemd160_step_ok m p b q HM HB)|]. split; [rewrite HE; exact (ripemd160_step_ok m' p' b' q' HM' HB')|].
  destruct HN as [HN|HN]; [left; intros HX; apply HN; now apply list5_inj|now right].
Qed.

Definition hashable (x : bytes) : Prop := bytes_ok x = true /\ zlen x < 2 ^ 61.
Lemma bytes_dec (a b : bytes) : {a = b} + {a <> b}. Proof. unfold bytes in *. apply (list_eq_dec Z.eq_dec). Qed.
Theorem sha256_binds a b : hashable a -> hashable b -> sha256 a = sha256 b -> a = b \/ sha256_clash a b.
Proof. intros [HA LA] [HB LB] HE. destruct (bytes_dec a b) as [|HN]; [now left|]. right. apply sha256_collision_clash; [assumption..|]. exact (sha256_collides a b HA HB LA LB HN HE). Qed.
Theorem double_sha256_binds a b : hashable a -> hashable b -> double_sha256 a = double_sha256 b -> a = b \/ double_sha256_clash a b.
Proof.
  intros [HA LA] [HB LB] HE. destruct (bytes_dec a b) as [|HN]; [now left|]. right. destruct (double_sha256_collides a b HA HB LA LB HN HE) as [HC|HC].
  - left. now apply sha256_collision_clash.
  - right. exists (sha256 a), (sha256 b). split; [now apply sha256_exact|]. split; [now apply sha256_exact|]. apply sha256_collision_clash; auto using sha256_ok.
Qed.
Theorem ripemd160_binds a b : hashable a -> hashable b -> ripemd160 a = ripemd160 b -> a = b \/ ripemd160_clash a b.
Proof. intros [HA LA] [HB LB] HE. destruct (bytes_dec a b) as [|HN]; [now left|]. right. apply ripemd160_collision_clash; [assumption..|]. exact (ripemd160_collides a b HA HB LA LB HN HE). Qed.
Theorem hash160_binds a b : hashable a -> hashable b -> hash160 a = hash160 b -> a = b \/ hash160_clash a b.
Proof.
  intros [HA LA] [HB LB] HE. destruct (bytes_dec a b) as [|HN]; [now left|]. right. destruct (hash160_collides a b HA HB LA LB HN HE) as [HC|HC].
  - left. now apply sha256_collision_clash.
  - right. exists (sha256 a), (sha256 b). split; [now apply sha256_exact|]. split; [now apply sha256_exact|]. apply ripemd160_collision_clash; auto using sha256_ok.
Qed.

(** ** Transactions *)
Theorem tx_hash_binds t t' h : tx_wf t -> tx_wf t' -> (forall b, tx_to_bytes t = Ok b -> zlen b < 2 ^ 61) -> (forall b, tx_to_bytes t' = Ok b -> zlen b < 2 ^ 61) ->
  tx_hash double_sha256 t = Ok h -> tx_hash double_sha256 t' = Ok h -> t = t' \/ exists b b', tx_to_bytes t = Ok b /\ tx_to_bytes t' = Ok b' /\ double_sha256_clash b b'.
Proof.
  intros HT HT' HL HL' HH HH'. unfold tx_hash in HH, HH'.
  destruct (c_enc tx_codec t HT) as (b & Eb & Ob). destruct (c_enc tx_codec t' HT') as (b' & Eb' & Ob'). rewrite Eb in HH. rewrite Eb' in HH'. cbn [bind] in HH, HH'.
  injection HH as HH. injection HH' as HH'.
  destruct (double_sha256_binds b b') as [<-|HC]; [split; auto|split; auto|congruence| |right; eauto]. left.
  pose proof (c_rt tx_codec t b [] HT Eb) as R. rewrite (c_rt tx_codec t' b [] HT' Eb') in R. congruence.
Qed.

(** ** Signature hashes *)
Lemma ZERO_ok : bytes_ok ZERO = true. Proof. reflexivity. Qed.
Lemma u32_ok v b : pack_le_uint32 v = Ok b -> bytes_ok b = true.
Proof. intros H. assert (uint_range 4 v) as HR by (apply pack_uint_le_inv in H as [HR _]; exact HR). destruct (c_enc uint32_codec v HR) as (x & Ex & Ox). congruence. Qed.
Lemma prevout_ok i b : input_wf i -> prevout_bytes i = Ok b -> bytes_ok b = true.
Proof. intros (Ho & _) H. apply bind_Ok in H as (x & Ex & H). injection H as <-. rewrite bytes_ok_app, Ho. now rewrite (u32_ok _ _ Ex). Qed.
Lemma concat_ok {A} (wf : A -> Prop) (f : A -> result bytes) : (forall a b, wf a -> f a = Ok b -> bytes_ok b = true) ->
  forall l bs, Forall wf l -> mapM f l = Ok bs -> bytes_ok (concat bs) = true.
Proof.
  intros HF l bs HW HM. apply mapM_Ok_iff in HM. induction HM as [|x y l ys Hx HM IH]; [reflexivity|]. inversion HW; subst. cbn [concat]. rewrite bytes_ok_app, IH by assumption.
  rewrite (HF x y) by assumption. reflexivity.
Qed.
Lemma output_ok o b : output_wf o -> output_to_bytes o = Ok b -> bytes_ok b = true.
Proof. intros HW HE. destruct (c_enc output_codec o HW) as (x & Ex & Ox). congruence. Qed.
Lemma seq_ok (i : tx_input) b : input_wf i -> pack_le_uint32 (sequence i) = Ok b -> bytes_ok b = true.
Proof. intros _. apply u32_ok. Qed.
Lemma nth_wf {A} (wf : A -> Prop) l i x : Forall wf l -> nth_error l i = Some x -> wf x.
Proof. intros HF HN. eapply Forall_forall; [exact HF|]. eapply nth_error_In; exact HN. Qed.
Lemma znth_In {A} (l : list A) : forall i x, znth l i = Some x -> In x l.
Proof. induction l as [|y l IH]; intros i x H; cbn [znth] in H; [discriminate|]. destruct (i =? 0); [injection H as <-; now left|]. destruct (i <? 0); [discriminate|]. right; eauto. Qed.
Lemma pyindex_In {A} (l : list A) i x : pyindex l i = Ok x -> In x l.
Proof. unfold pyindex. destruct (znth _ _) eqn:E; [|discriminate]. intros [= <-]. eapply znth_In; exact E. Qed.
Lemma preimage_ok c p : call_wf c -> signature_preimage double_sha256 (c_tx c) (c_index c) (c_value c) (c_script c) (c_sighash c) = Ok p -> bytes_ok p = true.
Proof.
  intros ((HV & (HI & _) & (HO & _) & HLk) & Hi & Hv & Hs & Hh) HP. unfold signature_preimage in HP.
  destruct (negb _) in HP; [discriminate|]. destruct (c_value c <? 0); [discriminate|].
  apply bind_Ok in HP as (i & Ei & HP). apply bind_Ok in HP as (hp & Ehp & HP). apply bind_Ok in HP as (hs & Ehs & HP). apply bind_Ok in HP as (ho & Eho & HP).
  apply bind_Ok in HP as (v & Ev & HP). apply bind_Ok in HP as (ti & Eti & HP). apply bind_Ok in HP as (l & El & HP). apply bind_Ok in HP as (h & Eh & HP). injection HP as <-.
  rewrite !bytes_ok_app.
  assert (bytes_ok hp = true) as ->.
  { destruct (negb _); [|injection Ehp as <-; apply ZERO_ok]. unfold hash_prevouts in Ehp. apply bind_Ok in Ehp as (y & _ & HX). injection HX as <-. apply double_sha256_ok. }
  assert (bytes_ok hs = true) as ->.
  { destruct (_ && _) in Ehs; [|injection Ehs as <-; apply ZERO_ok]. unfold hash_sequence in Ehs. apply bind_Ok in Ehs as (y & _ & HX). injection HX as <-. apply double_sha256_ok. }
  assert (bytes_ok ho = true) as ->.
  { destruct (negb _) in Eho; [unfold hash_outputs in Eho; apply bind_Ok in Eho as (y & _ & HX); injection HX as <-; apply double_sha256_ok|].
    destruct (_ && _) in Eho; [|injection Eho as <-; apply ZERO_ok]. apply bind_Ok in Eho as (y & _ & Eho). apply bind_Ok in Eho as (z & _ & HX). injection HX as <-. apply double_sha256_ok. }
  rewrite (u32_ok _ _ El), (u32_ok _ _ Eh).
  assert (bytes_ok v = true) as ->.
  { destruct (c_enc int32_codec (version (c_tx c))) as (x & Ex & Ox); [now apply sint_range_4|]. congruence. }
  assert (bytes_ok ti = true) as ->; [|reflexivity].
  unfold input_bytes_for_signature in Eti. apply bind_Ok in Eti as (a & Ea & Eti). apply bind_Ok in Eti as (b & Eb & Eti). apply bind_Ok in Eti as (d & Ed & Eti). apply bind_Ok in Eti as (e & Ee & Eti).
  injection Eti as <-. rewrite !bytes_ok_app, (u32_ok _ _ Ee).
  assert (In i (inputs (c_tx c))) as HIn by (eapply pyindex_In; exact Ei).
  rewrite (prevout_ok i a) by (try assumption; eapply Forall_forall; eassumption).
  destruct (c_enc varbytes_codec (c_script c) ltac:(now apply varbytes_script_wf)) as (x & Ex & Ox). replace b with x by congruence. rewrite Ox.
  destruct (c_enc int64_codec (c_value c)) as (y & Ey & Oy); [apply sint_range_8; lia|]. replace d with y by congruence. now rewrite Oy.
Qed.

Lemma strings_ok c x : call_wf c -> In x (hashed_strings double_sha256 c) -> bytes_ok x = true.
Proof.
  intros HW HI. pose proof HW as ((_ & (Hi & _) & (Ho & _) & _) & _). unfold hashed_strings in HI. repeat (apply in_app_or in HI as [HI|HI]).
  - destruct (signature_preimage _ _ _ _ _ _) eqn:E in HI; [|destruct HI]. destruct HI as [<-|[]]. exact (preimage_ok c _ HW E).
  - destruct (mapM _ _) eqn:E in HI; [|destruct HI]. destruct HI as [<-|[]]. exact (concat_ok input_wf _ prevout_ok _ _ Hi E).
  - destruct (mapM _ _) eqn:E in HI; [|destruct HI]. destruct HI as [<-|[]]. exact (concat_ok input_wf _ seq_ok _ _ Hi E).
  - destruct (mapM _ _) eqn:E in HI; [|destruct HI]. destruct HI as [<-|[]]. exact (concat_ok output_wf _ output_ok _ _ Ho E).
  - destruct (nth_error _ _) eqn:EN in HI; [|destruct HI]. destruct (output_to_bytes _) eqn:E in HI; [|destruct HI]. destruct HI as [<-|[]]. exact (output_ok _ _ (nth_wf _ _ _ _ Ho EN) E).
Qed.
Lemma find_pair (P : bytes -> bytes -> Prop) (D : forall x y, {P x y} + {~ P x y}) l m : (forall x y, In x l -> In y m -> P x y) \/ (exists x y, In x l /\ In y m /\ ~ P x y).
Proof.
  destruct (Exists_dec (fun x => Exists (fun y => ~ P x y) m) l) as [HE|HE].
  - intros x. apply Exists_dec. intros y. destruct (D x y); [right|left]; tauto.
  - right. apply Exists_exists in HE as (x & Hx & HE). apply Exists_exists in HE as (y & Hy & HP). eauto.
  - left. intros x y Hx Hy. destruct (D x y) as [|HN]; [assumption|]. exfalso. apply HE. apply Exists_exists. exists x. split; [assumption|]. apply Exists_exists. eauto.
Qed.
Theorem signature_hash_binds_real c d h : call_wf c -> call_wf d ->
  Forall (fun x => zlen x < 2 ^ 61) (hashed_strings double_sha256 c ++ hashed_strings double_sha256 d) ->
  signature_hash double_sha256 (c_tx c) (c_index c) (c_value c) (c_script c) (c_sighash c) = Ok h ->
  signature_hash double_sha256 (c_tx d) (c_index d) (c_value d) (c_script d) (c_sighash d) = Ok h ->
  same_commitment c d \/
  (exists x y, In x (hashed_strings double_sha256 c ++ hashed_strings double_sha256 d) /\ In y (hashed_strings double_sha256 c ++ hashed_strings double_sha256 d) /\ double_sha256_clash x y) \/
  exists x, In x (hashed_strings double_sha256 c ++ hashed_strings double_sha256 d) /\ double_sha256 x = repeat 0 32.
Proof.
  intros HC HD HL E1 E2. set (l := _ ++ _) in *.
  assert (HO : forall x, In x l -> hashable x).
  { intros x Hx. split; [|eapply Forall_forall in HL; eauto]. apply in_app_or in Hx as [Hx|Hx]; eapply strings_ok; [exact HC|exact Hx|exact HD|exact Hx]. }
  destruct (find_pair (fun x y => double_sha256 x = double_sha256 y -> x = y)) with (l := l) (m := l) as [HF|(x & y & Hx & Hy & HN)].
  { intros x y. destruct (bytes_dec x y); [left; auto|]. destruct (bytes_dec (double_sha256 x) (double_sha256 y)); [right; tauto|left; tauto]. }
  - destruct (find_pair (fun x _ => double_sha256 x <> repeat 0 32)) with (l := l) (m := [@nil Z]) as [HZ|(x & y & Hx & _ & HN)].
    { intros x _. destruct (bytes_dec (double_sha256 x) (repeat 0 32)); [right; tauto|left; assumption]. }
    + left. apply (signature_hash_binds double_sha256 double_sha256_len c d h HC HD); try assumption. split; [exact HF|]. intros x Hx. apply (HZ x []); [exact Hx|now left].
    + right. right. exists x. split; [exact Hx|]. destruct (bytes_dec (double_sha256 x) (repeat 0 32)); [assumption|tauto].
  - right. left. destruct (bytes_dec (double_sha256 x) (double_sha256 y)) as [HE|HE]; [|tauto].
    destruct (double_sha256_binds x y (HO x Hx) (HO y Hy) HE) as [->|]; [tauto|eauto].
Qed.

(** ** Chains of headers *)
Lemma app_inj_length {A} (a a' b b' : list A) : a ++ b = a' ++ b' -> length a = length a' -> a = a' /\ b = b'.
Proof. revert a'; induction a as [|x a IH]; intros [|y a'] HE HL; try discriminate; [auto|]. cbn in HE, HL. injection HE as -> HE. injection HL as HL. destruct (IH a' HE HL) as [-> ->]. auto. Qed.
Lemma names_unique x p q : names_previous x p -> names_previous x q -> p = q.
Proof.
  intros (v & r & -> & Hv & Hp & Hr & _) (v' & r' & HE & Hv' & Hq & Hr' & _). unfold zlen in *. unfold bytes in *.
  assert (v = v' /\ p ++ r = q ++ r') as [_ H1] by (apply app_inj_length; [exact HE|lia]). now assert (p = q /\ r = r') as [H2 _] by (apply app_inj_length; [exact H1|lia]).
Qed.
Lemma names_hashable x p : names_previous x p -> hashable x.
Proof. intros (v & r & -> & Hv & Hp & Hr & Ho). split; [exact Ho|]. rewrite !zlen_app. lia. Qed.
Theorem header_chain_binds x l x' l' : header_chain double_sha256 (x :: l) -> header_chain double_sha256 (x' :: l') -> double_sha256 x = double_sha256 x' ->
  x :: l = x' :: l' \/ (exists y y', In y (x :: l) /\ In y' (x' :: l') /\ double_sha256_clash y y') \/ exists y, In y (l ++ l') /\ double_sha256 y = repeat 0 32.
Proof.
  intros HC. remember (x :: l) as t eqn:Et. revert x l Et x' l'. induction HC as [x0 HN|x0 y t HN HC IH]; intros x l [= -> <-] x' l' HC' HE.
  - inversion HC' as [? HN'|? y' t' HN' HT]; subst.
    + destruct (double_sha256_binds x x') as [->|HK]; eauto using names_hashable; try solve [right; left; exists x, x'; cbn; auto].
    + destruct (double_sha256_binds x x') as [->|HK]; eauto using names_hashable; try solve [right; left; exists x, x'; cbn; auto]. right. right. exists y'. split; [now left|]. symmetry. eapply names_unique; eauto.
  - inversion HC' as [? HN'|? y' t' HN' HT]; subst.
    + destruct (double_sha256_binds x x') as [->|HK]; eauto using names_hashable; try solve [right; left; exists x, x'; cbn; auto]. right. right. exists y. split; [now left|]. eapply names_unique; eauto.
    + destruct (double_sha256_binds x x') as [->|HK]; eauto using names_hashable; try solve [right; left; exists x, x'; cbn; auto].
      destruct (IH y t eq_refl y' t' HT (names_unique _ _ _ HN HN')) as [HX|[(z & z' & Hz & Hz' & HX)|(z & Hz & HX)]]; [left; congruence|right; left; exists z, z'; split; [now right|]; split; [now right|exact HX]|]. right. right. exists z. split; [|exact HX].
      apply in_app_or in Hz. apply in_or_app. cbn [In]. tauto.
Qed.
