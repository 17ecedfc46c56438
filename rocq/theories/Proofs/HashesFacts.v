(** Facts about the hash functions that do not depend on their rounds: lengths, padding, blocks, collisions. *)
From Verif.Model Require Import Py Hashes.
From Verif.Spec Require Import HashSpec.
From Verif.Proofs Require Import PyFacts WorkFacts.

(** ** Cutting a list into pieces *)
Lemma cut_concat size : (0 < size)%nat -> forall fuel m, (length m <= fuel)%nat -> concat (cut fuel size m) = m.
Proof.
  intros HS. induction fuel as [|f IH]; intros m HM; [destruct m; [reflexivity|cbn in HM; lia]|].
  destruct m as [|x m]; [reflexivity|]. cbn [cut concat]. rewrite IH; [apply firstn_skipn|]. rewrite skipn_length. cbn [length] in *. lia.
Qed.
Lemma cut_sizes size : (0 < size)%nat -> forall k fuel m, (length m = k * size)%nat -> (length m <= fuel)%nat ->
  Forall (fun b => length b = size) (cut fuel size m) /\ length (cut fuel size m) = k.
Proof.
  intros HS. induction k as [|k IH]; intros fuel m HK HF.
  - destruct m; [|discriminate]. destruct fuel; split; constructor.
  - destruct fuel as [|f]; [destruct m; cbn in *; lia|]. destruct m as [|x m]; [cbn in HK; lia|]. cbn [cut].
    specialize (IH f (skipn size (x :: m))). destruct IH as [I1 I2]; [rewrite skipn_length; lia| rewrite skipn_length; cbn [length] in *; lia|].
    split; [constructor; [rewrite firstn_length; lia|exact I1]|cbn [length]; lia].
Qed.
Lemma app_split {A} (x : list A) : forall y a b, length x = length y -> x ++ a = y ++ b -> x = y /\ a = b.
Proof.
  induction x as [|u x IH]; intros [|v y] a b HL HE; try discriminate; [auto|]. cbn in *. injection HE as -> HE. injection HL as HL. destruct (IH y a b HL HE). split; congruence.
Qed.
Lemma concat_unique {A} size : (0 < size)%nat -> forall (a b : list (list A)), Forall (fun x => length x = size) a -> Forall (fun x => length x = size) b ->
  concat a = concat b -> a = b.
Proof.
  intros HS. induction a as [|x a IH]; intros b HA Hb HE.
  - destruct b as [|y b]; [reflexivity|]. inversion Hb; subst. destruct y; [cbn in *; lia|discriminate].
  - inversion HA; subst. destruct b as [|y b]; [destruct x; [cbn in *; lia|discriminate]|]. inversion Hb; subst. cbn [concat] in HE.
    destruct (app_split x y _ _ ltac:(congruence) HE) as [-> HC].
    f_equal. apply IH; auto.
Qed.

(** ** Padding *)
Definition lendian (big : bool) : Z -> Z -> bytes -> Prop := if big then says_be else says_le.
Lemma le_int_digits_mod n : forall v, le_int (le_digits n v) = v mod 2 ^ (8 * Z.of_nat n).
Proof.
  induction n as [|n IH]; intros v; [cbn; now rewrite Z.mod_1_r|]. cbn [le_digits le_int]. rewrite IH, pow256_S.
  rewrite Z.rem_mul_r by lia. reflexivity.
Qed.
Lemma lendian_digits big n v : 0 <= n -> lendian big n (v mod 2 ^ (8 * n)) (let d := le_digits (Z.to_nat n) v in if big then rev d else d).
Proof.
  intros Hn. destruct big; cbn; unfold says_be, says_le, be_int; rewrite ?rev_involutive, ?zlen_rev, ?bytes_ok_rev, zlen_le_digits, le_digits_ok, le_int_digits_mod, Z2Nat.id by lia; auto.
Qed.
Lemma lendian_inj big n v a b : lendian big n v a -> lendian big n v b -> a = b.
Proof.
  destruct big; cbn; intros (L & O & V) (L' & O' & V'); [|apply le_int_inj; congruence].
  assert (rev a = rev b) as E by (apply le_int_inj; rewrite ?bytes_ok_rev, ?zlen_rev; unfold be_int in *; congruence).
  apply (f_equal (@rev Z)) in E. now rewrite !rev_involutive in E.
Qed.
Lemma pad_zlen size lb big m : 0 < size -> 0 <= lb -> (zlen (md_pad size lb big m)) mod size = 0.
Proof.
  intros HS HL. unfold md_pad. rewrite zlen_app, zlen_cons, zlen_app, zlen_repeat by (apply Z.mod_pos_bound; lia).
  set (t := zlen (if big then _ else _)). assert (t = lb) as -> by (unfold t; destruct big; rewrite ?zlen_rev, zlen_le_digits; lia).
  pose proof (zlen_nonneg m). set (n := zlen m) in *.
  replace (n + (1 + ((- (n + 1 + lb)) mod size + lb))) with ((- (n + 1 + lb)) mod size + (n + 1 + lb)) by ring.
  rewrite Zplus_mod_idemp_l. replace (- (n + 1 + lb) + (n + 1 + lb)) with 0 by ring. apply Z.mod_0_l. lia.
Qed.
Lemma len_exact {A} (l : list A) size : 0 < size -> zlen l mod size = 0 -> length l = (Z.to_nat (zlen l / size) * Z.to_nat size)%nat.
Proof.
  intros HS HM. pose proof (Z.div_mod (zlen l) size ltac:(lia)) as E. pose proof (zlen_nonneg l). pose proof (Z.div_pos (zlen l) size ltac:(lia) ltac:(lia)).
  rewrite <- Z2Nat.inj_mul by lia. replace (zlen l / size * size) with (zlen l) by lia. unfold zlen. now rewrite Nat2Z.id.
Qed.
Lemma blocks_ok size lb big m : 0 < size -> 0 <= lb -> in_blocks size lb (lendian big) m (md_blocks size lb big m).
Proof.
  intros HS HL. exists ((- (zlen m + 1 + lb)) mod size), (let d := le_digits (Z.to_nat lb) (8 * zlen m) in if big then rev d else d).
  split; [apply Z.mod_pos_bound; lia|]. split; [apply lendian_digits; lia|]. unfold md_blocks. split.
  - rewrite cut_concat; [reflexivity|lia|reflexivity].
  - pose proof (pad_zlen size lb big m HS HL) as HP. apply len_exact in HP; [|lia].
    destruct (cut_sizes (Z.to_nat size) ltac:(lia) _ (length (md_pad size lb big m)) _ HP ltac:(lia)) as [HF _].
    eapply Forall_impl; [|exact HF]. cbn. intros b Hb. unfold zlen, bytes in *. lia.
Qed.
Lemma Forall_zlen (bs : list bytes) size : 0 <= size -> Forall (fun b => zlen b = size) bs -> Forall (fun b => length b = Z.to_nat size) bs.
Proof. intros HS. apply Forall_impl. intros b Hb. unfold zlen in Hb. lia. Qed.
Lemma zlen_concat (bs : list bytes) size : Forall (fun b => zlen b = size) bs -> zlen (concat bs) = size * zlen bs.
Proof. induction 1 as [|b bs Hb _ IH]; [change (0 = size * 0); now rewrite Z.mul_0_r|]. cbn [concat]. rewrite zlen_app, zlen_cons, IH. lia. Qed.
Lemma lendian_zlen big n v L : lendian big n v L -> zlen L = n.
Proof. destruct big; intros (H & _); exact H. Qed.
Lemma blocks_unique size lb big m bs : 0 < size -> 0 <= lb -> in_blocks size lb (lendian big) m bs -> bs = md_blocks size lb big m.
Proof.
  intros HS HL (k & L & HK & HLL & HC & HF). destruct (blocks_ok size lb big m HS HL) as (k' & L' & HK' & HLL' & HC' & HF').
  assert (L = L') as -> by (eapply lendian_inj; eauto).
  assert (k = k') as ->.
  { apply (f_equal zlen) in HC. apply (f_equal zlen) in HC'. rewrite (zlen_concat _ _ HF) in HC. rewrite (zlen_concat _ _ HF') in HC'.
    rewrite !zlen_app, zlen_repeat in HC by lia. rewrite !zlen_app, zlen_repeat in HC' by lia.
    rewrite (lendian_zlen _ _ _ _ HLL') in *. set (q := zlen bs) in *. set (q' := zlen (md_blocks size lb big m)) in *.
    assert (size * (q - q') = k - k') as E by (rewrite Z.mul_sub_distr_l; lia). assert (q - q' = 0) by nia. nia. }
  eapply (concat_unique (Z.to_nat size)); [lia|apply Forall_zlen; [lia|exact HF]|apply Forall_zlen; [lia|exact HF']|]. etransitivity; [exact HC|symmetry; exact HC'].
Qed.

(** ** Collisions *)
Lemma bytes_ok_concat (bs : list bytes) : bytes_ok (concat bs) = true <-> Forall (fun b => bytes_ok b = true) bs.
Proof.
  induction bs as [|b bs IH]; cbn [concat]; [split; [constructor|reflexivity]|]. rewrite bytes_ok_app, andb_true_iff, IH. split; [intros [A B]; now constructor|inversion 1; auto].
Qed.
Lemma bytes_ok_repeat n : bytes_ok (repeat 0 n) = true.
Proof. induction n; [reflexivity|]. cbn. assumption. Qed.
Lemma in_blocks_ok size lb big m bs : bytes_ok m = true -> in_blocks size lb (lendian big) m bs -> Forall (fun b => bytes_ok b = true) bs.
Proof.
  intros HM (k & L & _ & HL & HC & _). apply bytes_ok_concat. rewrite HC, !bytes_ok_app, HM. unfold zrepeat. rewrite bytes_ok_repeat.
  replace (bytes_ok L) with true by (destruct big; destruct HL as (_ & HL & _); now symmetry). reflexivity.
Qed.
Lemma last_field size lb big m bs b : 0 <= lb <= size -> in_blocks size lb (lendian big) m (bs ++ [b]) ->
  lendian big lb ((8 * zlen m) mod 2 ^ (8 * lb)) (skipn (Z.to_nat (size - lb)) b).
Proof.
  intros HL (k & L & HK & HLL & HC & HF). apply Forall_app in HF as [HF Hb]. inversion Hb as [|? ? Hb1 _]; subst.
  rewrite concat_app in HC. cbn [concat] in HC. rewrite app_nil_r in HC. rewrite <- (firstn_skipn (Z.to_nat (zlen b - lb)) b) in HC.
  rewrite !app_assoc in HC. apply (f_equal (@rev Z)) in HC. rewrite !(rev_app_distr _ (skipn _ _)), !(rev_app_distr _ L) in HC.
  apply app_split in HC as [HC _]; [|rewrite !rev_length, skipn_length; pose proof (lendian_zlen _ _ _ _ HLL); unfold zlen, bytes in *; lia].
  apply (f_equal (@rev Z)) in HC. rewrite !rev_involutive in HC. rewrite HC. exact HLL.
Qed.
Lemma lendian_fun big n v v' L : lendian big n v L -> lendian big n v' L -> v = v'.
Proof. destruct big; intros (_ & _ & A) (_ & _ & B); congruence. Qed.
Lemma in_blocks_inj size lb big m m' bs : zlen m = zlen m' -> in_blocks size lb (lendian big) m bs -> in_blocks size lb (lendian big) m' bs -> m = m'.
Proof.
  intros HZ (k & L & _ & _ & HC & _) (k' & L' & _ & _ & HC' & _). rewrite HC in HC'. apply app_split in HC' as [HC' _]; [exact HC'|unfold zlen in HZ; lia].
Qed.
Lemma in_blocks_nonempty size lb says m : ~ in_blocks size lb says m [].
Proof. intros (k & L & _ & _ & HC & _). destruct m; discriminate HC. Qed.

Section Collide.
  Context {S : Type} (step : S -> bytes -> S) (good : S -> Prop) (eq_dec : forall s t : S, {s = t} + {s <> t}).
  Context (size lb : Z) (big : bool) (iv : S).
  Hypothesis size_ok : 0 <= lb <= size.
  Hypothesis size_pos : 0 < size.
  Hypothesis good_iv : good iv.
  Hypothesis good_step : forall s b, good s -> good (step s b).
  (** Two different steps in the computations on these blocks, with the same result. *)
  Definition collision (bs bs' : list bytes) : Prop :=
    exists p b q p' b' q', bs = p ++ b :: q /\ bs' = p' ++ b' :: q' /\
      (fold_left step p iv <> fold_left step p' iv \/ b <> b') /\ step (fold_left step p iv) b = step (fold_left step p' iv) b'.
  Lemma collision_app bs b bs' b' : collision bs bs' -> collision (bs ++ [b]) (bs' ++ [b']).
  Proof using.
    intros (p & x & q & p' & x' & q' & -> & -> & HN & HE). exists p, x, (q ++ [b]), p', x', (q' ++ [b']). rewrite <- !app_assoc. repeat split; assumption.
  Qed.
  Definition blocks_fine (bs : list bytes) : Prop := Forall (fun b => zlen b = size) bs /\ Forall (fun b => bytes_ok b = true) bs.
  Lemma fold_good bs : forall s, good s -> good (fold_left step bs s).
  Proof using good_step. clear - good_step. induction bs as [|b bs IH]; intros s Hs; [exact Hs|]. cbn. auto. Qed.
  Lemma last_collision bs b bs' b' : fold_left step (bs ++ [b]) iv = fold_left step (bs' ++ [b']) iv ->
    collision (bs ++ [b]) (bs' ++ [b']) \/ (b = b' /\ fold_left step bs iv = fold_left step bs' iv).
  Proof using eq_dec.
    clear good good_iv good_step.     intros HE. rewrite !fold_left_app in HE. cbn in HE.
    destruct (eq_dec (fold_left step bs iv) (fold_left step bs' iv)) as [E|E]; [destruct (bytes_eq_dec b b') as [E'|E']; [right; auto|]|];
      left; exists bs, b, [], bs', b', []; repeat split; auto.
  Qed.
  Lemma fold_collision bs : forall bs', length bs = length bs' -> fold_left step bs iv = fold_left step bs' iv -> bs <> bs' -> collision bs bs'.
  Proof using eq_dec.
    clear good good_iv good_step.     induction bs as [|b bs IH] using rev_ind; intros bs' HL HE HN.
    - destruct bs'; [contradiction|discriminate].
    - destruct bs' as [|b' bs' _] using rev_ind; [rewrite app_length in HL; cbn in HL; lia|].
      destruct (last_collision bs b bs' b' HE) as [HC|[-> HC]]; [exact HC|].
      rewrite !app_length in HL. cbn in HL. apply collision_app. apply (IH bs'); [lia|exact HC|]. intros ->. contradiction.
  Qed.
  Lemma md_fine m : bytes_ok m = true -> blocks_fine (md_blocks size lb big m).
  Proof using size_ok size_pos.
    intros HM. pose proof (blocks_ok size lb big m size_pos (proj1 size_ok)) as HI. split; [destruct HI as (? & ? & _ & _ & _ & HF); exact HF|]. eapply in_blocks_ok; eassumption.
  Qed.
  Theorem md_collision m m' : bytes_ok m = true -> bytes_ok m' = true -> 8 * zlen m < 2 ^ (8 * lb) -> 8 * zlen m' < 2 ^ (8 * lb) -> m <> m' ->
    fold_left step (md_blocks size lb big m) iv = fold_left step (md_blocks size lb big m') iv -> collision (md_blocks size lb big m) (md_blocks size lb big m').
  Proof using eq_dec size_ok size_pos.
    clear good good_iv good_step.     intros HM HM' HB HB' HN HE. pose proof (blocks_ok size lb big m size_pos (proj1 size_ok)) as HI. pose proof (blocks_ok size lb big m' size_pos (proj1 size_ok)) as HI'.
    set (bs := md_blocks size lb big m) in *. set (bs' := md_blocks size lb big m') in *. clearbody bs bs'.
    destruct bs as [|b bs _] using rev_ind; [destruct (in_blocks_nonempty _ _ _ _ HI)|]. destruct bs' as [|b' bs' _] using rev_ind; [destruct (in_blocks_nonempty _ _ _ _ HI')|].
    destruct (last_collision bs b bs' b' HE) as [HC|[-> HC]]; [exact HC|].
    pose proof (last_field _ _ _ _ _ _ size_ok HI) as H1. pose proof (last_field _ _ _ _ _ _ size_ok HI') as H2. pose proof (lendian_fun _ _ _ _ _ H1 H2) as HV.
    pose proof (zlen_nonneg m). pose proof (zlen_nonneg m'). rewrite !Z.mod_small in HV by lia. assert (zlen m = zlen m') as HZ by lia.
    apply (fold_collision (bs ++ [b']) (bs' ++ [b'])); auto.
    - pose proof HI as (k & L & HK & HL & HCC & HFF). pose proof HI' as (k' & L' & HK' & HL' & HCC' & HFF').
      apply (f_equal zlen) in HCC, HCC'. rewrite (zlen_concat _ _ HFF) in HCC. rewrite (zlen_concat _ _ HFF') in HCC'.
      rewrite !zlen_app, zlen_repeat in HCC by lia. rewrite !zlen_app, zlen_repeat in HCC' by lia.
      rewrite (lendian_zlen _ _ _ _ HL) in *. rewrite (lendian_zlen _ _ _ _ HL') in *. change (zlen [b']) with 1 in *. change (zlen [128]) with 1 in *.
      set (q := zlen bs) in *. set (q' := zlen bs') in *. assert (size * (q - q') = k - k') as E by nia. assert (q - q' = 0) as E' by nia.
      rewrite !app_length. cbn [length]. unfold q, q', zlen in E'. lia.
    - intros E. rewrite E in HI. apply HN. eapply in_blocks_inj; eassumption.
  Qed.
End Collide.
