(** Numbers in a base: the digits without leading zeros are unique. *)
From Verif.Model Require Import Py.
From Verif.Spec Require Import Numbers.
From Verif.Proofs Require Import PyFacts NumbersFacts.

Section Base.
  Variable B : Z.
  Hypothesis HB : 2 <= B.

  (** Least significant digit first. *)
  Definition vle (ds : list Z) : Z := fold_right (fun d acc => d + B * acc) 0 ds.
  Definition digits (ds : list Z) : Prop := Forall (fun d => 0 <= d < B) ds.
  Definition canon (ds : list Z) : Prop := digits ds /\ (ds <> [] -> last ds 0 <> 0).

  Lemma vle_cons d ds : vle (d :: ds) = d + B * vle ds.
  Proof. reflexivity. Qed.
  Lemma vle_nonneg ds : digits ds -> 0 <= vle ds.
  Proof. induction 1 as [|d ds Hd _ IH]; [cbn; lia|]. rewrite vle_cons. nia. Qed.
  Lemma vle_bound ds : digits ds -> vle ds < B ^ zlen ds.
  Proof.
    induction 1 as [|d ds Hd _ IH]; [change (zlen (@nil Z)) with 0; rewrite Z.pow_0_r; cbn; lia|]. rewrite vle_cons, zlen_cons. pose proof (zlen_nonneg ds).
    rewrite Z.add_comm, Z.pow_add_r, Z.pow_1_r, Z.mul_comm by lia. nia.
  Qed.
  Lemma canon_tail d ds : canon (d :: ds) -> canon ds.
  Proof.
    intros [HD HL]. split; [now inversion HD|]. intros Hne. specialize (HL ltac:(discriminate)). destruct ds; [contradiction|exact HL].
  Qed.
  Lemma canon_pos ds : canon ds -> ds <> [] -> 0 < vle ds.
  Proof.
    induction ds as [|d ds IH]; intros HC Hne; [contradiction|]. rewrite vle_cons. pose proof (canon_tail _ _ HC) as HT. destruct HC as [HD HL].
    inversion HD as [|? ? Hd HD']; subst. destruct ds as [|e ds].
    - specialize (HL ltac:(discriminate)). cbn in *. lia.
    - specialize (IH HT ltac:(discriminate)). nia.
  Qed.
  Lemma canon_unique a : forall b, canon a -> canon b -> vle a = vle b -> a = b.
  Proof.
    induction a as [|x a IH]; intros b HA Hb HV.
    - destruct b as [|y b]; [reflexivity|]. pose proof (canon_pos _ Hb ltac:(discriminate)). change (vle []) with 0 in HV. lia.
    - destruct b as [|y b]; [pose proof (canon_pos _ HA ltac:(discriminate)); rewrite HV in *; cbn in *; lia|].
      pose proof (canon_tail _ _ HA) as HA'. pose proof (canon_tail _ _ Hb) as HB'. destruct HA as [HDa _], Hb as [HDb _].
      inversion HDa as [|? ? Hx _]; subst. inversion HDb as [|? ? Hy _]; subst. rewrite !vle_cons in HV.
      assert (x = y) as ->.
      { rewrite <- (Z.mod_small x B Hx), <- (Z.mod_small y B Hy). rewrite <- (Z.mod_add x (vle a) B), <- (Z.mod_add y (vle b) B) by lia. f_equal. lia. }
      f_equal. apply IH; auto. nia.
  Qed.
  Lemma digits_unique a b : digits a -> digits b -> length a = length b -> vle a = vle b -> a = b.
  Proof.
    intros HA. revert b. induction HA as [|x a Hx HA IH]; intros [|y b] Hb HL HV; try discriminate; [reflexivity|].
    inversion Hb as [|? ? Hy Hb']; subst. rewrite !vle_cons in HV.
    assert (x = y) as ->.
    { rewrite <- (Z.mod_small x B Hx), <- (Z.mod_small y B Hy). rewrite <- (Z.mod_add x (vle a) B), <- (Z.mod_add y (vle b) B) by lia. f_equal. lia. }
    f_equal. apply IH; auto. nia.
  Qed.
  Lemma vle_app a b : vle (a ++ b) = vle a + B ^ zlen a * vle b.
  Proof.
    induction a as [|x a IH]; [change (zlen (@nil Z)) with 0; rewrite Z.pow_0_r; cbn [app]; change (vle []) with 0; lia|]. cbn [app]. rewrite !vle_cons, IH, zlen_cons. pose proof (zlen_nonneg a).
    rewrite Z.pow_add_r, Z.pow_1_r by lia. ring.
  Qed.
  Lemma vle_zeros n : vle (repeat 0 n) = 0.
  Proof. induction n; [reflexivity|]. cbn [repeat]. rewrite vle_cons. lia. Qed.

  (** Most significant digit first. *)
  Definition vbe (ds : list Z) : Z := fold_left (fun acc d => acc * B + d) ds 0.
  Lemma vbe_rev ds : vbe ds = vle (rev ds).
  Proof.
    unfold vbe. assert (HG : forall acc, fold_left (fun acc d => acc * B + d) ds acc = vle (rev ds) + B ^ zlen ds * acc).
    { induction ds as [|d ds IH]; intros acc; cbn [fold_left rev]; [change (zlen (@nil Z)) with 0; rewrite Z.pow_0_r; change (vle []) with 0; lia|]. rewrite IH, vle_app, zlen_cons, zlen_rev. cbn [vle fold_right].
      pose proof (zlen_nonneg ds). rewrite Z.pow_add_r, Z.pow_1_r by lia. ring. }
    rewrite HG. lia.
  Qed.
  (** Without leading zeros. *)
  Definition canon_be (ds : list Z) : Prop := digits ds /\ (ds <> [] -> hd 0 ds <> 0).
  Lemma last_rev (ds : list Z) : last (rev ds) 0 = hd 0 ds.
  Proof. destruct ds as [|d ds]; [reflexivity|]. cbn [rev hd]. apply last_last. Qed.
  Lemma digits_rev ds : digits (rev ds) <-> digits ds.
  Proof. unfold digits. split; intros HF; [rewrite <- (rev_involutive ds)|]; now apply Forall_rev. Qed.
  Lemma canon_be_rev ds : canon_be ds <-> canon (rev ds).
  Proof.
    unfold canon_be, canon. rewrite digits_rev, last_rev. split; intros [HD HL]; split; auto; intros Hne; apply HL; intros E; apply Hne.
    - now rewrite E.
    - now rewrite <- (rev_involutive ds), E.
  Qed.
  Lemma canon_be_unique a b : canon_be a -> canon_be b -> vbe a = vbe b -> a = b.
  Proof.
    rewrite !canon_be_rev, !vbe_rev. intros HA Hb HV. rewrite <- (rev_involutive a), <- (rev_involutive b). f_equal. now apply canon_unique.
  Qed.
  Lemma vbe_zeros n ds : vbe (repeat 0 n ++ ds) = vbe ds.
  Proof. unfold vbe. rewrite fold_left_app. f_equal. induction n; [reflexivity|]. cbn [repeat fold_left]. exact IHn. Qed.
  Lemma vbe_app a b : vbe (a ++ b) = vbe a * B ^ zlen b + vbe b.
  Proof. rewrite !vbe_rev, rev_app_distr, vle_app, zlen_rev. ring. Qed.
  Lemma vbe_bound ds : digits ds -> 0 <= vbe ds < B ^ zlen ds.
  Proof. rewrite <- digits_rev, vbe_rev. intros HD. split; [now apply vle_nonneg|]. rewrite <- zlen_rev. now apply vle_bound. Qed.
  Lemma vbe_unique a b : digits a -> digits b -> length a = length b -> vbe a = vbe b -> a = b.
  Proof.
    rewrite <- (digits_rev a), <- (digits_rev b), !vbe_rev. intros HA Hb HL HV. rewrite <- (rev_involutive a), <- (rev_involutive b). f_equal.
    apply digits_unique; auto. now rewrite !rev_length.
  Qed.
  Lemma strip_zeros ds : digits ds -> exists n r, ds = repeat 0 n ++ r /\ canon_be r.
  Proof.
    induction 1 as [|d ds Hd HD (n & r & -> & HC)]; [exists O, []; repeat split; [constructor|contradiction]|].
    destruct (Z.eq_dec d 0) as [->|Hne]; [exists (S n), r; auto|]. exists O, (d :: repeat 0 n ++ r). split; [reflexivity|]. split; [now constructor|]. now intros _.
  Qed.
End Base.

(** Bytes are digits in base 256. *)
Lemma vle_256 b : vle 256 b = le_int b.
Proof. unfold vle. induction b as [|x b IH]; cbn [fold_right le_int]; auto. Qed.
Lemma vbe_256 b : vbe 256 b = be_int b.
Proof. rewrite vbe_rev by lia. unfold be_int. apply vle_256. Qed.
Lemma digits_256 b : digits 256 b <-> bytes_ok b = true.
Proof. unfold digits. rewrite bytes_ok_In. apply Forall_forall. Qed.
