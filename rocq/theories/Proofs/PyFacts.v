(** Facts about the Python fragment. *)
From Verif.Model Require Import Py.
From Coq Require Export ZifyBool ZifyNat ZifyN.
Ltac Zify.zify_post_hook ::= Z.div_mod_to_equations.

#[global] Arguments Z.pow : simpl never.
#[global] Arguments Z.mul : simpl never.
#[global] Arguments Z.add : simpl never.
#[global] Arguments Z.sub : simpl never.
#[global] Arguments Z.of_nat : simpl never.

(** Invert successful results. *)
Lemma bind_Ok {A B} (r : result A) (f : A -> result B) b :
  bind r f = Ok b -> exists a, r = Ok a /\ f a = Ok b.
Proof. destruct r as [a|e]; simpl; intros H; [eauto|discriminate]. Qed.

Lemma bind_Err {A B} (r : result A) (f : A -> result B) e :
  bind r f = Err e -> r = Err e \/ exists a, r = Ok a /\ f a = Err e.
Proof. destruct r as [a|e']; simpl; intros H; [eauto|left; congruence]. Qed.

Ltac bind_inv H :=
  repeat match type of H with
  | bind ?r ?f = Ok _ =>
    let a := fresh "x" in let E := fresh "E" in
    apply bind_Ok in H; destruct H as (a & E & H); cbv beta in H;
    try (match type of a with (_ * _)%type => destruct a end); cbv iota beta in H
  end.

(** Lengths *)
Lemma zlen_nonneg {A} (l : list A) : 0 <= zlen l.
Proof. unfold zlen; lia. Qed.
Lemma zlen_nil {A} : zlen (@nil A) = 0.
Proof. reflexivity. Qed.
Lemma zlen_cons {A} (x : A) l : zlen (x :: l) = 1 + zlen l.
Proof. unfold zlen; cbn [length]; lia. Qed.
Lemma zlen_app {A} (a b : list A) : zlen (a ++ b) = zlen a + zlen b.
Proof. unfold zlen; rewrite app_length; lia. Qed.
Lemma zlen_rev {A} (a : list A) : zlen (rev a) = zlen a.
Proof. unfold zlen; rewrite rev_length; lia. Qed.
Lemma zlen_map {A B} (f : A -> B) a : zlen (map f a) = zlen a.
Proof. unfold zlen; rewrite map_length; lia. Qed.
Lemma zlen_repeat {A} (x : A) n : 0 <= n -> zlen (zrepeat x n) = n.
Proof. intros; unfold zlen, zrepeat; rewrite repeat_length; lia. Qed.
Lemma zlen_0_nil {A} (l : list A) : zlen l = 0 -> l = [].
Proof. destruct l; auto. rewrite zlen_cons. pose proof (zlen_nonneg l). lia. Qed.
#[global] Hint Rewrite @zlen_nil @zlen_cons @zlen_app @zlen_rev @zlen_map : zlen.
Ltac zlen_tac :=
  autorewrite with zlen in *;
  repeat match goal with
  | |- context [zlen ?l] =>
    lazymatch goal with H : 0 <= zlen l |- _ => fail | _ => pose proof (zlen_nonneg l) end
  | _ : context [zlen ?l] |- _ =>
    lazymatch goal with H : 0 <= zlen l |- _ => fail | _ => pose proof (zlen_nonneg l) end
  end; try lia.

(** take and drop *)
Lemma ztake_firstn {A} (l : list A) n : ztake n l = firstn (Z.to_nat n) l.
Proof.
  revert n; induction l as [|x r IH]; intros n; cbn [ztake].
  - now rewrite firstn_nil.
  - destruct (Z.leb_spec n 0).
    + replace (Z.to_nat n) with O by lia. reflexivity.
    + replace (Z.to_nat n) with (S (Z.to_nat (n - 1))) by lia.
      cbn [firstn]. now rewrite IH.
Qed.
Lemma zdrop_skipn {A} (l : list A) n : zdrop n l = skipn (Z.to_nat n) l.
Proof.
  revert n; induction l as [|x r IH]; intros n; cbn [zdrop].
  - now rewrite skipn_nil.
  - destruct (Z.leb_spec n 0).
    + replace (Z.to_nat n) with O by lia. reflexivity.
    + replace (Z.to_nat n) with (S (Z.to_nat (n - 1))) by lia.
      cbn [skipn]. now rewrite IH.
Qed.
Lemma ztake_zdrop {A} n (l : list A) : ztake n l ++ zdrop n l = l.
Proof. rewrite ztake_firstn, zdrop_skipn. apply firstn_skipn. Qed.
Lemma zlen_ztake {A} n (l : list A) : zlen (ztake n l) = Z.max 0 (Z.min n (zlen l)).
Proof. rewrite ztake_firstn; unfold zlen. rewrite firstn_length. lia. Qed.
Lemma zlen_zdrop {A} n (l : list A) : zlen (zdrop n l) = Z.max 0 (Z.min (zlen l) (zlen l - n)).
Proof. rewrite zdrop_skipn; unfold zlen. rewrite skipn_length. lia. Qed.
Lemma ztake_app_exact {A} n (a b : list A) : n = zlen a -> ztake n (a ++ b) = a.
Proof.
  intros ->. rewrite ztake_firstn. unfold zlen. rewrite Nat2Z.id, firstn_app.
  rewrite Nat.sub_diag, firstn_all, firstn_O. apply app_nil_r.
Qed.
Lemma zdrop_app_exact {A} n (a b : list A) : n = zlen a -> zdrop n (a ++ b) = b.
Proof.
  intros ->. rewrite zdrop_skipn. unfold zlen. rewrite Nat2Z.id, skipn_app.
  rewrite Nat.sub_diag, skipn_all. reflexivity.
Qed.
Lemma ztake_all {A} n (l : list A) : zlen l <= n -> ztake n l = l.
Proof. intros; rewrite ztake_firstn. apply firstn_all2. unfold zlen in *; lia. Qed.
Lemma zdrop_all {A} n (l : list A) : zlen l <= n -> zdrop n l = [].
Proof. intros; rewrite zdrop_skipn. apply skipn_all2. unfold zlen in *; lia. Qed.
Lemma ztake_0 {A} n (l : list A) : n <= 0 -> ztake n l = [].
Proof. intros; rewrite ztake_firstn. replace (Z.to_nat n) with O by lia. reflexivity. Qed.
Lemma zdrop_0 {A} n (l : list A) : n <= 0 -> zdrop n l = l.
Proof. intros; rewrite zdrop_skipn. replace (Z.to_nat n) with O by lia. reflexivity. Qed.
Lemma ztake_app {A} n (a b : list A) : ztake n (a ++ b) = ztake n a ++ ztake (n - zlen a) b.
Proof.
  rewrite !ztake_firstn, firstn_app. do 2 f_equal. unfold zlen. lia.
Qed.
Lemma zdrop_app {A} n (a b : list A) : zdrop n (a ++ b) = zdrop n a ++ zdrop (n - zlen a) b.
Proof.
  rewrite !zdrop_skipn, skipn_app. do 2 f_equal. unfold zlen. lia.
Qed.
Lemma skipn_skipn {A} m n (l : list A) : skipn m (skipn n l) = skipn (n + m) l.
Proof.
  revert l; induction n as [|n IH]; intros l; [reflexivity|].
  destruct l as [|x l]; [now rewrite !skipn_nil|]. cbn [skipn Nat.add]. apply IH.
Qed.
Lemma zdrop_zdrop {A} m n (l : list A) : 0 <= m -> 0 <= n -> zdrop m (zdrop n l) = zdrop (m + n) l.
Proof. intros. rewrite !zdrop_skipn, skipn_skipn. f_equal. lia. Qed.
Lemma ztake_ztake {A} m n (l : list A) : ztake m (ztake n l) = ztake (Z.min m n) l.
Proof. rewrite !ztake_firstn, firstn_firstn. f_equal. lia. Qed.
Lemma ztake_in {A} n (l : list A) x : In x (ztake n l) -> In x l.
Proof. intros H. rewrite <- (ztake_zdrop n l). apply in_or_app. auto. Qed.
Lemma zdrop_in {A} n (l : list A) x : In x (zdrop n l) -> In x l.
Proof. intros H. rewrite <- (ztake_zdrop n l). apply in_or_app. auto. Qed.

(** nth *)
Lemma znth_nth_error {A} (l : list A) i : 0 <= i -> znth l i = nth_error l (Z.to_nat i).
Proof.
  revert i; induction l as [|x r IH]; intros i Hi; cbn [znth].
  - now destruct (Z.to_nat i).
  - destruct (Z.eqb_spec i 0) as [->|Hn]; [reflexivity|].
    destruct (Z.ltb_spec i 0); [lia|].
    rewrite IH by lia. replace (Z.to_nat i) with (S (Z.to_nat (i - 1))) by lia. reflexivity.
Qed.
Lemma znth_neg {A} (l : list A) i : i < 0 -> znth l i = None.
Proof.
  intros H; destruct l; cbn [znth]; auto.
  destruct (Z.eqb_spec i 0); [lia|]. destruct (Z.ltb_spec i 0); [auto|lia].
Qed.
Lemma znth_Some {A} (l : list A) i x : znth l i = Some x -> 0 <= i < zlen l.
Proof.
  intros H. destruct (Z.ltb_spec i 0); [rewrite znth_neg in H by lia; discriminate|].
  rewrite znth_nth_error in H by lia.
  assert (nth_error l (Z.to_nat i) <> None) as HN by congruence.
  apply nth_error_Some in HN. unfold zlen. lia.
Qed.
Lemma znth_is_Some {A} (l : list A) i : 0 <= i < zlen l -> exists x, znth l i = Some x.
Proof.
  intros H. rewrite znth_nth_error by lia.
  destruct (nth_error l (Z.to_nat i)) eqn:E; eauto.
  apply nth_error_None in E. unfold zlen in H. lia.
Qed.
Lemma znth_None {A} (l : list A) i : znth l i = None <-> i < 0 \/ zlen l <= i.
Proof.
  split.
  - intros H. destruct (Z.ltb_spec i 0); [auto|]. right.
    destruct (Z.ltb_spec i (zlen l)); [|lia].
    destruct (znth_is_Some l i) as [x Hx]; [lia|congruence].
  - intros H. destruct (znth l i) eqn:E; auto. apply znth_Some in E. lia.
Qed.
Lemma znth_app_l {A} (a b : list A) i : i < zlen a -> znth (a ++ b) i = znth a i.
Proof.
  intros H. destruct (Z.ltb_spec i 0).
  - now rewrite !znth_neg by lia.
  - rewrite !znth_nth_error by lia. apply nth_error_app1. unfold zlen in H. lia.
Qed.
Lemma znth_app_r {A} (a b : list A) i : zlen a <= i -> znth (a ++ b) i = znth b (i - zlen a).
Proof.
  intros H. pose proof (zlen_nonneg a).
  rewrite !znth_nth_error by lia. rewrite nth_error_app2 by (unfold zlen in H; lia).
  f_equal. unfold zlen. lia.
Qed.
Lemma znth_In {A} (l : list A) i x : znth l i = Some x -> In x l.
Proof.
  intros H. pose proof (znth_Some _ _ _ H). rewrite znth_nth_error in H by lia.
  eapply nth_error_In; eauto.
Qed.
Lemma In_znth {A} (l : list A) x : In x l -> exists i, 0 <= i < zlen l /\ znth l i = Some x.
Proof.
  intros H. apply In_nth_error in H. destruct H as [n Hn]. exists (Z.of_nat n).
  rewrite znth_nth_error, Nat2Z.id by lia. split; auto.
  assert (nth_error l n <> None) as HN by congruence. apply nth_error_Some in HN.
  unfold zlen; lia.
Qed.
Lemma znth_map {A B} (f : A -> B) l i : znth (map f l) i = option_map f (znth l i).
Proof.
  destruct (Z.ltb_spec i 0); [now rewrite !znth_neg by lia|].
  rewrite !znth_nth_error by lia. apply nth_error_map.
Qed.
Lemma znth_ext {A} (a b : list A) : (forall i, 0 <= i -> znth a i = znth b i) -> a = b.
Proof.
  revert b; induction a as [|x a IH]; intros [|y b] H; auto.
  - specialize (H 0 ltac:(lia)). discriminate.
  - specialize (H 0 ltac:(lia)). discriminate.
  - pose proof (H 0 ltac:(lia)) as H0. cbn in H0. injection H0 as ->. f_equal.
    apply IH. intros i Hi. specialize (H (i + 1) ltac:(lia)). cbn [znth] in H.
    destruct (Z.eqb_spec (i+1) 0); [lia|]. destruct (Z.ltb_spec (i+1) 0); [lia|].
    now replace (i + 1 - 1) with i in H by lia.
Qed.

(** bytes *)
Lemma byte_ok_iff b : byte_ok b = true <-> 0 <= b < 256.
Proof. unfold byte_ok; lia. Qed.
Lemma bytes_ok_app a b : bytes_ok (a ++ b) = bytes_ok a && bytes_ok b.
Proof. apply forallb_app. Qed.
Lemma bytes_ok_cons x l : bytes_ok (x :: l) = byte_ok x && bytes_ok l.
Proof. reflexivity. Qed.
Lemma bytes_ok_In l : bytes_ok l = true <-> forall x, In x l -> 0 <= x < 256.
Proof.
  unfold bytes_ok; rewrite forallb_forall.
  split; intros H x Hx; specialize (H x Hx); apply byte_ok_iff; auto.
Qed.
Lemma bytes_ok_rev l : bytes_ok (rev l) = bytes_ok l.
Proof.
  apply eq_true_iff_eq. rewrite !bytes_ok_In. setoid_rewrite <- in_rev. reflexivity.
Qed.
Lemma bytes_ok_ztake n l : bytes_ok l = true -> bytes_ok (ztake n l) = true.
Proof. rewrite !bytes_ok_In. intros H x Hx. apply H. eapply ztake_in; eauto. Qed.
Lemma bytes_ok_zdrop n l : bytes_ok l = true -> bytes_ok (zdrop n l) = true.
Proof. rewrite !bytes_ok_In. intros H x Hx. apply H. eapply zdrop_in; eauto. Qed.

Lemma bytes_eqb_eq a b : bytes_eqb a b = true <-> a = b.
Proof.
  revert b; induction a as [|x a IH]; intros [|y b]; cbn [bytes_eqb]; split; try congruence; auto.
  - intros H. apply andb_true_iff in H as [H1 H2]. apply Z.eqb_eq in H1. apply IH in H2. congruence.
  - intros [= -> ->]. rewrite Z.eqb_refl. apply IH. reflexivity.
Qed.
Lemma bytes_eqb_refl a : bytes_eqb a a = true.
Proof. now apply bytes_eqb_eq. Qed.
Lemma bytes_eqb_spec a b : reflect (a = b) (bytes_eqb a b).
Proof. apply iff_reflect. symmetry. apply bytes_eqb_eq. Qed.
Lemma bytes_eq_dec (a b : list Z) : {a = b} + {a <> b}.
Proof. apply (list_eq_dec Z.eq_dec). Qed.

(** Little-endian digits *)
Lemma le_digits_length n v : length (le_digits n v) = n.
Proof. revert v; induction n; intros; cbn [le_digits length]; auto. Qed.
Lemma zlen_le_digits n v : zlen (le_digits n v) = Z.of_nat n.
Proof. unfold zlen; now rewrite le_digits_length. Qed.
Lemma le_digits_ok n v : bytes_ok (le_digits n v) = true.
Proof.
  revert v; induction n; intros; cbn [le_digits]; auto.
  rewrite bytes_ok_cons, IHn, andb_true_r. apply byte_ok_iff. apply Z.mod_pos_bound. lia.
Qed.
Lemma pow256_S n : 2 ^ (8 * Z.of_nat (S n)) = 256 * 2 ^ (8 * Z.of_nat n).
Proof.
  replace (8 * Z.of_nat (S n)) with (8 + 8 * Z.of_nat n) by lia.
  rewrite Z.pow_add_r by lia. reflexivity.
Qed.
Lemma le_int_digits n v : 0 <= v < 2 ^ (8 * Z.of_nat n) -> le_int (le_digits n v) = v.
Proof.
  revert v; induction n; intros v Hv; cbn [le_digits le_int].
  - change (2 ^ (8 * Z.of_nat 0)) with 1 in Hv. lia.
  - rewrite pow256_S in Hv. rewrite IHn; lia.
Qed.
Lemma le_int_nonneg b : bytes_ok b = true -> 0 <= le_int b.
Proof.
  induction b as [|x b IH]; cbn [le_int]; [lia|].
  rewrite bytes_ok_cons. intros [Hx Hb]%andb_true_iff. apply byte_ok_iff in Hx.
  specialize (IH Hb). lia.
Qed.
Lemma le_int_bound b : bytes_ok b = true -> 0 <= le_int b < 2 ^ (8 * zlen b).
Proof.
  induction b as [|x b IH]; cbn [le_int].
  - change (2 ^ (8 * zlen [])) with 1. lia.
  - rewrite bytes_ok_cons. intros [Hx Hb]%andb_true_iff. apply byte_ok_iff in Hx.
    specialize (IH Hb). unfold zlen in *. cbn [length]. rewrite pow256_S. lia.
Qed.
Lemma le_digits_int b n : bytes_ok b = true -> length b = n -> le_digits n (le_int b) = b.
Proof.
  intros Hb <-. induction b as [|x b IH]; cbn [length le_digits le_int]; auto.
  rewrite bytes_ok_cons in Hb. apply andb_true_iff in Hb as [Hx Hb]. apply byte_ok_iff in Hx.
  f_equal.
  - lia.
  - etransitivity; [|apply IH; auto]. f_equal. lia.
Qed.
Lemma le_int_inj a b : bytes_ok a = true -> bytes_ok b = true -> zlen a = zlen b ->
  le_int a = le_int b -> a = b.
Proof.
  intros Ha Hb Hl H.
  rewrite <- (le_digits_int a (length a)), <- (le_digits_int b (length a)); auto.
  - congruence.
  - unfold zlen in Hl. lia.
Qed.
Lemma le_int_app a b : le_int (a ++ b) = le_int a + 2 ^ (8 * zlen a) * le_int b.
Proof.
  induction a as [|x a IH]; cbn [app le_int].
  - change (2 ^ (8 * zlen [])) with 1. lia.
  - rewrite IH. unfold zlen. cbn [length]. rewrite pow256_S. lia.
Qed.

(** Slices *)
Lemma pyslice_nonneg {A} (l : list A) i j : 0 <= i -> 0 <= j ->
  pyslice l i j = ztake (j - i) (zdrop i l).
Proof.
  intros Hi Hj. unfold pyslice, slice_bound.
  destruct (Z.ltb_spec i 0); [lia|]. destruct (Z.ltb_spec j 0); [lia|].
  pose proof (zlen_nonneg l).
  destruct (Z.leb_spec (zlen l) i).
  - rewrite (zdrop_all i), (zdrop_all (Z.min i _)) by lia. destruct (j - i), (Z.min j (zlen l) - Z.min i (zlen l)); reflexivity.
  - rewrite (Z.min_l i) by lia.
    destruct (Z.leb_spec j (zlen l)); [now rewrite Z.min_l by lia|].
    rewrite Z.min_r by lia. rewrite !ztake_all; auto; rewrite zlen_zdrop; lia.
Qed.
Lemma slice_from_nonneg {A} (l : list A) i : 0 <= i -> slice_from l i = zdrop i l.
Proof.
  intros Hi. unfold slice_from, slice_bound.
  destruct (Z.ltb_spec i 0); [lia|].
  destruct (Z.leb_spec i (zlen l)); [now rewrite Z.min_l by lia|].
  rewrite !zdrop_all; auto; lia.
Qed.
Lemma slice_to_nonneg {A} (l : list A) i : 0 <= i -> slice_to l i = ztake i l.
Proof.
  intros Hi. unfold slice_to, slice_bound.
  destruct (Z.ltb_spec i 0); [lia|].
  destruct (Z.leb_spec i (zlen l)); [now rewrite Z.min_l by lia|].
  rewrite !ztake_all; auto; lia.
Qed.

(** mapM *)
Lemma mapM_Ok_iff {A B} (f : A -> result B) l ys :
  mapM f l = Ok ys <-> Forall2 (fun x y => f x = Ok y) l ys.
Proof.
  revert ys; induction l as [|x l IH]; intros ys; cbn [mapM]; split.
  - intros [= <-]. constructor.
  - intros H; inversion H; auto.
  - intros H. bind_inv H. injection H as <-. constructor; auto. now apply IH.
  - intros H; inversion H as [|x' y l' ys' Hx Hl]; subst. rewrite Hx. cbn.
    apply IH in Hl. rewrite Hl. reflexivity.
Qed.
Lemma mapM_app {A B} (f : A -> result B) a b :
  mapM f (a ++ b) = (x <- mapM f a ;; y <- mapM f b ;; Ok (x ++ y)).
Proof.
  induction a as [|z a IH]; cbn [mapM app].
  - cbn. destruct (mapM f b); reflexivity.
  - destruct (f z); cbn; auto. rewrite IH. destruct (mapM f a); cbn; auto.
    destruct (mapM f b); reflexivity.
Qed.
Lemma mapM_length {A B} (f : A -> result B) l ys : mapM f l = Ok ys -> length ys = length l.
Proof.
  rewrite mapM_Ok_iff. induction 1; cbn [length]; auto.
Qed.
Lemma mapM_ext {A B} (f g : A -> result B) l : (forall x, In x l -> f x = g x) -> mapM f l = mapM g l.
Proof.
  induction l as [|x l IH]; intros H; cbn [mapM]; auto.
  rewrite H by (left; auto). rewrite IH; auto. intros; apply H; right; auto.
Qed.
Lemma mapM_total {A B} (f : A -> result B) l : (forall x, In x l -> exists y, f x = Ok y) ->
  exists ys, mapM f l = Ok ys.
Proof.
  induction l as [|x l IH]; intros H; cbn [mapM]; eauto.
  destruct (H x) as [y Hy]; [left; auto|]. destruct IH as [ys Hys]; [intros; apply H; right; auto|].
  rewrite Hy, Hys. cbn. eauto.
Qed.

(** Hex *)
Lemma hex_val_char d : 0 <= d < 16 -> hex_val (hex_char d) = Some d.
Proof.
  intros H. unfold hex_char, hex_val.
  destruct (Z.ltb_spec d 10).
  - replace ((48 <=? 48 + d) && (48 + d <=? 57)) with true by lia. f_equal; lia.
  - replace ((48 <=? 87 + d) && (87 + d <=? 57)) with false by lia.
    replace ((97 <=? 87 + d) && (87 + d <=? 102)) with true by lia. f_equal; lia.
Qed.
Lemma hex_char_not_space d : 0 <= d < 16 -> is_space (hex_char d) = false.
Proof. intros H. unfold is_space, hex_char. destruct (Z.ltb_spec d 10); lia. Qed.
Lemma from_hex_to_hex b : bytes_ok b = true -> from_hex (to_hex b) = Ok b.
Proof.
  induction b as [|x b IH]; intros H; [reflexivity|].
  rewrite bytes_ok_cons in H. apply andb_true_iff in H as [Hx Hb]. apply byte_ok_iff in Hx.
  cbn [to_hex from_hex]. rewrite hex_char_not_space by lia.
  rewrite !hex_val_char by lia. rewrite IH by auto. cbn [bind]. do 2 f_equal. lia.
Qed.
Lemma Ok_inj {A} (a b : A) : Ok a = Ok b -> a = b.
Proof. congruence. Qed.
