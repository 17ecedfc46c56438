(** Facts about the headers file. *)
From Verif.Model Require Import Py Packing Storage.
From Verif.Proofs Require Import PyFacts PackingFacts.

(** Functional update of a list *)
Definition zupdate {A} (l : list A) (i : Z) (x : A) : list A := ztake i l ++ x :: zdrop (i + 1) l.

Lemma zlen_zupdate {A} (l : list A) i x : 0 <= i < zlen l -> zlen (zupdate l i x) = zlen l.
Proof. intros. unfold zupdate. rewrite zlen_app, zlen_cons, zlen_ztake, zlen_zdrop. lia. Qed.

Lemma znth_ztake {A} (l : list A) n i : i < n -> znth (ztake n l) i = znth l i.
Proof.
  intros Hi. destruct (Z.lt_ge_cases i 0); [now rewrite !znth_neg|].
  rewrite <- (ztake_zdrop n l) at 2. destruct (Z.lt_ge_cases i (zlen (ztake n l))).
  - now rewrite znth_app_l.
  - rewrite zlen_ztake in *. assert (zlen l <= i) by (pose proof (zlen_nonneg l); lia).
    transitivity (@None A); [|symmetry]; apply znth_None.
    + right. rewrite zlen_ztake. lia.
    + right. rewrite zlen_app, zlen_ztake, zlen_zdrop. lia.
Qed.
Lemma znth_zdrop {A} (l : list A) n i : 0 <= n -> 0 <= i -> znth (zdrop n l) i = znth l (i + n).
Proof.
  intros Hn Hi. destruct (Z.le_gt_cases n (zlen l)).
  - rewrite <- (ztake_zdrop n l) at 2. rewrite znth_app_r; rewrite zlen_ztake; [f_equal; lia|lia].
  - rewrite zdrop_all by lia. rewrite (proj2 (znth_None l (i + n))) by lia. reflexivity.
Qed.

Lemma znth_zupdate {A} (l : list A) i x j : 0 <= i < zlen l ->
  znth (zupdate l i x) j = if j =? i then Some x else znth l j.
Proof.
  intros Hi. unfold zupdate. destruct (Z.eqb_spec j i) as [->|Hn].
  - rewrite znth_app_r by (rewrite zlen_ztake; lia). rewrite zlen_ztake.
    replace (i - Z.max 0 (Z.min i (zlen l))) with 0 by lia. reflexivity.
  - destruct (Z.lt_ge_cases j i).
    + rewrite znth_app_l; [apply znth_ztake; lia|].
      destruct (Z.lt_ge_cases j 0); rewrite zlen_ztake; lia.
    + rewrite znth_app_r by (rewrite zlen_ztake; lia). rewrite zlen_ztake.
      replace (j - Z.max 0 (Z.min i (zlen l))) with (1 + (j - i - 1)) by lia.
      change (x :: zdrop (i + 1) l) with ([x] ++ zdrop (i + 1) l).
      rewrite znth_app_r by (change (zlen [x]) with 1; lia). change (zlen [x]) with 1.
      replace (1 + (j - i - 1) - 1) with (j - i - 1) by lia.
      rewrite znth_zdrop by lia. f_equal. lia.
Qed.

Lemma ztake_cons {A} i (b : A) bs : 0 < i -> ztake i (b :: bs) = b :: ztake (i - 1) bs.
Proof. intros. cbn [ztake]. destruct (Z.leb_spec i 0); [lia|reflexivity]. Qed.
Lemma zdrop_cons {A} i (b : A) bs : 0 < i -> zdrop i (b :: bs) = zdrop (i - 1) bs.
Proof. intros. cbn [zdrop]. destruct (Z.leb_spec i 0); [lia|reflexivity]. Qed.

(** Concatenations of 80-byte blocks *)
Definition blocks80 (bs : list bytes) : Prop := Forall (fun b => zlen b = 80) bs.

Lemma blocks80_app a b : blocks80 (a ++ b) <-> blocks80 a /\ blocks80 b.
Proof. apply Forall_app. Qed.
Lemma blocks80_znth bs i b : blocks80 bs -> znth bs i = Some b -> zlen b = 80.
Proof. intros HB HN. apply znth_In in HN. unfold blocks80 in HB. rewrite Forall_forall in HB. auto. Qed.
Lemma blocks80_zupdate bs i b : blocks80 bs -> zlen b = 80 -> blocks80 (zupdate bs i b).
Proof.
  intros HB Hb. unfold zupdate. apply blocks80_app. rewrite <- (ztake_zdrop i bs) in HB.
  apply blocks80_app in HB as [H1 H2]. split; [exact H1|]. constructor; [exact Hb|].
  rewrite Forall_forall in *. intros x Hx. rewrite <- (ztake_zdrop i bs) in Hx.
  unfold blocks80 in *. rewrite Forall_forall in *. rewrite ztake_zdrop in Hx.
  apply zdrop_in in Hx. rewrite <- (ztake_zdrop i bs) in Hx. apply in_app_iff in Hx as [Hx|Hx]; auto.
Qed.

Lemma zlen_concat80 bs : blocks80 bs -> zlen (concat bs) = 80 * zlen bs.
Proof.
  induction 1 as [|b bs Hb HB IH]; [reflexivity|]. cbn [concat]. rewrite zlen_app, zlen_cons. lia.
Qed.

Lemma concat_ztake bs i : blocks80 bs -> 0 <= i -> ztake (80 * i) (concat bs) = concat (ztake i bs).
Proof.
  intros HB. revert i. induction HB as [|b bs Hb HB IH]; intros i Hi; [reflexivity|].
  cbn [concat]. destruct (Z.eq_dec i 0) as [->|]; [now rewrite !ztake_0 by lia|].
  rewrite ztake_app, Hb. rewrite (ztake_all _ b) by lia.
  replace (80 * i - 80) with (80 * (i - 1)) by lia. rewrite IH by lia.
  change (b ++ concat (ztake (i - 1) bs)) with (concat (b :: ztake (i - 1) bs)). f_equal. symmetry. apply ztake_cons. lia.
Qed.
Lemma concat_zdrop bs i : blocks80 bs -> 0 <= i -> zdrop (80 * i) (concat bs) = concat (zdrop i bs).
Proof.
  intros HB. revert i. induction HB as [|b bs Hb HB IH]; intros i Hi; [reflexivity|].
  cbn [concat]. destruct (Z.eq_dec i 0) as [->|]; [now rewrite !zdrop_0 by lia|].
  rewrite zdrop_app, Hb. rewrite (zdrop_all _ b) by lia.
  replace (80 * i - 80) with (80 * (i - 1)) by lia. rewrite IH by lia.
  cbn [app]. f_equal. symmetry. apply zdrop_cons. lia.
Qed.
Lemma znth_zdrop_head {A} (l : list A) i : 0 <= i -> znth l i = znth (zdrop i l) 0.
Proof. intros. rewrite znth_zdrop by lia. f_equal. Qed.

Lemma concat_slot bs i : blocks80 bs -> 0 <= i ->
  ztake 80 (zdrop (80 * i) (concat bs)) = match znth bs i with Some b => b | None => [] end.
Proof.
  intros HB Hi. rewrite concat_zdrop by auto. rewrite (znth_zdrop_head bs i Hi).
  assert (HB' : blocks80 (zdrop i bs)) by (rewrite <- (ztake_zdrop i bs) in HB; now apply blocks80_app in HB).
  destruct HB' as [|b r Hb HR]; [reflexivity|]. cbn [concat znth Z.eqb].
  now apply ztake_app_exact.
Qed.

Lemma concat_update bs i raw : blocks80 bs -> zlen raw = 80 -> 0 <= i < zlen bs ->
  ztake (80 * i) (concat bs) ++ raw ++ zdrop (80 * i + 80) (concat bs) = concat (zupdate bs i raw).
Proof.
  intros HB Hr Hi. unfold zupdate. rewrite concat_app. cbn [concat].
  rewrite concat_ztake by (auto; lia). replace (80 * i + 80) with (80 * (i + 1)) by lia.
  now rewrite concat_zdrop by (auto; lia).
Qed.

Lemma zrepeat_blocks m : 0 <= m -> zrepeat 0 (80 * m) = concat (zrepeat empty_header m).
Proof.
  intros Hm. unfold zrepeat. rewrite <- (Z2Nat.id m) at 1 by lia. generalize (Z.to_nat m) as k. clear m Hm.
  induction k as [|k IH]; [reflexivity|].
  replace (Z.to_nat (80 * Z.of_nat (S k))) with (80 + Z.to_nat (80 * Z.of_nat k))%nat by lia.
  rewrite repeat_app, IH. reflexivity.
Qed.
Lemma blocks80_empty m : blocks80 (zrepeat empty_header m).
Proof. unfold zrepeat. induction (Z.to_nat m); constructor; auto. Qed.

(** [rep st bs n]: the file holds count [n] and the blocks [bs] (some possibly empty headers). *)
Definition file8 (n : Z) : bytes := [8; 0; 0; 0] ++ le_digits 4 n.
Definition rep (st : storage) (bs : list bytes) (n : Z) : Prop :=
  st_reserved st = 8 /\ st_file st = file8 n ++ concat bs /\ blocks80 bs /\
  0 <= n <= zlen bs /\ n < 2 ^ 32.

Lemma zlen_file8 n : zlen (file8 n) = 8.
Proof. reflexivity. Qed.

Definition block_get (bs : list bytes) (i : Z) : result bytes :=
  match znth bs i with
  | Some b => if bytes_eqb b empty_header then Err MissingHeader else Ok b
  | None => Err MissingHeader
  end.

Lemma file8_count n rest : 0 <= n < 2 ^ 32 -> unpack_le_uint32 (pyslice (file8 n ++ rest) 4 8) = Ok n.
Proof.
  intros Hn. rewrite pyslice_nonneg by lia. unfold file8. rewrite <- !app_assoc.
  change (zdrop 4 ([8; 0; 0; 0] ++ le_digits 4 n ++ rest)) with (le_digits 4 n ++ rest).
  rewrite ztake_app_exact by reflexivity. apply unpack_uint_le_digits. exact Hn.
Qed.
Lemma rep_len st bs n : rep st bs n -> storage_len st = Ok n.
Proof.
  intros (Hr & Hf & _ & Hn & Hn2). unfold storage_len. rewrite Hf. apply file8_count. lia.
Qed.

Lemma rep_header st bs n i : rep st bs n -> 0 <= i -> storage_header st i = block_get bs i.
Proof.
  intros (Hr & Hf & HB & Hn & Hn2) Hi. unfold storage_header, offset. rewrite Hr, Hf.
  rewrite pyslice_nonneg by lia. replace (8 + i * 80 + 80 - (8 + i * 80)) with 80 by lia.
  rewrite zdrop_app, zlen_file8. rewrite (zdrop_all _ (file8 n)) by (rewrite zlen_file8; lia).
  cbn [app]. replace (8 + i * 80 - 8) with (80 * i) by lia. rewrite concat_slot by auto.
  unfold block_get. destruct (znth bs i) as [b|] eqn:HN; [|reflexivity].
  rewrite (blocks80_znth _ _ _ HB HN). reflexivity.
Qed.
Lemma rep_get st bs n i : rep st bs n -> 0 <= i -> storage_get st i = block_get bs i.
Proof. intros HR Hi. unfold storage_get. destruct (Z.ltb_spec i 0); [lia|]. eapply rep_header; eauto. Qed.
Lemma rep_get_neg st bs n i : rep st bs n -> - n <= i < 0 -> storage_get st i = block_get bs (i + n).
Proof.
  intros HR Hi. unfold storage_get. destruct (Z.ltb_spec i 0); [|lia]. rewrite (rep_len _ _ _ HR). cbn [bind].
  eapply rep_header; eauto. lia.
Qed.

Lemma apply_write_in f off data : 0 <= off -> off + zlen data <= zlen f ->
  apply_effect f (Write off data) = ztake off f ++ data ++ zdrop (off + zlen data) f.
Proof.
  intros H1 H2. cbn [apply_effect]. pose proof (zlen_nonneg data).
  unfold zrepeat. now replace (Z.to_nat (off - zlen f)) with O by lia.
Qed.

Lemma write_count n m rest : apply_effect (file8 n ++ rest) (Write 4 (le_digits 4 m)) = file8 m ++ rest.
Proof.
  pose proof (zlen_nonneg rest).
  rewrite apply_write_in; [|lia|rewrite zlen_le_digits, zlen_app, zlen_file8; lia].
  rewrite zlen_le_digits. change (4 + Z.of_nat 4) with 8.
  rewrite zdrop_app_exact by reflexivity. unfold file8. rewrite <- !app_assoc. 
  change (ztake 4 ([8; 0; 0; 0] ++ le_digits 4 n ++ rest)) with ([8; 0; 0; 0] ++ ztake 0 (le_digits 4 n ++ rest)).
  rewrite ztake_0 by lia. rewrite app_nil_r. reflexivity.
Qed.
Lemma write_block n bs i raw : blocks80 bs -> zlen raw = 80 -> 0 <= i < zlen bs ->
  apply_effect (file8 n ++ concat bs) (Write (8 + i * 80) raw) = file8 n ++ concat (zupdate bs i raw).
Proof.
  intros HB Hr Hi.
  rewrite apply_write_in; [|lia|rewrite zlen_app, zlen_file8, zlen_concat80, Hr by auto; lia].
  rewrite ztake_app, zdrop_app, zlen_file8, Hr.
  rewrite (ztake_all _ (file8 n)), (zdrop_all _ (file8 n)) by (rewrite zlen_file8; lia).
  cbn [app]. rewrite <- app_assoc. f_equal.
  replace (8 + i * 80 - 8) with (80 * i) by lia. replace (8 + i * 80 + 80 - 8) with (80 * i + 80) by lia.
  now apply concat_update.
Qed.
Lemma truncate_grow n bs m : blocks80 bs -> zlen bs <= m ->
  apply_effect (file8 n ++ concat bs) (Truncate (8 + m * 80)) =
  file8 n ++ concat (bs ++ zrepeat empty_header (m - zlen bs)).
Proof.
  intros HB Hm. cbn [apply_effect].
  assert (HL : zlen (file8 n ++ concat bs) = 8 + 80 * zlen bs) by (rewrite zlen_app, zlen_file8, zlen_concat80; auto).
  rewrite ztake_all by lia. rewrite HL. rewrite <- app_assoc. f_equal. rewrite concat_app. f_equal.
  rewrite <- zrepeat_blocks by lia. f_equal. lia.
Qed.

Lemma mmap_assign_count f c : 8 <= zlen f -> zlen c = 4 -> mmap_assign f 4 8 c = Ok [Write 4 c].
Proof.
  intros H1 H2. unfold mmap_assign, slice_bound. cbn [Z.ltb Z.compare].
  rewrite !Z.min_l by lia. rewrite H2. reflexivity.
Qed.
Lemma mmap_assign_in f a data : 0 <= a -> a + 80 <= zlen f -> zlen data = 80 -> mmap_assign f a (a + 80) data = Ok [Write a data].
Proof.
  intros H1 H2 H3. unfold mmap_assign, slice_bound.
  destruct (Z.ltb_spec a 0); [lia|]. destruct (Z.ltb_spec (a + 80) 0); [lia|].
  rewrite !Z.min_l by lia. rewrite H3. replace (Z.max 0 (a + 80 - a)) with 80 by lia. reflexivity.
Qed.

(** Blocks after growing to make room for index [i]. *)
Definition grown (bs : list bytes) (i : Z) : list bytes :=
  if zlen bs <=? i then bs ++ zrepeat empty_header (i + 5000 - zlen bs) else bs.
Lemma zlen_grown bs i : 0 <= i -> i < zlen (grown bs i) /\ zlen bs <= zlen (grown bs i).
Proof.
  intros Hi. unfold grown. destruct (Z.leb_spec (zlen bs) i); [|lia].
  rewrite zlen_app, zlen_repeat by lia. lia.
Qed.
Lemma grown_80 bs i : blocks80 bs -> blocks80 (grown bs i).
Proof.
  intros. unfold grown. destruct (zlen bs <=? i); auto. apply blocks80_app. split; auto. apply blocks80_empty.
Qed.
Lemma znth_repeat {A} (x : A) m i : 0 <= i < m -> znth (zrepeat x m) i = Some x.
Proof.
  intros. unfold zrepeat. rewrite znth_nth_error by lia.
  rewrite (nth_error_nth' _ x) by (rewrite repeat_length; lia). now rewrite nth_repeat.
Qed.
Lemma grown_get bs i j : 0 <= i -> 0 <= j -> block_get (grown bs i) j = block_get bs j.
Proof.
  intros Hi Hj. unfold grown. destruct (Z.leb_spec (zlen bs) i); [|reflexivity].
  unfold block_get. destruct (Z.lt_ge_cases j (zlen bs)).
  - now rewrite znth_app_l.
  - rewrite znth_app_r by lia. rewrite (proj2 (znth_None bs j)) by lia.
    destruct (znth (zrepeat empty_header (i + 5000 - zlen bs)) (j - zlen bs)) as [b|] eqn:HN; [|reflexivity].
    pose proof (znth_Some _ _ _ HN) as HB. rewrite zlen_repeat in HB by lia. rewrite znth_repeat in HN by lia.
    injection HN as <-. now rewrite bytes_eqb_refl.
Qed.

(** The effects of writing a header, and the storage after them. *)
Definition set_effects (bs : list bytes) (n i : Z) (raw : bytes) : list effect :=
  (if zlen bs <=? i then [Truncate (8 + (i + 5000) * 80)] else []) ++
  (if n <=? i then [Write 4 (le_digits 4 (i + 1))] else []) ++ [Write (8 + i * 80) raw].

Lemma set_raw_header_effects st bs n i raw : rep st bs n -> zlen raw = 80 -> 0 <= i -> i + 1 < 2 ^ 32 ->
  set_raw_header st i raw = (set_effects bs n i raw, Ok tt).
Proof.
  intros (Hr & Hf & HB & Hn & Hn2) Hraw Hi Hi2. unfold set_raw_header. rewrite Hraw. cbn [Z.eqb Pos.eqb negb].
  unfold offset. rewrite Hr, Hf.
  rewrite zlen_app, zlen_file8, zlen_concat80 by auto.
  assert (HC : (8 + 80 * zlen bs <=? 8 + i * 80) = (zlen bs <=? i)).
  { destruct (Z.leb_spec (8 + 80 * zlen bs) (8 + i * 80)), (Z.leb_spec (zlen bs) i); lia. }
  rewrite HC. unfold set_effects.
  set (e1 := if zlen bs <=? i then [Truncate (8 + (i + 5000) * 80)] else []).
  assert (HF1 : apply_effects (file8 n ++ concat bs) e1 = file8 n ++ concat (grown bs i)).
  { subst e1. unfold grown. destruct (Z.leb_spec (zlen bs) i); [|reflexivity].
    cbn [apply_effects fold_left]. rewrite truncate_grow by (auto; lia). reflexivity. }
  rewrite HF1. rewrite file8_count by lia.
  pose proof (zlen_grown bs i Hi) as [HG1 HG2]. pose proof (grown_80 bs i HB) as HGB.
  set (g := grown bs i) in *. clearbody g. clearbody e1.
  assert (HL : forall m, zlen (file8 m ++ concat g) = 8 + 80 * zlen g).
  { intros. rewrite zlen_app, zlen_file8, zlen_concat80 by auto. lia. }
  destruct (Z.leb_spec n i) as [Hni|Hni].
  - unfold pack_le_uint32. rewrite pack_uint_le_Ok by (cbn; lia). cbn [bind].
    rewrite mmap_assign_count by (rewrite ?HL, ?zlen_le_digits; lia).
    cbn [apply_effects fold_left]. rewrite write_count.
    rewrite mmap_assign_in by (rewrite ?HL; lia). reflexivity.
  - cbn [apply_effects fold_left app]. rewrite mmap_assign_in by (rewrite ?HL; lia). reflexivity.
Qed.

Lemma rep_set st bs n i raw : rep st bs n -> zlen raw = 80 -> 0 <= i -> i + 1 < 2 ^ 32 ->
  exists st', storage_set st i raw = (st', Ok tt) /\ rep st' (zupdate (grown bs i) i raw) (Z.max n (i + 1)).
Proof.
  intros HR Hraw Hi Hi2. unfold storage_set. rewrite (set_raw_header_effects st bs n i raw) by auto.
  eexists. split; [reflexivity|]. destruct HR as (Hr & Hf & HB & Hn & Hn2).
  pose proof (zlen_grown bs i Hi) as [HG1 HG2]. pose proof (grown_80 bs i HB) as HGB.
  unfold rep, storage_after. cbn [st_reserved st_file]. rewrite Hf.
  split; [exact Hr|]. split; [|split; [now apply blocks80_zupdate|]].
  2:{ rewrite zlen_zupdate by lia. lia. }
  unfold set_effects, apply_effects. rewrite !fold_left_app.
  assert (HF1 : fold_left apply_effect (if zlen bs <=? i then [Truncate (8 + (i + 5000) * 80)] else [])
                  (file8 n ++ concat bs) = file8 n ++ concat (grown bs i)).
  { unfold grown. destruct (Z.leb_spec (zlen bs) i); [|reflexivity].
    cbn [fold_left]. rewrite truncate_grow by (auto; lia). reflexivity. }
  rewrite HF1. destruct (Z.leb_spec n i).
  - cbn [fold_left]. rewrite write_count. rewrite write_block by (auto; lia).
    replace (Z.max n (i + 1)) with (i + 1) by lia. reflexivity.
  - cbn [fold_left]. rewrite write_block by (auto; lia). replace (Z.max n (i + 1)) with n by lia. reflexivity.
Qed.

Lemma block_get_update bs i raw j : 0 <= i -> 0 <= j ->
  block_get (zupdate (grown bs i) i raw) j =
  if j =? i then (if bytes_eqb raw empty_header then Err MissingHeader else Ok raw) else block_get bs j.
Proof.
  intros Hi Hj. pose proof (zlen_grown bs i Hi) as [HG1 HG2].
  rewrite <- (grown_get bs i j Hi Hj). unfold block_get. rewrite znth_zupdate by lia.
  destruct (j =? i); reflexivity.
Qed.

Lemma storage_set_len_err st i raw : zlen raw <> 80 -> storage_set st i raw = (st, Err TypeError).
Proof.
  intros HL. unfold storage_set, set_raw_header. destruct (Z.eqb_spec (zlen raw) 80); [contradiction|].
  cbn [negb]. destruct st; reflexivity.
Qed.

Lemma rep_append st bs n raw : rep st bs n -> zlen raw = 80 -> n + 1 < 2 ^ 32 ->
  exists st', storage_append st raw = (st', Ok n) /\ rep st' (zupdate (grown bs n) n raw) (n + 1) /\
    append_effects st raw = set_effects bs n n raw.
Proof.
  intros HR Hraw Hn. unfold storage_append, append_effects. rewrite (rep_len _ _ _ HR).
  pose proof HR as (_ & _ & _ & Hn0 & _).
  destruct (rep_set st bs n n raw HR Hraw ltac:(lia) ltac:(lia)) as (st' & HS & HR').
  unfold storage_set in HS. rewrite (set_raw_header_effects st bs n n raw) in * by (auto; lia).
  injection HS as HS. exists st'. cbn [fst]. rewrite HS. split; [reflexivity|]. split; [|reflexivity].
  now replace (n + 1) with (Z.max n (n + 1)) by lia.
Qed.

(** Opening and creating *)
Definition cp_ok (cp : checkpoint) : Prop :=
  zlen (cp_raw cp) = 80 /\ cp_raw cp <> empty_header /\ 0 <= cp_height cp /\ cp_height cp + 1 < 2 ^ 32.

Lemma rep_open st bs n cp : rep st bs n -> cp_ok cp ->
  open_file (Some (st_file st)) cp =
  (raw <- block_get bs (cp_height cp) ;; if bytes_eqb raw (cp_raw cp) then Ok st else Err BadHeadersFile).
Proof.
  intros HR (Hc1 & Hc2 & Hc3 & Hc4). pose proof HR as (Hr & Hf & HB & Hn & Hn2).
  unfold open_file. rewrite Hf at 1.
  change (file8 n ++ concat bs) with (8 :: [0; 0; 0] ++ le_digits 4 n ++ concat bs) at 1.
  cbv iota. rewrite Hf. rewrite zlen_app, zlen_file8, zlen_concat80 by auto. pose proof (zlen_nonneg bs).
  destruct (Z.leb_spec 8 (8 + 80 * zlen bs)); [|lia].
  rewrite !pyslice_nonneg by lia.
  change (ztake (2 - 0) (zdrop 0 (file8 n ++ concat bs))) with (8 :: [0] ++ ztake 0 ([0; 0] ++ le_digits 4 n ++ concat bs)).
  change (ztake (4 - 2) (zdrop 2 (file8 n ++ concat bs))) with (0 :: [0] ++ ztake 0 (le_digits 4 n ++ concat bs)).
  rewrite !ztake_0 by lia. cbn [app].
  change (unpack_le_uint16 [8; 0]) with (Ok 8). change (unpack_le_uint16 [0; 0]) with (Ok 0). cbn [bind Z.eqb].
  assert (mk_storage (file8 n ++ concat bs) 8 = st) as -> by (destruct st; cbn in *; congruence).
  rewrite (rep_get st bs n) by auto. reflexivity.
Qed.

Definition created_blocks (cp : checkpoint) : list bytes := zrepeat empty_header (cp_height cp) ++ [cp_raw cp].
Definition created (cp : checkpoint) : storage :=
  mk_storage (file8 (cp_height cp + 1) ++ concat (created_blocks cp)) 8.
Lemma created_rep cp : cp_ok cp -> rep (created cp) (created_blocks cp) (cp_height cp + 1).
Proof.
  intros (Hc1 & Hc2 & Hc3 & Hc4). unfold rep, created, created_blocks. cbn [st_reserved st_file].
  split; [reflexivity|]. split; [reflexivity|]. split.
  - apply blocks80_app. split; [apply blocks80_empty|]. constructor; [exact Hc1|constructor].
  - rewrite zlen_app, zlen_repeat by lia. change (zlen [cp_raw cp]) with 1. lia.
Qed.
Lemma created_get cp i : cp_ok cp -> 0 <= i ->
  block_get (created_blocks cp) i = if i =? cp_height cp then Ok (cp_raw cp) else Err MissingHeader.
Proof.
  intros (Hc1 & Hc2 & Hc3 & Hc4) Hi. unfold block_get, created_blocks.
  destruct (Z.lt_trichotomy i (cp_height cp)) as [Hl|[->|Hg]].
  - rewrite znth_app_l by (rewrite zlen_repeat; lia). rewrite znth_repeat by lia. rewrite bytes_eqb_refl.
    destruct (Z.eqb_spec i (cp_height cp)); [lia|reflexivity].
  - rewrite Z.eqb_refl. rewrite znth_app_r by (rewrite zlen_repeat; lia). rewrite zlen_repeat by lia.
    rewrite Z.sub_diag. cbn [znth Z.eqb]. destruct (bytes_eqb_spec (cp_raw cp) empty_header); [contradiction|reflexivity].
  - rewrite (proj2 (znth_None _ i)); [destruct (Z.eqb_spec i (cp_height cp)); [lia|reflexivity]|].
    right. rewrite zlen_app, zlen_repeat by lia. change (zlen [cp_raw cp]) with 1. lia.
Qed.

Definition create_effects (cp : checkpoint) : list effect :=
  [Truncate 0; Write 0 (file8 (cp_height cp + 1)); Write (8 + cp_height cp * 80) (cp_raw cp)].
Lemma create_file_Ok cp : cp_ok cp -> create_file cp = (create_effects cp, Ok tt).
Proof.
  intros (Hc1 & Hc2 & Hc3 & Hc4). unfold create_file, create_effects.
  change (pack_le_uint16 8) with (Ok [8; 0]). change (pack_le_uint16 0) with (Ok [0; 0]). cbn [bind].
  unfold pack_le_uint32. rewrite pack_uint_le_Ok by (cbn; lia). cbn [bind].
  destruct (Z.ltb_spec (8 + cp_height cp * 80) 0); [lia|reflexivity].
Qed.
Lemma create_apply cp f : cp_ok cp -> apply_effects f (create_effects cp) = st_file (created cp).
Proof.
  intros (Hc1 & Hc2 & Hc3 & Hc4). unfold create_effects, apply_effects. cbn [fold_left].
  assert (HT : apply_effect f (Truncate 0) = []).
  { cbn [apply_effect]. rewrite ztake_0 by lia. pose proof (zlen_nonneg f). unfold zrepeat.
    now replace (Z.to_nat (0 - zlen f)) with O by lia. }
  rewrite HT.
  assert (HW : apply_effect [] (Write 0 (file8 (cp_height cp + 1))) = file8 (cp_height cp + 1)).
  { cbn [apply_effect ztake zdrop]. unfold zrepeat. cbn [repeat Z.to_nat zlen length Z.of_nat Z.sub Z.opp Z.add app].
    now rewrite app_nil_r. }
  rewrite HW. cbn [apply_effect]. unfold created, created_blocks. cbn [st_file].
  rewrite ztake_all by (rewrite zlen_file8; lia). rewrite zdrop_all by (rewrite zlen_file8; lia).
  rewrite zlen_file8. rewrite app_nil_r. f_equal. rewrite concat_app. cbn [concat]. rewrite app_nil_r. f_equal.
  rewrite <- zrepeat_blocks by lia. f_equal. lia.
Qed.

Lemma open_created cp : cp_ok cp -> open_file (Some (st_file (created cp))) cp = Ok (created cp).
Proof.
  intros Hc. rewrite (rep_open _ _ _ cp (created_rep cp Hc) Hc). pose proof Hc as (_ & _ & Hc3 & _).
  rewrite created_get by auto. rewrite Z.eqb_refl. cbn [bind]. now rewrite bytes_eqb_refl.
Qed.

Lemma open_or_create_cases cp path : cp_ok cp ->
  match open_file path cp with
  | Ok st => open_or_create path cp = (path, Ok st)
  | Err FileNotFoundError | Err BadHeadersFile | Err MissingHeader =>
      open_or_create path cp = (Some (st_file (created cp)), Ok (created cp))
  | Err e => open_or_create path cp = (path, Err e)
  end.
Proof.
  intros Hc. unfold open_or_create. rewrite create_file_Ok by auto. rewrite create_apply by auto.
  rewrite open_created by auto. destruct (open_file path cp) as [st|[]]; reflexivity.
Qed.
