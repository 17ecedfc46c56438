(** Scripts: operations, pushes, numbers. *)
From Verif.Model Require Import Py Text Packing Misc Signature Script.
From Verif.Spec Require Import Numbers ScriptSpec.
From Verif.Proofs Require Import PyFacts PackingFacts NumbersFacts.

Lemma znth_0 {A} (x : A) l : znth (x :: l) 0 = Some x.
Proof. reflexivity. Qed.
Lemma pyindex_0 {A} (x : A) l : pyindex (x :: l) 0 = Ok x.
Proof. reflexivity. Qed.

Ltac ifs := repeat match goal with
  | |- context [?a <? ?b] => destruct (Z.ltb_spec a b); try lia
  | |- context [?a <=? ?b] => destruct (Z.leb_spec a b); try lia
  | |- context [?a =? ?b] => destruct (Z.eqb_spec a b); try lia
  end.

Lemma data_take (d rest : bytes) n : n = zlen d ->
  slice_to (d ++ rest) n = d /\ slice_from (d ++ rest) n = rest.
Proof.
  intros ->. pose proof (zlen_nonneg d). rewrite slice_to_nonneg, slice_from_nonneg by lia.
  split; [now apply ztake_app_exact|now apply zdrop_app_exact].
Qed.

Lemma take2 (a b : Z) r : slice_to (a :: b :: r) 2 = [a; b] /\ slice_from (a :: b :: r) 2 = r.
Proof. exact (data_take [a; b] r 2 eq_refl). Qed.
Lemma take4 (a b c e : Z) r : slice_to (a :: b :: c :: e :: r) 4 = [a; b; c; e] /\ slice_from (a :: b :: c :: e :: r) 4 = r.
Proof. exact (data_take [a; b; c; e] r 4 eq_refl). Qed.
Lemma take1 (a : Z) r : slice_from (a :: r) 1 = r.
Proof. exact (proj2 (data_take [a] r 1 eq_refl)). Qed.

Lemma next_op_enc p o rest : encodes p o -> next_op (p ++ rest) = Some (o, rest).
Proof.
  intros HE. destruct HE as [c Hc|n Hn| |n d Hn Hn2|n d Hn Hn2|a b d Ha Hb Hn|a b c e d Ha Hb Hc He Hn];
    cbn [app]; unfold next_op, OP_16, OP_1, OP_1NEGATE, OP_PUSHDATA1, OP_PUSHDATA2, OP_PUSHDATA4.
  - ifs; reflexivity.
  - ifs. replace (80 + n - 81 + 1) with n by lia. reflexivity.
  - reflexivity.
  - pose proof (zlen_nonneg d).
    replace (96 <? n) with false by (symmetry; apply Z.ltb_ge; lia). replace (n <=? 78) with true by (symmetry; apply Z.leb_le; lia).
    replace (n <? 76) with true by (symmetry; apply Z.ltb_lt; lia).
    destruct (data_take d rest n Hn) as [-> ->]. subst n. now rewrite Z.eqb_refl.
  - pose proof (zlen_nonneg d). cbn [Z.ltb Z.leb Z.eqb Z.compare Pos.compare Pos.compare_cont Pos.eqb]. rewrite pyindex_0. cbn [bind].
    rewrite take1. destruct (data_take d rest n Hn) as [-> ->]. subst n. now rewrite Z.eqb_refl.
  - cbn [Z.ltb Z.leb Z.eqb Z.compare Pos.compare Pos.compare_cont Pos.eqb]. destruct (take2 a b (d ++ rest)) as [-> ->].
    unfold unpack_le_uint16, unpack_uint_le. change (zlen [a; b] =? Z.of_nat 2) with true. cbn [bind le_int].
    replace (a + 256 * (b + 256 * 0)) with (zlen d) by lia. destruct (data_take d rest _ eq_refl) as [-> ->]. now rewrite Z.eqb_refl.
  - cbn [Z.ltb Z.leb Z.eqb Z.compare Pos.compare Pos.compare_cont Pos.eqb]. destruct (take4 a b c e (d ++ rest)) as [-> ->].
    unfold unpack_le_uint32, unpack_uint_le. change (zlen [a; b; c; e] =? Z.of_nat 4) with true. cbn [bind le_int].
    replace (a + 256 * (b + 256 * (c + 256 * (e + 256 * 0)))) with (zlen d) by lia.
    destruct (data_take d rest _ eq_refl) as [-> ->]. now rewrite Z.eqb_refl.
Qed.

Lemma encodes_nonempty p o : encodes p o -> (1 <= length p)%nat.
Proof. destruct 1; cbn; lia. Qed.

(** What a non-empty script starts with: an operation, or part of a push. *)
Definition starts (s : bytes) : Prop :=
  (exists p o r, s = p ++ r /\ encodes p o) \/
  (exists more d, more <> [] /\ encodes (s ++ more) (Data d)).

Lemma short_data (r : bytes) n : bytes_ok r = true -> 0 <= n ->
  (exists d r', r = d ++ r' /\ zlen d = n) \/ (exists more, more <> [] /\ zlen (r ++ more) = n).
Proof.
  intros HB Hn. destruct (Z.le_gt_cases n (zlen r)) as [Hl|Hl].
  - left. exists (ztake n r), (zdrop n r). rewrite ztake_zdrop, zlen_ztake. split; [reflexivity|lia].
  - right. exists (zrepeat 0 (n - zlen r)). rewrite zlen_app, zlen_repeat by lia. split; [|lia].
    intros E. pose proof (zlen_repeat 0 (n - zlen r) ltac:(lia)) as HL. rewrite E in HL. rewrite zlen_nil in HL. lia.
Qed.

Lemma script_starts s : bytes_ok s = true -> s <> [] -> starts s.
Proof.
  intros HB Hne. destruct s as [|c r]; [contradiction|]. clear Hne. rewrite bytes_ok_cons in HB.
  apply andb_true_iff in HB as [Hc HB]. apply byte_ok_iff in Hc.
  assert (HD : c <= 75 \/ c = 76 \/ c = 77 \/ c = 78 \/ c = 79 \/ c = 80 \/ 81 <= c <= 96 \/ 97 <= c) by lia.
  destruct HD as [HD|[->|[->|[->|[->|[->|[HD|HD]]]]]]].
  - destruct (short_data r c HB ltac:(lia)) as [(d & r' & -> & HL)|(more & Hm & HL)].
    + left. exists (c :: d), (Data d), r'. split; [reflexivity|]. constructor; lia.
    + right. exists more, (r ++ more). split; [exact Hm|]. apply enc_direct; lia.
  - destruct r as [|n r].
    + right. exists [0], []. split; [discriminate|]. cbn [app]. constructor; [reflexivity|lia].
    + rewrite bytes_ok_cons in HB. apply andb_true_iff in HB as [Hn HB]. apply byte_ok_iff in Hn.
      destruct (short_data r n HB ltac:(lia)) as [(d & r' & -> & HL)|(more & Hm & HL)].
      * left. exists (76 :: n :: d), (Data d), r'. split; [reflexivity|]. constructor; lia.
      * right. exists more, (r ++ more). split; [exact Hm|]. apply enc_push1; lia.
  - destruct r as [|a r].
    { right. exists [0; 0], []. split; [discriminate|]. apply enc_push2; try lia; reflexivity. }
    rewrite bytes_ok_cons in HB. apply andb_true_iff in HB as [Ha HB]. apply byte_ok_iff in Ha.
    destruct r as [|b r].
    { right. exists (0 :: zrepeat 0 a), (zrepeat 0 a). split; [discriminate|]. apply enc_push2; try lia. rewrite zlen_repeat; lia. }
    rewrite bytes_ok_cons in HB. apply andb_true_iff in HB as [Hb HB]. apply byte_ok_iff in Hb.
    destruct (short_data r (a + 256 * b) HB ltac:(lia)) as [(d & r' & -> & HL)|(more & Hm & HL)].
    + left. exists (77 :: a :: b :: d), (Data d), r'. split; [reflexivity|]. constructor; lia.
    + right. exists more, (r ++ more). split; [exact Hm|]. apply enc_push2; lia.
  - destruct r as [|a r].
    { right. exists [0; 0; 0; 0], []. split; [discriminate|]. apply enc_push4; try lia; reflexivity. }
    rewrite bytes_ok_cons in HB. apply andb_true_iff in HB as [Ha HB]. apply byte_ok_iff in Ha.
    destruct r as [|b r].
    { right. exists (0 :: 0 :: 0 :: zrepeat 0 a), (zrepeat 0 a). split; [discriminate|]. apply enc_push4; try lia. rewrite zlen_repeat; lia. }
    rewrite bytes_ok_cons in HB. apply andb_true_iff in HB as [Hb HB]. apply byte_ok_iff in Hb.
    destruct r as [|x r].
    { right. exists (0 :: 0 :: zrepeat 0 (a + 256 * b)), (zrepeat 0 (a + 256 * b)). split; [discriminate|]. apply enc_push4; try lia. rewrite zlen_repeat; lia. }
    rewrite bytes_ok_cons in HB. apply andb_true_iff in HB as [Hx HB]. apply byte_ok_iff in Hx.
    destruct r as [|y r].
    { right. exists (0 :: zrepeat 0 (a + 256 * b + 65536 * x)), (zrepeat 0 (a + 256 * b + 65536 * x)). split; [discriminate|]. apply enc_push4; try lia. rewrite zlen_repeat; lia. }
    rewrite bytes_ok_cons in HB. apply andb_true_iff in HB as [Hy HB]. apply byte_ok_iff in Hy.
    destruct (short_data r (a + 256 * b + 65536 * x + 16777216 * y) HB ltac:(lia)) as [(d & r' & -> & HL)|(more & Hm & HL)].
    + left. exists (78 :: a :: b :: x :: y :: d), (Data d), r'. split; [reflexivity|]. constructor; lia.
    + right. exists more, (r ++ more). split; [exact Hm|]. apply enc_push4; lia.
  - left. exists [79], (Data [129]), r. split; [reflexivity|constructor].
  - left. exists [80], (Code 80), r. split; [reflexivity|constructor; auto].
  - left. exists [c], (Data [c - 80]), r. split; [reflexivity|]. replace c with (80 + (c - 80)) at 1 by lia. constructor. lia.
  - left. exists [c], (Code c), r. split; [reflexivity|constructor; lia].
Qed.

(** No strict prefix of an encoding is one. *)
Lemma encodes_prefix p o q o' rest : encodes p o -> encodes q o' -> p ++ rest = q -> rest = [] /\ o = o'.
Proof.
  intros HP HQ <-. pose proof (next_op_enc _ _ rest HP) as H1. pose proof (next_op_enc _ _ [] HQ) as H2.
  rewrite app_nil_r in H2. rewrite H1 in H2. injection H2 as -> ->. auto.
Qed.

Lemma next_op_none s more d : encodes (s ++ more) (Data d) -> more <> [] -> bytes_ok s = true -> next_op s = None.
Proof.
  intros HE Hm HB. destruct (next_op s) as [[o r]|] eqn:E; [|reflexivity]. exfalso.
  destruct s as [|c s]; [discriminate|].
  (* the head of [s] is an operation only if it is one of [s ++ more] *)
  destruct (script_starts (c :: s) HB ltac:(discriminate)) as [(p & o' & r' & Hs & HP)|(more' & d' & Hm' & HE')].
  - rewrite Hs in HE. rewrite <- app_assoc in HE. destruct (encodes_prefix p o' _ _ (r' ++ more) HP HE eq_refl) as [HN _].
    apply app_eq_nil in HN as [_ HN]. contradiction.
  - clear HE Hm more d. remember ((c :: s) ++ more') as q eqn:Hq. remember (Data d') as od eqn:Hod.
    cbn [app] in Hq. revert Hq E.
    destruct HE' as [c0 Hc|n Hn| |n d0 Hn Hn2|n d0 Hn Hn2|a b d0 Ha Hb Hn|a b c0 e d0 Ha Hb Hc He Hn]; intros Hq E;
      try (injection Hq as _ Hq; symmetry in Hq; apply app_eq_nil in Hq as [_ Hq]; contradiction).
    + injection Hq as <- ->. unfold next_op in E. unfold OP_16, OP_PUSHDATA4, OP_PUSHDATA1 in E. revert E. pose proof (zlen_nonneg (s ++ more')).
      replace (96 <? n) with false by (symmetry; apply Z.ltb_ge; lia). replace (n <=? 78) with true by (symmetry; apply Z.leb_le; lia).
      replace (n <? 76) with true by (symmetry; apply Z.ltb_lt; lia).
      rewrite slice_to_nonneg by lia. rewrite zlen_ztake. rewrite zlen_app in *. pose proof (zlen_nonneg s).
      assert (0 < zlen more') by (destruct more'; [contradiction|rewrite zlen_cons; pose proof (zlen_nonneg more'); lia]).
      ifs. discriminate.
    + injection Hq as <- Hq. unfold next_op in E. change (OP_16 <? 76) with false in E. change (76 <=? OP_PUSHDATA4) with true in E. cbn iota in E.
      change (76 <? OP_PUSHDATA1) with false in E. change (76 =? OP_PUSHDATA1) with true in E. cbn iota in E.
      destruct s as [|n' s]; [discriminate|]. injection Hq as <- ->. rewrite pyindex_0 in E. cbn [bind] in E. rewrite take1 in E.
      rewrite zlen_app in Hn. pose proof (zlen_nonneg s). rewrite slice_to_nonneg in E by (pose proof (zlen_nonneg more'); lia). rewrite zlen_ztake in E.
      assert (0 < zlen more') by (destruct more'; [contradiction|rewrite zlen_cons; pose proof (zlen_nonneg more'); lia]).
      revert E. ifs. discriminate.
    + injection Hq as <- Hq. unfold next_op in E. change (OP_16 <? 77) with false in E. change (77 <=? OP_PUSHDATA4) with true in E. cbn iota in E.
      change (77 <? OP_PUSHDATA1) with false in E. change (77 =? OP_PUSHDATA1) with false in E. change (77 =? OP_PUSHDATA2) with true in E. cbn iota in E.
      destruct s as [|x s]; [discriminate|]. destruct s as [|y s]; [discriminate|]. cbn [app] in Hq. injection Hq as <- <- ->.
      destruct (take2 a b s) as [E1 E2]. rewrite E1, E2 in E. unfold unpack_le_uint16, unpack_uint_le in E.
      change (zlen [a; b] =? Z.of_nat 2) with true in E. cbn [bind le_int] in E.
      rewrite zlen_app in Hn. pose proof (zlen_nonneg s). rewrite slice_to_nonneg in E by (pose proof (zlen_nonneg more'); lia). rewrite zlen_ztake in E.
      assert (0 < zlen more') by (destruct more'; [contradiction|rewrite zlen_cons; pose proof (zlen_nonneg more'); lia]).
      revert E. ifs. discriminate.
    + injection Hq as <- Hq. unfold next_op in E. change (OP_16 <? 78) with false in E. change (78 <=? OP_PUSHDATA4) with true in E. cbn iota in E.
      change (78 <? OP_PUSHDATA1) with false in E. change (78 =? OP_PUSHDATA1) with false in E. change (78 =? OP_PUSHDATA2) with false in E. cbn iota in E.
      destruct s as [|x s]; [discriminate|]. destruct s as [|y s]; [discriminate|]. destruct s as [|z s]; [discriminate|]. destruct s as [|w s]; [discriminate|].
      cbn [app] in Hq. injection Hq as <- <- <- <- ->.
      destruct (take4 a b c0 e s) as [E1 E2]. rewrite E1, E2 in E. unfold unpack_le_uint32, unpack_uint_le in E.
      change (zlen [a; b; c0; e] =? Z.of_nat 4) with true in E. cbn [bind le_int] in E.
      rewrite zlen_app in Hn. pose proof (zlen_nonneg s). rewrite slice_to_nonneg in E by (pose proof (zlen_nonneg more'); lia). rewrite zlen_ztake in E.
      assert (0 < zlen more') by (destruct more'; [contradiction|rewrite zlen_cons; pose proof (zlen_nonneg more'); lia]).
      revert E. ifs. discriminate.
Qed.

Lemma next_op_inv s o r : bytes_ok s = true -> next_op s = Some (o, r) -> exists p, s = p ++ r /\ encodes p o.
Proof.
  intros HB HN. destruct s as [|c s]; [discriminate|].
  destruct (script_starts (c :: s) HB ltac:(discriminate)) as [(p & o' & r' & Hs & HP)|(more' & d' & Hm' & HE')].
  - rewrite Hs in HN. rewrite (next_op_enc _ _ r' HP) in HN. injection HN as <- <-. eauto.
  - rewrite (next_op_none _ _ _ HE' Hm' HB) in HN. discriminate.
Qed.

(** The loop. *)
Lemma slice_from_length (l : bytes) n : (length (slice_from l n) <= length l)%nat.
Proof. unfold slice_from. rewrite zdrop_skipn, skipn_length. lia. Qed.
Lemma next_op_shorter c s o r : next_op (c :: s) = Some (o, r) -> (length r <= length s)%nat.
Proof.
  unfold next_op. destruct (OP_16 <? c); [intros E; injection E as _ <-; lia|]. destruct (c <=? OP_PUSHDATA4).
  - match goal with |- context [match ?x with Ok _ => _ | Err _ => _ end] => destruct x as [[n r']|] eqn:ER end; [|discriminate].
    destruct (_ =? n); [|discriminate]. intros E. injection E as _ <-.
    assert (Hr : (length r' <= length s)%nat).
    { revert ER. destruct (c <? OP_PUSHDATA1); [intros ER; injection ER as _ <-; lia|].
      destruct (c =? OP_PUSHDATA1); [|destruct (c =? OP_PUSHDATA2)]; intros ER; apply bind_Ok in ER as (? & _ & ER); injection ER as _ <-;
        apply slice_from_length. }
    pose proof (slice_from_length r' n). lia.
  - destruct (OP_1 <=? c); [|destruct (c =? OP_1NEGATE)]; intros E; injection E as _ <-; lia.
Qed.
Lemma ops_cons p o rest : encodes p o -> script_ops (p ++ rest) = let '(l, t) := script_ops rest in (o :: l, t).
Proof.
  assert (HF : forall f s, bytes_ok s = true \/ True -> (length s <= f)%nat -> forall s0, s0 = s -> ops_loop f s = script_ops s0).
  { intros f s _ Hf s0 ->. revert s Hf. induction f as [f IH] using lt_wf_ind. intros s Hf.
    destruct s as [|c s]; [destruct f; reflexivity|]. destruct f as [|f]; [cbn in Hf; lia|]. unfold script_ops. cbn [ops_loop length].
    destruct (next_op (c :: s)) as [[o' r]|] eqn:E; [|reflexivity].
    pose proof (next_op_shorter _ _ _ _ E) as Hr.
    cbn [length] in Hf. rewrite (IH f ltac:(lia) r ltac:(lia)).
    destruct (Nat.eq_dec f (length s)) as [->|Hne]; [now rewrite (IH (length s) ltac:(lia) r ltac:(lia))|].
    now rewrite (IH (length s) ltac:(lia) r ltac:(lia)). }
  intros HE. pose proof (encodes_nonempty _ _ HE) as Hp. pose proof (next_op_enc _ _ rest HE) as HN.
  unfold script_ops at 1. destruct (p ++ rest) as [|c s] eqn:Es; [destruct p; cbn in Hp; [lia|discriminate]|].
  cbn [ops_loop length]. rewrite HN.
  assert (Hl : (length rest <= length s)%nat) by (apply (f_equal (@length Z)) in Es; rewrite app_length in Es; cbn in Es; lia).
  rewrite (HF (length s) rest (or_intror I) Hl rest eq_refl). reflexivity.
Qed.
Lemma ops_nil : script_ops [] = ([], false).
Proof. reflexivity. Qed.
Lemma ops_cut s more d : encodes (s ++ more) (Data d) -> more <> [] -> bytes_ok s = true -> s <> [] -> script_ops s = ([], true).
Proof.
  intros HE Hm HB Hne. pose proof (next_op_none _ _ _ HE Hm HB) as HN. destruct s as [|c s]; [contradiction|].
  unfold script_ops. cbn [ops_loop length]. now rewrite HN.
Qed.

Lemma in_zrange a b x : a <= x < b -> In x (zrange a b).
Proof.
  unfold zrange. intros Hx. remember (Z.to_nat (b - a)) as n eqn:Hn. revert a Hx Hn. induction n as [|n IH]; intros a Hx Hn; [lia|].
  cbn [zrange_nat]. destruct (Z.eq_dec x a) as [->|]; [now left|right]. apply IH; lia.
Qed.
(** To check something for every number of a range. *)
Lemma zrange_all (f : Z -> bool) a b : forallb f (zrange a b) = true -> forall x, a <= x < b -> f x = true.
Proof. intros HF x Hx. rewrite forallb_forall in HF. apply HF. now apply in_zrange. Qed.
