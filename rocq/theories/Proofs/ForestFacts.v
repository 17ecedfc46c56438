(** Facts about the tree of stored headers, independent of the code. *)
From Verif.Model Require Import Py.
From Verif.Spec Require Import Numbers WorkSpec ChainSpec.
From Verif.Proofs Require Import PyFacts WorkFacts.

Lemma nth_error_snoc {A} (l : list A) x i y :
  nth_error (l ++ [x]) i = Some y -> (nth_error l i = Some y /\ (i < length l)%nat) \/ (i = length l /\ y = x).
Proof.
  intros HN. destruct (Nat.lt_ge_cases i (length l)) as [Hl|Hl].
  - rewrite nth_error_app1 in HN by auto. auto.
  - rewrite nth_error_app2 in HN by auto. destruct (i - length l)%nat as [|m] eqn:E.
    + right. cbn in HN. split; [lia|congruence].
    + cbn in HN. destruct m; discriminate.
Qed.
Lemma nth_error_lt {A} (l : list A) i x : nth_error l i = Some x -> (i < length l)%nat.
Proof. intros HN. apply nth_error_Some. congruence. Qed.
Lemma nth_error_app_l {A} (l r : list A) i x : nth_error l i = Some x -> nth_error (l ++ r) i = Some x.
Proof. intros HN. rewrite nth_error_app1; [exact HN|]. eapply nth_error_lt; eauto. Qed.
Lemma nth_error_last {A} (l : list A) x : nth_error (l ++ [x]) (length l) = Some x.
Proof. rewrite nth_error_app2, Nat.sub_diag by lia. reflexivity. Qed.

Lemma raw_work_fun raw w w' : raw_work raw w -> raw_work raw w' -> w = w'.
Proof.
  intros (t & HC & HW) (t' & HC' & HW'). rewrite (compact_fun _ _ _ HC HC') in *.
  assert (E1 : Bits.bits_to_work (bits_of raw) = Ok w) by (apply bits_to_work_spec; eauto).
  assert (E2 : Bits.bits_to_work (bits_of raw) = Ok w') by (apply bits_to_work_spec; eauto).
  congruence.
Qed.

Lemma leaf_dec es j : leaf es j \/ ~ leaf es j.
Proof.
  assert (HD : {exists e, In e es /\ e_parent e = Some j} + {~ exists e, In e es /\ e_parent e = Some j}).
  { induction es as [|e es IH]; [right; intros (e & [] & _)|]. destruct IH as [IH|IH].
    - left. destruct IH as (e' & HI & HP). exists e'. split; [now right|auto].
    - destruct (e_parent e) as [j'|] eqn:EP; [destruct (Nat.eq_dec j' j) as [->|Hn]|].
      + left. exists e. split; [now left|auto].
      + right. intros (e' & [->|HI] & HP); [congruence|apply IH; eauto].
      + right. intros (e' & [->|HI] & HP); [congruence|apply IH; eauto]. }
  destruct HD as [(e & HI & HP)|HN].
  - right. intros HL. exact (HL e HI HP).
  - left. intros e HI HP. apply HN. eauto.
Qed.

(** Positions of the entries of a chain, in order. *)
Definition on_chain (es : list entry) (c i : nat) : bool :=
  match nth_error es i with Some e => Nat.eqb (e_chain e) c | None => false end.
Definition pos (es : list entry) (c : nat) : list nat := filter (on_chain es c) (seq 0 (length es)).

Lemma pos_In es c i : In i (pos es c) <-> exists e, nth_error es i = Some e /\ e_chain e = c.
Proof.
  unfold pos. rewrite filter_In, in_seq. unfold on_chain. split.
  - intros [Hi HB]. destruct (nth_error es i) as [e|]; [|discriminate]. apply Nat.eqb_eq in HB. eauto.
  - intros (e & HN & HE). rewrite HN. apply nth_error_lt in HN. split; [lia|]. now apply Nat.eqb_eq.
Qed.
Lemma pos_snoc es x c :
  pos (es ++ [x]) c = pos es c ++ (if Nat.eqb (e_chain x) c then [length es] else []).
Proof.
  unfold pos. rewrite app_length. cbn [length]. rewrite Nat.add_1_r, seq_S, filter_app. cbn [Nat.add filter].
  f_equal.
  - apply filter_ext_in. intros i Hi. apply in_seq in Hi. unfold on_chain. now rewrite nth_error_app1 by lia.
  - unfold on_chain. rewrite nth_error_last. now destruct (Nat.eqb (e_chain x) c).
Qed.

(** Each entry of a chain is the parent of the next. *)
Fixpoint linked (es : list entry) (l : list nat) : Prop :=
  match l with
  | i :: ((k :: _) as r) => (exists e, nth_error es k = Some e /\ e_parent e = Some i) /\ linked es r
  | _ => True
  end.
Lemma linked_app_es es x l : linked es l -> linked (es ++ x) l.
Proof.
  induction l as [|i l IH]; [auto|]. destruct l as [|k l]; [auto|]. intros [(e & HN & HE) HL].
  split; [|auto]. exists e. split; auto. now apply nth_error_app_l.
Qed.
Lemma linked_snoc es l i j e : linked es l -> last l j = j -> nth_error es i = Some e -> e_parent e = Some j ->
  linked es (l ++ [i]).
Proof.
  induction l as [|a l IH]; intros HL HLast HN HE; [exact I|].
  destruct l as [|b l].
  - cbn in HLast. subst. cbn. eauto.
  - destruct HL as [HL1 HL2]. cbn [app linked]. split; [exact HL1|]. apply IH; auto.
Qed.
Lemma last_snoc {A} (l : list A) x d : last (l ++ [x]) d = x.
Proof. apply last_last. Qed.

Definition head_ok (es : list entry) (c : nat) (l : list nat) : Prop :=
  match l with
  | [] => False
  | h :: _ => match c with
              | O => h = O
              | S _ => exists e j p, nth_error es h = Some e /\ e_parent e = Some j /\
                         nth_error es j = Some p /\ (e_chain p < c)%nat
              end
  end.

Lemma head_ok_app es c l x y : head_ok es c l -> head_ok (es ++ x) c (l ++ y).
Proof.
  destruct l as [|h l]; [contradiction|]. cbn [app head_ok]. destruct c; auto.
  intros (e & j & p & ? & ? & ? & ?). exists e, j, p. repeat split; auto; now apply nth_error_app_l.
Qed.

Lemma linked_nth es l a i k : linked es l -> nth_error l a = Some i -> nth_error l (S a) = Some k ->
  exists e, nth_error es k = Some e /\ e_parent e = Some i.
Proof.
  revert a. induction l as [|x l IH]; intros a HL Ha HSa; [destruct a; discriminate|].
  destruct l as [|y l]; [destruct a as [|[|a]]; discriminate|]. destruct HL as [HL1 HL2].
  destruct a as [|a]; [cbn in Ha, HSa; injection Ha as <-; injection HSa as <-; exact HL1|].
  eapply IH; eauto.
Qed.

Lemma ancestor_trans es a b c : ancestor es a b -> ancestor es b c -> ancestor es a c.
Proof. intros Hab Hbc. revert Hab. induction Hbc; intros Hab; [exact Hab|eapply ancestor_up; [apply IHHbc, Hab|eassumption|eassumption]]. Qed.

Lemma chains_used_fun es n m : chains_used es n -> chains_used es m -> n = m.
Proof.
  intros Hn Hm. destruct (Nat.lt_trichotomy n m) as [Hl|[Hl|Hl]]; auto; exfalso.
  - apply Hm in Hl. apply Hn in Hl. lia.
  - apply Hn in Hl. apply Hm in Hl. lia.
Qed.

Section Forest.
  Variable H : bytes -> bytes.
  Variable root_raw : bytes.
  Variable root_height root_prev_work : Z.
  Notation forest := (forest H root_raw root_height root_prev_work).

  Lemma forest_nonempty es : forest es -> exists w, raw_work root_raw w /\
    nth_error es 0 = Some (mk_entry root_raw root_height 0 (root_prev_work + w) None).
  Proof.
    induction 1 as [w HW|es raw j p w HF IH Hj HP Hfresh HW HL|es raw j p w n HF IH Hj HP Hfresh HW HL HC].
    - eauto.
    - destruct IH as (w0 & ? & IH). exists w0. split; auto. now apply nth_error_app_l.
    - destruct IH as (w0 & ? & IH). exists w0. split; auto. now apply nth_error_app_l.
  Qed.

  (** Links between entries. *)
  Lemma forest_parent es i e j : forest es -> nth_error es i = Some e -> e_parent e = Some j ->
    exists p w, (j < i)%nat /\ nth_error es j = Some p /\ H (e_raw p) = prev_of (e_raw e) /\
      e_height e = e_height p + 1 /\ raw_work (e_raw e) w /\ e_work e = e_work p + w.
  Proof.
    intros HF. revert i e j.
    induction HF as [w HW|es raw j0 p w HF IH Hj HP Hfresh HW HL|es raw j0 p w n HF IH Hj HP Hfresh HW HL HC];
      intros i e j HN HE.
    - destruct i as [|[|i]]; cbn in HN; [|discriminate|discriminate]. injection HN as <-. discriminate.
    - apply nth_error_snoc in HN as [[HN Hi]|[-> ->]].
      + destruct (IH i e j HN HE) as (p' & w' & ? & ? & ?). exists p', w'. split; auto. split; auto. now apply nth_error_app_l.
      + cbn in HE. injection HE as <-. exists p, w. pose proof (nth_error_lt _ _ _ Hj). cbn. repeat split; auto. now apply nth_error_app_l.
    - apply nth_error_snoc in HN as [[HN Hi]|[-> ->]].
      + destruct (IH i e j HN HE) as (p' & w' & ? & ? & ?). exists p', w'. split; auto. split; auto. now apply nth_error_app_l.
      + cbn in HE. injection HE as <-. exists p, w. pose proof (nth_error_lt _ _ _ Hj). cbn. repeat split; auto. now apply nth_error_app_l.
  Qed.

  Lemma forest_root_only es i e : forest es -> nth_error es i = Some e -> e_parent e = None -> i = O.
  Proof.
    intros HF. revert i e.
    induction HF as [w HW|es raw j0 p w HF IH Hj HP Hfresh HW HL|es raw j0 p w n HF IH Hj HP Hfresh HW HL HC];
      intros i e HN HE.
    - destruct i as [|[|i]]; cbn in HN; [reflexivity|discriminate|discriminate].
    - apply nth_error_snoc in HN as [[HN Hi]|[-> ->]]; [eauto|discriminate].
    - apply nth_error_snoc in HN as [[HN Hi]|[-> ->]]; [eauto|discriminate].
  Qed.

  (** Hashes identify entries. *)
  Lemma forest_hash_inj es i j e f : forest es -> nth_error es i = Some e -> nth_error es j = Some f ->
    H (e_raw e) = H (e_raw f) -> i = j.
  Proof.
    intros HF. revert i j e f.
    assert (HS : forall es raw (x : entry), e_raw x = raw -> 
       (forall i j e f, nth_error es i = Some e -> nth_error es j = Some f -> H (e_raw e) = H (e_raw f) -> i = j) ->
       (forall e, In e es -> H (e_raw e) <> H raw) ->
       forall i j e f, nth_error (es ++ [x]) i = Some e -> nth_error (es ++ [x]) j = Some f -> H (e_raw e) = H (e_raw f) -> i = j).
    { intros es0 raw x Hx IH Hfresh i j e f HI HJ HE.
      apply nth_error_snoc in HI as [[HI Hi]|[-> ->]]; apply nth_error_snoc in HJ as [[HJ Hj]|[-> ->]]; eauto.
      - exfalso. apply nth_error_In in HI. apply (Hfresh _ HI). congruence.
      - exfalso. apply nth_error_In in HJ. apply (Hfresh _ HJ). congruence. }
    induction HF as [w HW|es raw j0 p w HF IH Hj HP Hfresh HW HL|es raw j0 p w n HF IH Hj HP Hfresh HW HL HC].
    - intros i j e f HI HJ _. destruct i as [|[|i]]; cbn in HI; try discriminate.
      destruct j as [|[|j]]; cbn in HJ; try discriminate. reflexivity.
    - eapply HS; eauto.
    - eapply HS; eauto.
  Qed.

  (** Chains in use are numbered from 0 without gaps. *)
  Lemma forest_chains es : forest es -> exists n, chains_used es n.
  Proof.
    induction 1 as [w HW|es raw j0 p w HF IH Hj HP Hfresh HW HL|es raw j0 p w n HF IH Hj HP Hfresh HW HL HC].
    - exists 1%nat. intros c. split.
      + intros Hc. exists (mk_entry root_raw root_height 0 (root_prev_work + w) None). split; [now left|]. cbn. lia.
      + intros (e & [<-|[]] & <-). cbn. lia.
    - destruct IH as (n & IH). exists n. intros c. rewrite (IH c). split.
      + intros (e & HI & HE). exists e. split; auto. apply in_or_app. auto.
      + intros (e & HI & HE). apply in_app_iff in HI as [HI|[<-|[]]]; [eauto|].
        cbn in HE. subst. exists p. split; auto. eapply nth_error_In; eauto.
    - exists (S n). intros c. split.
      + intros Hc. destruct (Nat.eq_dec c n) as [->|].
        * eexists. split; [apply in_or_app; right; left; reflexivity|reflexivity].
        * destruct (proj1 (HC c) ltac:(lia)) as (e & HI & HE). exists e. split; auto. apply in_or_app. auto.
      + intros (e & HI & HE). apply in_app_iff in HI as [HI|[<-|[]]].
        * assert (c < n)%nat by (apply HC; eauto). lia.
        * cbn in HE. lia.
  Qed.
  (** The tree is determined by the headers in order. *)
  Lemma forest_unique es es' : forest es -> forest es' -> map e_raw es = map e_raw es' -> es = es'.
  Proof.
    intros HF. revert es'.
    assert (HX : forall es raw j p w es' x, forest es ->
       (forall es', forest es' -> map e_raw es = map e_raw es' -> es = es') ->
       nth_error es j = Some p -> H (e_raw p) = prev_of raw -> raw_work raw w ->
       e_raw x = raw -> e_parent x = Some j -> e_height x = e_height p + 1 -> e_work x = e_work p + w ->
       (leaf es j -> e_chain x = e_chain p) -> (~ leaf es j -> chains_used es (e_chain x)) ->
       forest es' -> map e_raw (es ++ [x]) = map e_raw es' -> es ++ [x] = es').
    { intros es0 raw j p w es' x HF0 IH Hj HP HW Hx1 Hx2 Hx3 Hx4 Hx5 Hx6 HF' HM.
      destruct HF' as [w' HW'|es1 raw1 j1 p1 w1 HF1 Hj1 HP1 Hfresh1 HW1 HL1|es1 raw1 j1 p1 w1 n1 HF1 Hj1 HP1 Hfresh1 HW1 HL1 HC1].
      - exfalso. rewrite map_app in HM. destruct es0 as [|e0 es0]; [destruct j; discriminate|].
        cbn in HM. injection HM as _ HM. destruct (map e_raw es0); discriminate.
      - rewrite !map_app in HM. cbn [map] in HM. apply app_inj_tail in HM as [HM HR]. cbn in HR.
        apply IH in HM; [|exact HF1]. subst es1. f_equal. f_equal.
        assert (j = j1) as <-.
        { eapply forest_hash_inj; eauto. congruence. }
        assert (p = p1) as <- by congruence. rewrite <- HR, Hx1 in HW1. rewrite (raw_work_fun _ _ _ HW HW1) in *.
        destruct x as [xr xh xc xw xp]; cbn in *. subst. rewrite Hx5 by auto. reflexivity.
      - rewrite !map_app in HM. cbn [map] in HM. apply app_inj_tail in HM as [HM HR]. cbn in HR.
        apply IH in HM; [|exact HF1]. subst es1. f_equal. f_equal.
        assert (j = j1) as <-.
        { eapply forest_hash_inj; eauto. congruence. }
        assert (p = p1) as <- by congruence. rewrite <- HR, Hx1 in HW1. rewrite (raw_work_fun _ _ _ HW HW1) in *.
        destruct x as [xr xh xc xw xp]; cbn in *. subst. rewrite (chains_used_fun _ _ _ HC1 (Hx6 HL1)). reflexivity. }
    induction HF as [w HW|es raw j0 p w HF IH Hj HP Hfresh HW HL|es raw j0 p w n HF IH Hj HP Hfresh HW HL HC]; intros es' HF' HM.
    - destruct HF' as [w' HW'|es1 raw1 j1 p1 w1 HF1 Hj1 HP1 Hfresh1 HW1 HL1|es1 raw1 j1 p1 w1 n1 HF1 Hj1 HP1 Hfresh1 HW1 HL1 HC1].
      + now rewrite (raw_work_fun _ _ _ HW HW').
      + exfalso. rewrite map_app in HM. destruct es1 as [|e0 es0]; [destruct j1; discriminate|].
        cbn in HM. injection HM as _ HM. destruct (map e_raw es0); discriminate.
      + exfalso. rewrite map_app in HM. destruct es1 as [|e0 es0]; [destruct j1; discriminate|].
        cbn in HM. injection HM as _ HM. destruct (map e_raw es0); discriminate.
    - eapply HX; eauto; try reflexivity; cbn; tauto.
    - eapply HX; eauto; try reflexivity; cbn; try tauto.
  Qed.

  Lemma forest_pos es : forest es ->
    (forall n c, chains_used es n -> (c < n)%nat -> linked es (pos es c) /\ head_ok es c (pos es c)) /\
    (forall j e, nth_error es j = Some e -> (leaf es j <-> last (pos es (e_chain e)) O = j)).
  Proof.
    induction 1 as [w HW|es raw j0 p w HF IH Hj HP Hfresh HW HL|es raw j0 p w n HF IH Hj HP Hfresh HW HL HC].
    - split.
      + intros n c Hn Hc. apply Hn in Hc. destruct Hc as (e & [<-|[]] & <-). cbn. auto.
      + intros j e HN. destruct j as [|[|j]]; cbn in HN; try discriminate. injection HN as <-. cbn.
        split; [reflexivity|]. intros _ e [<-|[]]. discriminate.
    - destruct IH as [IH1 IH2]. destruct (forest_chains es HF) as (n0 & Hn0).
      set (x := mk_entry raw (e_height p + 1) (e_chain p) (e_work p + w) (Some j0)).
      assert (Hn1 : forall n, chains_used (es ++ [x]) n -> n = n0).
      { intros n Hn. eapply chains_used_fun; [exact Hn|]. intros c. rewrite (Hn0 c). split.
        - intros (e & HI & HE). exists e. split; auto. apply in_or_app. auto.
        - intros (e & HI & HE). apply in_app_iff in HI as [HI|[<-|[]]]; [eauto|].
          exists p. split; auto. eapply nth_error_In; eauto. }
      split.
      + intros n c Hn Hc. apply Hn1 in Hn. subst n. destruct (IH1 n0 c Hn0 Hc) as [HLk HHd].
        rewrite pos_snoc. split; [|now apply head_ok_app].
        change (e_chain x) with (e_chain p). destruct (Nat.eqb_spec (e_chain p) c) as [<-|Hne].
        * apply linked_snoc with (j := j0) (e := x); [now apply linked_app_es| |apply nth_error_last|reflexivity].
          pose proof (proj1 (IH2 j0 p Hj) HL) as HLast.
          destruct (pos es (e_chain p)) as [|a l] eqn:EP; [reflexivity|].
          rewrite <- HLast at 2. clear. revert a. induction l as [|b l IHl]; intros a; [reflexivity|]. exact (IHl b).
        * rewrite app_nil_r. now apply linked_app_es.
      + intros j e HN. rewrite pos_snoc. change (e_chain x) with (e_chain p).
        apply nth_error_snoc in HN as [[HN Hjl]|[-> ->]].
        * destruct (Nat.eq_dec j j0) as [->|Hne].
          -- assert (e = p) as -> by congruence. rewrite Nat.eqb_refl, last_snoc.
             split; [|lia]. intros HLf. exfalso. apply (HLf x); [apply in_or_app; right; now left|reflexivity].
          -- assert (HLf : leaf (es ++ [x]) j <-> leaf es j).
             { split; intros HLf e' HI; [apply HLf, in_or_app; auto|].
               apply in_app_iff in HI as [HI|[<-|[]]]; [auto|]. cbn. congruence. }
             rewrite HLf, (IH2 j e HN). destruct (Nat.eqb_spec (e_chain p) (e_chain e)) as [He|He].
             ++ rewrite last_snoc. pose proof (proj1 (IH2 j0 p Hj) HL) as HLast. rewrite <- He. split; [congruence|lia].
             ++ now rewrite app_nil_r.
        * cbn [x e_chain]. rewrite Nat.eqb_refl, last_snoc. split; [reflexivity|]. intros _ e HI.
          apply in_app_iff in HI as [HI|[<-|[]]].
          -- intros HE. apply In_nth_error in HI as (i & HI).
             destruct (forest_parent es i e _ HF HI HE) as (p' & w' & Hlt & HN & _).
             apply nth_error_lt in HN. lia.
          -- cbn. apply nth_error_lt in Hj. intros HE. injection HE as HE. lia.
    - destruct IH as [IH1 IH2].
      set (x := mk_entry raw (e_height p + 1) n (e_work p + w) (Some j0)).
      assert (Hn1 : forall m, chains_used (es ++ [x]) m -> m = S n).
      { intros m Hm. eapply chains_used_fun; [exact Hm|]. intros c. split.
        + intros Hc. destruct (Nat.eq_dec c n) as [->|].
          * exists x. split; [apply in_or_app; right; now left|reflexivity].
          * destruct (proj1 (HC c) ltac:(lia)) as (e & HI & HE). exists e. split; auto. apply in_or_app. auto.
        + intros (e & HI & HE). apply in_app_iff in HI as [HI|[<-|[]]].
          * assert (c < n)%nat by (apply HC; eauto). lia.
          * cbn in HE. lia. }
      assert (Hnone : pos es n = []).
      { destruct (pos es n) as [|i l] eqn:EP; [reflexivity|].
        assert (HI : In i (pos es n)) by (rewrite EP; now left). apply pos_In in HI as (e & HI & HE).
        assert (n < n)%nat by (apply HC; exists e; split; auto; eapply nth_error_In; eauto). lia. }
      split.
      + intros m c Hm Hc. apply Hn1 in Hm. subst m. rewrite pos_snoc. change (e_chain x) with n.
        destruct (Nat.eqb_spec n c) as [<-|Hne].
        * rewrite Hnone. cbn [app]. split; [exact I|]. cbn [head_ok].
          assert (Hpn : (e_chain p < n)%nat) by (apply HC; exists p; split; auto; eapply nth_error_In; eauto).
          destruct n as [|n']; [lia|]. exists x, j0, p. split; [apply nth_error_last|]. split; [reflexivity|].
          split; [now apply nth_error_app_l|exact Hpn].
        * rewrite app_nil_r. destruct (IH1 n c HC ltac:(lia)) as [HLk HHd]. split; [now apply linked_app_es|].
          rewrite <- (app_nil_r (pos es c)). now apply head_ok_app.
      + intros j e HN. rewrite pos_snoc. change (e_chain x) with n.
        apply nth_error_snoc in HN as [[HN Hjl]|[-> ->]].
        * destruct (Nat.eqb_spec n (e_chain e)) as [He|He].
          { assert (n < n)%nat by (apply HC; exists e; split; [eapply nth_error_In; eauto|auto]). lia. }
          rewrite app_nil_r, <- (IH2 j e HN). split; intros HLf e' HI; [apply HLf, in_or_app; auto|].
          apply in_app_iff in HI as [HI|[<-|[]]]; [auto|]. cbn. intros HE. injection HE as <-.
          now apply HL.
        * cbn [x e_chain]. rewrite Nat.eqb_refl, last_snoc. split; [reflexivity|]. intros _ e HI.
          apply in_app_iff in HI as [HI|[<-|[]]].
          -- intros HE. apply In_nth_error in HI as (i & HI).
             destruct (forest_parent es i e _ HF HI HE) as (p' & w' & Hlt & HN & _).
             apply nth_error_lt in HN. lia.
          -- cbn. apply nth_error_lt in Hj. intros HE. injection HE as HE. lia.
  Qed.

  Lemma ancestor_valid es k i : forest es -> ancestor es k i -> exists ek ei, nth_error es k = Some ek /\
    nth_error es i = Some ei /\ (k <= i)%nat /\ e_height ek <= e_height ei /\ (e_height ek = e_height ei -> k = i).
  Proof.
    intros HF. induction 1 as [i e HN|k j i e HA IH HN HE]; [exists e, e; repeat split; auto; lia|].
    destruct IH as (ek & ej & H1 & H2 & H3 & H4 & H5).
    destruct (forest_parent es i e j HF HN HE) as (p & w & Hlt & HNp & _ & Hh & _).
    assert (p = ej) as -> by congruence. exists ek, e. repeat split; auto; lia.
  Qed.
  (** Ancestors of one entry at one height are equal. *)
  Lemma ancestor_fun es k k' i ek ek' : forest es -> ancestor es k i -> ancestor es k' i ->
    nth_error es k = Some ek -> nth_error es k' = Some ek' -> e_height ek = e_height ek' -> k = k'.
  Proof.
    intros HF HA. revert k' ek'. induction HA as [i e HN|k j i e HA IH HN HE]; intros k' ek' HA' Hk Hk' Hh.
    - destruct (ancestor_valid es k' i HF HA') as (a & b & H1 & H2 & H3 & H4 & H5).
      symmetry. apply H5. congruence.
    - inversion HA' as [i' e' HN' E1 E2|k0 j' i' e' HA0 HN' HE' E1 E2]; subst.
      + destruct (ancestor_valid es k j HF HA) as (a & b & H1 & H2 & H3 & H4 & H5).
        destruct (forest_parent es i e j HF HN HE) as (p & w & Hlt & HNp & _ & Hh' & _).
        assert (p = b) as -> by congruence. assert (a = ek) as -> by congruence. assert (e = ek') as -> by congruence. lia.
      + assert (e' = e) as -> by congruence. assert (j' = j) as -> by congruence. eapply IH; eauto.
  Qed.

  Lemma linked_ancestor es l a b i k ei : forest es -> linked es l -> (a <= b)%nat -> nth_error l a = Some i -> nth_error l b = Some k ->
    nth_error es i = Some ei ->
    ancestor es i k /\ exists ek, nth_error es k = Some ek /\ e_height ek = e_height ei + Z.of_nat (b - a).
  Proof.
    intros HF HL Hab Ha Hb Hi. remember (b - a)%nat as d eqn:Ed. revert b k Hab Hb Ed.
    induction d as [|d IH]; intros b k Hab Hb Ed.
    - assert (b = a) as -> by lia. assert (k = i) as -> by congruence.
      split; [econstructor; eauto|]. exists ei. split; auto. lia.
    - destruct b as [|b]; [lia|].
      assert (Hm : exists m, nth_error l b = Some m).
      { destruct (nth_error l b) as [m|] eqn:E; [eauto|]. apply nth_error_None in E.
        apply nth_error_lt in Hb. lia. }
      destruct Hm as (m & Hm). destruct (linked_nth es l b m k HL Hm Hb) as (ek & HN & HE).
      destruct (IH b m ltac:(lia) Hm ltac:(lia)) as [HA (em & HNm & Hh)].
      split; [eapply ancestor_up; eauto|]. exists ek. split; auto.
      destruct (forest_parent es k ek m HF HN HE) as (p & w & Hlt & HNp & _ & Hh' & _).
      assert (p = em) as -> by congruence. lia.
  Qed.

  Lemma forest_height_ge es i e : forest es -> nth_error es i = Some e ->
    root_height <= e_height e <= root_height + Z.of_nat i /\ (e_height e = root_height -> i = O).
  Proof.
    intros HF. revert e. induction i as [i IH] using lt_wf_ind. intros e HN.
    destruct (e_parent e) as [j|] eqn:EP.
    - destruct (forest_parent es i e j HF HN EP) as (p & w & Hlt & HNp & _ & Hh & _).
      destruct (IH j Hlt p HNp) as [IH1 _]. lia.
    - pose proof (forest_root_only es i e HF HN EP) as ->. destruct (forest_nonempty es HF) as (w & HW & H0).
      assert (e = mk_entry root_raw root_height 0 (root_prev_work + w) None) as -> by congruence. cbn. lia.
  Qed.
  (** Every height between the root's and an entry's has an ancestor. *)
  Lemma ancestor_at es i e h : forest es -> nth_error es i = Some e -> root_height <= h <= e_height e ->
    exists k ek, ancestor es k i /\ nth_error es k = Some ek /\ e_height ek = h.
  Proof.
    intros HF. revert e. induction i as [i IH] using lt_wf_ind. intros e HN Hh.
    destruct (Z.eq_dec h (e_height e)) as [->|Hne].
    - exists i, e. split; [econstructor; eauto|auto].
    - destruct (e_parent e) as [j|] eqn:EP.
      + destruct (forest_parent es i e j HF HN EP) as (p & w & Hlt & HNp & _ & Hh' & _).
        destruct (IH j Hlt p HNp ltac:(lia)) as (k & ek & HA & HNk & Hk). exists k, ek.
        split; [eapply ancestor_up; eauto|auto].
      + pose proof (forest_root_only es i e HF HN EP) as ->. destruct (forest_nonempty es HF) as (w & HW & H0).
        assert (e = mk_entry root_raw root_height 0 (root_prev_work + w) None) as -> by congruence. cbn in *. lia.
  Qed.
  Lemma ancestor_root es i e : forest es -> nth_error es i = Some e -> ancestor es O i.
  Proof.
    intros HF. revert e. induction i as [i IH] using lt_wf_ind. intros e HN.
    destruct (e_parent e) as [j|] eqn:EP.
    - destruct (forest_parent es i e j HF HN EP) as (p & w & Hlt & HNp & _). eapply ancestor_up; eauto.
    - pose proof (forest_root_only es i e HF HN EP) as ->. econstructor; eauto.
  Qed.
End Forest.
