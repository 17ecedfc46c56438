(** common_chain_and_height finds the deepest common ancestor. *)
From Verif.Model Require Import Py Packing Bits Coin Work Storage Chain.
From Verif.Spec Require Import Numbers WorkSpec ChainSpec.
From Verif.Proofs Require Import PyFacts NumbersFacts WorkFacts ForestFacts ChainFacts.

Lemma assoc_nat_In k l v : assoc_nat k l = Some v -> In (k, v) l.
Proof.
  induction l as [|[k' v'] l IH]; cbn [assoc_nat]; [discriminate|].
  destruct (Nat.eqb_spec k k') as [->|]; intros E; [injection E as ->; now left|right; auto].
Qed.
Lemma assoc_nat_None k l v : assoc_nat k l = None -> ~ In (k, v) l.
Proof.
  induction l as [|[k' v'] l IH]; cbn [assoc_nat In]; [auto|].
  destruct (Nat.eqb_spec k k') as [->|Hn]; [discriminate|]. intros E [HE|HI]; [congruence|exact (IH E HI)].
Qed.

(** The loop keeps the greatest of the matches. *)
Definition fork_step (other : list (nat * Z)) (res : option nat * Z) (p : nat * Z) : option nat * Z :=
  match assoc_nat (fst p) other with
  | Some oh => let common := Z.min oh (snd p) in
               if snd res <? common then (Some (fst p), common) else res
  | None => res
  end.
Lemma fork_fold other l r0 :
  let r := fold_left (fork_step other) l r0 in
  snd r0 <= snd r /\
  (forall c h oh, In (c, h) l -> assoc_nat c other = Some oh -> Z.min oh h <= snd r) /\
  (r = r0 \/ exists c h oh, In (c, h) l /\ assoc_nat c other = Some oh /\ r = (Some c, Z.min oh h)).
Proof.
  revert r0. induction l as [|[c h] l IH]; intros r0; cbv zeta; cbn [fold_left].
  - split; [lia|]. split; [intros ? ? ? []|now left].
  - destruct (IH (fork_step other r0 (c, h))) as (H1 & H2 & H3).
    assert (HS : snd r0 <= snd (fork_step other r0 (c, h)) /\
      (forall oh, assoc_nat c other = Some oh -> Z.min oh h <= snd (fork_step other r0 (c, h))) /\
      (fork_step other r0 (c, h) = r0 \/ exists oh, assoc_nat c other = Some oh /\ fork_step other r0 (c, h) = (Some c, Z.min oh h))).
    { unfold fork_step. cbn [fst snd]. destruct (assoc_nat c other) as [oh|]; [|repeat split; auto; try lia; discriminate].
      cbv zeta. destruct (Z.ltb_spec (snd r0) (Z.min oh h)) as [Hl|Hl].
      - cbn [snd]. split; [lia|]. split; [intros oh' E; injection E as <-; lia|]. right. exists oh. auto.
      - split; [lia|]. split; [intros oh' E; injection E as <-; lia|]. now left. }
    destruct HS as (S1 & S2 & S3). split; [lia|]. split.
    + intros c' h' oh [E|HI] HA; [injection E as <- <-; specialize (S2 _ HA); lia|eauto].
    + destruct H3 as [->|(c' & h' & oh & HI & HA & ->)].
      * destruct S3 as [->|(oh & HA & ->)]; [now left|]. right. exists c, h, oh. split; [now left|auto].
      * right. exists c', h', oh. split; [now right|auto].
Qed.

Section Fork.
  Variable H : bytes -> bytes.
  Variable cp : checkpoint.
  Hypothesis cp_nonneg : 0 <= cp_height cp.
  Notation forest := (forest H (cp_raw cp) (cp_height cp) (cp_prev_work cp)).
  Notation chain_of := (chain_of H cp).
  Notation chain_list := (chain_list H cp).

  Lemma ancestor_between es k1 k2 t e1 e2 : forest es -> ancestor es k1 t -> ancestor es k2 t ->
    nth_error es k1 = Some e1 -> nth_error es k2 = Some e2 -> e_height e1 <= e_height e2 -> ancestor es k1 k2.
  Proof.
    intros HF H1 H2 N1 N2 Hh. pose proof (forest_height_ge _ _ _ _ es k1 e1 HF N1) as [Hg _].
    destruct (ancestor_at _ _ _ _ es k2 e2 (e_height e1) HF N2 ltac:(lia)) as (k & ek & HA & HN & HE).
    assert (k = k1) as <-; [|exact HA].
    eapply (ancestor_fun _ _ _ _ es k k1 t ek e1); eauto using ancestor_trans.
  Qed.

  (** The start of a chain. *)
  Lemma chain_head es c : forest es -> (c < nchains es)%nat -> exists h eh,
    nth_error es h = Some eh /\ e_chain eh = c /\ ch_first (chain_of es c) = e_height eh /\ ancestor es h (tip es c) /\
    ((c = O /\ h = O /\ ch_parent (chain_of es c) = None) \/
     exists j p, e_parent eh = Some j /\ nth_error es j = Some p /\ (e_chain p < c)%nat /\
       ch_parent (chain_of es c) = Some (e_chain p) /\ e_height eh = e_height p + 1 /\ ancestor es j (tip es c)).
  Proof.
    intros HF Hc. destruct (pos_struct H cp es c HF Hc) as (h & r & EP & HL & HH).
    destruct (tip_spec H cp es c HF Hc) as (et & HNt & HCt & _ & Hanc).
    assert (HI : In h (pos es c)) by (rewrite EP; now left). apply pos_In in HI as (eh & HN & HE).
    exists h, eh. split; [exact HN|]. split; [exact HE|].
    assert (HAt : ancestor es h (tip es c)) by (eapply Hanc; eauto).
    unfold ChainFacts.chain_of. rewrite EP. cbn [hd ch_first ch_parent]. rewrite (ent_nth es h eh HN). split; [reflexivity|].
    split; [exact HAt|].
    unfold parent_chain. rewrite (ent_nth es h eh HN). cbn [head_ok] in HH. destruct c as [|c].
    - left. subst h. split; [reflexivity|]. split; [reflexivity|].
      destruct (forest_nonempty _ _ _ _ es HF) as (w & _ & HN0). assert (eh = mk_entry (cp_raw cp) (cp_height cp) 0 (cp_prev_work cp + w) None) as -> by congruence. reflexivity.
    - right. destruct HH as (e & j & p & HNe & HPe & HNp & Hlt). assert (e = eh) as -> by congruence.
      exists j, p. rewrite HPe. rewrite (ent_nth es j p HNp).
      destruct (forest_parent _ _ _ _ es h eh j HF HN HPe) as (p' & w & _ & HNp' & _ & Hhh & _). assert (p' = p) as -> by congruence.
      repeat split; auto. eapply ancestor_trans; [|exact HAt]. eapply (ancestor_up es j j h eh); eauto.
      econstructor; eauto.
  Qed.

  Lemma chain_height_ge es c i e : forest es -> (c < nchains es)%nat -> nth_error es i = Some e -> e_chain e = c ->
    ch_first (chain_of es c) <= e_height e.
  Proof.
    intros HF Hc HN HE. destruct (pos_struct H cp es c HF Hc) as (h & r & EP & HL & HH).
    assert (HI : In i (pos es c)) by (apply pos_In; eauto). apply In_nth_error in HI as (b & HB). rewrite EP in HB.
    assert (HI0 : In h (pos es c)) by (rewrite EP; now left). apply pos_In in HI0 as (eh & HNh & HEh).
    destruct (linked_ancestor _ _ _ _ es (h :: r) 0 b h i eh HF HL ltac:(lia) eq_refl HB HNh) as (_ & e' & HN' & Hh).
    assert (e' = e) as -> by congruence. unfold ChainFacts.chain_of. rewrite EP. cbn [hd ch_first].
    rewrite (ent_nth es h eh HNh). lia.
  Qed.

  Lemma parent_above es c i e p j : forest es -> (c < nchains es)%nat -> nth_error es i = Some e -> e_chain e = c ->
    nth_error es j = Some p -> ancestor es j (tip es c) -> e_height p < ch_first (chain_of es c) -> ancestor es j i.
  Proof.
    intros HF Hc HN HE HNp HA Hlt. pose proof (chain_height_ge es c i e HF Hc HN HE) as Hge.
    destruct (tip_spec H cp es c HF Hc) as (et & HNt & HCt & _ & Hall).
    eapply (ancestor_between es j i (tip es c) p e); eauto. lia.
  Qed.

  (** Every pair listed is an ancestor on that chain... *)
  Lemma parent_chain_sound es fuel : forest es -> forall c i e c' h,
    nth_error es i = Some e -> e_chain e = c ->
    In (c', h) (parent_chain_heights fuel (chain_list es) c) ->
    (c' < c)%nat /\ exists k ek, ancestor es k i /\ nth_error es k = Some ek /\ e_chain ek = c' /\ e_height ek = h.
  Proof.
    intros HF. induction fuel as [|fuel IH]; intros c i e c' h HNi HEi; cbn [parent_chain_heights]; [contradiction|].
    pose proof (chain_lt H cp es i e HF HNi) as Hc. rewrite HEi in Hc. rewrite chain_list_nth by auto.
    destruct (chain_head es c HF Hc) as (hd0 & eh & HN & HE & Hfirst & Hanc & [(_ & _ & ->)|(j & p & HPe & HNp & Hlt & -> & Hh & Hj)]); [contradiction|].
    assert (Hji : ancestor es j i) by (apply (parent_above es c i e p j); auto; lia).
    intros [E|HI].
    - injection E as <- <-. split; [exact Hlt|]. exists j, p. repeat split; auto. change (e_height p = ch_first (chain_of es c) - 1). lia.
    - destruct (IH (e_chain p) j p c' h HNp eq_refl HI) as (Hl & k & ek & HA & HK & HC' & HH).
      split; [lia|]. exists k, ek. repeat split; auto. eapply ancestor_trans; eauto.
  Qed.
  (** ... and the last one there. *)
  Lemma parent_chain_complete es fuel : forest es -> forall c i e k ek, (c < fuel)%nat ->
    nth_error es i = Some e -> e_chain e = c -> ancestor es k i -> nth_error es k = Some ek -> e_chain ek <> c ->
    exists h, In (e_chain ek, h) (parent_chain_heights fuel (chain_list es) c) /\ e_height ek <= h.
  Proof.
    intros HF. induction fuel as [|fuel IH]; intros c i e k ek Hf HNi HEi HA HNk Hne; [lia|]. cbn [parent_chain_heights].
    pose proof (chain_lt H cp es i e HF HNi) as Hc. rewrite HEi in Hc. rewrite chain_list_nth by auto.
    destruct (tip_spec H cp es c HF Hc) as (et & HNt & HCt & (hh & ehh & Ehd & HNh & HCh & Hth & Hlen) & Hall).
    pose proof (Hall i e HNi HEi) as Hit. pose proof (ancestor_trans _ _ _ _ HA Hit) as Hkt.
    assert (Hbelow : e_height ek < ch_first (chain_of es c)).
    { destruct (Z.lt_ge_cases (e_height ek) (ch_first (chain_of es c))) as [|Hge]; [assumption|exfalso].
      apply Hne. destruct (ancestor_valid _ _ _ _ es k _ HF Hkt) as (a & b & Na & Nb & _ & Hle & _).
      assert (a = ek) as -> by congruence. assert (b = et) as -> by congruence.
      unfold ChainFacts.chain_of in Hge. cbn [ch_first] in Hge. rewrite Ehd, (ent_nth es hh ehh HNh) in Hge.
      assert (HB : exists b', nth_error (pos es c) b' <> None /\ Z.of_nat b' = e_height ek - e_height ehh).
      { exists (Z.to_nat (e_height ek - e_height ehh)). split; [|lia]. apply nth_error_Some. unfold zlen in *. lia. }
      destruct HB as (b' & HB & HBe). destruct (nth_error (pos es c) b') as [x|] eqn:EX; [|contradiction].
      destruct (nth_error_pos es c b' x EX) as (ex & HNx & HCx).
      destruct (pos_struct H cp es c HF Hc) as (h & r & EP & HL & HH). rewrite EP in EX, Ehd. cbn [hd] in Ehd. subst h.
      destruct (linked_ancestor _ _ _ _ es (hh :: r) 0 b' hh x ehh HF HL ltac:(lia) eq_refl EX HNh) as (_ & ex' & HNx' & Hhx).
      assert (ex' = ex) as -> by congruence.
      assert (x = k) as ->; [|congruence].
      eapply (ancestor_fun _ _ _ _ es x k (tip es c) ex ek); eauto. lia. }
    destruct (chain_head es c HF Hc) as (hd0 & eh & HN & HE & Hfirst & Hanc & [(Hc0 & Hh0 & Hp)|(j & p & HPe & HNp & Hlt & -> & Hh & Hj)]).
    - exfalso. subst hd0. destruct (forest_nonempty _ _ _ _ es HF) as (w & _ & HN0).
      assert (eh = mk_entry (cp_raw cp) (cp_height cp) 0 (cp_prev_work cp + w) None) as E by congruence.
      rewrite E in Hfirst. cbn [e_height] in Hfirst. pose proof (forest_height_ge _ _ _ _ es k ek HF HNk). lia.
    - assert (Hkj : ancestor es k j) by (eapply (ancestor_between es k j (tip es c) ek p); eauto; lia).
      destruct (Nat.eq_dec (e_chain ek) (e_chain p)) as [Heq|Hne'].
      + exists (ch_first (chain_of es c) - 1). split; [left; rewrite Heq; reflexivity|]. lia.
      + destruct (IH (e_chain p) j p k ek ltac:(lia) HNp eq_refl Hkj HNk Hne') as (h & HI & Hle).
        exists h. split; [now right|exact Hle].
  Qed.

  Lemma parent_heights_spec es a : forest es -> (a < nchains es)%nat ->
    (forall c h, In (c, h) (parent_heights (chain_list es) a) ->
       exists k ek, ancestor es k (tip es a) /\ nth_error es k = Some ek /\ e_chain ek = c /\ e_height ek = h) /\
    (forall k ek, ancestor es k (tip es a) -> nth_error es k = Some ek ->
       exists h, In (e_chain ek, h) (parent_heights (chain_list es) a) /\ e_height ek <= h).
  Proof.
    intros HF Ha. unfold parent_heights. rewrite chain_list_nth by auto.
    destruct (tip_spec H cp es a HF Ha) as (et & HNt & HCt & (hh & ehh & Ehd & HNh & HCh & Hth & Hlen) & Hall).
    assert (HH : ch_height (chain_of es a) = e_height et).
    { destruct (chain_of_spec H cp es a HF Ha) as (e & HN & _ & _ & HH). assert (e = et) as -> by congruence. exact HH. }
    split.
    - intros c h [E|HI].
      + injection E as <- <-. exists (tip es a), et. repeat split; auto. econstructor; eauto.
      + eapply parent_chain_sound; eauto.
    - intros k ek HA HN. destruct (Nat.eq_dec (e_chain ek) a) as [Heq|Hne].
      + exists (ch_height (chain_of es a)). split; [left; now rewrite Heq|]. rewrite HH.
        destruct (ancestor_valid _ _ _ _ es k _ HF HA) as (x & y & Nx & Ny & _ & Hle & _). congruence.
      + destruct (parent_chain_complete es (length (chain_list es)) HF a (tip es a) et k ek) as (h & HI & Hle); auto.
        * rewrite chain_list_length. exact Ha.
        * exists h. split; [now right|exact Hle].
  Qed.

  (** Several pairs for one chain cannot occur, so the association is the last ancestor there. *)
  Lemma assoc_last es a c h : forest es -> (a < nchains es)%nat -> assoc_nat c (parent_heights (chain_list es) a) = Some h ->
    forall k ek, ancestor es k (tip es a) -> nth_error es k = Some ek -> e_chain ek = c -> e_height ek <= h.
  Proof.
    intros HF Ha HA k ek Hk HN HE. destruct (proj2 (parent_heights_spec es a HF Ha) k ek Hk HN) as (h' & HI & Hle).
    assert (h' = h) as <-; [|exact Hle]. rewrite HE in HI. clear - HA HI HF Ha.
    assert (HU : forall fuel i e c0, nth_error es i = Some e -> e_chain e = c0 -> forall c h h',
      assoc_nat c (parent_chain_heights fuel (chain_list es) c0) = Some h -> In (c, h') (parent_chain_heights fuel (chain_list es) c0) -> h' = h).
    { induction fuel as [|fuel IH]; intros i e c0 HN HE c1 h1 h2; cbn [parent_chain_heights]; [discriminate|].
      pose proof (chain_lt H cp es i e HF HN) as Hc. rewrite HE in Hc. rewrite chain_list_nth by auto.
      destruct (chain_head es c0 HF Hc) as (hd0 & eh & HN0 & HE0 & Hfirst & Hanc & [(Hc0 & Hh0 & ->)|(j & p & HPe & HNp & Hlt & -> & Hh & Hj)]); [discriminate|].
      cbn [assoc_nat In]. destruct (Nat.eqb_spec c1 (e_chain p)) as [->|Hne].
      - intros E [E2|HI2]; [congruence|]. exfalso.
        destruct (parent_chain_sound es fuel HF (e_chain p) j p (e_chain p) h2 HNp eq_refl HI2) as [Hlt2 _]. lia.
      - intros E [E2|HI2]; [congruence|]. eapply (IH j p (e_chain p)); eauto. }
    destruct (tip_spec H cp es a HF Ha) as (et & HNt & HCt & _).
    unfold parent_heights in *. rewrite chain_list_nth in * by auto. cbn [assoc_nat In] in *.
    destruct (Nat.eqb_spec c a) as [->|Hne].
    - destruct HI as [E|HI]; [congruence|]. exfalso.
      destruct (parent_chain_sound es _ HF a (tip es a) et a h' HNt HCt HI) as [Hlt _]. lia.
    - destruct HI as [E|HI]; [congruence|]. eapply HU; eauto.
  Qed.

  Theorem fork_point es a b : forest es -> (a < nchains es)%nat -> (b < nchains es)%nat ->
    exists k ek, common_chain_and_height (chain_list es) a b = (Some (e_chain ek), e_height ek) /\
      nth_error es k = Some ek /\ ancestor es k (tip es a) /\ ancestor es k (tip es b) /\
      forall k' ek', ancestor es k' (tip es a) -> ancestor es k' (tip es b) -> nth_error es k' = Some ek' -> e_height ek' <= e_height ek.
  Proof.
    intros HF Ha Hb.
    assert (EC : common_chain_and_height (chain_list es) a b =
      fold_left (fork_step (parent_heights (chain_list es) b)) (parent_heights (chain_list es) a) (None, -1)) by reflexivity.
    rewrite EC. clear EC.
    destruct (fork_fold (parent_heights (chain_list es) b) (parent_heights (chain_list es) a) (None, -1)) as (_ & Hmax & Hwit).
    set (r := fold_left _ _ _) in *.
    (* every common ancestor is at most that high *)
    assert (Hup : forall k' ek', ancestor es k' (tip es a) -> ancestor es k' (tip es b) -> nth_error es k' = Some ek' -> e_height ek' <= snd r).
    { intros k ek HA HB HN. destruct (proj2 (parent_heights_spec es a HF Ha) k ek HA HN) as (h & HI & Hle).
      destruct (assoc_nat (e_chain ek) (parent_heights (chain_list es) b)) as [oh|] eqn:EA.
      - specialize (Hmax _ _ _ HI EA). pose proof (assoc_last es b _ _ HF Hb EA k ek HB HN eq_refl). lia.
      - exfalso. destruct (proj2 (parent_heights_spec es b HF Hb) k ek HB HN) as (h' & HI' & _).
        exact (assoc_nat_None _ _ _ EA HI'). }
    destruct (forest_nonempty _ _ _ _ es HF) as (w & _ & HN0).
    destruct (tip_spec H cp es a HF Ha) as (ea & HNa & HCa & _).
    destruct (tip_spec H cp es b HF Hb) as (eb & HNb & HCb & _).
    assert (Hr0 : cp_height cp <= snd r).
    { apply (Hup O _ (ancestor_root _ _ _ _ es _ ea HF HNa) (ancestor_root _ _ _ _ es _ eb HF HNb) HN0). }
    destruct Hwit as [E|(c & h & oh & HI & HA & E)]; [rewrite E in Hr0; cbn in Hr0; lia|].
    destruct (proj1 (parent_heights_spec es a HF Ha) c h HI) as (ka & xa & Hka & HNka & HCka & HHka).
    destruct (proj1 (parent_heights_spec es b HF Hb) c oh (assoc_nat_In _ _ _ HA)) as (kb & xb & Hkb & HNkb & HCkb & HHkb).
    assert (Hc : (c < nchains es)%nat) by (rewrite <- HCka; eapply chain_lt; eauto).
    destruct (tip_spec H cp es c HF Hc) as (ec & HNc & HCc & _ & Hall).
    pose proof (Hall ka xa HNka HCka) as Hta. pose proof (Hall kb xb HNkb HCkb) as Htb.
    rewrite E in *. cbn [snd] in *.
    destruct (Z.le_ge_cases h oh) as [Hle|Hle].
    - exists ka, xa. rewrite HCka, HHka. rewrite Z.min_r in * by lia. split; [reflexivity|]. split; [exact HNka|]. split; [exact Hka|].
      split; [|exact Hup]. eapply ancestor_trans; [|exact Hkb]. eapply (ancestor_between es ka kb (tip es c)); eauto. lia.
    - exists kb, xb. rewrite HCkb, HHkb. rewrite Z.min_l in * by lia. split; [reflexivity|]. split; [exact HNkb|].
      split; [|split; [exact Hkb|exact Hup]]. eapply ancestor_trans; [|exact Hka]. eapply (ancestor_between es kb ka (tip es c)); eauto. lia.
  Qed.
End Fork.
