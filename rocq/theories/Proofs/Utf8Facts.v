(** The decoder of bytes.decode(errors='replace') is that of the Unicode Standard. *)
From Verif.Model Require Import Py Text TxJson.
From Verif.Spec Require Import Utf8Spec.
From Verif.Proofs Require Import PyFacts.

Definition bad_prefix (s : bytes) (n : Z) : Prop :=
  (forall c e t, encodes c e -> s <> e ++ t) /\ (n = 1 \/ begins (ztake n s)) /\ (forall q t, s = q ++ t -> begins q -> zlen q <= n).

Ltac split_if := match goal with
  | |- context [if ?b then _ else _] => let E := fresh "E" in destruct b eqn:E
  | |- context [match ?r with [] => _ | _ => _ end] => is_var r; destruct r
  end.

Lemma no_char s : (forall c e t, encodes c e -> s <> e ++ t) <-> forall c e t, encodes c e -> s = e ++ t -> False.
Proof. split; intros H c e t HE; [intros HX; exact (H c e t HE HX)|intros HX; exact (H c e t HE HX)]. Qed.

Ltac refuse := intros ? ? ? HE HX; inversion HE; subst; cbn [app] in HX; repeat match goal with HX : _ :: _ = _ :: _ |- _ => injection HX; clear HX; intros end; subst; try discriminate; unfold cont in *; lia.
Ltac longest := intros q t HX (c0 & e0 & t0 & HE & HQ); destruct HE; destruct q as [|q0 [|q1 [|q2 [|q3 q4] ] ] ]; cbn [app] in HX, HQ; unfold zlen; cbn [length];
  repeat match goal with HX : _ :: _ = _ :: _ |- _ => injection HX; clear HX; intros end; subst; try discriminate; unfold cont in *; try lia.

Lemma enc_1' a : 0 <= a < 0x80 -> encodes a [a].
Proof. apply enc_1. Qed.
Lemma enc_2' a b : 0xc2 <= a < 0xe0 -> 128 <= b < 192 -> encodes ((a - 0xc0) * 64 + (b - 128)) [a; b].
Proof. intros Ha Hb. replace a with (0xc0 + (a - 0xc0)) at 2 by lia. replace b with (0x80 + (b - 128)) at 2 by lia. apply enc_2; lia. Qed.
Lemma enc_3' a b c : 0xe0 <= a < 0xf0 -> 128 <= b < 192 -> 128 <= c < 192 -> (a = 0xe0 -> 0xa0 <= b) -> (a = 0xed -> b < 0xa0) ->
  encodes ((a - 0xe0) * 4096 + (b - 128) * 64 + (c - 128)) [a; b; c].
Proof.
  intros Ha Hb Hc H0 Hd. replace a with (0xe0 + (a - 0xe0)) at 2 by lia. replace b with (0x80 + (b - 128)) at 2 by lia. replace c with (0x80 + (c - 128)) at 2 by lia.
  apply enc_3; lia.
Qed.
Lemma enc_4' a b c d : 0xf0 <= a < 0xf5 -> 128 <= b < 192 -> 128 <= c < 192 -> 128 <= d < 192 -> (a = 0xf0 -> 0x90 <= b) -> (a = 0xf4 -> b < 0x90) ->
  encodes ((a - 0xf0) * 262144 + (b - 128) * 4096 + (c - 128) * 64 + (d - 128)) [a; b; c; d].
Proof.
  intros Ha Hb Hc Hd H0 H4. replace a with (0xf0 + (a - 0xf0)) at 2 by lia. replace b with (0x80 + (b - 128)) at 2 by lia. replace c with (0x80 + (c - 128)) at 2 by lia. replace d with (0x80 + (d - 128)) at 2 by lia.
  apply enc_4; lia.
Qed.
Lemma begins_3 a b : 0xe0 <= a < 0xf0 -> 128 <= b < 192 -> (a = 0xe0 -> 0xa0 <= b) -> (a = 0xed -> b < 0xa0) -> begins [a; b].
Proof. intros Ha Hb H0 Hd. eexists _, _, [128]. split; [apply (enc_3' a b 128); lia|reflexivity]. Qed.
Lemma begins_4 a b : 0xf0 <= a < 0xf5 -> 128 <= b < 192 -> (a = 0xf0 -> 0x90 <= b) -> (a = 0xf4 -> b < 0x90) -> begins [a; b].
Proof. intros Ha Hb H0 H4. eexists _, _, [128; 128]. split; [apply (enc_4' a b 128 128); lia|reflexivity]. Qed.
Lemma begins_4' a b c : 0xf0 <= a < 0xf5 -> 128 <= b < 192 -> 128 <= c < 192 -> (a = 0xf0 -> 0x90 <= b) -> (a = 0xf4 -> b < 0x90) -> begins [a; b; c].
Proof. intros Ha Hb Hc H0 H4. eexists _, _, [128]. split; [apply (enc_4' a b c 128); lia|reflexivity]. Qed.

Lemma first_ok a r : bytes_ok (a :: r) = true -> exists c n, utf8_first a r = (c, n) /\ 1 <= n <= zlen (a :: r) /\
  (encodes c (ztake n (a :: r)) \/ c = 0xfffd /\ bad_prefix (a :: r) n).
Proof.
  intros HB. unfold utf8_first.
  assert (Ha : 0 <= a < 256) by (rewrite bytes_ok_cons in HB; apply andb_true_iff in HB as [HA _]; now apply byte_ok_iff). clear HB.
  repeat split_if; eexists _, _; (split; [reflexivity|]); (split; [unfold zlen; cbn [length]; lia|]); unfold bad_prefix; rewrite ztake_firstn;
    change (Z.to_nat 1) with 1%nat; change (Z.to_nat 2) with 2%nat; change (Z.to_nat 3) with 3%nat; change (Z.to_nat 4) with 4%nat; cbn [firstn].
  all: repeat match goal with E : context [if ?b then _ else _] |- _ => destruct b eqn:? end.
  all: unfold cont in *.
  all: try (left; first [apply enc_1'; lia|apply enc_2'; unfold cont in *; lia|apply enc_3'; unfold cont in *; lia|apply enc_4'; unfold cont in *; lia]).
  all: right; split; [reflexivity|]; split; [apply no_char; refuse|split].
  all: try (left; reflexivity).
  all: try (right; first [apply begins_3; unfold cont in *; lia|apply begins_4; unfold cont in *; lia|apply begins_4'; unfold cont in *; lia]).
  all: longest.
Qed.

Lemma replace_reads f s : (length s <= f)%nat -> bytes_ok s = true -> reads s (utf8_replace_loop f s).
Proof.
  revert s. induction f as [|f IH]; intros s Hf HB.
  - destruct s; [constructor|cbn [length] in Hf; lia].
  - destruct s as [|a r]; [constructor|]. cbn [utf8_replace_loop]. destruct (first_ok a r HB) as (c & n & -> & Hn & HC).
    pose proof (ztake_zdrop n (a :: r)) as HS.
    assert (HR : reads (zdrop n (a :: r)) (utf8_replace_loop f (zdrop n (a :: r)))).
    { apply IH.
      - rewrite zdrop_skipn, skipn_length. cbn [length] in Hf |- *. lia.
      - rewrite <- HS, bytes_ok_app in HB. now apply andb_true_iff in HB as [_ HB]. }
    rewrite <- HS at 1. destruct HC as [HC|(-> & HN & HP & HM)]; [now apply reads_char|].
    assert (HL : zlen (ztake n (a :: r)) = n) by (rewrite zlen_ztake; lia). apply reads_bad; [|rewrite HS; exact HN|rewrite HL; exact HP|rewrite HS, HL; exact HM|exact HR].
    intros HZ. rewrite HZ in HL. unfold zlen in HL. cbn [length] in HL. lia.
Qed.

(** There is one text only. *)
Lemma encodes_prefix c e t c' e' t' : encodes c e -> encodes c' e' -> e ++ t = e' ++ t' -> c = c' /\ e = e' /\ t = t'.
Proof.
  intros H1 H2 HE. inversion H1; inversion H2; subst; cbn [app] in HE; repeat match goal with HX : _ :: _ = _ :: _ |- _ => injection HX; clear HX; intros end; subst;
    try (exfalso; lia); repeat match goal with HX : ?k + ?x = ?k + ?y |- _ => apply Z.add_reg_l in HX; subst end; repeat split; lia.
Qed.
Lemma same_prefix {A} (p q b d : list A) : p ++ b = q ++ d -> zlen p = zlen q -> p = q /\ b = d.
Proof.
  revert q. induction p as [|x p IH]; intros [|y q] HE HL; unfold zlen in *; cbn [length app] in *; try lia; [auto|]. injection HE as -> HE. destruct (IH q HE ltac:(lia)) as [-> ->]. auto.
Qed.
Lemma encodes_nonempty c e : encodes c e -> e <> [].
Proof. intros HE; inversion HE; discriminate. Qed.
Lemma reads_nil b s : reads b s -> b = [] -> s = [].
Proof. intros HR. destruct HR as [|c e b s HE HR|p b s HP]; intros HX; [reflexivity| |]; apply app_eq_nil in HX as [HX _]; [now apply encodes_nonempty in HE|now destruct HP]. Qed.
Lemma reads_one b s : reads b s -> forall s', reads b s' -> s = s'.
Proof.
  induction 1 as [|c e b s HE HR IH|p b s HP HN H1 HM HR IH]; intros s' HR'.
  - symmetry. exact (reads_nil _ _ HR' eq_refl).
  - inversion HR' as [HX|c' e' b' s0 HE' HR0 HX|p b' s0 HP HN H1 HM HR0 HX].
    + symmetry in HX. apply app_eq_nil in HX as [-> _]. now apply encodes_nonempty in HE.
    + destruct (encodes_prefix _ _ _ _ _ _ HE' HE HX) as (-> & -> & ->). f_equal. now apply IH.
    + exfalso. exact (HN c e b HE HX).
  - inversion HR' as [HX|c' e' b' s0 HE' HR0 HX|p' b' s0 HP' HN' H1' HM' HR0 HX].
    + symmetry in HX. apply app_eq_nil in HX as [-> _]. congruence.
    + exfalso. exact (HN c' e' b' HE' (eq_sym HX)).
    + assert (1 <= zlen p /\ 1 <= zlen p') as [L1 L2] by (split; [destruct p|destruct p']; try contradiction; unfold zlen; cbn [length]; lia).
      assert (zlen p = zlen p') as HL.
      { destruct H1 as [H1|H1], H1' as [H1'|H1']; try lia.
        - pose proof (HM p' b' (eq_sym HX) H1'). lia.
        - pose proof (HM' p b HX H1). lia.
        - pose proof (HM p' b' (eq_sym HX) H1'). pose proof (HM' p b HX H1). lia. }
      destruct (same_prefix _ _ _ _ (eq_sym HX) HL) as [-> ->]. f_equal. now apply IH.
Qed.
Theorem replace_iff b s : bytes_ok b = true -> (utf8_replace b = s <-> reads b s).
Proof.
  intros HB. pose proof (replace_reads (length b) b (le_n _) HB) as HR. split; [intros <-; exact HR|intros HS; exact (reads_one _ _ HR _ HS)].
Qed.
