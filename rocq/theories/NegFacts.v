(** Float arithmetic rounds symmetrically: operands of opposite sign give results of opposite sign (C46). *)
From Coq Require Import ZArith List Bool Lia.
From Flocq Require Import Core IEEE754.BinarySingleNaN.
From Verif Require Import Base HoldSpec SincSpec.
Local Open Scope Z_scope.

(** y is -x; zeros of either sign count as opposite. *)
Definition opposite {prec emax} (x y : binary_float prec emax) : Prop :=
  y = Bopp x \/ (exists s s', x = B754_zero s /\ y = B754_zero s').

Section Float.
  Variables prec emax : Z.
  Context (Hp : Prec_gt_0 prec) (Hm : Prec_lt_emax prec emax).
  Notation fl := (binary_float prec emax).
  Notation opposite := (@opposite prec emax).

  Lemma opp_self (x : fl) : opposite x (Bopp x).
  Proof. now left. Qed.
  Lemma opp_zero s s' : opposite (B754_zero s) (B754_zero s').
  Proof. right. eauto. Qed.

  Lemma round_aux_opp s m e l :
    binary_round_aux prec emax mode_NE (negb s) m e l = SpecFloat.SFopp (binary_round_aux prec emax mode_NE s m e l).
  Proof.
    unfold binary_round_aux. destruct (SpecFloat.shr_fexp prec emax m e l) as [r1 e1]. cbn [choice_mode].
    destruct (SpecFloat.shr_fexp prec emax _ e1 _) as [r2 e2]. destruct (SpecFloat.shr_m r2); try reflexivity.
    unfold binary_fit_aux. destruct (Zle_bool _ _); [reflexivity|]. now destruct s.
  Qed.
  Lemma round_opp s m e : binary_round prec emax mode_NE (negb s) m e = SpecFloat.SFopp (binary_round prec emax mode_NE s m e).
  Proof. unfold binary_round. destruct (shl_align_fexp prec emax m e). apply round_aux_opp. Qed.

  Lemma B2SF_opp (x : fl) : B2SF (Bopp x) = SpecFloat.SFopp (B2SF x).
  Proof. now destruct x. Qed.

  Lemma normalize_opp m e s s' : opposite (binary_normalize prec emax Hp Hm mode_NE m e s) (binary_normalize prec emax Hp Hm mode_NE (- m) e s').
  Proof.
    destruct m as [|m|m]; [apply opp_zero| |]; left; apply B2SF_inj; rewrite B2SF_opp; cbn [binary_normalize Z.opp]; rewrite !B2SF_SF2B.
    - exact (round_opp false m e).
    - exact (round_opp true m e).
  Qed.

  Lemma naive_opp s m e s' m' e' ez : Fplus_naive (negb s) m e (negb s') m' e' ez = - Fplus_naive s m e s' m' e' ez.
  Proof. unfold Fplus_naive. destruct s, s'; cbn [negb cond_Zopp]; lia. Qed.

  Lemma plus_opp (a a' b b' : fl) : opposite a a' -> opposite b b' -> opposite (Bplus mode_NE a b) (Bplus mode_NE a' b').
  Proof.
    intros A B. destruct A as [->|(s & s' & -> & ->)], B as [->|(t & t' & -> & ->)].
    - destruct a as [s|s| |s m e Hb], b as [t|t| |t m' e' Hb']; cbn [Bopp Bplus]; try (now left).
      + destruct s, t; cbn; apply opp_zero.
      + destruct s, t; now left.
      + rewrite naive_opp. apply normalize_opp.
    - destruct a as [s|s| |s m e Hb]; cbn [Bopp Bplus]; try (now left). destruct s, t, t'; apply opp_zero.
    - destruct b as [t|t| |t m e Hb]; cbn [Bopp Bplus]; try (now left). destruct s, s', t; apply opp_zero.
    - cbn. destruct s, s', t, t'; apply opp_zero.
  Qed.
  Lemma minus_opp (a a' b b' : fl) : opposite a a' -> opposite b b' -> opposite (Bminus mode_NE a b) (Bminus mode_NE a' b').
  Proof.
    intros A B. destruct A as [->|(s & s' & -> & ->)], B as [->|(t & t' & -> & ->)].
    - destruct a as [s|s| |s m e Hb], b as [t|t| |t m' e' Hb']; cbn [Bopp Bminus]; try (now left).
      + destruct s, t; cbn; apply opp_zero.
      + destruct s, t; now left.
      + rewrite naive_opp. apply normalize_opp.
    - destruct a as [s|s| |s m e Hb]; cbn [Bopp Bminus]; try (now left). destruct s, t, t'; apply opp_zero.
    - destruct b as [t|t| |t m e Hb]; cbn [Bopp Bminus]; try (now left). destruct s, s', t; apply opp_zero.
    - cbn. destruct s, s', t, t'; apply opp_zero.
  Qed.
  Lemma mult_opp (w a a' : fl) : opposite a a' -> opposite (Bmult mode_NE w a) (Bmult mode_NE w a').
  Proof.
    intros [->|(s & s' & -> & ->)].
    - destruct w as [t|t| |t m e Hb], a as [s|s| |s m' e' Hb']; cbn [Bopp Bmult]; try (now left); try (apply opp_zero).
      + left. now destruct s, t.
      + left. now destruct s, t.
      + left. now destruct s, t.
      + left. apply B2SF_inj. rewrite B2SF_opp, !B2SF_SF2B. rewrite <- round_aux_opp. f_equal. now destruct s, t.
    - destruct w; cbn [Bmult]; try (now left); apply opp_zero.
  Qed.
End Float.

Lemma d_opp x y : opposite x y -> opposite (d_of_f x) (d_of_f y).
Proof.
  intros [->|(s & s' & -> & ->)]; [|apply opp_zero]. destruct x as [s|s| |s m e Hb]; try (now left). cbn [Bopp d_of_f].
  replace (cond_Zopp (negb s) (Z.pos m)) with (- cond_Zopp s (Z.pos m)) by (now destruct s). apply normalize_opp.
Qed.
Lemma f_opp x y : opposite x y -> opposite (f_of_d x) (f_of_d y).
Proof.
  intros [->|(s & s' & -> & ->)]; [|apply opp_zero]. destruct x as [s|s| |s m e Hb]; try (now left). cbn [Bopp f_of_d].
  replace (cond_Zopp (negb s) (Z.pos m)) with (- cond_Zopp s (Z.pos m)) by (now destruct s). apply normalize_opp.
Qed.

(** ** The values of the converters *)
Lemma interpolate_opp a b a' b' t : opposite a a' -> opposite b b' -> opposite (interpolate a b t) (interpolate a' b' t).
Proof. intros A B. unfold interpolate. apply f_opp, plus_opp; [now apply d_opp|]. apply mult_opp, minus_opp; now apply d_opp. Qed.

Lemma weigh_opp w x x' : (forall i, opposite (x i) (x' i)) -> forall n a a', opposite a a' -> opposite (weigh w x n a) (weigh w x' n a').
Proof.
  intros H. induction n as [|n IH]; intros a a' A; cbn [weigh]; [exact A|]. apply IH, plus_opp; [exact A|]. apply mult_opp, d_opp, H.
Qed.
Lemma sinc_opp inc coeffs x x' d p r : (forall i, opposite (x i) (x' i)) -> opposite (sinc_sample inc coeffs x d p r) (sinc_sample inc coeffs x' d p r).
Proof.
  intros H. destruct p as [pz pf]. unfold sinc_sample. cbv zeta. cbn [fst snd]. apply f_opp, mult_opp, plus_opp; apply weigh_opp; auto; apply opp_zero.
Qed.
