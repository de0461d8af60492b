(** Tones through the fastest sinc converter. *)
From Coq Require Import ZArith Reals List Bool Lia Lra Psatz.
From Flocq Require Import Core IEEE754.BinarySingleNaN.
From Verif Require Import Base FloatFacts Types Api ApiHist HoldSpec HoldCore HoldRamp HoldMain SincSpec SincApi SincStream SincTables AccSpec KernSpec KernTables GainUnits GainFastInts
  ToneSpec ToneTrig ToneCheck ToneSound ToneTable ToneSums ToneCells ToneFast ToneMain.
Import ListNotations.
Local Open Scope Z_scope.

Lemma fast_checked : checked fast_ints 225000000000000000000000000000000.
Proof. exists base, (squares 5 base). split; [exact base_ok|]. split; [exact big_ok|exact fast_tones]. Qed.
Lemma fast_pos a w f u r : (Rabs w <= 2)%R -> 0 <= r <= 128 -> (Rabs (mix fast_ints (sine a w f) u r - IZR (2 ^ 30) * at_pos a w f u r) <= Rabs a * IZR 121300)%R.
Proof.
  apply (every_pos fast_ints 225000000000000000000000000000000 2026216348 480539449610066753435103232 72700 647400 121300 fast_checked fast_sizes); [|exact fast_defects|lia].
  unfold unitb. rewrite !(mult_IZR _ _). change (2 ^ 55) with 36028797018963968. change (2 ^ 30) with 1073741824. change (2 ^ 66) with 73786976294838206464. lra.
Qed.
Lemma fast_sound x l d u t : (0 <= t < 1)%R -> up_to 2 l -> (forall n, u - 19 <= n <= u + 20 -> (Rabs (x n - tones l (IZR n)) <= d)%R) ->
  (Rabs (convolved 128 (snd fastest_table) x u t 1 24 - tones l (IZR u + t)) <= loudness l * (3 / 20000) + 2 * d)%R.
Proof.
  destruct (same_units_ok _ _ fast_same) as [E F]. pose proof fastest_length as N. pose proof fast_pos as P. pose proof fast_fine_sizes as S. pose proof fast_last as L.
  rewrite <- E in P, S, L. generalize dependent (snd fastest_table). intros cs E F N P S L.
  apply (conv_sound cs N F L 121300 P ltac:(lia) 2100000000 S ltac:(lia)). lia.
Qed.

Lemma tones_through ch X r (A : f32) st log out st1 o1 k c :
  sinc_start fastest_table ch st -> in_range r -> (1 <= B2R r)%R -> within ch X A -> (6 * Rabs (B2R A) < IZR (2 ^ 128))%R -> (forall i j, i < 0 -> X i j = fzero) ->
  sinc_streaming ch X (eq r) st 0 log out st1 o1 -> 0 <= k < total_gen log -> 0 <= c < ch ->
  exists u t y, near_place r k u t /\ sample ch out k c = Some y /\ is_finite y = true /\
  forall sound d, up_to 2 sound -> (forall i, u - 19 <= i <= u + 20 -> (Rabs (B2R (X i c) - tones sound (IZR i)) <= d)%R) ->
  (Rabs (B2R y - tones sound (IZR u + t)) <= 3 / 20000 * loudness sound + 2 * d + 13 / 1000000 * Rabs (B2R A) + / IZR (2 ^ 149))%R.
Proof.
  intros S G R1 W U Z0 Run Hk Hc.
  assert (T : fastest_table = (128, snd fastest_table)) by reflexivity.
  rewrite T in S. destruct (sinc_convolved 128 (snd fastest_table) ch X r A st log out st1 o1 k c (or_introl (eq_sym T)) S G W U Z0 Run Hk Hc) as (u & t & y & P & Sm & F & Q).
  exists u, t, y. split; [exact P|]. split; [exact Sm|]. split; [exact F|]. intros l d Hl Hd. specialize (Q 24%nat).
  rewrite Rmin_left in Q by exact R1. rewrite fastest_length in Q. specialize (Q ltac:(cbn [INR]; lra)). destruct Q as [_ Q]. specialize (Q R1).
  pose proof (fast_sound (fun i => B2R (X i c)) l d u t (proj1 P) Hl Hd) as V. set (v := convolved _ _ _ _ _ _ _) in *.
  replace (B2R y - tones l (IZR u + t))%R with ((B2R y - v) + (v - tones l (IZR u + t)))%R by ring. eapply Rle_trans; [apply Rabs_triang|]. lra.
Qed.
