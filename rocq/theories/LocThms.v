(** Locality and time invariance at constant ratio. *)
From Coq Require Import ZArith Reals List Bool Lia Lra Psatz.
From Flocq Require Import Core IEEE754.BinarySingleNaN.
From Verif Require Import Base FloatFacts PosFacts Types Api ApiHist HoldSpec HoldFacts HoldCore HoldStream HoldRamp HoldValue HoldMain HoldThms LifeSpec
  SincSpec SincFacts SincCalc SincApi SincHist SincStream SincMain GainStream GainThms AccSpec AccThms LocSpec.
Import ListNotations.
Local Open Scope Z_scope.

(** ** Locality *)
Lemma near_frame r k u t i w : near_place r k u t -> (Rabs (IZR i - IZR u) <= w)%R -> (Rabs (IZR i - IZR k / B2R r) <= w + 1 + slack r k)%R.
Proof.
  intros [T N] H. fold (slack r k) in N. apply Rabs_le_inv in N. apply Rabs_le_inv in H. apply Rabs_le. lra.
Qed.
Lemma value_local inc coeffs x y pos r : table_fit (inc, coeffs) -> good_ratio r -> frac (snd pos) ->
  (forall i, (Rabs (IZR i - IZR (fst pos)) <= IZR (zlen coeffs) / (IZR inc * Rmin 1 (val r)) + 3)%R -> x i = y i) -> sinc_value inc coeffs x pos r = sinc_value inc coeffs y pos r.
Proof.
  intros Ht G Ft E. assert (Sp := span_reach inc coeffs r G Ht). destruct Ht as (T1 & T2 & T3).
  destruct (index_facts inc coeffs T1 r (snd pos) G Ft) as (_ & _ & B0 & B1 & _). assert (Hi : 1 <= inc) by apply T1. assert (Hl : 2 <= zlen coeffs) by (destruct T1 as (_ & H & _); lia).
  unfold sinc_value. set (I := fixed_point (table_step inc r)) in *. set (f := fixed_point (Bmult mode_NE (snd pos) (table_step inc r))) in *. cbv zeta.
  set (last := (zlen coeffs - 2) * 4096) in *. assert (I0 : 0 < I) by lia. assert (L0 : 0 <= last) by (unfold last; lia).
  assert (Dl := Z.div_mod last I ltac:(lia)). assert (Ml := Z.mod_pos_bound last I I0). set (q := last / I) in *. assert (Q0 : 0 <= q) by (unfold q; apply Z.div_pos; lia).
  assert (K : forall i, Z.abs (i - fst pos) <= q + 2 -> x i = y i).
  { intros i Hi'. apply E. rewrite <- minus_IZR, <- abs_IZR. apply IZR_le in Hi'. unfold span in Sp. rewrite plus_IZR in *. lra. }
  set (p := if f =? I then fst pos + 1 else fst pos). set (t := if f =? I then 0 else f).
  assert (HtI : 0 <= t < I /\ (p = fst pos \/ p = fst pos + 1 /\ t = 0)) by (unfold t, p; destruct (Z.eqb_spec f I); lia).
  assert (N1 : (last - t) / I <= q) by (apply Z.div_le_mono; lia).
  assert (N2 : (last + t) / I <= q + 1). { replace (q + 1) with ((last + 1 * I) / I) by (rewrite Z.div_add by lia; reflexivity). apply Z.div_le_mono; lia. }
  assert (N3 : t = 0 -> (last + t) / I = q) by (intros ->; now rewrite Z.add_0_r).
  do 3 f_equal; apply weigh_ext; intros i Hi'; (split; [reflexivity|apply K; lia]).
Qed.
Lemma sinc_local inc coeffs ch ch' X Y r st st' log out st1 o1 log' out' st1' o1' k c c' : table_fit (inc, coeffs) ->
  sinc_start (inc, coeffs) ch st -> sinc_start (inc, coeffs) ch' st' -> in_range r -> (forall i j, i < 0 -> X i j = fzero) -> (forall i j, i < 0 -> Y i j = fzero) ->
  sinc_streaming ch X (eq r) st 0 log out st1 o1 -> sinc_streaming ch' Y (eq r) st' 0 log' out' st1' o1' ->
  0 <= k < total_gen log -> k < total_gen log' -> 0 <= c < ch -> 0 <= c' < ch' ->
  alike_near X Y c c' (IZR k / B2R r) (IZR (zlen coeffs) / (IZR inc * Rmin 1 (B2R r)) + 4 + slack r k) -> sample ch out k c = sample ch' out' k c'.
Proof.
  intros Ht S S' G Zx Zy Run Run' Hk Hk' Hc Hc' E.
  destruct (sinc_convolution inc coeffs ch X r st log out st1 o1 Ht S Zx G Run) as [_ F]. destruct (sinc_convolution inc coeffs ch' Y r st' log' out' st1' o1' Ht S' Zy G Run') as [_ F'].
  rewrite F, F' by lia. f_equal. destruct (place r k G ltac:(lia)) as [Fp N]. apply value_local; auto.
  intros i Hi. apply E. eapply Rle_trans; [exact (near_frame r k _ _ i _ N Hi)|]. lra.
Qed.
Lemma hold_local kd ch ch' X Y r st st' log out st1 o1 log' out' st1' o1' k c c' :
  at_start kd ch st -> channels_fit ch -> at_start kd ch' st' -> channels_fit ch' -> in_range r ->
  streaming ch X (eq r) (lin_legal kd ch X) st 0 log out st1 o1 -> streaming ch' Y (eq r) (lin_legal kd ch' Y) st' 0 log' out' st1' o1' ->
  0 <= k < total_gen log -> k < total_gen log' -> 0 <= c < ch -> 0 <= c' < ch' ->
  alike_near X Y c c' (IZR k / B2R r) (2 + slack r k) -> sample ch out k c = sample ch' out' k c'.
Proof.
  intros A F A' F' G S S' Hk Hk' Hc Hc' E.
  destruct (HoldMain.const_run kd ch X _ r st log out st1 o1 A F G (fun _ _ _ H => H) S) as (_ & _ & _ & _ & _ & _ & _ & Fr).
  destruct (HoldMain.const_run kd ch' Y _ r st' log' out' st1' o1' A' F' G (fun _ _ _ H => H) S') as (_ & _ & _ & _ & _ & _ & _ & Fr').
  rewrite Fr, Fr' by lia. f_equal. destruct (place r k G ltac:(lia)) as [Fp N]. set (p := pos_at (0, dzero) (fun _ => r) (Z.to_nat k)) in *.
  assert (U0 : 0 <= fst p) by (apply (pos_at_mono (0, dzero) (fun _ => r) 0 (Z.to_nat k) frac_zero ltac:(lia)); auto).
  assert (K : forall i, Z.abs (i - fst p) <= 1 -> X i c = Y i c').
  { intros i Hi. apply E. eapply Rle_trans; [apply (near_frame r k _ _ i 1 N)|lra]. rewrite <- minus_IZR, <- abs_IZR. now apply IZR_le. }
  destruct kd; cbn [value]; unfold zoh_value, lin_value, from0; [apply K; lia|]. rewrite !K by lia. reflexivity.
Qed.

(** ** Time invariance *)
Section Dyadic.
  Variables (r : f64) (a e : Z).
  Hypothesis G : good_ratio r.
  Hypothesis Hd : dyadic r a e.
  Let P := 2 ^ e.
  Lemma pow_pos : 0 < P <= 2 ^ 40.
  Proof. destruct Hd as [H _]. unfold P. split; [apply Z.pow_pos_nonneg; lia|apply Z.pow_le_mono_r; lia]. Qed.
  Lemma a_range : 0 < a <= 256 * P.
  Proof.
    destruct Hd as [H E]. fold P in E. destruct G as [_ [L U]]. assert (Pp := pow_pos). assert (Q : (0 < IZR P)%R) by (apply IZR_lt; lia).
    assert (A : (IZR a = / val r * IZR P)%R) by (rewrite E; field; lra).
    assert (R : (/ 256 <= / val r <= 256)%R) by (split; [apply Rinv_le; lra|rewrite <- (Rinv_inv 256); apply Rinv_le; lra]).
    split; [apply lt_IZR|apply le_IZR; rewrite mult_IZR]; rewrite A; nra.
  Qed.
  Lemma grid n : Z.abs n <= 300 * P -> fmt64 (IZR n / IZR P).
  Proof.
    intros H. assert (Pp := pow_pos). unfold P. change (2 ^ e) with (Zpower radix2 e); rewrite (IZR_Zpower radix2 e) by apply Hd. unfold Rdiv. rewrite <- bpow_opp. apply fmt64_dyadic; [nia|destruct Hd; lia].
  Qed.
  (** The fraction after n steps of 1 / 2^e. *)
  Lemma exact_pos k : let p := pos_at (0, dzero) (fun _ => r) k in frac (snd p) /\ fst p = Z.of_nat k * a / P /\ (val (snd p) = IZR (Z.of_nat k * a mod P) / IZR P)%R.
  Proof.
    assert (Pp := pow_pos). assert (Pr : (0 < IZR P)%R) by (apply IZR_lt; lia). assert (Ap := a_range).
    induction k as [|k IH].
    - cbn [pos_at fst snd]. split; [apply frac_zero|]. cbn [Z.of_nat Z.mul]. rewrite Z.div_0_l, Z.mod_0_l by lia. split; [reflexivity|]. change (val dzero) with 0%R. unfold Rdiv. now rewrite Rmult_0_l.
    - cbn [pos_at]. set (p := pos_at (0, dzero) (fun _ => r) k) in *. destruct IH as (Fp & U & V). assert (Fs := Fp).
      assert (Fm : frac (snd (move p r))). { change (move p r) with (pos_at (0, dzero) (fun _ => r) (S k)). apply pos_at_frac; auto. apply frac_zero. }
      split; [exact Fm|].
      destruct (step_val (snd p) r Fp G) as (Vx & (Fx & Sx & X0 & X1) & _).
      set (x := dadd (snd p) (ddiv done_ r)) in *. assert (Px : pos_le 2147483647 x) by (repeat split; auto; lra).
      destruct (split_ok _ Px) as (_ & _ & _ & T & Vf & _).
      set (n := Z.of_nat k * a) in *. replace (Z.of_nat (S k) * a) with (n + a) by (unfold n; lia).
      assert (D := Z.div_mod n P ltac:(lia)). assert (M := Z.mod_pos_bound n P ltac:(lia)).
      set (f := n mod P) in *. set (w := n / P) in *.
      assert (Ei : rnd64 (/ val r) = (IZR a / IZR P)%R) by (destruct Hd as [_ E]; fold P in E; rewrite E; apply rnd64_id, grid; lia).
      assert (Ex : val x = (IZR (f + a) / IZR P)%R).
      { rewrite Vx, Ei, V. replace (IZR f / IZR P + IZR a / IZR P)%R with (IZR (f + a) / IZR P)%R by (rewrite plus_IZR; field; lra). apply rnd64_id, grid. lia. }
      assert (D2 := Z.div_mod (f + a) P ltac:(lia)). assert (M2 := Z.mod_pos_bound (f + a) P ltac:(lia)). set (g := (f + a) mod P) in *. set (v := (f + a) / P) in *.
      assert (Es : (IZR (f + a) / IZR P = IZR v + IZR g / IZR P)%R) by (rewrite D2, plus_IZR, mult_IZR; field; lra).
      assert (Fl : Zfloor (val x) = v).
      { rewrite Ex, Es. apply Zfloor_imp. rewrite plus_IZR. assert (0 <= IZR g / IZR P < 1)%R; [|lra]. destruct M2 as [M0 M1]. apply IZR_le in M0. apply IZR_lt in M1.
        split; [apply Rmult_le_pos; [exact M0|left; apply Rinv_0_lt_compat, Pr]|]. apply (Rmult_lt_reg_r (IZR P)); [exact Pr|]. unfold Rdiv. rewrite Rmult_assoc, Rinv_l by lra. lra. }
      assert (Q : (n + a) / P = w + v /\ (n + a) mod P = g).
      { assert (E1 : n + a = P * (w + v) + g) by lia. split; [symmetry; apply (Z.div_unique_pos (n + a) P (w + v) g); lia|symmetry; apply (Z.mod_unique_pos (n + a) P (w + v) g); lia]. }
      destruct Q as [Q1 Q2]. rewrite Q1, Q2. unfold move. cbn [fst snd]. change (Bplus mode_NE (snd p) (Bdiv mode_NE (d_of_Z 1) r)) with x.
      split; [rewrite T, Fl, U; reflexivity|]. rewrite Vf, Fl, Ex, Es. ring.
  Qed.
  Lemma later D q k : 0 <= q -> (IZR D = IZR q / val r)%R -> 0 <= k ->
    pos_at (0, dzero) (fun _ => r) (Z.to_nat (k + q)) = shift D (pos_at (0, dzero) (fun _ => r) (Z.to_nat k)).
  Proof.
    intros Hq HD Hk. assert (Pp := pow_pos). assert (Pr : (0 < IZR P)%R) by (apply IZR_lt; lia).
    assert (E : q * a = D * P).
    { apply eq_IZR. rewrite !mult_IZR, HD. destruct Hd as [_ Ed]. fold P in Ed. unfold Rdiv. rewrite Ed. field. lra. }
    assert (Eq : pos_at (0, dzero) (fun _ => r) (Z.to_nat q) = shift D (0, dzero)).
    { destruct (exact_pos (Z.to_nat q)) as ((F1 & F2 & _) & U & V). rewrite Z2Nat.id in U, V by exact Hq. rewrite E, Z.div_mul in U by lia. rewrite E, Z.mod_mul in V by lia.
      destruct (pos_at (0, dzero) (fun _ => r) (Z.to_nat q)) as [u t]. unfold shift. cbn [fst snd] in *. rewrite Z.add_0_r. f_equal; [exact U|].
      apply B2R_Bsign_inj; auto. rewrite V. change (B2R dzero) with 0%R. unfold Rdiv. apply Rmult_0_l. }
    replace (Z.to_nat (k + q)) with (Z.to_nat q + Z.to_nat k)%nat by lia. rewrite pos_at_add, Eq. apply pos_at_shift.
  Qed.
End Dyadic.

Lemma sinc_delayed inc coeffs ch X Y r a e D q st st' log out st1 o1 log' out' st1' o1' k c : table_fit (inc, coeffs) ->
  sinc_start (inc, coeffs) ch st -> sinc_start (inc, coeffs) ch st' -> in_range r -> dyadic r a e -> delayed D X Y -> 0 <= q -> (IZR D = IZR q / B2R r)%R ->
  (forall i j, i < 0 -> X i j = fzero) -> (forall i j, i < 0 -> Y i j = fzero) ->
  sinc_streaming ch X (eq r) st 0 log out st1 o1 -> sinc_streaming ch Y (eq r) st' 0 log' out' st1' o1' ->
  0 <= k < total_gen log -> k + q < total_gen log' -> 0 <= c < ch -> sample ch out' (k + q) c = sample ch out k c.
Proof.
  intros Ht S S' G Hd Hy Hq HD Zx Zy Run Run' Hk Hk' Hc.
  destruct (sinc_convolution inc coeffs ch X r st log out st1 o1 Ht S Zx G Run) as [_ F]. destruct (sinc_convolution inc coeffs ch Y r st' log' out' st1' o1' Ht S' Zy G Run') as [_ F'].
  rewrite F, F' by lia. f_equal. rewrite (later r a e G Hd D q k Hq HD) by lia. destruct (pos_at (0, dzero) (fun _ => r) (Z.to_nat k)) as [u t]. unfold shift, sinc_value. cbn [fst snd]. cbv zeta.
  destruct (_ =? _); do 3 f_equal; apply weigh_ext; intros i _; (split; [reflexivity|rewrite <- Hy; f_equal; ring]).
Qed.
Lemma hold_delayed kd ch X Y r a e D q st st' log out st1 o1 log' out' st1' o1' k c :
  at_start kd ch st -> at_start kd ch st' -> channels_fit ch -> in_range r -> dyadic r a e -> delayed D X Y -> 0 <= q -> (IZR D = IZR q / B2R r)%R ->
  streaming ch X (eq r) (lin_legal kd ch X) st 0 log out st1 o1 -> streaming ch Y (eq r) (lin_legal kd ch Y) st' 0 log' out' st1' o1' ->
  0 <= k < total_gen log -> (B2R r <= IZR k)%R -> k + q < total_gen log' -> 0 <= c < ch -> sample ch out' (k + q) c = sample ch out k c.
Proof.
  intros A A' F G Hd Hy Hq HD S S' Hk Hr Hk' Hc.
  destruct (HoldMain.const_run kd ch X _ r st log out st1 o1 A F G (fun _ _ _ H => H) S) as (_ & _ & _ & _ & _ & _ & _ & Fr).
  destruct (HoldMain.const_run kd ch Y _ r st' log' out' st1' o1' A' F G (fun _ _ _ H => H) S') as (_ & _ & _ & _ & _ & _ & _ & Fr').
  rewrite Fr, Fr' by lia. f_equal. rewrite (later r a e G Hd D q k Hq HD) by lia.
  assert (D0 : 0 <= D). { apply le_IZR. rewrite HD. apply Rmult_le_pos; [apply (IZR_le 0); lia|]. left. apply Rinv_0_lt_compat. destruct G as [_ [L _]]. lra. }
  destruct (exact_pos r a e G Hd (Z.to_nat k)) as (_ & U & _). rewrite Z2Nat.id in U by lia.
  assert (U1 : 1 <= fst (pos_at (0, dzero) (fun _ => r) (Z.to_nat k))).
  { rewrite U. assert (Pp := pow_pos r a e Hd). apply Z.div_le_lower_bound; [lia|]. apply le_IZR. rewrite !mult_IZR. destruct Hd as [_ Ed].
    assert (Pr : (0 < IZR (2 ^ e))%R) by (apply IZR_lt; lia). replace (IZR a) with (/ B2R r * IZR (2 ^ e))%R by (rewrite Ed; field; lra).
    destruct G as [_ [L _]]. assert (1 <= IZR k * / B2R r)%R. { apply (Rmult_le_reg_r (B2R r)); [lra|]. rewrite Rmult_assoc, Rinv_l by lra. lra. } nra. }
  destruct (pos_at (0, dzero) (fun _ => r) (Z.to_nat k)) as [u t]. cbn [fst] in U1. clear U.
  assert (K : forall i, 0 <= i -> from0 Y (D + i) c = from0 X i c) by (intros i Hi; unfold from0; rewrite !Z.max_r by lia; rewrite Z.add_comm; apply Hy).
  destruct kd; cbn [value]; unfold zoh_value, lin_value, shift; cbn [fst snd]; [|f_equal]; try (apply K; lia); replace (D + u - 1) with (D + (u - 1)) by ring; apply K; lia.
Qed.
