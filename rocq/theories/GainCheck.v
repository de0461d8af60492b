(** A program that checks a grid of (step, offset) pairs, and what its answer means for all pairs (see GainGrid.v). *)
From Coq Require Import ZArith Reals List Bool Lia Lra Psatz.
From Flocq Require Import Core.
From Verif Require Import GainGrid.
Import ListNotations.
Local Open Scope Z_scope.

(** ** Lookup trees *)
Inductive tree (A : Type) := Leaf | Node (l : tree A) (v : A) (r : tree A).
Arguments Leaf {A}. Arguments Node {A} l v r.
Fixpoint find {A} (z : A) (t : tree A) (p : positive) : A :=
  match t with Leaf => z | Node l v r => match p with xH => v | xO q => find z l q | xI q => find z r q end end.
Fixpoint deal {A} (l : list A) : list A * list A :=
  match l with [] => ([], []) | x :: r => let d := deal r in (x :: snd d, fst d) end.
Fixpoint plant {A} (d : nat) (l : list A) : tree A :=
  match d, l with
  | S e, x :: r => let d := deal r in Node (plant e (fst d)) x (plant e (snd d))
  | _, _ => Leaf
  end.

Lemma deal_nth {A} (z : A) l : forall i, nth i (fst (deal l)) z = nth (2 * i) l z /\ nth i (snd (deal l)) z = nth (2 * i + 1) l z.
Proof.
  induction l as [|x r IH]; intros i; cbn [deal fst snd]; [destruct i; auto|]. split.
  - destruct i as [|i]; [reflexivity|]. cbn [nth]. rewrite (proj2 (IH i)). replace (2 * S i)%nat with (S (2 * i + 1)) by lia. reflexivity.
  - rewrite (proj1 (IH i)). replace (2 * i + 1)%nat with (S (2 * i)) by lia. reflexivity.
Qed.
Lemma deal_length {A} (l : list A) : (2 * length (fst (deal l)) <= length l + 1 /\ 2 * length (snd (deal l)) <= length l)%nat.
Proof. induction l as [|x r IH]; cbn [deal fst snd length]; lia. Qed.
Lemma plant_nth {A} (z : A) : forall d l p, (length l < 2 ^ d)%nat -> find z (plant d l) p = nth (Pos.to_nat p - 1) l z.
Proof.
  induction d as [|e IH]; intros l p L.
  - destruct l; [|cbn in L; lia]. cbn. destruct (Pos.to_nat p - 1)%nat; reflexivity.
  - destruct l as [|x r]; [cbn; destruct (Pos.to_nat p - 1)%nat; reflexivity|].
    cbn [length] in L. assert (P : (2 ^ S e = 2 * 2 ^ e)%nat) by reflexivity. destruct (deal_length r) as [D1 D2].
    cbn [plant find]. destruct p as [q|q|].
    + rewrite IH by lia. rewrite (proj2 (deal_nth z r _)). replace (Pos.to_nat (xI q) - 1)%nat with (S (2 * (Pos.to_nat q - 1) + 1)) by lia. reflexivity.
    + rewrite IH by lia. rewrite (proj1 (deal_nth z r _)). replace (Pos.to_nat (xO q) - 1)%nat with (S (2 * (Pos.to_nat q - 1))) by lia. reflexivity.
    + reflexivity.
Qed.

(** ** The table as a function, and its trees *)
Definition entry (l : list Z) (k : Z) : Z := nth (Z.to_nat (Z.abs k)) l 0.
Fixpoint pairs (l : list Z) : list (Z * Z) :=
  match l with [] => [] | x :: r => (4096 * x, hd 0 r - x) :: pairs r end.
Fixpoint bends (p : Z) (l : list Z) : list Z :=
  match l with [] => [Z.abs p] | x :: r => Z.abs (p + hd 0 r - 2 * x) :: bends x r end.
Fixpoint envelope (l : list Z) : list Z :=
  match l with [] => [] | x :: r => let e := envelope r in Z.max (Z.max 0 x) (hd 0 e) :: e end.
Definition bend_env (l : list Z) : list Z := envelope (bends (hd 0 (tl l)) l).

Lemma hd_nth {A} (z : A) l : hd z l = nth 0 l z.
Proof. destruct l; reflexivity. Qed.
Lemma tl_nth {A} (z : A) l i : nth i (tl l) z = nth (S i) l z.
Proof. destruct l; [destruct i|]; reflexivity. Qed.
Lemma pairs_nth l : forall k, nth k (pairs l) (0, 0) = (4096 * nth k l 0, nth (S k) l 0 - nth k l 0).
Proof.
  induction l as [|x r IH]; intros k; [destruct k; reflexivity|]. destruct k as [|k]; cbn [pairs nth]; [rewrite hd_nth; reflexivity|]. rewrite IH. reflexivity.
Qed.
Lemma pairs_length l : length (pairs l) = length l.
Proof. induction l as [|x r IH]; cbn; congruence. Qed.
Lemma bends_nth l : forall p k, (k <= length l)%nat ->
  nth k (bends p l) 0 = Z.abs ((match k with O => p | S j => nth j l 0 end) + nth (S k) l 0 - 2 * nth k l 0).
Proof.
  induction l as [|x r IH]; intros p k L; cbn [length] in L.
  - assert (k = O) as -> by lia. cbn. f_equal. ring.
  - destruct k as [|k]; cbn [bends nth]; [rewrite hd_nth; reflexivity|]. rewrite IH by lia. destruct k; reflexivity.
Qed.
Lemma bends_length l : forall p, length (bends p l) = S (length l).
Proof. induction l as [|x r IH]; intros p; cbn; [reflexivity|]. rewrite IH. reflexivity. Qed.
Lemma envelope_nth l : forall j k, (j <= k)%nat -> nth k l 0 <= nth j (envelope l) 0 /\ 0 <= nth j (envelope l) 0.
Proof.
  induction l as [|x r IH]; intros j k L; cbn [envelope]; [destruct k, j; cbn; lia|].
  destruct j as [|j]; cbn [nth]; [|destruct k as [|k]; [lia|]; apply IH; lia].
  split; [|lia]. destruct k as [|k]; [lia|]. destruct (IH O k ltac:(lia)) as [A _]. rewrite hd_nth. cbn [nth]. lia.
Qed.
Lemma envelope_length l : length (envelope l) = length l.
Proof. induction l as [|x r IH]; cbn; congruence. Qed.

Definition env_at (l : list Z) (j : Z) : Z := nth (Z.to_nat j) (bend_env l) 0.
Lemma entry_even l k : entry l (- k) = entry l k.
Proof. unfold entry. now rewrite Z.abs_opp. Qed.
Lemma entry_zero l k : Z.of_nat (length l) <= k -> entry l k = 0.
Proof. intros H. unfold entry. apply nth_overflow. lia. Qed.
Lemma env_bends l j k : 0 <= j <= Z.abs k -> Z.abs (bend (entry l) k) <= env_at l j.
Proof.
  assert (P : forall m, 0 <= j <= m -> Z.abs (bend (entry l) m) <= env_at l j).
  { intros m H. unfold env_at, bend_env. destruct (envelope_nth (bends (hd 0 (tl l)) l) (Z.to_nat j) (Z.to_nat m) ltac:(lia)) as [A A0].
    unfold bend. destruct (Z_lt_ge_dec (Z.of_nat (length l)) m) as [Q|Q].
    - rewrite !entry_zero by lia. cbn. exact A0.
    - eapply Z.le_trans; [|exact A]. rewrite bends_nth by lia. unfold entry. apply Z.eq_le_incl. f_equal.
      rewrite (Z.abs_eq (m + 1)), (Z.abs_eq m) by lia. replace (Z.to_nat (m + 1)) with (S (Z.to_nat m)) by lia.
      destruct (Z.to_nat m) as [|i] eqn:E.
      + assert (m = 0) as -> by lia. change (Z.to_nat (Z.abs (0 - 1))) with 1%nat. rewrite hd_nth, tl_nth. ring.
      + rewrite Z.abs_eq by lia. replace (Z.to_nat (m - 1)) with i by lia. ring. }
  intros H. destruct (Z.abs_spec k) as [[_ E]|[_ E]]; rewrite E in H; [now apply P|].
  specialize (P (- k) H). unfold bend in *. replace (- k + 1) with (- (k - 1)) in P by ring. replace (- k - 1) with (- (k + 1)) in P by ring.
  rewrite !entry_even in P. rewrite (Z.add_comm (entry l (k + 1))). exact P.
Qed.

(** ** The program *)
Section Program.
  Variables (t : tree (Z * Z)) (bt : tree Z).
  Definition look (f : Z) : Z :=
    match f with
    | Zpos p | Zneg p => let '(a, d) := find (0, 0) t (Z.to_pos (Z.succ (Z.shiftr (Zpos p) 12))) in a + Z.land (Zpos p) 4095 * d
    | Z0 => fst (find (0, 0) t 1)
    end.
  Fixpoint wing (n : nat) (inc f acc : Z) : Z := match n with O => acc | S k => wing k inc (f + inc) (acc + look f) end.
  Definition both_wings (n : nat) (inc f : Z) : Z := wing n (- inc) (f - inc) (wing n inc f 0).
  (** The offsets x, x + tau, ... up to the first above top / 2. *)
  Fixpoint line (fuel n : nat) (inc tau goal tol top x : Z) : bool :=
    match fuel with
    | O => false
    | S f => (Z.abs (both_wings n inc x * inc - goal) <=? tol) && (if top <? 2 * x then true else line f n inc tau goal tol top (x + tau))
    end.
  Fixpoint gaps (n : nat) (inc tau delta base x d acc : Z) : Z :=
    match n with
    | O => acc
    | S k =>
        let j := if x <? 0 then 0 else Z.shiftr x 12 in
        gaps k inc tau delta base (x + inc) (d + delta) (acc + find 0 bt (Z.to_pos (Z.succ j)) * (d * d + base))
    end.
  Definition steps (len tau inc : Z) : nat := Z.to_nat ((4096 * len + tau) / inc + 3).
  Definition next (hs inc top : Z) : Z := Z.min (inc + inc / hs) top.
  Fixpoint lines (fuel : nat) (len tau goal tol gtol hs top inc : Z) : bool :=
    match fuel with
    | O => false
    | S f =>
        let n := steps len tau inc in
        let nx := next hs inc top in
        line 4000 n inc tau goal tol nx 0 &&
        (if inc <? top then
           (inc <? nx) && (64 * (nx - inc) <=? inc) && (2 * nx * gaps n inc tau (nx - inc) (tau * tau + 33554432) (- tau) (nx - inc) 0 <=? 32768 * gtol) &&
           lines f len tau goal tol gtol hs top nx
         else true)
    end.
End Program.

(** ** Its meaning *)
Lemma zsum_first g n : zsum g (S n) = g 0 + zsum (fun i => g (i + 1)) n.
Proof.
  induction n as [|n IH]; [cbn; ring|]. cbn [zsum] in *. rewrite IH. replace (Z.of_nat (S n)) with (Z.of_nat n + 1) by lia. ring.
Qed.

Section Meaning.
  Variables (d bd : nat) (l : list Z).
  Hypothesis Hd : (length l < 2 ^ d)%nat.
  Hypothesis Hbd : (S (length l) < 2 ^ bd)%nat.
  Let t := plant d (pairs l).
  Let bt := plant bd (bend_env l).
  Notation a := (entry l).
  Let len := Z.of_nat (length l).

  Lemma find_entry k : 0 <= k -> find (0, 0) t (Z.to_pos (Z.succ k)) = (4096 * a k, a (k + 1) - a k).
  Proof.
    intros H. unfold t. rewrite plant_nth by (rewrite pairs_length; exact Hd). rewrite pairs_nth.
    replace (Pos.to_nat (Z.to_pos (Z.succ k)) - 1)%nat with (Z.to_nat k) by lia. unfold entry. rewrite !Z.abs_eq by lia.
    now replace (Z.to_nat (k + 1)) with (S (Z.to_nat k)) by lia.
  Qed.
  Lemma look_pos p : (let '(x, y) := find (0, 0) t (Z.to_pos (Z.succ (Z.shiftr (Zpos p) 12))) in x + Z.land (Zpos p) 4095 * y) = interp a (Zpos p).
  Proof.
    rewrite Z.shiftr_div_pow2 by lia. change (2 ^ 12) with 4096. rewrite find_entry by (apply Z.div_pos; lia).
    change 4095 with (Z.ones 12). rewrite Z.land_ones by lia. change (2 ^ 12) with 4096. unfold interp. ring.
  Qed.
  Lemma look_ok f : look t f = interp a f.
  Proof.
    destruct f as [|p|p]; unfold look.
    - assert (E := find_entry 0 ltac:(lia)). change (Z.to_pos (Z.succ 0)) with 1%positive in E. rewrite E. cbn [fst]. change 0 with (4096 * 0 + 0) at 2. rewrite interp_at by lia. ring.
    - apply look_pos.
    - rewrite look_pos. rewrite <- even_at by apply entry_even. reflexivity.
  Qed.
  Lemma wing_ok inc : forall n f acc, wing t n inc f acc = acc + zsum (fun i => interp a (f + i * inc)) n.
  Proof.
    induction n as [|n IH]; intros f acc; cbn [wing]; [cbn; ring|]. rewrite IH, zsum_first, look_ok. replace (f + 0 * inc) with f by ring.
    rewrite (zsum_ext (fun i => interp a (f + (i + 1) * inc)) (fun i => interp a (f + inc + i * inc))); [ring|]. intros i _. f_equal. ring.
  Qed.
  Lemma both_ok n inc f : both_wings t n inc f = total a n inc f.
  Proof.
    unfold both_wings, total. rewrite !wing_ok. rewrite Z.add_0_l. f_equal. apply zsum_ext. intros i _. f_equal. ring.
  Qed.

  Definition near (goal tol inc s : Z) : Prop := Z.abs (s * inc - goal) <= tol.
  Lemma line_ok n inc tau goal tol top : 0 < tau -> forall fuel x, line t fuel n inc tau goal tol top x = true ->
    forall m, 0 <= m -> (0 < m -> 2 * (x + (m - 1) * tau) <= top) -> near goal tol inc (total a n inc (x + m * tau)).
  Proof.
    intros Ht. induction fuel as [|fuel IH]; intros x E m Hm Hx; cbn [line] in E; [discriminate|].
    apply andb_prop in E as [E1 E2]. apply Z.leb_le in E1. rewrite both_ok in E1.
    destruct (Z.eq_dec m 0) as [->|N]; [replace (x + 0 * tau) with x by ring; exact E1|].
    destruct (Z.ltb_spec top (2 * x)) as [Q|Q]; [specialize (Hx ltac:(lia)); assert (0 <= (m - 1) * tau) by nia; lia|].
    specialize (IH (x + tau) E2 (m - 1) ltac:(lia)). replace (x + tau + (m - 1) * tau) with (x + m * tau) in IH by ring. apply IH.
    intros Hm1. specialize (Hx ltac:(lia)). replace (x + tau + (m - 1 - 1) * tau) with (x + (m - 1) * tau) by ring. exact Hx.
  Qed.

  Notation D := (env_at l).
  Lemma find_env j : 0 <= j -> find 0 bt (Z.to_pos (Z.succ j)) = D j.
  Proof.
    intros H. unfold bt. rewrite plant_nth by (unfold bend_env; rewrite envelope_length, bends_length; exact Hbd).
    replace (Pos.to_nat (Z.to_pos (Z.succ j)) - 1)%nat with (Z.to_nat j) by lia. reflexivity.
  Qed.
  Lemma gaps_ok inc tau delta base : forall n x d0 acc, gaps bt n inc tau delta base x d0 acc =
    acc + zsum (fun i => D (Z.max 0 (x + i * inc) / 4096) * ((d0 + i * delta) * (d0 + i * delta) + base)) n.
  Proof.
    induction n as [|n IH]; intros x d0 acc; cbn [gaps]; [cbn; ring|]. rewrite IH, zsum_first.
    assert (E : (if x <? 0 then 0 else Z.shiftr x 12) = Z.max 0 (x + 0 * inc) / 4096).
    { replace (x + 0 * inc) with x by ring. destruct (Z.ltb_spec x 0) as [Q|Q]; [rewrite Z.max_l by lia; reflexivity|].
      rewrite Z.max_r by lia. now rewrite Z.shiftr_div_pow2 by lia. }
    rewrite E, find_env by (apply Z.div_pos; lia).
    rewrite (zsum_ext (fun i => D (Z.max 0 (x + (i + 1) * inc) / 4096) * ((d0 + (i + 1) * delta) * (d0 + (i + 1) * delta) + base))
      (fun i => D (Z.max 0 (x + inc + i * inc) / 4096) * ((d0 + delta + i * delta) * (d0 + delta + i * delta) + base))).
    - ring.
    - intros i _. replace (x + inc + i * inc) with (x + (i + 1) * inc) by ring. replace (d0 + delta + i * delta) with (d0 + (i + 1) * delta) by ring. reflexivity.
  Qed.
  Lemma gaps_sum inc0 inc1 tau n : 2 * gaps bt n inc0 tau (inc1 - inc0) (tau * tau + 33554432) (- tau) (inc1 - inc0) 0 =
    offset_gap D inc0 tau n + step_gap D inc0 inc1 tau n.
  Proof.
    rewrite gaps_ok, Z.add_0_l. unfold offset_gap, step_gap, low.
    induction n as [|n IH]; [reflexivity|]. cbn [zsum]. rewrite Z.mul_add_distr_l, IH.
    replace (- tau + Z.of_nat n * inc0) with (Z.of_nat n * inc0 - tau) by ring. ring.
  Qed.
End Meaning.

Lemma steps_enough len tau inc : 0 <= len -> 0 <= tau -> 0 < inc -> 4096 * len + tau + 2 * inc <= Z.of_nat (steps len tau inc) * inc.
Proof.
  intros Ln T I. unfold steps. assert (Q : 0 <= (4096 * len + tau) / inc) by (apply Z.div_pos; lia). rewrite Z2Nat.id by lia.
  assert (M := Z.div_mod (4096 * len + tau) inc ltac:(lia)). assert (B := Z.mod_pos_bound (4096 * len + tau) inc ltac:(lia)). nia.
Qed.
Lemma steps_mono len tau i0 i1 : 0 <= len -> 0 <= tau -> 0 < i0 <= i1 -> (steps len tau i1 <= steps len tau i0)%nat.
Proof.
  intros Ln T I. unfold steps. apply Z2Nat.inj_le; try (assert (0 <= (4096 * len + tau) / i1) by (apply Z.div_pos; lia); assert (0 <= (4096 * len + tau) / i0) by (apply Z.div_pos; lia); lia).
  assert ((4096 * len + tau) / i1 <= (4096 * len + tau) / i0); [|lia]. apply Z.div_le_compat_l; lia.
Qed.

(** ** Mixing the corners of a cell *)
Local Open Scope R_scope.
Lemma mix_steps i0 i1 i A0 A1 S T e g : 0 < i0 <= i -> i <= i1 -> i0 < i1 -> 0 <= T -> 64 * (i1 - i0) <= i0 ->
  Rabs (A0 * i0 - T) <= e -> Rabs (A1 * i1 - T) <= e -> Rabs ((i1 - i) * A0 + (i - i0) * A1 - (i1 - i0) * S) <= (i1 - i0) * g ->
  Rabs (S * i - T) <= e + (T + e) / 16384 + i1 * g.
Proof.
  intros Hi Hi1 Hl HT H64 E0 E1 Eg.
  set (e0 := A0 * i0 - T) in *. set (e1 := A1 * i1 - T) in *.
  assert (K0 : A0 = (T + e0) / i0) by (unfold e0; field; lra). assert (K1 : A1 = (T + e1) / i1) by (unfold e1; field; lra).
  set (s := ((i1 - i) * A0 + (i - i0) * A1) / (i1 - i0)).
  assert (Gs : Rabs (s - S) <= g).
  { assert (Es : (i1 - i) * A0 + (i - i0) * A1 - (i1 - i0) * S = (i1 - i0) * (s - S)) by (unfold s; field; lra).
    rewrite Es, Rabs_mult, (Rabs_pos_eq (i1 - i0)) in Eg by lra. now apply Rmult_le_reg_l in Eg; [|lra]. }
  set (rho := (i - i0) * (i1 - i) / (i0 * i1)).
  set (w1 := i * (i - i0) / (i1 * (i1 - i0))). set (w0 := i * (i1 - i) / (i0 * (i1 - i0))).
  assert (Ew : w0 + w1 = 1 + rho) by (unfold w0, w1, rho; field; lra).
  assert (Ps : 0 < i0 * i1) by nra.
  assert (W0 : 0 <= w0). { unfold w0. apply Rmult_le_pos; [nra|]. apply Rlt_le, Rinv_0_lt_compat. nra. }
  assert (W1 : 0 <= w1). { unfold w1. apply Rmult_le_pos; [nra|]. apply Rlt_le, Rinv_0_lt_compat. nra. }
  assert (Hr : 0 <= rho <= / 16384).
  { unfold rho. split; [apply Rmult_le_pos; [nra|]; apply Rlt_le, Rinv_0_lt_compat; lra|].
    apply (Rmult_le_reg_r (i0 * i1)); [lra|]. unfold Rdiv. rewrite Rmult_assoc, Rinv_l, Rmult_1_r by lra.
    assert (Q : 4 * ((i - i0) * (i1 - i)) <= (i1 - i0) * (i1 - i0)).
    { assert (0 <= ((i - i0) - (i1 - i)) * ((i - i0) - (i1 - i))) by apply Rle_0_sqr. nra. }
    assert (Q2 : 4096 * ((i1 - i0) * (i1 - i0)) <= i0 * i1) by nra. lra. }
  assert (Ei : s * i - T = w0 * e0 + w1 * e1 + rho * T).
  { unfold s. rewrite K0, K1. replace (rho * T) with ((w0 + w1 - 1) * T) by (rewrite Ew; ring). unfold w0, w1. field. lra. }
  apply Rabs_le_inv in E0. apply Rabs_le_inv in E1. apply Rabs_le_inv in Gs.
  assert (Hs : Rabs (s * i - T) <= e + (T + e) / 16384).
  { rewrite Ei. assert (Pe : 0 <= e) by lra. apply Rabs_le.
    assert (w0 * e0 + w1 * e1 <= (w0 + w1) * e) by nra. assert (- ((w0 + w1) * e) <= w0 * e0 + w1 * e1) by nra. rewrite Ew in *. nra. }
  apply Rabs_le_inv in Hs. apply Rabs_le. assert (Pg : 0 <= g) by lra.
  assert (- (i1 * g) <= (S - s) * i <= i1 * g) by nra. lra.
Qed.
Lemma mix_offsets t0 tau tt B0 B1 S i T E g : 0 < tau -> t0 <= tt <= t0 + tau -> 0 < i ->
  Rabs (B0 * i - T) <= E -> Rabs (B1 * i - T) <= E -> Rabs ((t0 + tau - tt) * B0 + (tt - t0) * B1 - tau * S) <= tau * g ->
  Rabs (S * i - T) <= E + i * g.
Proof.
  intros Ht Htt Hi E0 E1 Eg. apply Rabs_le_inv in E0. apply Rabs_le_inv in E1.
  set (s := ((t0 + tau - tt) * B0 + (tt - t0) * B1) / tau).
  assert (Gs : Rabs (s - S) <= g).
  { assert (Es : (t0 + tau - tt) * B0 + (tt - t0) * B1 - tau * S = tau * (s - S)) by (unfold s; field; lra).
    rewrite Es, Rabs_mult, (Rabs_pos_eq tau) in Eg by lra. now apply Rmult_le_reg_l in Eg; [|lra]. }
  set (w := (tt - t0) / tau). assert (W : 0 <= w <= 1).
  { unfold w. split; [apply Rmult_le_pos; [lra|]; apply Rlt_le, Rinv_0_lt_compat; lra|]. apply (Rmult_le_reg_r tau); [lra|]. unfold Rdiv. rewrite Rmult_assoc, Rinv_l by lra. lra. }
  assert (Es : s * i - T = (1 - w) * (B0 * i - T) + w * (B1 * i - T)) by (unfold s, w; field; lra).
  apply Rabs_le_inv in Gs. apply Rabs_le. assert (Q : - E <= s * i - T <= E) by (rewrite Es; nra). nra.
Qed.

Section Cells.
  Variables (d bd : nat) (l : list Z).
  Hypothesis Hd : (length l < 2 ^ d)%nat.
  Hypothesis Hbd : (Datatypes.S (length l) < 2 ^ bd)%nat.
  Let t := plant d (pairs l).
  Let bt := plant bd (bend_env l).
  Notation a := (entry l).
  Notation D := (env_at l).
  Let len := Z.of_nat (length l).
  Notation steps_of tau inc := (steps len tau inc).
  Local Open Scope Z_scope.

  Definition on_grid (goal tol tau top inc : Z) : Prop :=
    forall m, 0 <= m -> (0 < m -> 2 * ((m - 1) * tau) <= top) -> near goal tol inc (total a (steps_of tau inc) inc (m * tau)).

  Lemma near_R goal tol inc s : near goal tol inc s -> (Rabs (IZR s * IZR inc - IZR goal) <= IZR tol)%R.
  Proof. unfold near. intros H. rewrite <- mult_IZR, <- minus_IZR, <- abs_IZR. now apply IZR_le. Qed.
  Lemma gap_R x w g : 32768 * Z.abs x <= w * g -> (Rabs (IZR x) <= IZR w * (IZR g / 32768))%R.
  Proof. intros H. apply IZR_le in H. rewrite !mult_IZR, abs_IZR in H. unfold Rdiv. lra. Qed.

  Lemma cell goal tol gtol tau i0 i1 : 0 < tau -> 0 < i0 < i1 -> 64 * (i1 - i0) <= i0 -> 0 <= goal ->
    on_grid goal tol tau i1 i0 -> on_grid goal tol tau i1 i1 ->
    i1 * (offset_gap D i0 tau (steps_of tau i0) + step_gap D i0 i1 tau (steps_of tau i0)) <= 32768 * gtol ->
    forall n inc x, (steps_of tau i0 <= n)%nat -> i0 <= inc <= i1 -> 0 <= x <= inc ->
    (Rabs (IZR (total a n inc x) * IZR inc - IZR goal) <= IZR tol + (IZR goal + IZR tol) / 16384 + IZR gtol)%R.
  Proof.
    intros Ht Hi H64 Hg L0 L1 Gp n inc x Hn Hinc Hx. set (n0 := steps_of tau i0) in *.
    assert (En : 4096 * len + tau + 2 * i0 <= Z.of_nat n0 * i0) by (apply steps_enough; lia).
    assert (More : total a n inc x = total a n0 inc x).
    { apply (total_more a len (entry_even l) (entry_zero l)); try lia. nia. }
    rewrite More.
    assert (Half : forall x, 0 <= x -> 2 * x <= inc -> (Rabs (IZR (total a n0 inc x) * IZR inc - IZR goal) <= IZR tol + (IZR goal + IZR tol) / 16384 + IZR gtol)%R).
    2: { destruct (Z_le_gt_dec (2 * x) inc) as [Q|Q]; [apply Half; lia|]. rewrite <- (total_mirror a (entry_even l)). apply Half; lia. }
    clear x Hx More. intros x Hx Hx2.
    set (m := x / tau). assert (Dm := Z.div_mod x tau ltac:(lia)). assert (Bm := Z.mod_pos_bound x tau ltac:(lia)). fold m in Dm.
    assert (Pm : 0 <= m) by (apply Z.div_pos; lia).
    set (t0 := m * tau). assert (Ht0 : 0 <= t0 <= x) by (unfold t0; nia). assert (Ht1 : x <= t0 + tau) by (unfold t0; nia).
    assert (E1 : t0 + tau = (m + 1) * tau) by (unfold t0; ring).
    assert (C00 := L0 m Pm ltac:(intros; unfold t0 in *; nia)). fold n0 t0 in C00.
    assert (C01 := L0 (m + 1) ltac:(lia) ltac:(intros; unfold t0 in *; nia)). fold n0 in C01. rewrite <- E1 in C01.
    assert (C10 := L1 m Pm ltac:(intros; unfold t0 in *; nia)). fold t0 in C10.
    assert (C11 := L1 (m + 1) ltac:(lia) ltac:(intros; unfold t0 in *; nia)). rewrite <- E1 in C11.
    assert (Sm : (steps_of tau i1 <= n0)%nat) by (apply steps_mono; lia).
    assert (En1 : 4096 * len + tau + 2 * i1 <= Z.of_nat (steps_of tau i1) * i1) by (apply steps_enough; lia).
    rewrite <- (total_more a len (entry_even l) (entry_zero l) _ n0) in C10 by lia.
    rewrite <- (total_more a len (entry_even l) (entry_zero l) _ n0) in C11 by lia.
    assert (HI : 0 < i0 <= i1 /\ i1 <= 2 * i0) by lia.
    assert (S0 := between_steps a D (env_bends l) i0 i1 tau HI Ht n0 inc t0 Hinc ltac:(lia) ltac:(lia)).
    assert (S1 := between_steps a D (env_bends l) i0 i1 tau HI Ht n0 inc (t0 + tau) Hinc ltac:(lia) ltac:(lia)).
    assert (S2 := between_offsets a D (env_bends l) i0 i1 tau HI Ht n0 inc t0 x Hinc ltac:(lia) Ht1 Hx2).
    apply gap_R in S0. apply gap_R in S1. apply gap_R in S2.
    apply near_R in C00. apply near_R in C01. apply near_R in C10. apply near_R in C11.
    repeat (rewrite minus_IZR in S0 || rewrite plus_IZR in S0 || rewrite mult_IZR in S0). repeat (rewrite minus_IZR in S1 || rewrite plus_IZR in S1 || rewrite mult_IZR in S1).
    repeat (rewrite minus_IZR in S2 || rewrite plus_IZR in S2 || rewrite mult_IZR in S2).
    set (gs := (IZR (step_gap D i0 i1 tau n0) / 32768)%R) in *. set (go := (IZR (offset_gap D i0 tau n0) / 32768)%R) in *.
    assert (R1 : (0 < IZR i0)%R) by (apply IZR_lt; lia). assert (R2 : (IZR i0 <= IZR inc)%R) by (apply IZR_le; lia).
    assert (R3 : (IZR inc <= IZR i1)%R) by (apply IZR_le; lia). assert (R4 : (IZR i0 < IZR i1)%R) by (apply IZR_lt; lia).
    assert (R5 : (64 * (IZR i1 - IZR i0) <= IZR i0)%R) by (rewrite <- minus_IZR, <- mult_IZR; apply IZR_le; lia).
    assert (R6 : (0 <= IZR goal)%R) by (apply IZR_le; lia).
    assert (M0 := mix_steps _ _ _ _ _ _ _ _ _ (conj R1 R2) R3 R4 R6 R5 C00 C10 S0).
    assert (M1 := mix_steps _ _ _ _ _ _ _ _ _ (conj R1 R2) R3 R4 R6 R5 C01 C11 S1).
    assert (R7 : (0 < IZR tau)%R) by (apply IZR_lt; lia). assert (R8 : (IZR t0 <= IZR x)%R) by (apply IZR_le; lia).
    assert (R9 : (IZR x <= IZR t0 + IZR tau)%R) by (rewrite <- plus_IZR; apply IZR_le; lia).
    assert (Ri : (0 < IZR inc)%R) by lra. assert (M2 := mix_offsets _ _ _ _ _ _ _ _ _ _ R7 (conj R8 R9) Ri M0 M1 S2).
    assert (Pg : (0 <= go)%R).
    { apply Rmult_le_pos; [|lra]. apply IZR_le. unfold offset_gap. clear -Ht. generalize n0. induction n1 as [|k IH]; cbn [zsum]; [lia|].
      assert (P := D_pos a D (env_bends l) (low i0 tau (Z.of_nat k)) (low_pos i0 tau _)). nia. }
    assert (Gt : (IZR i1 * go + IZR i1 * gs <= IZR gtol)%R).
    { apply IZR_le in Gp. rewrite !mult_IZR, plus_IZR in Gp. unfold go, gs. lra. }
    assert (IZR inc * go <= IZR i1 * go)%R by nra. lra.
  Qed.

  Lemma lines_ok tau goal tol gtol hs top : 0 < tau -> 0 <= goal -> 0 < hs -> forall fuel inc, 0 < inc <= top ->
    lines t bt fuel len tau goal tol gtol hs top inc = true ->
    on_grid goal tol tau inc inc /\
    (inc < top -> forall n x i, (steps_of tau inc <= n)%nat -> inc <= i <= top -> 0 <= x <= i ->
      (Rabs (IZR (total a n i x) * IZR i - IZR goal) <= IZR tol + (IZR goal + IZR tol) / 16384 + IZR gtol)%R).
  Proof.
    intros Ht Hg Hh. induction fuel as [|fuel IH]; intros inc Hi E; cbn [lines] in E; [discriminate|].
    apply andb_prop in E as [E1 E2].
    assert (G : forall top', top' <= next hs inc top -> on_grid goal tol tau top' inc).
    { intros top' Ht' m Hm Hm1. assert (L := line_ok d bd l Hd Hbd _ _ _ _ _ _ Ht _ _ E1 m Hm). rewrite !Z.add_0_l in L. apply L. intros Q. specialize (Hm1 Q). lia. }
    assert (Nx : inc <= next hs inc top) by (unfold next; assert (0 <= inc / hs) by (apply Z.div_pos; lia); lia).
    split; [apply G; exact Nx|]. intros Lt. destruct (Z.ltb_spec inc top) as [_|Q]; [|lia].
    apply andb_prop in E2 as [E2 E5]. apply andb_prop in E2 as [E2 E4]. apply andb_prop in E2 as [E2 E3].
    apply Z.ltb_lt in E2. apply Z.leb_le in E3, E4. set (nx := next hs inc top) in *.
    assert (Nt : nx <= top) by (unfold nx, next; lia).
    destruct (IH nx ltac:(lia) E5) as [G1 Rest].
    intros n x i Hn Hi1 Hx. destruct (Z_le_gt_dec i nx) as [Q|Q].
    - apply (cell goal tol gtol tau inc nx); auto; try lia; [apply G; lia|].
      rewrite <- (gaps_sum d bd l Hd Hbd). fold bt. lia.
    - apply Rest; try lia. assert ((steps_of tau nx <= steps_of tau inc)%nat) by (apply steps_mono; lia). lia.
  Qed.

  (** At a whole number of table entries per step the sum is linear between the table entries. *)
  Lemma unity goal tol k : 0 < k -> on_grid goal tol 4096 (4096 * k) (4096 * k) ->
    forall n x, (steps_of 4096 (4096 * k) <= n)%nat -> 0 <= x <= 4096 * k -> (Rabs (IZR (total a n (4096 * k) x) * IZR (4096 * k) - IZR goal) <= IZR tol)%R.
  Proof.
    intros Hk L n x Hn Hx. set (inc := 4096 * k) in *. set (n0 := steps_of 4096 inc) in *.
    assert (En : 4096 * len + 4096 + 2 * inc <= Z.of_nat n0 * inc) by (apply steps_enough; lia).
    rewrite (total_more a len (entry_even l) (entry_zero l) n0 n) by lia.
    assert (Half : forall x, 0 <= x -> 2 * x <= inc -> (Rabs (IZR (total a n0 inc x) * IZR inc - IZR goal) <= IZR tol)%R).
    2: { destruct (Z_le_gt_dec (2 * x) inc) as [Q|Q]; [apply Half; lia|]. rewrite <- (total_mirror a (entry_even l)). apply Half; lia. }
    clear x Hx. intros x Hx Hx2. destruct (cut x) as (m & r & Ex & Hr). assert (Pm : 0 <= m) by lia.
    assert (C0 := L m Pm ltac:(lia)). assert (C1 := L (m + 1) ltac:(lia) ltac:(lia)). fold n0 in C0, C1.
    assert (Lin : 4096 * total a n0 inc x = (4096 - r) * total a n0 inc (m * 4096) + r * total a n0 inc ((m + 1) * 4096)).
    { unfold total. rewrite !Z.mul_add_distr_l.
      assert (P : forall j, interp a (x + 4096 * j) * 4096 = (4096 - r) * interp a (m * 4096 + 4096 * j) + r * interp a ((m + 1) * 4096 + 4096 * j)).
      { intros j. rewrite Ex. replace (4096 * m + r + 4096 * j) with (4096 * (m + j) + r) by ring. replace (m * 4096 + 4096 * j) with (4096 * (m + j) + 0) by ring.
        replace ((m + 1) * 4096 + 4096 * j) with (4096 * (m + j) + 4096) by ring. rewrite !interp_at by lia. ring. }
      assert (Q : forall g g0 g1, (forall i, g i * 4096 = (4096 - r) * g0 i + r * g1 i) -> 4096 * zsum g n0 = (4096 - r) * zsum g0 n0 + r * zsum g1 n0).
      { intros g g0 g1 H. generalize n0. induction n1 as [|j IH]; cbn [zsum]; [ring|]. rewrite !Z.mul_add_distr_l, IH. specialize (H (Z.of_nat j)). lia. }
      rewrite (Q _ (fun i => interp a (m * 4096 + i * inc)) (fun i => interp a ((m + 1) * 4096 + i * inc))).
      2: { intros i. assert (H := P (i * k)). replace (4096 * (i * k)) with (i * inc) in H by (unfold inc; ring). exact H. }
      rewrite (Q _ (fun i => interp a (m * 4096 - (i + 1) * inc)) (fun i => interp a ((m + 1) * 4096 - (i + 1) * inc))).
      2: { intros i. assert (H := P (- ((i + 1) * k))). replace (4096 * - ((i + 1) * k)) with (- ((i + 1) * inc)) in H by (unfold inc; ring). exact H. }
      ring. }
    unfold near in C0, C1. rewrite <- mult_IZR, <- minus_IZR, <- abs_IZR. apply IZR_le. nia.
  Qed.
End Cells.
