(** What the table does to a tone, as an integer computation.

    Every fourth position between two frames is computed; the others are close to cubic interpolations of them.

    A row of the table is every 128th coefficient: the weights of the frames on one side of the output frame.  A check computes, for a
    frequency W / 16, the sums of a row's coefficients times cosines (or sines), and the derivatives of the sums by the frequency. *)
From Coq Require Import ZArith List Bool.
From Verif Require Import ToneTrig.
Import ListNotations.
Local Open Scope Z_scope.

Record mom := Mom { mc0 : Z; mc1 : Z; mc2 : Z; mc3 : Z; mc4 : Z; mc5 : Z; ms0 : Z; ms1 : Z; ms2 : Z; ms3 : Z; ms4 : Z; ms5 : Z }.
Definition mom0 : mom := Mom 0 0 0 0 0 0 0 0 0 0 0 0.
Definition madd (p q : mom) : mom :=
  Mom (mc0 p + mc0 q) (mc1 p + mc1 q) (mc2 p + mc2 q) (mc3 p + mc3 q) (mc4 p + mc4 q) (mc5 p + mc5 q)
      (ms0 p + ms0 q) (ms1 p + ms1 q) (ms2 p + ms2 q) (ms3 p + ms3 q) (ms4 p + ms4 q) (ms5 p + ms5 q).
(** One coefficient: a and b are its products with the cosine and the sine, Y its place in the table. *)
Definition tap (Y a b : Z) : mom :=
  let a1 := Y * a in let b1 := Y * b in let a2 := Y * a1 in let b2 := Y * b1 in let a3 := Y * a2 in let b3 := Y * b2 in
  let a4 := Y * a3 in let b4 := Y * b3 in let a5 := Y * a4 in let b5 := Y * b4 in
  Mom a b1 a2 b3 a4 b5 b a1 b2 a3 b4 a5.
Fixpoint row_mom (big z : Z * Z) (Y : Z) (ks : list Z) : mom :=
  match ks with [] => mom0 | k :: ks => madd (tap Y (k * fst z) (k * snd z)) (row_mom big (turn 30 z big) (Y + 128) ks) end.
Fixpoint rows_mom (st big z : Z * Z) (r : Z) (rows : list (list Z)) : list mom :=
  match rows with [] => [] | ks :: rows => row_mom big z r ks :: rows_mom st big (turn 30 z st) (r + 4) rows end.
(** How far the two rows on either side of the output frame are from the identity. *)
Definition gap (p q : mom) : Z :=
  2 ^ 55 * 120 * Z.abs (mc0 p + mc0 q - 2 ^ 60) + 2 ^ 44 * 120 * Z.abs (mc1 p + mc1 q) + 2 ^ 33 * 60 * Z.abs (mc2 p + mc2 q) +
  2 ^ 22 * 20 * Z.abs (mc3 p + mc3 q) + 2 ^ 11 * 5 * Z.abs (mc4 p + mc4 q) + Z.abs (mc5 p + mc5 q) +
  (2 ^ 55 * 120 * Z.abs (ms0 q - ms0 p) + 2 ^ 44 * 120 * Z.abs (ms1 q - ms1 p) + 2 ^ 33 * 60 * Z.abs (ms2 q - ms2 p) +
  2 ^ 22 * 20 * Z.abs (ms3 q - ms3 p) + 2 ^ 11 * 5 * Z.abs (ms4 q - ms4 p) + Z.abs (ms5 q - ms5 p)).
Definition gaps (l : list mom) : list Z := map (fun '(p, q) => gap p q) (combine l (rev l)).
Definition block (lim : Z) (rows : list (list Z)) (st big : Z * Z) : bool := forallb (fun g => g <=? lim) (gaps (rows_mom st big (2 ^ 30, 0) 0 rows)).
Fixpoint blocks (n : nat) (lim : Z) (rows : list (list Z)) (st2 big2 st big : Z * Z) : bool :=
  match n with O => true | S n => block lim rows (coarse 30 st) (coarse 30 big) && blocks n lim rows st2 big2 (turn 60 st st2) (turn 60 big big2) end.

(** The angle 1 / 512. *)
Definition base : Z * Z := (1152919305584290474, 2251798382029755).
Fixpoint squares (n : nat) (z : Z * Z) : Z * Z := match n with O => z | S n => squares n (turn 60 z z) end.

Section Table.
  Variable ints : list Z.
  Definition coef (q : Z) : Z := nth (Z.to_nat q) ints 0.
  Fixpoint pick (n : nat) (q : Z) : list Z := match n with O => [] | S n => coef q :: pick n (q + 128) end.
  Definition rows : list (list Z) := map (fun r => pick 20 (4 * Z.of_nat r)) (seq 0 33).
  Fixpoint row_size (ks : list Z) : Z := match ks with [] => 0 | k :: ks => Z.abs k + row_size ks end.
  Fixpoint row_six (Y : Z) (ks : list Z) : Z := match ks with [] => 0 | k :: ks => Z.abs k * Y ^ 6 + row_six (Y + 128) ks end.
  Fixpoint sizes (r : Z) (rows : list (list Z)) : list (Z * Z) := match rows with [] => [] | ks :: rows => (row_size ks, row_six r ks) :: sizes (r + 4) rows end.
  Definition size_check (size six : Z) : bool :=
    let l := sizes 0 rows in forallb (fun '((a, b), (c, d)) => (a + c <=? size) && (b + d <=? six)) (combine l (rev l)).

  (** Row r, r <= 128, against the rows b, b + 4, b + 8, b + 12 (Lagrange's polynomial, times 384). *)
  Definition lag0 (t : Z) : Z := - ((t - 4) * (t - 8) * (t - 12)).
  Definition lag1 (t : Z) : Z := 3 * (t * (t - 8) * (t - 12)).
  Definition lag2 (t : Z) : Z := - (3 * (t * (t - 4) * (t - 12))).
  Definition lag3 (t : Z) : Z := t * (t - 4) * (t - 8).
  Definition first_node (r : Z) : Z := 4 * Z.max 0 (Z.min 29 (r / 4 - 1)).
  Fixpoint defects (t : Z) (x x0 x1 x2 x3 : list Z) : Z :=
    match x, x0, x1, x2, x3 with
    | k :: x, k0 :: x0, k1 :: x1, k2 :: x2, k3 :: x3 => Z.abs (384 * k - (lag0 t * k0 + lag1 t * k1 + lag2 t * k2 + lag3 t * k3)) + defects t x x0 x1 x2 x3
    | _, _, _, _, _ => 0
    end.
  Definition fine_rows : list (list Z) := map (fun r => pick 20 (Z.of_nat r)) (seq 0 129).
  Definition fine_size_check (size : Z) : bool := let l := map row_size fine_rows in forallb (fun '(a, b) => a + b <=? size) (combine l (rev l)).
  Definition defect_check (lim : Z) : bool :=
    let rows := fine_rows in let row q := nth (Z.to_nat q) rows [] in
    forallb (fun r => let r := Z.of_nat r in let b := first_node r in
      defects (r - b) (row r) (row b) (row (b + 4)) (row (b + 8)) (row (b + 12)) +
      defects (r - b) (row (128 - r)) (row (128 - b)) (row (128 - (b + 4))) (row (128 - (b + 8))) (row (128 - (b + 12))) <=? lim) (seq 0 129).
End Table.
