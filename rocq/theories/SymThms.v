(** Symmetries of the converters: opposite inputs give opposite outputs (C46). *)
From Coq Require Import ZArith Reals List Bool Lia Lra.
From Flocq Require Import Core IEEE754.BinarySingleNaN.
From Verif Require Import Base Types Api ApiHist HoldSpec HoldCore HoldStream HoldRamp HoldMain HoldThms SincSpec SincApi SincHist SincStream SincPair NegFacts
  Callback Heap LifeSpec SincTables SincCases.
Import ListNotations.
Local Open Scope Z_scope.

Lemma from0_opp (X X' : stream) : (forall i c, opposite (X i c) (X' i c)) -> forall i c, opposite (from0 X i c) (from0 X' i c).
Proof. intros H i c. unfold from0. apply H. Qed.
Lemma value_opp kd X X' p c : (forall i c, opposite (X i c) (X' i c)) -> opposite (value kd (from0 X) p c) (value kd (from0 X') p c).
Proof.
  intros H. destruct kd; unfold value, zoh_value, lin_value; [now apply from0_opp|]. apply interpolate_opp; now apply from0_opp.
Qed.

Lemma hold_negated kd ch X X' st log out st1 o1 log' out' st1' o1' :
  at_start kd ch st -> channels_fit ch -> (forall i c, opposite (X i c) (X' i c)) ->
  streaming ch X in_range (lin_legal kd ch X) st 0 log out st1 o1 ->
  streaming ch X' in_range (lin_legal kd ch X') st 0 log' out' st1' o1' -> requests log = requests log' ->
  log = log' /\ forall k c, 0 <= k < total_gen log -> 0 <= c < ch ->
    exists y y', sample ch out k c = Some y /\ sample ch out' k c = Some y' /\ opposite y y'.
Proof.
  intros A F H S S' Rq.
  assert (Fr := start_fresh kd ch st A F). assert (Hch : 0 < ch) by (rewrite <- (fr_ch _ _ _ Fr); destruct (fresh_stream kd ch X st Fr) as [O _]; apply O).
  split.
  - apply (hold_channels_related opposite kd ch X X' 0 0 st log out st1 o1 log' out' st1' o1' A F); try lia; auto. intros p. now apply value_opp.
  - intros k c Hk Hc. refine (proj2 (hold_channels_related opposite kd ch X X' c c st log out st1 o1 log' out' st1' o1' A F Hc Hc _ S S' Rq) k Hk).
    intros p. now apply value_opp.
Qed.
Lemma zoh_negated ch X X' st log out st1 o1 log' out' st1' o1' :
  at_start Zoh ch st -> channels_fit ch -> (forall i c, X' i c = Bopp (X i c)) ->
  streaming ch X in_range (fun _ _ _ => True) st 0 log out st1 o1 ->
  streaming ch X' in_range (fun _ _ _ => True) st 0 log' out' st1' o1' -> requests log = requests log' ->
  log = log' /\ forall k c, 0 <= k < total_gen log -> 0 <= c < ch -> sample ch out' k c = option_map Bopp (sample ch out k c).
Proof.
  intros A F H S S' Rq.
  assert (V : forall c p, value Zoh (from0 X') p c = Bopp (value Zoh (from0 X) p c)) by (intros; unfold value, zoh_value, from0; apply H).
  assert (Fr := start_fresh Zoh ch st A F). assert (Hch : 0 < ch) by (rewrite <- (fr_ch _ _ _ Fr); destruct (fresh_stream Zoh ch X st Fr) as [O _]; apply O).
  split.
  - apply (hold_channels_related (fun x y => y = Bopp x) Zoh ch X X' 0 0 st log out st1 o1 log' out' st1' o1' A F); try lia; auto.
  - intros k c Hk Hc.
    destruct (proj2 (hold_channels_related (fun x y => y = Bopp x) Zoh ch X X' c c st log out st1 o1 log' out' st1' o1' A F Hc Hc (V c) S S' Rq) k Hk)
      as (y & y' & -> & -> & ->). reflexivity.
Qed.
Lemma sinc_negated t ch X X' st log out st1 o1 log' out' st1' o1' :
  table_fit t -> sinc_start t ch st -> (forall i c, opposite (X i c) (X' i c)) ->
  (forall i k, i < 0 -> X i k = fzero) -> (forall i k, i < 0 -> X' i k = fzero) ->
  sinc_streaming ch X in_range st 0 log out st1 o1 -> sinc_streaming ch X' in_range st 0 log' out' st1' o1' -> requests log = requests log' ->
  log = log' /\ forall k c, 0 <= k < total_gen log -> 0 <= c < ch ->
    exists y y', sample ch out k c = Some y /\ sample ch out' k c = Some y' /\ opposite y y'.
Proof.
  destruct t as [inc coeffs]. intros Ht A H Z0 Z0' S S' Rq. destruct (start_tape inc coeffs ch X st Ht A Z0) as (Hch & _).
  split.
  - apply (channels_related opposite inc coeffs ch X X' 0 0 st log out st1 o1 log' out' st1' o1' Ht A); try lia; auto. intros. now apply sinc_opp.
  - intros k c Hk Hc. refine (proj2 (channels_related opposite inc coeffs ch X X' c c st log out st1 o1 log' out' st1' o1' Ht A Hc Hc _ Z0 Z0' S S' Rq) k Hk).
    intros. now apply sinc_opp.
Qed.

(** ** An example: seven frames of 1 and seven frames of -1 *)
Definition minus_ones : mem := fun a => if 1 <=? a then Some (f_of_Z (-1)) else None.
Definition minus_seven : stream := fun i _ => if (0 <=? i) && (i <? 7) then f_of_Z (-1) else fzero.
Lemma minus_opposite i c : opposite (seven i c) (minus_seven i c).
Proof. unfold seven, minus_seven. destruct (_ && _); [|apply opp_zero]. left. apply B2SF_inj. vm_compute. reflexivity. Qed.
Lemma minus_stereo : stereo minus_ones = true.
Proof. vm_compute. reflexivity. Qed.
Lemma negated_case : exists log out st1 o1 log' out' st1' o1',
  sinc_streaming 2 seven in_range (fast_new 2) 0 log out st1 o1 /\ sinc_streaming 2 minus_seven in_range (fast_new 2) 0 log' out' st1' o1' /\
  requests log = requests log' /\ total_gen log = 2.
Proof.
  destruct (stereo_stream ones seven (seven_valid 2 ltac:(lia)) (seven_holds 2) seven_end stereo_ones) as (d & log & out & st1 & o1 & S & E & G).
  destruct (stereo_stream minus_ones minus_seven) as (d' & log' & out' & st1' & o1' & S' & E' & G').
  - assert (K : forall a j, 1 <= a -> 0 <= j -> minus_ones (a + j) <> None).
    { intros a j Ha J. unfold minus_ones. destruct (Z.leb_spec 1 (a + j)); [discriminate|lia]. }
    assert (R := part_range 4 ltac:(lia)). unfold valid_call, request. cbn [data_in data_out input_frames output_frames src_ratio].
    repeat (split; [first [lia|exact R|nia]|]). split; [intros j Hj; apply K; lia|]. split; [intros j Hj; apply K; lia|]. left. nia.
  - intros i c Hi Hc. unfold minus_ones, minus_seven. rewrite Z.add_0_l. destruct (Z.leb_spec 1 (100 + (i * 2 + c))); [|nia].
    destruct (Z.leb_spec 0 i); [|lia]. destruct (Z.ltb_spec i 7); [reflexivity|lia].
  - intros i c Hi. unfold minus_seven. destruct (Z.ltb_spec i 7); [lia|]. now rewrite andb_false_r.
  - exact minus_stereo.
  - exists log, out, st1, o1, log', out', st1', o1'. split; [exact S|]. split; [exact S'|]. split; [rewrite E, E'; reflexivity|exact G].
Qed.
