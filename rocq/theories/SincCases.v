(** Concrete runs of the fastest sinc converter: counterexamples and example cases for Properties_Sinc.v. *)
From Coq Require Import ZArith Reals List Bool Lia Lra.
From Flocq Require Import Core IEEE754.BinarySingleNaN.
From Verif Require Import Base FloatFacts PosFacts Types Common Sinc Api Heap Callback ApiHist HoldSpec HoldCore HoldRamp HoldMain LifeSpec SincSpec SincApi
  SincTables.
Import ListNotations.
Local Open Scope Z_scope.

(** A new fastest sinc converter. *)
Definition fast_build : build := mkBuild None None (Some fastest_table).
Definition nothing : SRC_STATE := mkState VT_sinc_mono dzero dzero 0 0 MODE_PROCESS 0 0 0 0 P_null.
Definition fast_new (ch : Z) : SRC_STATE :=
  match src_new fast_build (fun _ => true) SRC_SINC_FASTEST ch (mkHeap 0 []) with Ok (_, Some c, _) => c_state c | _ => nothing end.

(** Memory: every address from 1 on holds 1.0. *)
Definition ones : mem := fun a => if 1 <=? a then Some (f_of_Z 1) else None.
(** n frames of input at address 100, room for k frames at address 2^40. *)
Definition request (r : f64) (n k last : Z) : SRC_DATA := mkData 100 (2 ^ 40) n k 0 0 last r.
Definition A (r : f64) (n k last : Z) : api_call unit := A_process (Some (request r n k last)) ones.
Definition part (n : Z) : f64 := ddiv done_ (d_of_Z n).

Definition no_callback : callback_t unit := fun _ _ _ m => (tt, m, None, 0).
(** Error code, frames used and frames generated of every call; or the fault that ended the run. *)
Definition summary (o : outcome (list (api_result unit) * SRC_STATE)) : list (Z * Z * Z) + fault :=
  match o with
  | Ok (rs, _) => inl (map (fun r => match r with R_process e (Some d) _ => (e, input_frames_used d, output_frames_gen d) | _ => (0, 0, 0) end) rs)
  | Fault f => inr f
  end.
Definition run (ch : Z) (cs : list (api_call unit)) := summary (api_run unit no_callback 0 (fast_new ch) cs).

Definition made (ch : Z) : bool :=
  match src_new fast_build (fun _ => true) SRC_SINC_FASTEST ch (mkHeap 0 []) with Ok (e, Some _, _) => e =? 0 | _ => false end.
Lemma made_new ch : made ch = true -> sinc_new fastest_table ch (fast_new ch).
Proof.
  unfold made, fast_new. intros E. exists fast_build, (fun _ => true), SRC_SINC_FASTEST, (mkHeap 0 []).
  destruct (src_new fast_build (fun _ => true) SRC_SINC_FASTEST ch (mkHeap 0 [])) as [[[e [c|]] h]|f]; try discriminate E.
  apply Z.eqb_eq in E. subst e. exists c, h. repeat split.
Qed.
Lemma new1 : sinc_new fastest_table 1 (fast_new 1).
Proof. apply made_new. vm_compute. reflexivity. Qed.
Lemma new2 : sinc_new fastest_table 2 (fast_new 2).
Proof. apply made_new. vm_compute. reflexivity. Qed.

Lemma ones_at a j : 1 <= a -> 0 <= j -> ones (a + j) <> None.
Proof. intros A J. unfold ones. destruct (Z.leb_spec 1 (a + j)); [discriminate|lia]. Qed.
Lemma request_valid ch r n k last : 1 <= ch <= 128 -> in_range r -> 0 <= n <= 2 ^ 31 -> 0 <= k <= 2 ^ 31 -> valid_call ch (request r n k last) ones.
Proof.
  intros C R N K. unfold valid_call, request. cbn [data_in data_out input_frames output_frames src_ratio].
  repeat (split; [first [lia|exact R|nia]|]). split; [intros j Hj; apply ones_at; lia|]. split; [intros j Hj; apply ones_at; lia|].
  left. nia.
Qed.
Lemma part_range n : 1 <= n <= 256 -> in_range (part n).
Proof.
  intros N. destruct (d_of_Z_val n) as [V F]; [lia|]. destruct done_val as [V1 F1].
  assert (B : (1 <= IZR n <= 256)%R) by (split; apply IZR_le; lia).
  assert (I : (/ 256 <= / IZR n <= 1)%R). { split; [apply Rinv_le; lra|]. rewrite <- Rinv_1. apply Rinv_le; lra. }
  destruct (ddiv_val done_ (d_of_Z n) F1) as [W G].
  - rewrite V. lra.
  - rewrite V, V1. unfold Rdiv. rewrite Rmult_1_l, Rabs_pos_eq by lra. apply Rle_trans with (bpow radix2 0); [cbn; lra|apply bpow_le; lia].
  - split; [exact G|]. change (part n) with (ddiv done_ (d_of_Z n)). rewrite W, V, V1. unfold Rdiv. rewrite Rmult_1_l. split.
    + apply rnd64_ge; [|lra]. replace (/ 256)%R with (bpow radix2 (-8)) by (cbn; lra). apply fmt64_bpow. lia.
    + apply Rle_trans with 1%R; [|lra]. apply rnd64_le; [change 1%R with (bpow radix2 0); apply fmt64_bpow; lia|lra].
Qed.

(** ** Counterexamples *)
(** C31: ratio 1 without input, then ratio 1/256 with 9837 frames at the end of the input: prepare_data moves data from before
    the start of its buffer. *)
Definition falls : list (api_call unit) := [A done_ 0 1 0; A (part 256) 9837 1 1].
Lemma falls_valid : Forall (valid_op 1) falls.
Proof. constructor; [|constructor; [|constructor]]; apply request_valid; try lia; [exact one_range|apply part_range; lia]. Qed.
Lemma falls_run : run 1 falls = inr F_oob.
Proof. vm_compute. reflexivity. Qed.

(** C31: two channels, end of the input announced at ratio 4, then a lower ratio: an assertion fails. *)
Definition r465 : f64 := ddiv (d_of_Z 46498) (d_of_Z 100000).
Definition drops : list (api_call unit) := [A (d_of_Z 4) 20 3 1; A_set_ratio r465; A r465 0 1 1].
Lemma r465_range : in_range r465.
Proof. split; [reflexivity|]. vm_compute. lra. Qed.
Lemma drops_valid : Forall (valid_op 2) drops.
Proof.
  constructor; [|constructor; [reflexivity|constructor; [|constructor]]]; apply request_valid; try lia; [|exact r465_range].
  destruct (d_of_Z_val 4) as [V F]; [simpl; lia|]. split; [exact F|]. rewrite V. lra.
Qed.
Lemma drops_run : run 2 drops = inr F_assert.
Proof. vm_compute. reflexivity. Qed.

(** C32: 2^31 samples in one call. *)
Definition huge : list (api_call unit) := [A done_ (2 ^ 31) 1 0].
Lemma huge_valid : Forall (valid_op 1) huge.
Proof. constructor; [|constructor]. apply request_valid; try lia; exact one_range. Qed.
Lemma huge_run : run 1 huge = inl [(SRC_ERR_SINC_PREPARE_DATA_BAD_LEN, 0, 0)].
Proof. vm_compute. reflexivity. Qed.

(** C35: 20 frames at ratio 1, then an empty last block: with a NULL pointer nothing comes out. *)
Definition flush (p : Z) : list (api_call unit) := [A done_ 20 100 0; A_process (Some (mkData p (2 ^ 40) 0 100 0 0 1 done_)) ones].
Lemma flush_valid p : 0 <= p <= 200 -> Forall (valid_op 1) (flush p).
Proof.
  intros P. constructor; [apply request_valid; try lia; exact one_range|constructor; [|constructor]].
  unfold valid_op, valid_call. cbn [data_in data_out input_frames output_frames src_ratio].
  repeat (split; [first [lia|exact one_range]|]). split; [intros j Hj; lia|]. split; [intros j Hj; apply ones_at; lia|]. left. lia.
Qed.
Lemma flush_runs : run 1 (flush 0) = inl [(0, 20, 0); (0, 0, 0)] /\ run 1 (flush 100) = inl [(0, 20, 0); (0, 0, 20)].
Proof. split; vm_compute; reflexivity. Qed.

(** ** A stream: seven ones at ratio 1/4, one call. *)
Definition seven : stream := fun i _ => if (0 <=? i) && (i <? 7) then f_of_Z 1 else fzero.
Lemma seven_zero i k : i < 0 -> seven i k = fzero.
Proof. intros H. unfold seven. destruct (Z.leb_spec 0 i); [lia|reflexivity]. Qed.
Lemma seven_end i k : 7 <= i -> seven i k = fzero.
Proof. intros H. unfold seven. destruct (Z.ltb_spec i 7); [lia|]. now rewrite andb_false_r. Qed.
Lemma seven_holds ch : holds ones 100 ch 7 seven 0.
Proof.
  intros i c Hi Hc. unfold ones, seven. rewrite Z.add_0_l. destruct (Z.leb_spec 1 (100 + (i * ch + c))); [|nia].
  destruct (Z.leb_spec 0 i); [|lia]. destruct (Z.ltb_spec i 7); [reflexivity|lia].
Qed.

Lemma seven_valid ch : 1 <= ch <= 128 -> valid_call ch (request (part 4) 7 10 1) ones.
Proof. intros C. apply request_valid; [exact C|apply part_range; lia|lia|lia]. Qed.

Definition works (ch g : Z) : bool :=
  match src_process (Some (fast_new ch)) (Some (request (part 4) 7 10 1)) ones with
  | Ok (e, Some _, Some d1, m1) =>
      (e =? 0) && (input_frames_used d1 =? 7) && (output_frames_gen d1 =? g) &&
      match mread_n m1 (2 ^ 40) (Z.to_nat (g * ch)) with Ok _ => true | _ => false end
  | _ => false
  end.
Lemma works_call ch g : works ch g = true -> exists st1 d1 m1 chunk,
  src_process (Some (fast_new ch)) (Some (request (part 4) 7 10 1)) ones = Ok (0, Some st1, Some d1, m1) /\
  input_frames_used d1 = 7 /\ output_frames_gen d1 = g /\ mread_n m1 (2 ^ 40) (Z.to_nat (g * ch)) = Ok chunk.
Proof.
  unfold works. destruct (src_process (Some (fast_new ch)) (Some (request (part 4) 7 10 1)) ones) as [[[[e [st1|]] [d1|]] m1]|f]; try discriminate.
  intros H. apply andb_prop in H as [H H4]. apply andb_prop in H as [H H3]. apply andb_prop in H as [H1 H2].
  apply Z.eqb_eq in H1, H2, H3. subst e. exists st1, d1, m1. destruct (mread_n m1 (2 ^ 40) (Z.to_nat (g * ch))) as [c|f]; [|discriminate].
  exists c. auto.
Qed.
Lemma works1 : works 1 1 = true. Proof. vm_compute. reflexivity. Qed.
Lemma works2 : works 2 2 = true. Proof. vm_compute. reflexivity. Qed.

Lemma seven_stream ch g : 1 <= ch <= 128 -> works ch g = true -> exists log out st' o',
  sinc_streaming ch seven (eq (part 4)) (fast_new ch) 0 log out st' o' /\ total_gen log = g.
Proof.
  intros C W. destruct (works_call ch g W) as (st1 & d1 & m1 & chunk & E & U & G & R).
  eexists _, _, _, _. split.
  - eapply SS_call; [exact (seven_valid ch C)|apply seven_holds|reflexivity| |exact E|rewrite G; exact R|apply SS_done].
    intros _ i c Hi. apply seven_end. cbn in Hi. lia.
  - cbn. lia.
Qed.
Lemma seven_converted ch g : 1 <= ch <= 128 -> sinc_new fastest_table ch (fast_new ch) -> g < 10 -> works ch g = true ->
  sinc_converted fastest_table ch (part 4) 7 g.
Proof.
  intros C N L W. destruct (works_call ch g W) as (st1 & d1 & m1 & chunk & E & U & G & R).
  exists seven, (fast_new ch), [], [], (fast_new ch), 0, (request (part 4) 7 10 1), ones, st1, d1, m1.
  split; [now left|]. split; [exact seven_zero|]. split; [constructor|]. split; [constructor|].
  split; [exact (seven_valid ch C)|]. split; [apply seven_holds|]. split; [reflexivity|]. split; [discriminate|].
  split; [exact seven_end|]. split; [discriminate|]. split; [cbn [input_frames request]; lia|]. split; [reflexivity|]. split; [exact E|]. rewrite G. split; [exact L|reflexivity].
Qed.

(** C34: the same seven frames give one frame with one channel and two with two channels. *)
Lemma sinc_counts_differ : sinc_converted fastest_table 1 (part 4) 7 1 /\ sinc_converted fastest_table 2 (part 4) 7 2.
Proof. split; apply seven_converted; try lia; [exact new1|exact works1|exact new2|exact works2]. Qed.

(** Zero-order hold: two frames at ratio 5/2 give six frames with one channel and five with three channels; linear: nine
    frames at ratio 5/9 give five and six. *)
Definition quotient (a b : Z) : f64 := ddiv (d_of_Z a) (d_of_Z b).
Definition always : stream := fun _ _ => f_of_Z 1.
Definition hworks (kd : kind) (ch : Z) (r : f64) (n g : Z) : bool :=
  match src_process (Some (ex_conv kd ch)) (Some (request r n 10 1)) ones with
  | Ok (e, Some _, Some d1, _) => (e =? 0) && (output_frames_gen d1 =? g)
  | _ => false
  end.
Lemma hold_converted kd ch r n g : 1 <= ch <= 128 -> created (type_of kd) ch (ex_conv kd ch) -> in_range r -> 3 <= n <= 100 \/ (kd = Zoh /\ 0 <= n <= 100) -> g < 10 ->
  hworks kd ch r n g = true -> converted kd ch r n g.
Proof.
  intros C K R N L W. unfold hworks in W.
  destruct (src_process (Some (ex_conv kd ch)) (Some (request r n 10 1)) ones) as [[[[e [st1|]] [d1|]] m1]|f] eqn:E; try discriminate.
  apply andb_prop in W as [W1 W2]. apply Z.eqb_eq in W1, W2. subst e.
  assert (Lg : lin_legal kd ch always 0 (request r n 10 1) ones).
  { destruct kd; cbn; [exact I|]. destruct N as [N|[N _]]; [right; left; lia|discriminate]. }
  exists always, (ex_conv kd ch), [], [], (ex_conv kd ch), 0, (request r n 10 1), ones, st1, d1, m1.
  split; [now left|]. split; [constructor|]. split; [cbn; lia|]. split; [apply request_valid; try lia; assumption|].
  split; [|split; [reflexivity|split; [exact Lg|split; [reflexivity|split; [exact E|cbn; lia]]]]].
  intros i c Hi Hc. unfold ones, always. cbn [input_frames request data_in] in *. destruct (Z.leb_spec 1 (100 + (i * ch + c))); [reflexivity|nia].
Qed.
Lemma hold_created kd ch : ch = 1 \/ ch = 3 -> created (type_of kd) ch (ex_conv kd ch).
Proof. intros [->| ->]; exists ex_build, (fun _ => true), (mkHeap 0 []); destruct kd; eexists; eexists; split; reflexivity. Qed.
Lemma quotient_range a b : (a = 5 /\ b = 2) \/ (a = 5 /\ b = 9) -> in_range (quotient a b).
Proof. intros [[-> ->]|[-> ->]]; (split; [reflexivity|vm_compute; lra]). Qed.
Lemma hworks_cases : hworks Zoh 1 (quotient 5 2) 2 6 && hworks Zoh 3 (quotient 5 2) 2 5 && hworks Lin 1 (quotient 5 9) 9 5 && hworks Lin 3 (quotient 5 9) 9 6 = true.
Proof. vm_compute. reflexivity. Qed.
Lemma hold_counts_differ :
  (converted Zoh 1 (quotient 5 2) 2 6 /\ converted Zoh 3 (quotient 5 2) 2 5) /\
  (converted Lin 1 (quotient 5 9) 9 5 /\ converted Lin 3 (quotient 5 9) 9 6).
Proof.
  assert (H := hworks_cases). apply andb_prop in H as [H H4]. apply andb_prop in H as [H H3]. apply andb_prop in H as [H1 H2].
  assert (Q1 : in_range (quotient 5 2)) by (apply quotient_range; lia). assert (Q2 : in_range (quotient 5 9)) by (apply quotient_range; lia).
  split; split.
  - exact (hold_converted Zoh 1 _ 2 6 ltac:(lia) (hold_created Zoh 1 ltac:(lia)) Q1 ltac:(right; split; [reflexivity|lia]) ltac:(lia) H1).
  - exact (hold_converted Zoh 3 _ 2 5 ltac:(lia) (hold_created Zoh 3 ltac:(lia)) Q1 ltac:(right; split; [reflexivity|lia]) ltac:(lia) H2).
  - exact (hold_converted Lin 1 _ 9 5 ltac:(lia) (hold_created Lin 1 ltac:(lia)) Q2 ltac:(left; lia) ltac:(lia) H3).
  - exact (hold_converted Lin 3 _ 9 6 ltac:(lia) (hold_created Lin 3 ltac:(lia)) Q2 ltac:(left; lia) ltac:(lia) H4).
Qed.

(** C25: two stereo signals that agree on channel 0 only: the odd addresses hold 2.0. *)
Definition skew : mem := fun a => if 1 <=? a then Some (f_of_Z (if Z.odd a then 2 else 1)) else None.
Definition skewed : stream := fun i c => if (0 <=? i) && (i <? 7) then f_of_Z (if Z.odd c then 2 else 1) else fzero.
Lemma skew_valid : valid_call 2 (request (part 4) 7 10 1) skew.
Proof.
  assert (K : forall a j, 1 <= a -> 0 <= j -> skew (a + j) <> None).
  { intros a j Ha J. unfold skew. destruct (Z.leb_spec 1 (a + j)); [discriminate|lia]. }
  assert (R := part_range 4 ltac:(lia)). unfold valid_call, request. cbn [data_in data_out input_frames output_frames src_ratio].
  repeat (split; [first [lia|exact R|nia]|]). split; [intros j Hj; apply K; lia|]. split; [intros j Hj; apply K; lia|]. left. nia.
Qed.
Lemma skew_holds : holds skew 100 2 7 skewed 0.
Proof.
  intros i c Hi Hc. unfold skew, skewed. rewrite Z.add_0_l. destruct (Z.leb_spec 1 (100 + (i * 2 + c))); [|nia].
  destruct (Z.leb_spec 0 i); [|lia]. destruct (Z.ltb_spec i 7); [|lia]. cbn [andb].
  replace (100 + (i * 2 + c)) with (c + 2 * (50 + i)) by ring. now rewrite Z.odd_add_mul_2.
Qed.
Definition stereo (m : mem) : bool :=
  match src_process (Some (fast_new 2)) (Some (request (part 4) 7 10 1)) m with
  | Ok (e, Some _, Some d1, m1) =>
      (e =? 0) && (input_frames_used d1 =? 7) && (output_frames_gen d1 =? 2) &&
      match mread_n m1 (2 ^ 40) (Z.to_nat (2 * 2)) with Ok _ => true | _ => false end
  | _ => false
  end.
Lemma stereo_stream m X : valid_call 2 (request (part 4) 7 10 1) m -> holds m 100 2 7 X 0 -> (forall i c, 7 <= i -> X i c = fzero) -> stereo m = true ->
  exists d1 log out st' o', sinc_streaming 2 X in_range (fast_new 2) 0 log out st' o' /\ log = [Ev_call (request (part 4) 7 10 1) d1] /\ total_gen log = 2.
Proof.
  unfold stereo. intros V H Z W.
  destruct (src_process (Some (fast_new 2)) (Some (request (part 4) 7 10 1)) m) as [[[[e [st1|]] [d1|]] m1]|f] eqn:E; try discriminate W.
  apply andb_prop in W as [W W4]. apply andb_prop in W as [W W3]. apply andb_prop in W as [W1 W2].
  apply Z.eqb_eq in W1, W2, W3. subst e. destruct (mread_n m1 (2 ^ 40) (Z.to_nat (2 * 2))) as [chunk|f] eqn:R; [|discriminate].
  exists d1. eexists _, _, _, _. split; [|split; [reflexivity|cbn; lia]].
  eapply SS_call; [exact V|exact H|apply part_range; lia| |exact E|rewrite W3; exact R|apply SS_done].
  intros _ i c Hi. apply Z. cbn in Hi. lia.
Qed.
Lemma stereo_ones : stereo ones = true. Proof. vm_compute. reflexivity. Qed.
Lemma stereo_skew : stereo skew = true. Proof. vm_compute. reflexivity. Qed.
Lemma channels_case : exists log out st1 o1 log' out' st1' o1',
  sinc_streaming 2 seven in_range (fast_new 2) 0 log out st1 o1 /\ sinc_streaming 2 skewed in_range (fast_new 2) 0 log' out' st1' o1' /\
  requests log = requests log' /\ total_gen log = 2.
Proof.
  destruct (stereo_stream ones seven (seven_valid 2 ltac:(lia)) (seven_holds 2) seven_end stereo_ones) as (d & log & out & st1 & o1 & S & E & G).
  destruct (stereo_stream skew skewed skew_valid skew_holds) as (d' & log' & out' & st1' & o1' & S' & E' & G').
  - intros i c Hi. unfold skewed. destruct (Z.ltb_spec i 7); [lia|]. now rewrite andb_false_r.
  - exact stereo_skew.
  - exists log, out, st1, o1, log', out', st1', o1'. split; [exact S|]. split; [exact S'|]. split; [rewrite E, E'; reflexivity|exact G].
Qed.
Lemma ones_twos : seven 3 1 <> skewed 3 1.
Proof. intros E. apply (f_equal B2SF) in E. vm_compute in E. discriminate. Qed.
