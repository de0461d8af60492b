(** src_process on zero-order-hold and linear converters: single calls, histories, streams. *)
From Coq Require Import ZArith Reals List Bool Lia Lra.
From Flocq Require Import Core IEEE754.BinarySingleNaN.
From Verif Require Import Base FloatFacts PosFacts Types Common Zoh Linear Api Callback ApiHist HoldSpec HoldFacts HoldRamp HoldCore
  ZohProofs LinearProofs HoldCall.
Import ListNotations.
Local Open Scope Z_scope.

(** The ratio a call starts from: that of the previous call, or its own if there was none. *)
Definition start_ratio (st : SRC_STATE) (new : f64) : f64 :=
  if dlt (st_last_ratio st) (ddiv done_ (d_of_Z SRC_MAX_RATIO)) then new else st_last_ratio st.
Definition primed (st : SRC_STATE) (new : f64) : SRC_STATE :=
  if dlt (st_last_ratio st) (ddiv done_ (d_of_Z SRC_MAX_RATIO)) then set_ratio st new else st.

Lemma good_not_low r : good_ratio r -> dlt r (ddiv done_ (d_of_Z SRC_MAX_RATIO)) = false.
Proof.
  intros G. assert (B : is_bad_src_ratio r = false) by (apply is_bad_src_ratio_spec; now right).
  unfold is_bad_src_ratio in B. now apply orb_false_elim in B.
Qed.
Lemma zero_low : dlt dzero (ddiv done_ (d_of_Z SRC_MAX_RATIO)) = true.
Proof. reflexivity. Qed.

Lemma primed_ok kd st new : hold_ok kd st -> good_ratio new ->
  hold_ok kd (primed st new) /\ good_ratio (st_last_ratio (primed st new)) /\
  st_last_ratio (primed st new) = start_ratio st new /\
  same_frame st (primed st new) /\ st_priv (primed st new) = st_priv st /\
  st_last_position (primed st new) = st_last_position st.
Proof.
  intros (A & B & C & D & E & F & h & P & L) G. unfold primed, start_ratio.
  destruct D as [D|D].
  - rewrite D, zero_low. repeat split; cbn; auto; try apply E; try apply G. eauto.
  - rewrite (good_not_low _ D). repeat split; auto; try apply E; try apply D. eauto.
Qed.

Lemma overlap_ok ch d m : valid_call ch d m -> 0 < ch -> overlap_test ch d = Ok false.
Proof.
  intros (H1 & H2 & H3 & H4 & _ & _ & _ & H5 & H6 & _ & _ & H7) Hc. unfold overlap_test, ptr_add, apart in *.
  destruct (Z.ltb_spec (data_in d) (data_out d)) as [L|L].
  - rewrite long_ok by nia. cbn [bind].
    replace ((0 <=? data_in d + input_frames d * ch) && (data_in d + input_frames d * ch <? 2 ^ 62)) with true.
    2: { symmetry. apply andb_true_intro. split; [apply Z.leb_le|apply Z.ltb_lt]; nia. }
    cbn [bind]. f_equal. apply Z.ltb_ge. nia.
  - rewrite long_ok by nia. cbn [bind].
    replace ((0 <=? data_out d + output_frames d * ch) && (data_out d + output_frames d * ch <? 2 ^ 62)) with true.
    2: { symmetry. apply andb_true_intro. split; [apply Z.leb_le|apply Z.ltb_lt]; nia. }
    cbn [bind]. f_equal. apply Z.ltb_ge. lia.
Qed.

(** After validation src_process is the process function on the primed state. *)
Lemma process_reduce st d m : st_mode st = MODE_PROCESS -> 0 < st_channels st -> valid_call (st_channels st) d m ->
  src_process (Some st) (Some d) m =
  (do (e, st2, d3, m') <- vt_process (primed st (src_ratio d)) (set_counts d 0 0) m ; Ok (e, Some st2, Some d3, m')).
Proof.
  intros Hm Hc V. assert (O := overlap_ok _ _ _ V Hc).
  destruct V as (H1 & H2 & H3 & H4 & G & N1 & N2 & _).
  unfold src_process. rewrite Hm. cbn [is_process negb].
  replace ((data_in d =? 0) && (0 <? input_frames d) || (data_out d =? 0) && (0 <? output_frames d)) with false.
  2: { symmetry. apply orb_false_intro.
       - destruct (Z.eqb_spec (data_in d) 0), (Z.ltb_spec 0 (input_frames d)); try reflexivity. exfalso. now apply N1.
       - destruct (Z.eqb_spec (data_out d) 0), (Z.ltb_spec 0 (output_frames d)); try reflexivity. exfalso. now apply N2. }
  replace (is_bad_src_ratio (src_ratio d)) with false.
  2: { symmetry. apply is_bad_src_ratio_spec. right. exact G. }
  replace (input_frames d <? 0) with false by (symmetry; apply Z.ltb_ge; lia).
  replace (output_frames d <? 0) with false by (symmetry; apply Z.ltb_ge; lia).
  replace (set_frames d (input_frames d) (output_frames d)) with d by (destruct d; reflexivity).
  rewrite O. cbn [bind]. change (src_ratio (set_counts d 0 0)) with (src_ratio d).
  fold (primed st (src_ratio d)).
  now destruct (dlt _ (lit_1em 15)).
Qed.

Lemma apart_disjoint a la b lb : apart a la b lb -> disjoint_ranges a la b lb.
Proof. unfold apart, disjoint_ranges. lia. Qed.

Lemma same_frame_trans a b c : same_frame a b -> same_frame b c -> same_frame a c.
Proof. unfold same_frame. intuition congruence. Qed.

(** A call with input. *)
Section OneCall.
  Variables (kd : kind) (st : SRC_STATE) (d : SRC_DATA) (m : mem) (X : stream).
  Hypothesis Hok : hold_ok kd st.
  Hypothesis Hmode : st_mode st = MODE_PROCESS.
  Hypothesis Hv : valid_call (st_channels st) d m.
  Let ch := st_channels st.
  Let n := input_frames d.
  Let mo := output_frames d.
  Let x0 := st_last_position st.
  Let last := start_ratio st (src_ratio d).
  Let new := src_ratio d.

  Lemma process_empty : n = 0 ->
    src_process (Some st) (Some d) m = Ok (0, Some (primed st new), Some (set_counts d 0 0), m).
  Proof.
    intros E. rewrite process_reduce; auto; [|apply Hok].
    assert (Hvt : st_vt (primed st (src_ratio d)) = vt_of kd) by (apply primed_ok; [apply Hok|apply Hv]).
    unfold vt_process. rewrite Hvt. change (src_ratio d) with new.
    destruct kd; cbn [vt_of]; unfold zoh_vari_process, linear_vari_process; change (input_frames (set_counts d 0 0)) with n;
      rewrite E; reflexivity.
  Qed.

  Hypothesis Hn : 0 < n.
  Hypothesis Hin : holds m (data_in d) ch n X 0.
  Hypothesis Hf : follows st X.
  Hypothesis Hsafe : kd = Lin -> lin_safe ch n mo (data_in d) (data_out d) x0 last new X m.

  Let g := cgen kd ch n mo x0 last new.
  Let used := cused kd ch n mo x0 last new.

  Lemma process_call : exists st' m',
    src_process (Some st) (Some d) m = Ok (0, Some st', Some (set_counts d used (Z.of_nat g)), m') /\
    Z.of_nat g <= mo /\ 0 <= used <= n /\
    wrote m m' (data_out d) ch (Z.of_nat g) (fun k c => value kd X (cpos ch mo x0 last new (Z.to_nat k)) c) /\
    hold_ok kd st' /\ same_frame st st' /\ is_dirty st' /\
    split_pos (st_last_position st') = (fst (cpos ch mo x0 last new g) - used, snd (cpos ch mo x0 last new g)) /\
    st_last_ratio st' = cratio kd ch n mo x0 last new /\ good_ratio (st_last_ratio st') /\
    follows st' (fun i => X (used + i)).
  Proof.
    rewrite process_reduce; auto; [|apply Hok].
    assert (G : good_ratio new) by apply Hv.
    destruct (primed_ok kd st new Hok G) as (P1 & P2 & P3 & P4 & P5 & P6).
    assert (Ec : st_channels (primed st new) = ch) by apply P4.
    destruct (vt_call kd (primed st new) (set_counts d 0 0) m X) as (st' & m' & E & R); auto.
    - rewrite Ec. apply Hv.
    - apply Hv.
    - rewrite Ec. apply Hv.
    - now rewrite Ec.
    - rewrite Ec. apply Hv.
    - rewrite Ec. apply apart_disjoint. apply Hv.
    - intros h Hh. rewrite P5 in Hh. specialize (Hf h Hh). rewrite Ec. exact Hf.
    - intros K. rewrite Ec, P3, P6. now apply Hsafe.
    - change (src_ratio (set_counts d 0 0)) with new in *. change (input_frames (set_counts d 0 0)) with n in *.
      change (output_frames (set_counts d 0 0)) with mo in *. change (data_out (set_counts d 0 0)) with (data_out d) in *.
      rewrite Ec, P3, P6 in E, R. fold x0 last in E, R. change (src_ratio d) with new. fold last in E, R.
      change (start_ratio st new) with last in *.
      exists st', m'. rewrite E. cbn [bind]. split; [reflexivity|].
      fold g used in R.
      destruct R as (R1 & R2 & R3 & R4 & R5 & R6 & R7 & R8 & R9 & R10).
      repeat (split; [assumption|]). split; [exact (same_frame_trans _ _ _ P4 R5)|].
      repeat (split; [assumption|]). assumption.
  Qed.
End OneCall.

(** Readable memory as a stream. *)
Definition mem_stream (m : mem) (a ch : Z) (prev : Z -> f32) : stream :=
  fun i c => if i <? 0 then prev c else match m (a + (i * ch + c)) with Some x => x | None => fzero end.

Lemma mem_stream_holds m a ch n prev : 0 < ch -> writable m a ch n -> holds m a ch n (mem_stream m a ch prev) 0.
Proof.
  intros Hc W i c Hi Hcc. unfold mem_stream. rewrite Z.add_0_l. replace (i <? 0) with false by (symmetry; apply Z.ltb_ge; lia).
  assert (H := W (i * ch + c)). destruct (m (a + (i * ch + c))); [reflexivity|]. exfalso. apply H; [nia|reflexivity].
Qed.

(** What the converter remembers as the previous frame. *)
Definition prev_frame (st : SRC_STATE) (m : mem) (a : Z) : Z -> f32 :=
  match st_priv st with
  | P_hold h => if h_dirty h then fun c => nth (Z.to_nat c) (h_last_value h) fzero
                else mem_stream m a (st_channels st) (fun _ => fzero) 0
  | _ => fun _ => fzero
  end.

Lemma prev_follows kd st m a : hold_ok kd st -> follows st (mem_stream m a (st_channels st) (prev_frame st m a)).
Proof.
  intros (A & B & C & D & E & F & h & P & L) h' P'. rewrite P in P'. injection P' as <-.
  unfold prev_frame. rewrite P. destruct (h_dirty h) eqn:Dh.
  - split; [exact L|]. intros j Hj. unfold mem_stream. simpl (-1 <? 0).
    apply nth_error_nth'. unfold zlen in L. lia.
  - intros c Hc. reflexivity.
Qed.

(** Linear is safe when it gets at least three frames, or starts at least a frame into the block. *)

Lemma cpos_frac kd st d m k : hold_ok kd st -> valid_call (st_channels st) d m -> Z.of_nat k <= output_frames d ->
  frac (snd (cpos (st_channels st) (output_frames d) (st_last_position st) (start_ratio st (src_ratio d)) (src_ratio d) k)).
Proof.
  intros Hok Hv Hk. assert (G : good_ratio (src_ratio d)) by apply Hv.
  destruct (primed_ok kd st (src_ratio d) Hok G) as (_ & G' & E & _). rewrite E in G'.
  unfold cpos. apply (pos_frac (st_channels st) (output_frames d)); auto. apply Hok. apply Hv.
  apply split_pos_ok. destruct Hok as (_ & _ & _ & _ & (a & b & c) & _). repeat split; auto; lra.
Qed.

Lemma room_safe kd st d m X : hold_ok kd st -> valid_call (st_channels st) d m -> 0 < input_frames d ->
  lin_room kd (input_frames d) -> kd = Lin ->
  lin_safe (st_channels st) (input_frames d) (output_frames d) (data_in d) (data_out d) (st_last_position st)
           (start_ratio st (src_ratio d)) (src_ratio d) X m.
Proof.
  intros Hok Hv Hn Hr ->. left. intros k Hk _. simpl in Hr. apply lin_break_far; try lia.
  - apply Hok. - assert (H := proj1 (proj2 (proj2 Hok))). lia. - apply Hv.
  - apply (cpos_frac Lin _ _ m); auto. lia.
Qed.

(** A valid call that does not read outside its buffers succeeds, reports honest counts and preserves the invariant. *)
Lemma process_safe kd st d m X : hold_ok kd st -> st_mode st = MODE_PROCESS -> valid_call (st_channels st) d m ->
  0 < input_frames d -> holds m (data_in d) (st_channels st) (input_frames d) X 0 -> follows st X ->
  (kd = Lin -> lin_safe (st_channels st) (input_frames d) (output_frames d) (data_in d) (data_out d) (st_last_position st)
                        (start_ratio st (src_ratio d)) (src_ratio d) X m) ->
  exists st' d' m', src_process (Some st) (Some d) m = Ok (0, Some st', Some d', m') /\
    honest_reply (st_channels st) d m 0 d' m' /\ hold_ok kd st' /\ same_frame st st' /\ good_ratio (st_last_ratio st') /\
    (0 < input_frames d -> 0 < output_frames d -> 0 < input_frames_used d' \/ 0 < output_frames_gen d') /\
    (output_frames_gen d' = 0 ->
     fst (split_pos (st_last_position st')) = fst (split_pos (st_last_position st)) - input_frames_used d').
Proof.
  intros Hok Hm Hv Hn Hh Hf Hs.
  assert (Hch : 0 < st_channels st) by apply Hok.
  destruct (process_call kd st d m X) as (st' & m' & E1 & R1 & R2 & R3 & R4 & R5 & R6 & R7 & R8 & R9 & R10); auto.
  eexists; eexists; eexists. split; [exact E1|]. split; [|split; [exact R4|split; [exact R5|split; [exact R9|]]]].
      * split; [reflexivity|]. split; [reflexivity|]. cbn. split; [exact R2|]. split; [lia|]. eexists; exact R3.
      * split; [|cbn [output_frames_gen input_frames_used set_counts]; intros G0; apply (f_equal fst) in R7; cbn [fst] in R7; rewrite R7;
                  replace (cgen kd (st_channels st) (input_frames d) (output_frames d) (st_last_position st) (start_ratio st (src_ratio d)) (src_ratio d)) with 0%nat by lia;
                  reflexivity].
        cbn. intros _ Hmo.
        (* progress *)
        destruct (Nat.eq_dec (cgen kd (st_channels st) (input_frames d) (output_frames d) (st_last_position st)
           (start_ratio st (src_ratio d)) (src_ratio d)) 0) as [G0|G0]; [left|right; lia].
        unfold cused. rewrite G0. change (cpos _ _ _ _ _ 0) with (split_pos (st_last_position st)).
        assert (Av : avail kd (st_channels st) (input_frames d) (split_pos (st_last_position st)) = false).
        { unfold cgen in G0.
          destruct (served_spec (Z.to_nat (output_frames d)) (fun k => avail kd (st_channels st) (input_frames d)
              (cpos (st_channels st) (output_frames d) (st_last_position st) (start_ratio st (src_ratio d)) (src_ratio d) k)))
            as (_ & _ & C). rewrite G0 in C. destruct C as [C|C]; [lia|exact C]. }
        assert (U := cpos_frac kd st d m 0 Hok Hv ltac:(lia)).
        change (cpos _ _ _ _ _ 0) with (split_pos (st_last_position st)) in U.
        destruct Hok as (_ & _ & Hci & _ & Hp & Hl & _).
        assert (U0 := split_lt258 _ Hp Hl).
        assert (Hnc : input_frames d * st_channels st <= 2 ^ 50) by apply Hv.
        destruct (Z_lt_ge_dec 0 (fst (split_pos (st_last_position st)))) as [L|L]; [lia|exfalso].
        set (p := split_pos (st_last_position st)) in *.
        assert (Z0 : fst p = 0) by lia.
        destruct kd; unfold avail in Av.
        -- fold (dadd (d_of_Z (fst p * st_channels st)) (dmul (d_of_Z (st_channels st)) (snd p))) in Av.
           assert (T : dle (reach (st_channels st) (fst p) (snd p)) (d_of_Z (input_frames d * st_channels st)) = true).
           { apply reach_le_true; auto; try lia. }
           unfold dle, reach, dadd, dmul in T. rewrite Av in T. discriminate T.
        -- assert (T : dlt (reach (st_channels st) (fst p) (snd p)) (d_of_Z (input_frames d * st_channels st)) = true).
           { apply reach_lt_true0; auto; try lia. }
           unfold dlt, reach, dadd, dmul in T. rewrite Av in T. discriminate T.
Qed.

(** Any valid call succeeds, reports honest counts and preserves the invariant. *)
Lemma process_honest kd st d m : hold_ok kd st -> st_mode st = MODE_PROCESS -> valid_call (st_channels st) d m ->
  lin_room kd (input_frames d) ->
  exists st' d' m', src_process (Some st) (Some d) m = Ok (0, Some st', Some d', m') /\
    honest_reply (st_channels st) d m 0 d' m' /\ hold_ok kd st' /\ same_frame st st' /\ good_ratio (st_last_ratio st') /\
    (0 < input_frames d -> 0 < output_frames d -> 0 < input_frames_used d' \/ 0 < output_frames_gen d') /\
    (output_frames_gen d' = 0 ->
     fst (split_pos (st_last_position st')) = fst (split_pos (st_last_position st)) - input_frames_used d').
Proof.
  intros Hok Hm Hv Hr.
  destruct (Z.eq_dec (input_frames d) 0) as [E|E].
  - destruct (primed_ok kd st (src_ratio d) Hok) as (P1 & P2 & P3 & P4 & _); [apply Hv|].
    exists (primed st (src_ratio d)), (set_counts d 0 0), m.
    split; [now apply (process_empty kd)|]. split.
    + split; [reflexivity|]. split; [reflexivity|]. cbn. split; [lia|]. split; [split; [lia|apply Hv]|].
      exists (fun _ _ => fzero). split; [intros; lia|auto].
    + split; [exact P1|]. split; [exact P4|]. split; [exact P2|]. split; [lia|]. intros _.
      replace (st_last_position (primed st (src_ratio d))) with (st_last_position st) by (unfold primed; now destruct (dlt _ _)).
      cbn [input_frames_used set_counts]. lia.
  - assert (Hn : 0 < input_frames d) by (assert (0 <= input_frames d) by apply Hv; lia).
    assert (Hch : 0 < st_channels st) by apply Hok.
    set (X := mem_stream m (data_in d) (st_channels st) (prev_frame st m (data_in d))).
    apply (process_safe kd st d m X); auto.
    + apply mem_stream_holds; auto. apply Hv.
    + now apply (prev_follows kd).
    + intros K. now apply (room_safe kd).
Qed.

(** ** Histories *)
Lemma hold_reset_ok kd st : hold_ok kd st ->
  exists st', src_reset (Some st) = Ok (0, Some st') /\ hold_ok kd st' /\
    st_mode st' = st_mode st /\ st_channels st' = st_channels st /\ st_last_position st' = dzero /\ st_last_ratio st' = dzero /\
    exists h, st_priv st' = P_hold h /\ h_dirty h = false.
Proof.
  intros (A & B & C & D & E & F & h & P & L). unfold src_reset.
  assert (V : vt_reset st = hold_reset st) by (unfold vt_reset; rewrite A; now destruct kd).
  rewrite V. unfold hold_reset. rewrite P. unfold blit.
  assert (Lr : zlen (repeat fzero (Z.to_nat (st_channels st))) = st_channels st) by (unfold zlen; rewrite repeat_length; lia).
  rewrite Lr. replace ((0 <? 0) || (zlen (h_last_value h) <? 0 + st_channels st)) with false.
  2: { symmetry. apply orb_false_intro; [reflexivity|]. apply Z.ltb_ge. lia. }
  cbn [bind]. eexists. split; [reflexivity|]. cbn.
  split; [|repeat split; eauto].
  repeat split; cbn; auto; try lra. eexists; split; [reflexivity|]. cbn.
  unfold zlen in *. rewrite ?app_length, ?skipn_length, ?repeat_length. simpl length. lia.
Qed.

Lemma set_ratio_ok kd st r : hold_ok kd st -> is_nan r = false ->
  exists e st', src_set_ratio (Some st) r = (e, Some st') /\ hold_ok kd st' /\ st_mode st' = st_mode st /\ st_channels st' = st_channels st.
Proof.
  intros (A & B & C & D & E & F & h & P & L) N. unfold src_set_ratio.
  destruct (is_bad_src_ratio r) eqn:Bd.
  - exists SRC_ERR_BAD_SRC_RATIO, st. repeat split; auto; try apply E. eauto.
  - apply is_bad_src_ratio_spec in Bd. destruct Bd as [Bd|G]; [congruence|].
    exists 0, (set_ratio st r). repeat split; cbn; auto; try apply E. eauto.
Qed.

Lemma history_ok kd CS (cb : callback_t CS) dummy : forall cs st,
  hold_ok kd st -> st_mode st = MODE_PROCESS -> Forall (valid_op (st_channels st)) cs -> Forall (op_room kd) cs ->
  exists rs st', api_run CS cb dummy st cs = Ok (rs, st') /\ Forall2 (honest (st_channels st)) cs rs /\
    hold_ok kd st' /\ st_mode st' = MODE_PROCESS /\ st_channels st' = st_channels st.
Proof.
  induction cs as [|c cs IH]; intros st Hok Hm Hv Hr.
  - exists [], st. repeat split; auto; apply Hok.
  - inversion Hv as [|? ? V1 V2]; subst. inversion Hr as [|? ? R1 R2]; subst.
    assert (Step : exists r st1, api_step CS cb dummy st c = Ok (r, st1) /\ honest (st_channels st) c r /\
              hold_ok kd st1 /\ st_mode st1 = MODE_PROCESS /\ st_channels st1 = st_channels st).
    { destruct c as [[d|] m|fuel ratio frames data cs0 m|r| | |]; cbn [api_step].
      - destruct (process_honest kd st d m Hok Hm V1 R1) as (st' & d' & m' & E & H & O & S & _).
        rewrite E. cbn [bind keep]. eexists; eexists; split; [reflexivity|]. split; [exact H|].
        split; [exact O|]. destruct S as (_ & _ & S1 & S2 & _). split; congruence.
      - unfold src_process. rewrite Hm. cbn. eexists; eexists; split; [reflexivity|]. repeat split; auto; try apply Hok. discriminate.
      - unfold src_callback_read. destruct (frames <=? 0); [|rewrite Hm]; cbn;
          eexists; eexists; (split; [reflexivity|]); repeat split; auto; try apply Hok.
      - destruct (set_ratio_ok kd st r Hok V1) as (e & st' & E & O & M & C). rewrite E. cbn [keep].
        eexists; eexists; split; [reflexivity|]. split; [exact I|]. split; [exact O|]. split; congruence.
      - destruct (hold_reset_ok kd st Hok) as (st' & E & O & M & C & _). rewrite E. cbn [bind keep].
        eexists; eexists; split; [reflexivity|]. split; [exact I|]. split; [exact O|]. split; congruence.
      - eexists; eexists; split; [reflexivity|]. repeat split; auto; apply Hok.
      - eexists; eexists; split; [reflexivity|]. repeat split; auto; apply Hok. }
    destruct Step as (r & st1 & E1 & H1 & O1 & M1 & C1).
    destruct (IH st1 O1 M1) as (rs & st2 & E2 & H2 & O2 & M2 & C2); auto.
    { now rewrite C1. }
    cbn [api_run]. rewrite E1. cbn [bind]. rewrite E2. cbn [bind].
    exists (r :: rs), st2. split; [reflexivity|]. rewrite C1 in H2. split; [constructor; auto|]. split; [auto|]. split; congruence.
Qed.
