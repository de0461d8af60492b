(** The loop of src_callback_read, for any converter whose src_process behaves. *)
From Coq Require Import ZArith List Bool Lia.
From Flocq Require Import Core IEEE754.BinarySingleNaN.
From Verif Require Import Base FloatFacts PosFacts Types Api Callback ApiHist HoldSpec HoldFacts HoldCore HoldProcess ProcFacts SincApi CbSpec.
Import ListNotations.
Local Open Scope Z_scope.

Definition clamp (d : SRC_DATA) : SRC_DATA := set_frames d (Z.max 0 (input_frames d)) (output_frames d).

(** Either src_process refuses the request and changes nothing, or the request is legal. *)
Lemma process_cases pool ch st d m : 0 < ch -> st_channels st = ch -> st_mode st = MODE_PROCESS -> in_range (src_ratio d) ->
  mapped pool m -> block_in pool ch (data_in d) (input_frames d) ->
  0 < output_frames d -> output_frames d * ch <= 2 ^ 50 -> 0 <= data_out d -> data_out d + output_frames d * ch <= 2 ^ 60 ->
  (data_out d = 0 \/ writable m (data_out d) ch (output_frames d)) ->
  (exists e, e <> 0 /\ (src_process (Some st) (Some d) m = Ok (e, Some st, Some d, m) \/
                        src_process (Some st) (Some d) m = Ok (e, Some st, Some (clamp d), m))) \/
  (valid_call ch (clamp d) m /\ src_process (Some st) (Some d) m = src_process (Some st) (Some (clamp d)) m).
Proof.
  intros Hc Ec Hm Hr Mp [Bp Bn] Ho Ho1 Hd Hd1 Hw.
  assert (Bd : is_bad_src_ratio (src_ratio d) = false) by (apply good_not_bad; exact Hr).
  set (n1 := Z.max 0 (input_frames d)).
  assert (Cl : set_frames d (if input_frames d <? 0 then 0 else input_frames d) (if output_frames d <? 0 then 0 else output_frames d) = clamp d).
  { unfold clamp, set_frames. f_equal; [destruct (Z.ltb_spec (input_frames d) 0); lia|destruct (Z.ltb_spec (output_frames d) 0); lia]. }
  assert (Cl2 : set_frames (clamp d) (if input_frames (clamp d) <? 0 then 0 else input_frames (clamp d)) (if output_frames (clamp d) <? 0 then 0 else output_frames (clamp d)) = clamp d).
  { unfold clamp, set_frames. cbn [input_frames output_frames data_in data_out input_frames_used output_frames_gen end_of_input src_ratio].
    f_equal; [destruct (Z.ltb_spec (Z.max 0 (input_frames d)) 0); lia|destruct (Z.ltb_spec (output_frames d) 0); lia]. }
  destruct (((data_in d =? 0) && (0 <? input_frames d)) || ((data_out d =? 0) && (0 <? output_frames d))) eqn:Pt.
  { left. exists SRC_ERR_BAD_DATA_PTR. split; [discriminate|]. left. unfold src_process. rewrite Hm. cbn [is_process negb]. now rewrite Pt. }
  assert (Pt2 : ((data_in (clamp d) =? 0) && (0 <? input_frames (clamp d))) || ((data_out (clamp d) =? 0) && (0 <? output_frames (clamp d))) = false).
  { rewrite <- Pt. unfold clamp. cbn [set_frames data_in data_out input_frames output_frames].
    replace (0 <? Z.max 0 (input_frames d)) with (0 <? input_frames d); [reflexivity|].
    destruct (Z.ltb_spec 0 (input_frames d)), (Z.ltb_spec 0 (Z.max 0 (input_frames d))); lia. }
  apply orb_false_iff in Pt. destruct Pt as [Q1 Q2].
  assert (N1 : 0 < input_frames d -> data_in d <> 0).
  { intros L. destruct (Z.eqb_spec (data_in d) 0); [|assumption]. replace (0 <? input_frames d) with true in Q1; [discriminate Q1|]. symmetry. now apply Z.ltb_lt. }
  assert (N2 : data_out d <> 0).
  { destruct (Z.eqb_spec (data_out d) 0); [|assumption]. replace (0 <? output_frames d) with true in Q2; [discriminate Q2|]. symmetry. now apply Z.ltb_lt. }
  assert (Hn : 0 <= n1 /\ n1 * ch <= 2 ^ 50 /\ (0 < n1 -> data_in d + n1 * ch <= 2 ^ 60) /\ forall i, 0 <= i < n1 * ch -> pool (data_in d + i)).
  { unfold n1. destruct (Z_le_gt_dec (input_frames d) 0) as [L|L].
    - rewrite Z.max_l by lia. repeat split; try lia; intros; lia.
    - destruct Bn as [B|[B|(B1 & B2 & B3)]]; [lia|elim N1; [lia|exact B]|]. rewrite Z.max_r by lia. repeat split; auto; lia. }
  destruct Hn as (Hn0 & Hn1 & Hn2 & Hn3).
  assert (Ov : exists b, overlap_test ch (clamp d) = Ok b /\ (b = false -> apart (data_in d) (n1 * ch) (data_out d) (output_frames d * ch))).
  { unfold overlap_test, ptr_add, apart, clamp. cbn [set_frames data_in data_out input_frames output_frames]. fold n1.
    destruct (Z.ltb_spec (data_in d) (data_out d)) as [L|L].
    - rewrite long_ok by nia. cbn [bind].
      replace ((0 <=? data_in d + n1 * ch) && (data_in d + n1 * ch <? 2 ^ 62)) with true.
      2: { symmetry. apply andb_true_intro. split; [apply Z.leb_le|apply Z.ltb_lt]; nia. }
      cbn [bind]. eexists. split; [reflexivity|]. intros E. apply Z.ltb_ge in E. lia.
    - rewrite long_ok by nia. cbn [bind].
      replace ((0 <=? data_out d + output_frames d * ch) && (data_out d + output_frames d * ch <? 2 ^ 62)) with true.
      2: { symmetry. apply andb_true_intro. split; [apply Z.leb_le|apply Z.ltb_lt]; nia. }
      cbn [bind]. eexists. split; [reflexivity|]. intros E. apply Z.ltb_ge in E. lia. }
  destruct Ov as (b & Ov & Oa). destruct b.
  - left. exists SRC_ERR_DATA_OVERLAP. split; [discriminate|]. right. unfold src_process. rewrite Hm. cbn [is_process negb].
    rewrite Q1, Q2. cbn [orb]. rewrite Bd, Cl, Ec, Ov. reflexivity.
  - right. split.
    + unfold valid_call, clamp. cbn [set_frames data_in data_out input_frames output_frames src_ratio]. fold n1.
      split; [exact Hn0|]. split; [lia|]. split; [exact Hn1|]. split; [exact Ho1|]. split; [exact Hr|].
      split; [intros L; apply N1; unfold n1 in L; lia|]. split; [intros _; exact N2|]. split; [exact Bp|]. split; [nia|].
      split; [intros i Hi; apply Mp, Hn3; exact Hi|]. split; [destruct Hw as [Hw|Hw]; [contradiction|exact Hw]|]. now apply Oa.
    + unfold src_process. rewrite Hm. cbn [is_process negb]. rewrite Q1, Q2, Pt2. cbn [orb].
      change (src_ratio (clamp d)) with (src_ratio d). rewrite Bd, Cl, Cl2. reflexivity.
Qed.

(** Fields of the state that src_process does not look at. *)
Record adm_kept (e : Z) (st st' : SRC_STATE) : Prop := {
  ak_mode : st_mode st' = st_mode st;
  ak_cb : st_callback st' = st_callback st;
  ak_ud : st_user_data st' = st_user_data st;
  ak_sf : st_saved_frames st' = st_saved_frames st;
  ak_sd : st_saved_data st' = st_saved_data st;
  ak_err : st_error st' = st_error st \/ st_error st' = 0 \/ st_error st' = e
}.
Lemma process_adm st d m e st' d' m' : src_process (Some st) (Some d) m = Ok (e, Some st', d', m') -> adm_kept e st st'.
Proof.
  unfold src_process. intros H.
  assert (Rf : adm_kept e st st) by (constructor; auto).
  repeat match type of H with
    | (if ?b then _ else _) = _ => destruct b; [injection H as <- <- <- <-; exact Rf|]
    | bind (overlap_test ?a ?b) _ = _ => destruct (overlap_test a b) as [ov|]; [cbn [bind] in H|discriminate H]
    end.
  set (s1 := if dlt (st_last_ratio st) (ddiv done_ (d_of_Z SRC_MAX_RATIO)) then _ else st) in H.
  assert (R : bind (vt_process s1 (set_counts (set_frames d (if input_frames d <? 0 then 0 else input_frames d)
      (if output_frames d <? 0 then 0 else output_frames d)) 0 0) m) (fun '(e, st2, d3, m') => Ok (e, Some st2, Some d3, m')) = Ok (e, Some st', d', m')).
  { destruct (dlt (dabs _) _) in H; exact H. }
  clear H. ok_step R. destruct v as [[[e1 st1] d1] m1]. injection R as -> -> _ _.
  apply vt_shape in E. destruct E as (_ & K & _ & _ & Er).
  assert (S : st_mode s1 = st_mode st /\ st_callback s1 = st_callback st /\ st_user_data s1 = st_user_data st /\ st_saved_frames s1 = st_saved_frames st /\ st_saved_data s1 = st_saved_data st /\ st_error s1 = st_error st)
    by (unfold s1; destruct (dlt _ _); repeat split).
  destruct S as (S1 & S2 & S3 & S4 & S5 & S6). destruct K. constructor; try congruence; intuition congruence.
Qed.

Section Core.
  Variables (CS : Type) (cb : callback_t CS) (dummy : Z) (pool : Z -> Prop) (ch : Z).
  Variable Good : SRC_STATE -> Prop.
  Variable allowed : fault -> Prop.
  Hypothesis Hch : 0 < ch.
  Hypothesis G_ch : forall st, Good st -> st_channels st = ch.
  Hypothesis G_mode : forall st x, Good st -> Good (set_mode st x).
  Hypothesis G_saved : forall st x y, Good st -> Good (set_saved st x y).
  Hypothesis G_error : forall st x, Good st -> Good (set_error st x).
  Hypothesis G_call : forall st d m, Good st -> st_mode st = MODE_PROCESS -> valid_call ch d m ->
    (exists f, src_process (Some st) (Some d) m = Fault f /\ allowed f) \/
    (exists e st' d' m', src_process (Some st) (Some d) m = Ok (e, Some st', Some d', m') /\
       truthful_reply ch d m e d' m' /\ Good st').
  Hypothesis Hcb : proper CS cb dummy pool ch.

  Lemma fetch_ok st d cs m : mapped pool m -> block_in pool ch (data_in d) (input_frames d) ->
    exists d1 cs1 m1, cb_fetch CS cb dummy st d cs m = (d1, cs1, m1) /\
      block_in pool ch (data_in d1) (input_frames d1) /\
      data_out d1 = data_out d /\ output_frames d1 = output_frames d /\ src_ratio d1 = src_ratio d /\
      (forall a, m a <> None -> m1 a <> None) /\ (forall a, leaves_alone CS cb a -> m1 a = m a) /\
      (end_of_input d1 = 1 -> end_of_input d = 1 \/ forall ended, marks_end CS cb ended -> ended cs1) /\
      (forall ended, marks_end CS cb ended -> ended cs -> ended cs1) /\
      (nonnegative CS cb -> input_frames d1 < 0 \/ (input_frames d1 = 0 /\ end_of_input d1 <> 1) -> input_frames d < 0).
  Proof.
    intros Mp B. unfold cb_fetch. destruct (input_frames d =? 0) eqn:Z0.
    - assert (P := Hcb (st_callback st) (st_user_data st) cs m Mp).
      destruct (cb (st_callback st) (st_user_data st) cs m) as [[[cs1 m1] ptr] n] eqn:E. destruct P as [P1 P2].
      eexists _, _, _. split; [reflexivity|]. cbn [data_in input_frames data_out output_frames src_ratio end_of_input].
      split; [exact P2|]. do 3 (split; [reflexivity|]). split; [exact P1|]. split.
      { intros a A. specialize (A (st_callback st) (st_user_data st) cs m). rewrite E in A. exact A. }
      split.
      + destruct (Z.eqb_spec n 0) as [N|N]; [|auto]. intros _. right. intros ended M.
        specialize (M (st_callback st) (st_user_data st) cs m). rewrite E in M. exact (proj1 M N).
      + split.
        * intros ended M. specialize (M (st_callback st) (st_user_data st) cs m). rewrite E in M. apply M.
        * intros Nn. specialize (Nn (st_callback st) (st_user_data st) cs m). rewrite E in Nn.
          intros [Q|[-> Q]]; [lia|]. now elim Q.
    - exists d, cs, m. split; [reflexivity|]. split; [exact B|]. do 3 (split; [reflexivity|]). do 4 (split; [auto|]).
      intros _ [Q|[Q _]]; [exact Q|]. rewrite Q in Z0. discriminate Z0.
  Qed.

  (** ** One turn of the loop *)
  Definition next_args : Type := SRC_STATE * SRC_DATA * Z * CS * mem.
  Definition rest (d : SRC_DATA) : SRC_DATA :=
    mkData (data_in d + input_frames_used d * ch) (data_out d + output_frames_gen d * ch) (input_frames d - input_frames_used d)
           (output_frames d - output_frames_gen d) (input_frames_used d) (output_frames_gen d) (end_of_input d) (src_ratio d).
  Definition body (state : SRC_STATE) (d : SRC_DATA) (gen : Z) (cs : CS) (m : mem) : outcome (loop_result CS + next_args) :=
    let '(d1, cs1, m1) := cb_fetch CS cb dummy state d cs m in
    do (error, so, dop, m2) <- src_process (Some (set_mode state MODE_PROCESS)) (Some d1) m1 ;
    match so, dop with
    | Some st2, Some d2 =>
        let st3 := set_mode st2 MODE_CALLBACK in
        if negb (error =? 0) then Ok (inl (error, st3, d2, gen, cs1, m2))
        else
          do iu <- long_op (input_frames_used d2 * st_channels st3) ;
          do ou <- long_op (output_frames_gen d2 * st_channels st3) ;
          do inf <- long_op (input_frames d2 - input_frames_used d2) ;
          do outf <- long_op (output_frames d2 - output_frames_gen d2) ;
          let d3 := mkData (data_in d2 + iu) (data_out d2 + ou) inf outf
                           (input_frames_used d2) (output_frames_gen d2) (end_of_input d2) (src_ratio d2) in
          do gen' <- long_op (gen + output_frames_gen d2) ;
          if (end_of_input d2 =? 1) && (output_frames_gen d2 =? 0)
          then Ok (inl (0, st3, d3, gen', cs1, m2))
          else Ok (inr (st3, d3, gen', cs1, m2))
    | _, _ => Fault F_null
    end.
  Lemma loop_body fuel frames state d gen cs m : cb_loop CS cb dummy (S fuel) frames state d gen cs m =
    if gen <? frames then
      do r <- body state d gen cs m ;
      match r with inl res => Ok res | inr (st', d', gen', cs', m') => cb_loop CS cb dummy fuel frames st' d' gen' cs' m' end
    else Ok (0, state, d, gen, cs, m).
  Proof.
    cbn [cb_loop]. destruct (gen <? frames); [|reflexivity]. unfold body. destruct (cb_fetch CS cb dummy state d cs m) as [[d1 cs1] m1].
    destruct (src_process _ _ _) as [[[[e [st2|]] [d2|]] m2]|f]; cbn [bind]; try reflexivity.
    destruct (negb (e =? 0)); [reflexivity|].
    destruct (long_op (input_frames_used d2 * _)); [cbn [bind]|reflexivity]. destruct (long_op (output_frames_gen d2 * _)); [cbn [bind]|reflexivity].
    destruct (long_op (input_frames d2 - _)); [cbn [bind]|reflexivity]. destruct (long_op (output_frames d2 - _)); [cbn [bind]|reflexivity].
    destruct (long_op (gen + _)); [cbn [bind]|reflexivity]. now destruct ((_ =? 1) && _).
  Qed.

  (** What a turn does: the callback is asked if nothing is left; then src_process refuses the request, fails, produces
      nothing at the end of the input, or goes on. *)
  Inductive turn (st : SRC_STATE) (d : SRC_DATA) (gen : Z) (cs : CS) (m : mem) : loop_result CS + next_args -> Prop :=
  | T_refused d1 cs1 m1 e d2 : cb_fetch CS cb dummy st d cs m = (d1, cs1, m1) -> e <> 0 -> d2 = d1 \/ d2 = clamp d1 ->
      turn st d gen cs m (inl (e, set_mode st MODE_CALLBACK, d2, gen, cs1, m1))
  | T_failed d1 cs1 m1 e st2 d2 m2 : cb_fetch CS cb dummy st d cs m = (d1, cs1, m1) -> valid_call ch (clamp d1) m1 ->
      src_process (Some (set_mode st MODE_PROCESS)) (Some (clamp d1)) m1 = Ok (e, Some st2, Some d2, m2) ->
      truthful_reply ch (clamp d1) m1 e d2 m2 -> Good st2 -> e <> 0 ->
      turn st d gen cs m (inl (e, set_mode st2 MODE_CALLBACK, d2, gen, cs1, m2))
  | T_ended d1 cs1 m1 st2 d2 m2 : cb_fetch CS cb dummy st d cs m = (d1, cs1, m1) -> valid_call ch (clamp d1) m1 ->
      src_process (Some (set_mode st MODE_PROCESS)) (Some (clamp d1)) m1 = Ok (0, Some st2, Some d2, m2) ->
      honest_reply ch (clamp d1) m1 0 d2 m2 -> Good st2 -> end_of_input d1 = 1 -> output_frames_gen d2 = 0 ->
      turn st d gen cs m (inl (0, set_mode st2 MODE_CALLBACK, rest d2, gen + output_frames_gen d2, cs1, m2))
  | T_next d1 cs1 m1 st2 d2 m2 : cb_fetch CS cb dummy st d cs m = (d1, cs1, m1) -> valid_call ch (clamp d1) m1 ->
      src_process (Some (set_mode st MODE_PROCESS)) (Some (clamp d1)) m1 = Ok (0, Some st2, Some d2, m2) ->
      honest_reply ch (clamp d1) m1 0 d2 m2 -> Good st2 -> ~ (end_of_input d1 = 1 /\ output_frames_gen d2 = 0) ->
      turn st d gen cs m (inr (set_mode st2 MODE_CALLBACK, rest d2, gen + output_frames_gen d2, cs1, m2)).

  Section Read.
    Variables (ratio : f64) (frames data : Z) (m0 : mem).
    Hypothesis Hr : in_range ratio.
    Hypothesis Hf : frames * ch <= 2 ^ 50.
    Hypothesis Hd : 0 <= data.
    Hypothesis Hd1 : data + frames * ch <= 2 ^ 60.

    (** What holds before each turn. *)
    Record inv (st : SRC_STATE) (d : SRC_DATA) (gen : Z) (cs : CS) (m : mem) : Prop := {
      i_good : Good st;
      i_mode : st_mode st = MODE_CALLBACK;
      i_map : mapped pool m;
      i_block : block_in pool ch (data_in d) (input_frames d);
      i_gen : 0 <= gen <= frames;
      i_out : data_out d = data + gen * ch;
      i_room : output_frames d = frames - gen;
      i_ratio : src_ratio d = ratio;
      i_buf : (data = 0 /\ gen = 0) \/ writable m data ch frames;
      i_mem : forall a, leaves_alone CS cb a -> ~ (data <= a < data + gen * ch) -> m a = m0 a;
      i_end : end_of_input d = 1 -> forall ended, marks_end CS cb ended -> ended cs
    }.

    (** What holds at the end. *)
    Definition loop_ok (cbk err : Z) (r : loop_result CS) : Prop :=
      let '(e, st', d', g', cs', m') := r in
      Good st' /\ st_mode st' = MODE_CALLBACK /\ st_callback st' = cbk /\
      (st_error st' = err \/ st_error st' = 0 \/ (e <> 0 /\ st_error st' = e)) /\
      block_in pool ch (data_in d') (input_frames d') /\ 0 <= g' <= frames /\
      (forall a, leaves_alone CS cb a -> ~ (data <= a < data + (if e =? 0 then g' else frames) * ch) -> m' a = m0 a) /\
      (e = 0 -> g' < frames -> (forall ended, marks_end CS cb ended -> ended cs') /\
         ran_dry ch ratio (frames - g') (set_saved st' (input_frames d') (data_in d')) m').

    Lemma body_turn st d gen cs m : inv st d gen cs m -> gen < frames ->
      (exists f, body st d gen cs m = Fault f /\ allowed f) \/ (exists k, body st d gen cs m = Ok k /\ turn st d gen cs m k).
    Proof.
      intros [G Hm Mp B Hg Eo En Er Hw Hu He] L. unfold body.
      destruct (fetch_ok st d cs m Mp B) as (d1 & cs1 & m1 & Ef & B1 & F1 & F2 & F3 & F4 & F5 & F6 & F7 & F8). rewrite Ef.
      assert (Mp1 : mapped pool m1) by (intros a A; apply F4, Mp, A).
      assert (Hw1 : data_out d1 = 0 \/ writable m1 (data_out d1) ch (output_frames d1)).
      { rewrite F1, F2, Eo, En. destruct Hw as [[-> ->]|Hw]; [left; lia|right]. intros i Hi. apply F4.
        replace (data + gen * ch + i) with (data + (gen * ch + i)) by lia. apply Hw. nia. }
      assert (G1 := G_mode st MODE_PROCESS G).
      assert (Cc : st_channels (set_mode st MODE_PROCESS) = ch) by (apply G_ch; exact G1).
      destruct (process_cases pool ch (set_mode st MODE_PROCESS) d1 m1 Hch Cc eq_refl) as [(e & Ne & P)|[V P]]; try assumption.
      - rewrite F3, Er. exact Hr.
      - rewrite F2. lia.
      - rewrite F2, En. nia.
      - rewrite F1, Eo. nia.
      - rewrite F1, F2, Eo, En. lia.
      - right. assert (P' : exists d2, src_process (Some (set_mode st MODE_PROCESS)) (Some d1) m1 = Ok (e, Some (set_mode st MODE_PROCESS), Some d2, m1) /\
                             (d2 = d1 \/ d2 = clamp d1)) by (destruct P as [P|P]; eauto).
        destruct P' as (d2 & P' & B2). rewrite P'. cbn [bind]. replace (e =? 0) with false by (symmetry; now apply Z.eqb_neq). cbn [negb].
        eexists. split; [reflexivity|]. exact (T_refused st d gen cs m d1 cs1 m1 e d2 Ef Ne B2).
      - rewrite P. destruct (G_call _ (clamp d1) m1 G1 eq_refl V) as [(f & E & Af)|(e & st2 & d2 & m2 & E & T & G2)].
        { left. exists f. rewrite E. auto. }
        right. rewrite E. cbn [bind]. destruct (Z.eqb_spec e 0) as [E0|E0]; cbn [negb].
        2: { eexists. split; [reflexivity|]. exact (T_failed st d gen cs m d1 cs1 m1 e st2 d2 m2 Ef V E T G2 E0). }
        subst e. destruct T as [T|(Q & _)]; [|discriminate Q]. rewrite (G_ch (set_mode st2 MODE_CALLBACK)) by (apply G_mode; exact G2).
        assert (T' := T). assert (V' := V). destruct T' as (_ & Td & Tu & Tg & _).
        assert (X1 : end_of_input d2 = end_of_input d1 /\ input_frames d2 = input_frames (clamp d1) /\ output_frames d2 = output_frames d1)
          by (rewrite Td; repeat split). destruct X1 as (X1 & X2 & X3).
        destruct V' as (V1 & V2 & V3 & V4 & _).
        cbn [output_frames input_frames clamp set_frames] in *.
        rewrite !long_ok by nia. cbn [bind]. rewrite X1. fold (rest d2).
        assert (Rd : {| data_in := data_in d2 + input_frames_used d2 * ch; data_out := data_out d2 + output_frames_gen d2 * ch;
          input_frames := input_frames d2 - input_frames_used d2; output_frames := output_frames d2 - output_frames_gen d2;
          input_frames_used := input_frames_used d2; output_frames_gen := output_frames_gen d2; end_of_input := end_of_input d1;
          src_ratio := src_ratio d2 |} = rest d2) by (unfold rest; rewrite X1; reflexivity).
        rewrite Rd. destruct (Z.eqb_spec (end_of_input d1) 1) as [Y1|Y1]; [destruct (Z.eqb_spec (output_frames_gen d2) 0) as [Y2|Y2]|]; cbn [andb];
          (eexists; split; [reflexivity|]).
        + exact (T_ended st d gen cs m d1 cs1 m1 st2 d2 m2 Ef V E T G2 Y1 Y2).
        + apply (T_next st d gen cs m d1 cs1 m1 st2 d2 m2 Ef V E T G2). tauto.
        + apply (T_next st d gen cs m d1 cs1 m1 st2 d2 m2 Ef V E T G2). tauto.
    Qed.

    Lemma clamp_block d : block_in pool ch (data_in d) (input_frames d) -> block_in pool ch (data_in (clamp d)) (input_frames (clamp d)).
    Proof.
      intros [C1 C2]. cbn [clamp set_frames data_in input_frames]. split; [exact C1|].
      destruct (Z_le_gt_dec (input_frames d) 0) as [N|N]; [left; lia|rewrite Z.max_r by lia; exact C2].
    Qed.
    (** The part of a block that is left over. *)
    Lemma rest_block d m d2 m2 : block_in pool ch (data_in d) (input_frames d) -> valid_call ch (clamp d) m -> honest_reply ch (clamp d) m 0 d2 m2 ->
      block_in pool ch (data_in (rest d2)) (input_frames (rest d2)).
    Proof.
      intros [C1 C2] (V1 & V2 & V3 & V4 & _ & Vi & Vo & V5 & V6 & _) (_ & Td & Tu & Tg & _).
      assert (X : data_in d2 = data_in d /\ input_frames d2 = Z.max 0 (input_frames d)) by (rewrite Td; split; reflexivity). destruct X as [X1 X2].
      cbn [rest data_in input_frames clamp set_frames data_out output_frames] in *. rewrite X1, X2. set (us := input_frames_used d2) in *. clearbody us.
      assert (Uc : 0 <= us * ch <= Z.max 0 (input_frames d) * ch) by nia. split.
      - destruct C2 as [C2|[C2|(C2 & C3 & _)]]; [|rewrite C2; lia|split; [lia|]; destruct (Z_le_gt_dec (input_frames d) 0); [replace us with 0 by lia; lia|rewrite Z.max_r in Uc by lia; lia]].
        replace us with 0 by lia. lia.
      - destruct C2 as [C2|[C2|(C2 & C3 & C4)]].
        + left. lia.
        + destruct (Z_le_gt_dec (input_frames d) 0); [left; lia|]. exfalso. apply Vi; [lia|exact C2].
        + destruct (Z_le_gt_dec (input_frames d) us); [left; lia|]. right; right. split; [nia|]. split; [nia|].
          intros i Hi. rewrite <- Z.add_assoc. apply C4. nia.
    Qed.
    Lemma reply_keeps d m d2 m2 a : honest_reply ch d m 0 d2 m2 -> m a <> None -> m2 a <> None.
    Proof.
      intros (_ & _ & _ & Tg & v & Tw & Tk) A. set (ge := output_frames_gen d2) in *. clearbody ge.
      destruct (Z_lt_ge_dec a (data_out d)) as [Q|Q]; [rewrite Tk; [exact A|lia]|].
      destruct (Z_lt_ge_dec a (data_out d + ge * ch)) as [Q2|Q2]; [|rewrite Tk; [exact A|lia]].
      set (i := a - data_out d). assert (0 <= i < ge * ch) by (unfold i; lia).
      assert (Ei : i = (i / ch) * ch + i mod ch) by (rewrite Z.mul_comm; apply Z.div_mod; lia).
      assert (Hq : 0 <= i / ch < ge). { split; [apply Z.div_pos; lia|apply Z.div_lt_upper_bound; lia]. }
      assert (Hrm := Z.mod_pos_bound i ch ltac:(lia)).
      specialize (Tw _ _ Hq Hrm). rewrite <- Ei in Tw. replace (data_out d + i) with a in Tw by (unfold i; lia). congruence.
    Qed.

    Lemma turn_next st d gen cs m st' d' gen' cs' m' : inv st d gen cs m -> gen < frames -> turn st d gen cs m (inr (st', d', gen', cs', m')) ->
      inv st' d' gen' cs' m' /\ st_callback st' = st_callback st /\ (st_error st' = st_error st \/ st_error st' = 0).
    Proof.
      intros [G Hm Mp B Hg Eo En Er Hw Hu He] L T. inversion T as [| | |d1 cs1 m1 st2 d2 m2 Ef V E R G2 Nx]. subst. clear T.
      destruct (fetch_ok st d cs m Mp B) as (d1' & cs1' & m1' & Ef' & B1 & F1 & F2 & F3 & F4 & F5 & F6 & F7 & F8). rewrite Ef in Ef'. injection Ef' as <- <- <-.
      assert (K := process_adm _ _ _ _ _ _ _ E).
      split; [|split; [apply (ak_cb _ _ _ K)|cbn [set_mode st_error]; destruct (ak_err _ _ _ K) as [J|[J|J]]; rewrite J; cbn; auto]].
      assert (Kp := fun a => reply_keeps (clamp d1) m1 d2 m' a R).
      destruct R as (R0 & Td & Tu & Tg & v & Tw & Tk).
      assert (X : data_out d2 = data_out d1 /\ output_frames d2 = output_frames d1 /\ src_ratio d2 = src_ratio d1 /\ end_of_input d2 = end_of_input d1)
        by (rewrite Td; repeat split). destruct X as (X1 & X2 & X3 & X4).
      cbn [clamp set_frames output_frames data_out] in *.
      constructor; cbn [rest data_in data_out input_frames output_frames src_ratio end_of_input set_mode st_mode].
      - apply G_mode. exact G2.
      - reflexivity.
      - intros a A. apply Kp, F4, Mp, A.
      - exact (rest_block d1 m1 d2 m' B1 V (conj R0 (conj Td (conj Tu (conj Tg (ex_intro _ v (conj Tw Tk))))))).
      - lia.
      - rewrite X1, F1, Eo. lia.
      - rewrite X2, F2, En. lia.
      - congruence.
      - destruct Hw as [[Hw1 Hw2]|Hw].
        + exfalso. destruct V as (_ & _ & _ & _ & _ & _ & Vo & _). cbn [clamp set_frames output_frames data_out] in Vo.
          apply Vo; [rewrite F2; lia|]. rewrite F1, Eo, Hw1, Hw2. lia.
        + right. intros i Hi. apply Kp, F4, Hw, Hi.
      - intros a A N. rewrite Tk.
        + rewrite (F5 a A). apply Hu; [exact A|]. nia.
        + rewrite F1, Eo. nia.
      - rewrite X4. intros Q ended M. destruct (F6 Q) as [Q'|Q']; [|exact (Q' ended M)]. apply (F7 ended M). exact (He Q' ended M).
    Qed.

    Lemma turn_done st d gen cs m r : inv st d gen cs m -> gen < frames -> turn st d gen cs m (inl r) -> loop_ok (st_callback st) (st_error st) r.
    Proof.
      intros [G Hm Mp B Hg Eo En Er Hw Hu He] L T.
      inversion T as [d1 cs1 m1 e d2 Ef Ne Dd|d1 cs1 m1 e st2 d2 m2 Ef V E R G2 Ne|d1 cs1 m1 st2 d2 m2 Ef V E R G2 Ee Eg|]; subst; clear T;
        destruct (fetch_ok st d cs m Mp B) as (d1' & cs1' & m1' & Ef' & B1 & F1 & F2 & F3 & F4 & F5 & F6 & F7 & F8); rewrite Ef in Ef'; injection Ef' as <- <- <-;
        unfold loop_ok; try (replace (e =? 0) with false by (symmetry; now apply Z.eqb_neq)).
      - split; [apply G_mode; exact G|]. split; [reflexivity|]. split; [reflexivity|]. split; [left; reflexivity|].
        split; [destruct Dd as [->| ->]; [exact B1|apply clamp_block; exact B1]|]. split; [lia|]. split; [|intros; contradiction].
        intros a A N. rewrite (F5 a A). apply Hu; [exact A|]. nia.
      - assert (K := process_adm _ _ _ _ _ _ _ E). destruct R as [[Q _]|(_ & _ & Q & Qm)]; [contradiction|].
        split; [apply G_mode; exact G2|]. split; [reflexivity|]. split; [apply (ak_cb _ _ _ K)|].
        split; [cbn [set_mode st_error]; destruct (ak_err _ _ _ K) as [J|[J|J]]; rewrite J; cbn; auto|].
        split; [rewrite Q; apply clamp_block; exact B1|]. split; [lia|]. split; [|intros; contradiction]. intros a A N. rewrite Qm.
        + rewrite (F5 a A). apply Hu; [exact A|]. nia.
        + cbn [clamp set_frames data_out output_frames]. rewrite F1, F2, Eo, En. nia.
      - assert (K := process_adm _ _ _ _ _ _ _ E). rewrite Z.eqb_refl.
        split; [apply G_mode; exact G2|]. split; [reflexivity|]. split; [apply (ak_cb _ _ _ K)|].
        split; [cbn [set_mode st_error]; destruct (ak_err _ _ _ K) as [J|[J|J]]; rewrite J; cbn; auto|].
        split; [exact (rest_block d1 m1 d2 m2 B1 V R)|]. destruct R as (R0 & Td & Tu & Tg & v & Tw & Tk). cbn [clamp set_frames data_out output_frames] in *.
        split; [lia|]. split.
        + intros a A N. rewrite Tk.
          * rewrite (F5 a A). apply Hu; [exact A|]. nia.
          * rewrite F1, Eo. nia.
        + intros _ _. split; [intros ended M; destruct (F6 Ee) as [Q|Q]; [|exact (Q ended M)]; apply (F7 ended M); exact (He Q ended M)|].
          exists (set_mode st MODE_PROCESS), (clamp d1), m1, st2, d2. split; [exact V|]. split; [exact E|]. split; [exact Ee|].
          split; [exact (eq_trans F3 Er)|]. split; [cbn [clamp set_frames output_frames]; lia|]. split; [exact Eg|]. rewrite Td. reflexivity.
    Qed.

    (** Any property of the turns carries over to the whole loop. *)
    Section Induct.
      Variable J : SRC_STATE -> SRC_DATA -> Z -> CS -> mem -> Prop.
      Variable Q : loop_result CS -> Prop.
      Variable ends : Prop.
      Variable size : SRC_STATE -> SRC_DATA -> Z -> Z.
      Hypothesis J_full : forall st d gen cs m, inv st d gen cs m -> J st d gen cs m -> gen = frames -> Q (0, st, d, gen, cs, m).
      Hypothesis J_done : forall st d gen cs m r, inv st d gen cs m -> J st d gen cs m -> gen < frames -> turn st d gen cs m (inl r) -> Q r.
      Hypothesis J_next : forall st d gen cs m st' d' gen' cs' m', inv st d gen cs m -> J st d gen cs m -> gen < frames ->
        turn st d gen cs m (inr (st', d', gen', cs', m')) -> inv st' d' gen' cs' m' -> J st' d' gen' cs' m' /\ (ends -> size st' d' gen' < size st d gen).
      Hypothesis J_size : forall st d gen cs m, inv st d gen cs m -> J st d gen cs m -> ends -> 0 <= size st d gen.

      Lemma loop_ind : forall fuel st d gen cs m, inv st d gen cs m -> J st d gen cs m ->
        (exists r, cb_loop CS cb dummy fuel frames st d gen cs m = Ok r /\ loop_ok (st_callback st) (st_error st) r /\ Q r) \/
        (exists f, cb_loop CS cb dummy fuel frames st d gen cs m = Fault f /\ (allowed f \/ (f = F_fuel /\ (ends -> Z.of_nat fuel <= size st d gen)))).
      Proof.
        induction fuel as [|fuel IH]; intros st d gen cs m I Hj.
        { right. exists F_fuel. split; [reflexivity|]. right. split; [reflexivity|]. exact (J_size _ _ _ _ _ I Hj). }
        rewrite loop_body. destruct (Z.ltb_spec gen frames) as [L|L].
        2: { assert (Eg : gen = frames) by (destruct (i_gen _ _ _ _ _ I); lia). left. eexists. split; [reflexivity|].
             split; [|exact (J_full _ _ _ _ _ I Hj Eg)]. unfold loop_ok. rewrite Z.eqb_refl.
             split; [apply I|]. split; [apply I|]. split; [reflexivity|]. split; [now left|]. split; [apply I|]. split; [apply I|]. split; [apply I|]. lia. }
        destruct (body_turn st d gen cs m I L) as [(f & E & Af)|(k & E & T)]; rewrite E; cbn [bind]; [right; eauto|].
        destruct k as [r|[[[[st' d'] gen'] cs'] m']].
        - left. exists r. split; [reflexivity|]. split; [exact (turn_done _ _ _ _ _ _ I L T)|exact (J_done _ _ _ _ _ _ I Hj L T)].
        - destruct (turn_next _ _ _ _ _ _ _ _ _ _ I L T) as (I' & Kc & Ke). destruct (J_next _ _ _ _ _ _ _ _ _ _ I Hj L T I') as [J' S'].
          destruct (IH st' d' gen' cs' m' I' J') as [(r & E' & Lk & Hq)|(f & E' & Af)].
          + left. exists r. split; [exact E'|]. split; [|exact Hq]. destruct r as [[[[[e s] d2] g] cs2] m2]. unfold loop_ok in *.
            destruct Lk as (Z1 & Z2 & Z3 & Z4 & Z5). split; [exact Z1|]. split; [exact Z2|]. split; [congruence|]. split; [|exact Z5]. clear - Z4 Ke. intuition congruence.
          + right. exists f. split; [exact E'|]. destruct Af as [Af|[Ef Af]]; [now left|]. right. split; [exact Ef|]. intros En. rewrite Nat2Z.inj_succ. specialize (Af En). specialize (S' En). lia.
      Qed.
    End Induct.
  End Read.

  (** ** One read *)
  Definition cb_good (st : SRC_STATE) : Prop :=
    Good st /\ st_mode st = MODE_CALLBACK /\ st_callback st <> 0 /\ block_in pool ch (st_saved_data st) (st_saved_frames st).

  (** The request with which the loop starts, and the state in which src_callback_read leaves the converter. *)
  Definition first_data (st : SRC_STATE) (ratio : f64) (frames data : Z) : SRC_DATA :=
    mkData (st_saved_data st) data (st_saved_frames st) frames 0 0 0 ratio.
  Definition outcome_of (r : loop_result CS) (n : Z) (st' : SRC_STATE) (cs' : CS) (m' : mem) : Prop :=
    let '(e, st1, d1, g, cs1, m1) := r in
    cs' = cs1 /\ m' = m1 /\
    (e = 0 /\ n = g /\ st' = set_saved st1 (input_frames d1) (data_in d1) \/
     e <> 0 /\ n = 0 /\ st' = set_error (set_saved st1 (input_frames d1) (data_in d1)) e).

  Section OneRead.
    Variables (st : SRC_STATE) (ratio : f64) (frames data : Z) (cs : CS) (m : mem).
    Variable J : SRC_STATE -> SRC_DATA -> Z -> CS -> mem -> Prop.
    Variable Q : loop_result CS -> Prop.
    Variable ends : Prop.
    Variable size : SRC_STATE -> SRC_DATA -> Z -> Z.
    Hypothesis J_full : forall st d gen cs m1, inv ratio frames data m st d gen cs m1 -> J st d gen cs m1 -> gen = frames -> Q (0, st, d, gen, cs, m1).
    Hypothesis J_done : forall st d gen cs m1 r, in_range ratio -> inv ratio frames data m st d gen cs m1 -> J st d gen cs m1 -> gen < frames ->
      turn st d gen cs m1 (inl r) -> Q r.
    Hypothesis J_next : forall st d gen cs m1 st' d' gen' cs' m', in_range ratio -> inv ratio frames data m st d gen cs m1 -> J st d gen cs m1 -> gen < frames ->
      turn st d gen cs m1 (inr (st', d', gen', cs', m')) -> inv ratio frames data m st' d' gen' cs' m' ->
      J st' d' gen' cs' m' /\ (ends -> size st' d' gen' < size st d gen).
    Hypothesis J_size : forall st d gen cs m1, inv ratio frames data m st d gen cs m1 -> J st d gen cs m1 -> ends -> 0 <= size st d gen.

    Lemma read_cases fuel : cb_good st -> legal_read pool ch ratio frames data m ->
      (0 < frames -> in_range ratio -> J st (first_data st ratio frames data) 0 cs m) ->
      (exists n st' cs' m', src_callback_read CS cb dummy fuel (Some st) ratio frames data cs m = Ok (n, Some st', cs', m') /\
         cb_good st' /\ read_ok CS cb ch ratio frames data st m n st' cs' m' /\
         ((n = 0 /\ cs' = cs /\ m' = m /\ (st' = st /\ frames <= 0 \/ st' = set_error st SRC_ERR_BAD_SRC_RATIO)) \/
          (0 < frames /\ in_range ratio /\ exists r, Q r /\ outcome_of r n st' cs' m'))) \/
      (exists f, src_callback_read CS cb dummy fuel (Some st) ratio frames data cs m = Fault f /\ 0 < frames /\
         (allowed f \/ (f = F_fuel /\ (ends -> Z.of_nat fuel <= size st (first_data st ratio frames data) 0)))).
    Proof.
      intros (G & Hm & Hc & B) Lg Hj. unfold src_callback_read.
      destruct (Z.leb_spec frames 0) as [L|L].
      { left. exists 0, st, cs, m. split; [reflexivity|]. split; [split; auto|]. split; [|left; auto 8]. unfold read_ok. split; [lia|].
        split; [exists 0; split; [lia|]; split; [lia|auto]|]. split; lia. }
      destruct Lg as [O|(Nn & H1 & H2 & H3 & H4 & H5)]; [lia|].
      rewrite Hm. replace (st_callback st =? 0) with false by (symmetry; now apply Z.eqb_neq).
      destruct (is_bad_src_ratio ratio) eqn:Bd.
      { left. eexists _, _, _, _. split; [reflexivity|]. split; [split; [apply G_error; exact G|split; auto]|]. split; [|left; auto 8]. unfold read_ok. split; [lia|].
        split; [exists 0; split; [lia|]; split; [lia|auto]|]. split; [left; split; [reflexivity|discriminate]|lia]. }
      assert (Hr : in_range ratio) by (apply is_bad_src_ratio_spec in Bd; destruct Bd; [congruence|assumption]).
      assert (I : inv ratio frames data m st (first_data st ratio frames data) 0 cs m).
      { constructor; try assumption; try reflexivity; cbn [first_data data_out output_frames end_of_input]; try lia. destruct H4; auto. }
      destruct (loop_ind ratio frames data m Hr H1 H2 H3 J Q ends size J_full (fun s d g c x r => J_done s d g c x r Hr)
        (fun s d g c x s' d' g' c' x' => J_next s d g c x s' d' g' c' x' Hr) J_size fuel st _ 0 cs m I (Hj L Hr)) as [(r & E & Lk & Hq)|(f & E & Af)];
        fold (first_data st ratio frames data); rewrite E; cbn [bind].
      - left. destruct r as [[[[[e st1] d1] g] cs1] m1]. unfold loop_ok in Lk.
        destruct Lk as (Z1 & Z2 & Z3 & Z4 & Z5 & Z6 & Z7 & Z8).
        destruct (Z.eqb_spec e 0) as [E0|E0]; cbn [negb]; eexists _, _, _, _; (split; [reflexivity|]).
        + split. { split; [apply G_saved; exact Z1|]. split; [exact Z2|]. split; [cbn; congruence|exact Z5]. }
          split; [|right; split; [exact L|]; split; [exact Hr|]; eexists; split; [exact Hq|]; cbn; auto 6].
          unfold read_ok. split; [lia|]. split; [exists g; split; [lia|]; split; [auto|exact Z7]|]. split.
          * intros N. right. apply Z8; lia.
          * intros _. cbn. tauto.
        + split. { split; [apply G_error, G_saved; exact Z1|]. split; [exact Z2|]. split; [cbn; congruence|exact Z5]. }
          split; [|right; split; [exact L|]; split; [exact Hr|]; eexists; split; [exact Hq|]; cbn; auto 6].
          unfold read_ok. split; [lia|]. split; [exists frames; split; [lia|]; split; [lia|exact Z7]|]. split; [left; split; [reflexivity|exact E0]|lia].
      - right. exists f. auto.
    Qed.
  End OneRead.

  (** Termination from a measure that does not depend on the callback's state. *)
  Definition drains (mu : SRC_STATE -> Z) (lim : Z) : Prop :=
    (forall st x, mu (set_mode st x) = mu st) /\ (forall st, Good st -> 0 <= mu st <= lim) /\
    (forall st d m st' d' m', Good st -> st_mode st = MODE_PROCESS -> valid_call ch d m ->
       src_process (Some st) (Some d) m = Ok (0, Some st', Some d', m') ->
       (0 < input_frames d -> 0 < output_frames d -> 0 < input_frames_used d' \/ 0 < output_frames_gen d') /\
       (output_frames_gen d' = 0 -> mu st' <= mu st - input_frames_used d')).
  Definition turns (mu : SRC_STATE -> Z) (lim frames : Z) (st : SRC_STATE) (d : SRC_DATA) (gen : Z) : Z :=
    (frames - gen) * (lim + 2) + mu st + (if input_frames d <? 0 then 1 else 0).

  Lemma turn_drains mu lim ratio frames data m0 st d gen cs m st' d' gen' cs' m' : in_range ratio -> drains mu lim -> nonnegative CS cb ->
    inv ratio frames data m0 st d gen cs m -> gen < frames -> turn st d gen cs m (inr (st', d', gen', cs', m')) ->
    turns mu lim frames st' d' gen' < turns mu lim frames st d gen.
  Proof.
    intros Hr (D1 & D2 & D3) Nn [G Hm Mp B Hg Eo En Er Hw Hu He] L T. inversion T as [| | |d1 cs1 m1 st2 d2 m2 Ef V E R G2 Nx]. subst. clear T.
    destruct (fetch_ok st d cs m Mp B) as (d1' & cs1' & m1' & Ef' & B1 & F1 & F2 & F3 & F4 & F5 & F6 & F7 & F8). rewrite Ef in Ef'. injection Ef' as <- <- <-.
    destruct (D3 _ _ _ _ _ _ (G_mode st MODE_PROCESS G) eq_refl V E) as [D4 D5]. rewrite D1 in D5. specialize (F8 Nn).
    assert (M1 := D2 _ G). assert (M2 := D2 _ G2). destruct R as (_ & Td & Tu & Tg & _).
    assert (X2 : input_frames d2 = Z.max 0 (input_frames d1)) by (rewrite Td; reflexivity).
    unfold turns. cbn [rest input_frames clamp set_frames output_frames] in *. rewrite D1.
    set (us := input_frames_used d2) in *. set (ge := output_frames_gen d2) in *. clearbody us ge. rewrite X2.
    replace (Z.max 0 (input_frames d1) - us <? 0) with false by (symmetry; apply Z.ltb_ge; lia).
    destruct (Z.eq_dec ge 0) as [G0|G0].
    - rewrite G0, Z.add_0_r in *. specialize (D5 eq_refl).
      destruct (Z_lt_ge_dec (input_frames d) 0) as [N|N].
      + replace (input_frames d <? 0) with true by (symmetry; now apply Z.ltb_lt). lia.
      + replace (input_frames d <? 0) with false by (symmetry; apply Z.ltb_ge; lia).
        assert (0 < input_frames d1). { destruct (Z_lt_ge_dec (input_frames d1) 0); [lia|]. destruct (Z.eq_dec (input_frames d1) 0); [|lia].
          destruct (Z.eq_dec (end_of_input d1) 1); [tauto|lia]. }
        assert (0 < us \/ 0 < 0) by (apply D4; lia). lia.
    - assert (1 <= ge) by lia. destruct (input_frames d <? 0); nia.
  Qed.
  Lemma turns_pos mu lim ratio frames data m0 st d gen cs m : drains mu lim -> inv ratio frames data m0 st d gen cs m -> 0 <= turns mu lim frames st d gen.
  Proof.
    intros (D1 & D2 & D3) I. assert (M := D2 _ (i_good _ _ _ _ _ _ _ _ _ I)). assert (N := i_gen _ _ _ _ _ _ _ _ _ I). unfold turns. destruct (_ <? 0); nia.
  Qed.

  Lemma read_plain mu lim st ratio frames data cs m fuel : cb_good st -> legal_read pool ch ratio frames data m ->
    (exists n st' cs' m', src_callback_read CS cb dummy fuel (Some st) ratio frames data cs m = Ok (n, Some st', cs', m') /\
       cb_good st' /\ read_ok CS cb ch ratio frames data st m n st' cs' m') \/
    (exists f, src_callback_read CS cb dummy fuel (Some st) ratio frames data cs m = Fault f /\
       (allowed f \/ (f = F_fuel /\ (drains mu lim -> nonnegative CS cb -> Z.of_nat fuel <= frames * (lim + 2) + lim + 1)))).
  Proof.
    intros G Lg. destruct (read_cases st ratio frames data cs m (fun _ _ _ _ _ => True) (fun _ => True) (drains mu lim /\ nonnegative CS cb) (turns mu lim frames)
      (fun _ _ _ _ _ _ _ _ => I) (fun _ _ _ _ _ _ _ _ _ _ _ => I)) with (fuel := fuel) as [(n & st' & cs' & m' & E & K & R & _)|(f & E & Fp & [Af|[-> Af]])];
      try assumption.
    - intros s d g c x s' d' g' c' x' Hr Iv _ L T _. split; [exact I|]. intros [D Nn]. exact (turn_drains mu lim _ _ _ _ _ _ _ _ _ _ _ _ _ _ Hr D Nn Iv L T).
    - intros s d g c x Iv _ [D _]. exact (turns_pos mu lim _ _ _ _ _ _ _ _ _ D Iv).
    - auto.
    - left. eauto 8.
    - right. eauto.
    - right. exists F_fuel. split; [exact E|]. right. split; [reflexivity|]. intros D Nn. specialize (Af (conj D Nn)).
      unfold turns in Af. assert (M := proj1 (proj2 D) st (proj1 G)). cbn [first_data input_frames] in Af. rewrite Z.sub_0_r in Af.
      destruct (_ <? 0); nia.
  Qed.

  (** ** Histories *)
  Hypothesis G_ratio : forall st r, Good st -> is_nan r = false -> is_bad_src_ratio r = false -> Good (set_ratio st r).
  Hypothesis G_reset : forall st, Good st -> exists st', src_reset (Some st) = Ok (0, Some st') /\ Good st' /\
    st_mode st' = st_mode st /\ st_callback st' = st_callback st.

  Lemma cb_step st c : cb_good st -> legal_cb_op CS pool ch c ->
    (exists r st', api_step CS cb dummy st c = Ok (r, st') /\ cb_good st') \/
    (exists f, api_step CS cb dummy st c = Fault f /\ (allowed f \/ f = F_fuel)).
  Proof.
    intros H Lg. destruct c as [d m|fuel ratio frames data cs m|r| | |]; cbn [api_step legal_cb_op] in *.
    - left. unfold src_process. destruct H as (G & Hm & H'). rewrite Hm. cbn. eexists _, _. split; [reflexivity|]. split; auto.
    - destruct (read_plain (fun _ => 0) 0 st ratio frames data cs m fuel H Lg) as [(n & st' & cs' & m' & E & K & _)|(f & E & [Af|[Af _]])]; rewrite E; cbn [bind keep]; eauto 6.
    - left. unfold src_set_ratio. destruct (is_bad_src_ratio r) eqn:Bd; cbn [keep]; eexists _, _; (split; [reflexivity|]); [exact H|].
      destruct H as (G & H'). split; [apply G_ratio; assumption|exact H'].
    - left. destruct H as (G & Hm & Hc & B). destruct (G_reset st G) as (st' & E & G' & M' & C'). rewrite E. cbn [bind keep].
      eexists _, _. split; [reflexivity|]. split; [exact G'|]. split; [congruence|]. split; [congruence|].
      unfold src_reset in E. destruct (vt_reset st) as [s|f]; [|discriminate E]. cbn [bind] in E. injection E as <-. cbn.
      split; [lia|left; lia].
    - left. eexists _, _. split; [reflexivity|exact H].
    - left. eexists _, _. split; [reflexivity|exact H].
  Qed.

  Lemma cb_run : forall cs st, cb_good st -> Forall (legal_cb_op CS pool ch) cs ->
    (exists rs st', api_run CS cb dummy st cs = Ok (rs, st') /\ cb_good st') \/
    (exists f, api_run CS cb dummy st cs = Fault f /\ (allowed f \/ f = F_fuel)).
  Proof.
    induction cs as [|c cs IH]; intros st H F; cbn [api_run]; [left; eauto|]. inversion F; subst.
    destruct (cb_step st c H) as [(r & st1 & E & H1)|(f & E & Af)]; auto; rewrite E; cbn [bind]; [|eauto].
    destruct (IH st1 H1) as [(rs & st2 & E2 & H2')|(f & E2 & Af)]; auto; rewrite E2; cbn [bind]; eauto.
  Qed.
End Core.
