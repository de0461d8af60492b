(** C29: what a sequence of reads returns is what src_process makes of the supplied frames. *)
From Coq Require Import ZArith Reals List Bool Lia.
From Flocq Require Import Core IEEE754.BinarySingleNaN.
From Verif Require Import Base FloatFacts PosFacts Types Api Heap Callback ApiHist HoldSpec HoldFacts HoldCore HoldProcess HoldStream ProcFacts SincApi
  CbSpec CbCore CbReadSpec CbTwin.
Import ListNotations.
Local Open Scope Z_scope.

(** ** Reading memory *)
Lemma mread_n_ext m m' : forall n a, (forall j, 0 <= j < Z.of_nat n -> m' (a + j) = m (a + j)) -> mread_n m' a n = mread_n m a n.
Proof.
  induction n as [|n IH]; intros a H; cbn [mread_n]; [reflexivity|].
  unfold mread. assert (H0 := H 0 ltac:(lia)). rewrite Z.add_0_r in H0. rewrite H0. rewrite (IH (a + 1)); [reflexivity|].
  intros j Hj. rewrite <- Z.add_assoc. apply H. lia.
Qed.
Lemma mread_n_app m : forall n k a l l', mread_n m a n = Ok l -> mread_n m (a + Z.of_nat n) k = Ok l' -> mread_n m a (n + k) = Ok (l ++ l').
Proof.
  induction n as [|n IH]; intros k a l l' H H'; cbn [mread_n Nat.add] in *.
  - injection H as <-. rewrite Z.add_0_r in H'. exact H'.
  - destruct (mread m a) as [x|]; [|discriminate H]. cbn [bind] in *. destruct (mread_n m (a + 1) n) as [l1|] eqn:E1; [|discriminate H]. cbn [bind] in H.
    injection H as <-. rewrite (IH k (a + 1) l1 l' E1); [reflexivity|]. rewrite <- H'. f_equal. lia.
Qed.

Lemma mode_back st : st_mode st = MODE_PROCESS -> set_mode (set_mode st MODE_CALLBACK) MODE_PROCESS = st.
Proof. destruct st as [a b c d e f g h i j k]. cbn. intros ->. reflexivity. Qed.

(** ** Recording does not change anything *)
Section Erase.
  Variables (CS : Type) (cb : callback_t CS) (dummy ch : Z).
  Notation rcb := (recorded CS cb dummy ch).

  Lemma loop_erased : forall fuel frames st d gen cs rec m,
    match cb_loop CS cb dummy fuel frames st d gen cs m with
    | Ok (e, st', d', g, cs', m') => exists more, cb_loop _ rcb dummy fuel frames st d gen (cs, rec) m = Ok (e, st', d', g, (cs', rec ++ more), m')
    | Fault f => cb_loop _ rcb dummy fuel frames st d gen (cs, rec) m = Fault f
    end.
  Proof.
    induction fuel as [|fuel IH]; intros frames st d gen cs rec m; cbn [cb_loop]; [reflexivity|].
    destruct (gen <? frames); [|exists []; now rewrite app_nil_r].
    assert (F : exists d1 cs1 m1 more, cb_fetch CS cb dummy st d cs m = (d1, cs1, m1) /\ cb_fetch _ rcb dummy st d (cs, rec) m = (d1, (cs1, rec ++ more), m1)).
    { unfold cb_fetch. destruct (input_frames d =? 0); [|exists d, cs, m, []; now rewrite app_nil_r]. cbn [recorded].
      destruct (cb (st_callback st) (st_user_data st) cs m) as [[[cs1 m1] ptr] n]. eexists _, _, _, _. split; reflexivity. }
    destruct F as (d1 & cs1 & m1 & more & -> & ->).
    destruct (src_process _ _ _) as [[[[e [st2|]] [d2|]] m2]|f]; cbn [bind]; try reflexivity.
    destruct (negb (e =? 0)); [eexists; reflexivity|].
    destruct (long_op (input_frames_used d2 * _)); [cbn [bind]|reflexivity]. destruct (long_op (output_frames_gen d2 * _)); [cbn [bind]|reflexivity].
    destruct (long_op (input_frames d2 - _)); [cbn [bind]|reflexivity]. destruct (long_op (output_frames d2 - _)); [cbn [bind]|reflexivity].
    destruct (long_op (gen + _)); [cbn [bind]|reflexivity]. destruct ((_ =? 1) && _); [eexists; reflexivity|].
    match goal with |- context [cb_loop CS cb dummy fuel frames ?s ?dd ?g cs1 m2] => specialize (IH frames s dd g cs1 (rec ++ more) m2) end.
    destruct (cb_loop CS cb dummy fuel frames _ _ _ cs1 m2) as [[[[[[e' st'] d'] g'] cs'] m']|f]; [|exact IH].
    destruct IH as (more' & ->). exists (more ++ more'). now rewrite app_assoc.
  Qed.

  Lemma read_erased fuel st ratio frames data cs rec m :
    match src_callback_read CS cb dummy fuel st ratio frames data cs m with
    | Ok (n, st', cs', m') => exists more, src_callback_read _ rcb dummy fuel st ratio frames data (cs, rec) m = Ok (n, st', (cs', rec ++ more), m')
    | Fault f => src_callback_read _ rcb dummy fuel st ratio frames data (cs, rec) m = Fault f
    end.
  Proof.
    unfold src_callback_read. destruct st as [st|]; [|exists []; now rewrite app_nil_r].
    destruct (frames <=? 0); [exists []; now rewrite app_nil_r|]. destruct (st_mode st); [exists []; now rewrite app_nil_r|].
    destruct (st_callback st =? 0); [exists []; now rewrite app_nil_r|]. destruct (is_bad_src_ratio ratio); [exists []; now rewrite app_nil_r|].
    set (d0 := mkData (st_saved_data st) data (st_saved_frames st) frames 0 0 0 ratio).
    assert (L := loop_erased fuel frames st d0 0 cs rec m).
    destruct (cb_loop CS cb dummy fuel frames st d0 0 cs m) as [[[[[[e st1] d1] g] cs1] m1]|f].
    - destruct L as (more & Q). cbn [bind]. destruct (negb (e =? 0)) eqn:E0; exists more; rewrite Q; cbn [bind]; now rewrite E0.
    - rewrite L. reflexivity.
  Qed.
End Erase.

Lemma gen_snoc log d d' : total_gen (log ++ [Ev_call d d']) = total_gen log + output_frames_gen d'.
Proof. induction log as [|[a b|r] l IH]; cbn [app total_gen]; lia. Qed.

Section Stream.
  Variables (CS : Type) (cb : callback_t CS) (dummy : Z) (pool : Z -> Prop) (ch : Z).
  Variable Good : SRC_STATE -> Prop.
  Variable allowed : fault -> Prop.
  Hypothesis Hch : 0 < ch.
  Hypothesis G_ch : forall st, Good st -> st_channels st = ch.
  Hypothesis G_mode : forall st x, Good st -> Good (set_mode st x).
  Hypothesis G_saved : forall st x y, Good st -> Good (set_saved st x y).
  Hypothesis G_error : forall st x, Good st -> Good (set_error st x).
  Hypothesis G_call : forall st d m, Good st -> st_mode st = MODE_PROCESS -> valid_call ch d m ->
    (exists f, src_process (Some st) (Some d) m = Fault f /\ allowed f) \/
    (exists e st' d' m', src_process (Some st) (Some d) m = Ok (e, Some st', Some d', m') /\
       truthful_reply ch d m e d' m' /\ Good st').
  Hypothesis G_ratio : forall st r, Good st -> is_nan r = false -> is_bad_src_ratio r = false -> Good (set_ratio st r).
  Hypothesis Hcb : proper CS cb dummy pool ch.

  (** [kd = Lin] asks for what linear needs, [sinc] for what sinc needs. *)
  Variables (kd : kind) (sinc : Prop) (ended : CS -> Prop) (X : stream) (allow : f64 -> Prop).
  Hypothesis H_lin : kd = Lin -> big_blocks cb.
  Hypothesis H_end : sinc -> marks_end CS cb ended /\ stays_ended CS cb ended.

  Notation CS2 := (CS * list (list f32))%type.
  Notation rcb := (recorded CS cb dummy ch).

  Definition legal (o : Z) (d : SRC_DATA) (m : mem) : Prop :=
    lin_legal kd ch X o d m /\ (sinc -> end_of_input d <> 0 -> forall i c, o + input_frames d <= i -> X i c = fzero).

  (** Calls of src_process on consecutive parts of X, all successful. *)
  Inductive run (T0 : SRC_STATE) : list event -> list f32 -> SRC_STATE -> Z -> Prop :=
  | run0 : run T0 [] [] T0 0
  | run1 log out st o d m st1 d1 m1 chunk : run T0 log out st o ->
      valid_call ch d m -> holds m (data_in d) ch (input_frames d) X o -> allow (src_ratio d) -> legal o d m ->
      src_process (Some st) (Some d) m = Ok (0, Some st1, Some d1, m1) ->
      mread_n m1 (data_out d) (Z.to_nat (output_frames_gen d1 * ch)) = Ok chunk ->
      run T0 (log ++ [Ev_call d d1]) (out ++ chunk) st1 (o + input_frames_used d1)
  | run2 log out st o r st1 : run T0 log out st o -> in_range r -> allow r -> src_set_ratio (Some st) r = (0, Some st1) ->
      run T0 (log ++ [Ev_ratio r]) out st1 o.
  Definition at_ratio (r : f64) (e : event) : Prop := match e with Ev_call d _ => src_ratio d = r | Ev_ratio _ => False end.

  (** The record so far is the beginning of X. *)
  Definition fits (c : CS2) (N : Z) : Prop :=
    is_frames ch (concat (snd c)) N X /\ (sinc -> ended (fst c) -> forall i k, N <= i -> X i k = fzero).

  Lemma fits_pos c N : fits c N -> 0 <= N.
  Proof. intros [[L _] _]. unfold zlen in L. nia. Qed.
  Lemma fits_same c N N' : fits c N -> fits c N' -> N = N'.
  Proof. intros [[L _] _] [[L' _] _]. nia. Qed.

  Lemma rec_proper : proper CS2 rcb dummy pool ch.
  Proof.
    intros f ud [cs rec] m Mp. assert (P := Hcb f ud cs m Mp). cbn [recorded]. destruct (cb f ud cs m) as [[[cs' m'] ptr] n]. exact P.
  Qed.
  Lemma rec_alone a : leaves_alone CS cb a -> leaves_alone CS2 rcb a.
  Proof. intros H f ud [cs rec] m. specialize (H f ud cs m). cbn [recorded]. destruct (cb f ud cs m) as [[[cs' m'] ptr] n]. exact H. Qed.

  (** ** One answer of the callback *)
  Lemma block_at_frames m p n : 0 <= n -> (forall i, 0 <= i < n * ch -> m (p + i) <> None) ->
    exists l, block_at ch m p n = l /\ zlen l = n * ch /\ forall j, 0 <= j < n * ch -> nth_error l (Z.to_nat j) = m (p + j).
  Proof.
    intros Hn H. destruct (mread_n_ok m (Z.to_nat (n * ch)) p) as [l E].
    { intros j Hj. apply H. nia. }
    exists l. split; [unfold block_at; now rewrite E|]. destruct (mread_n_spec _ _ _ _ E) as [L S]. split; [unfold zlen; nia|].
    intros j Hj. rewrite S by nia. f_equal. lia.
  Qed.

  Lemma is_frames_split l1 l2 N n : 0 <= n -> zlen l2 = n * ch -> is_frames ch (l1 ++ l2) N X ->
    is_frames ch l1 (N - n) X /\ forall j c, 0 <= j < n -> 0 <= c < ch -> nth_error l2 (Z.to_nat (j * ch + c)) = Some (X (N - n + j) c).
  Proof.
    intros Hn L2 [L S]. unfold zlen in *. rewrite app_length in L. split.
    - split; [unfold zlen; nia|]. intros k c Hk Hc. specialize (S k c ltac:(lia) Hc). unfold sample in *. rewrite nth_error_app1 in S; [exact S|].
      assert (0 <= k * ch + c < (N - n) * ch) by nia. lia.
    - intros j c Hj Hc. assert (Np : 0 <= N - n) by nia. specialize (S (N - n + j) c ltac:(lia) Hc). unfold sample in S.
      rewrite nth_error_app2 in S by nia. rewrite <- S. f_equal. nia.
  Qed.

  (** What asking the callback for a block does to the stream. *)
  Lemma fetch_stream st d cs rec m d1 c1 m1 : mapped pool m -> block_in pool ch (data_in d) (input_frames d) ->
    cb_fetch CS2 rcb dummy st d (cs, rec) m = (d1, c1, m1) -> (0 < input_frames d1 -> data_in d1 <> 0) -> 0 <= input_frames d ->
    forall N1, fits c1 N1 ->
    (input_frames d <> 0 /\ d1 = d /\ c1 = (cs, rec) /\ m1 = m) \/
    (input_frames d = 0 /\ exists N, fits (cs, rec) N /\ N1 = N + Z.max 0 (input_frames d1) /\
       holds m1 (data_in d1) ch (Z.max 0 (input_frames d1)) X N /\ zlen (last (snd c1) []) = Z.max 0 (input_frames d1) * ch /\
       (kd = Lin -> input_frames d1 <= 0 \/ 3 <= input_frames d1) /\
       (end_of_input d1 = 1 -> end_of_input d = 1 \/ (sinc -> ended (fst c1)))).
  Proof.
    intros Mp B E Hp Hn N1 F1. unfold cb_fetch in E. destruct (Z.eqb_spec (input_frames d) 0) as [Z0|Z0].
    2: { left. injection E as <- <- <-. auto. }
    right. split; [exact Z0|]. cbn [recorded] in E. assert (P := Hcb (st_callback st) (st_user_data st) cs m Mp).
    assert (Me := fun s => proj1 (H_end s) (st_callback st) (st_user_data st) cs m).
    assert (Se := fun s => proj2 (H_end s) (st_callback st) (st_user_data st) cs m).
    assert (Bb := fun s => H_lin s (st_callback st) (st_user_data st) cs m).
    destruct (cb (st_callback st) (st_user_data st) cs m) as [[[cs' m'] ptr] n]. destruct P as [P1 P2].
    set (p := match ptr with Some a => a | None => dummy end) in *. injection E as <- <- <-.
    cbn [input_frames data_in end_of_input fst snd] in *. destruct F1 as [F1 F2]. cbn [fst snd] in *.
    rewrite concat_app in F1. cbn [concat] in F1. rewrite app_nil_r in F1. rewrite last_last.
    set (l := block_at ch m' p n) in *.
    assert (Bl : zlen l = Z.max 0 n * ch /\ forall j, 0 <= j < Z.max 0 n * ch -> nth_error l (Z.to_nat j) = m' (p + j)).
    { destruct (Z_le_gt_dec n 0) as [L|L].
      - unfold l, block_at. replace (Z.to_nat (n * ch)) with 0%nat by nia. cbn [mread_n]. rewrite Z.max_l by lia. split; [reflexivity|]. lia.
      - rewrite Z.max_r by lia. destruct P2 as [_ [P2|[P2|(_ & _ & P2)]]]; [lia|elim (Hp ltac:(lia)); exact P2|].
        destruct (block_at_frames m' p n) as (l' & E & L1 & L2); [lia| |].
        { intros i Hi. apply P1, Mp, P2. exact Hi. }
        unfold l. rewrite E. auto. }
    destruct Bl as [Bl1 Bl2]. destruct (is_frames_split _ _ N1 (Z.max 0 n) ltac:(lia) Bl1 F1) as [S1 S2].
    exists (N1 - Z.max 0 n). split.
    { split; [exact S1|]. cbn [fst]. intros s En i k Hi. specialize (Se s En). apply (F2 s); [exact (proj2 (Me s) En)|]. lia. }
    split; [lia|]. split.
    { intros j c Hj Hc. rewrite <- (S2 j c Hj Hc). symmetry. apply Bl2. nia. }
    split; [exact Bl1|]. split; [exact Bb|]. destruct (Z.eqb_spec n 0) as [N0|N0]; [|auto]. intros _. right. intros s. exact (proj1 (Me s) N0).
  Qed.

  (** ** The state of affairs before and after each turn *)
  Definition prev_kept (o : Z) (d : SRC_DATA) (m : mem) : Prop :=
    kd = Lin -> input_frames d = 0 \/ 3 <= input_frames d \/
      (1 <= o /\ holds m (data_in d - ch) ch 1 X (o - 1) /\
       forall i, - ch <= i < 0 -> ~ (data_out d <= data_in d + i < data_out d + output_frames d * ch)).

  Record so_far (T0 : SRC_STATE) (asked : list (f64 * Z + f64)) (r : f64) (out0 : list f32) (data : Z) (N : Z) (st : SRC_STATE) (d : SRC_DATA) (gen : Z) (c : CS2) (m : mem) : Prop := mkSoFar {
    sf_run : exists log seg out tw, behind asked log /\ Forall (at_ratio r) seg /\ total_gen seg = gen /\ run T0 (log ++ seg) (out0 ++ out) tw (N - input_frames d) /\ twins tw (set_mode st MODE_PROCESS) /\
               mread_n m data (Z.to_nat (gen * ch)) = Ok out;
    sf_n : 0 <= input_frames d;
    sf_o : input_frames d <= N;
    sf_holds : holds m (data_in d) ch (input_frames d) X (N - input_frames d);
    sf_prev : prev_kept (N - input_frames d) d m;
    sf_last : input_frames d * ch <= zlen (last (snd c) []);
    sf_eoi : end_of_input d = 0 \/ end_of_input d = 1;
    sf_ended : end_of_input d = 1 -> sinc -> ended (fst c)
  }.

  Section Turn.
    Variables (r : f64) (frames data : Z) (m0 : mem) (T0 : SRC_STATE) (asked : list (f64 * Z + f64)) (out0 : list f32).
    Hypothesis Hal : allow r.
    Hypothesis Hr : in_range r.
    Hypothesis Hf : frames * ch <= 2 ^ 50.
    Hypothesis Hbuf : forall a, data <= a < data + frames * ch -> leaves_alone CS cb a.

    Definition J (st : SRC_STATE) (d : SRC_DATA) (gen : Z) (c : CS2) (m : mem) : Prop :=
      0 <= input_frames d /\ forall N, fits c N -> so_far T0 asked r out0 data N st d gen c m.

    Lemma turn_step st d gen c m d1 c1 m1 st2 d2 m2 : inv CS2 rcb pool ch Good r frames data m0 st d gen c m -> J st d gen c m -> gen < frames ->
      cb_fetch CS2 rcb dummy st d c m = (d1, c1, m1) -> valid_call ch (clamp d1) m1 ->
      src_process (Some (set_mode st MODE_PROCESS)) (Some (clamp d1)) m1 = Ok (0, Some st2, Some d2, m2) ->
      honest_reply ch (clamp d1) m1 0 d2 m2 ->
      J (set_mode st2 MODE_CALLBACK) (rest ch d2) (gen + output_frames_gen d2) c1 m2.
    Proof.
      intros I [Hn0 Hj] L Ef V E R. split.
      { destruct R as (_ & Td & Tu & _). cbn [rest input_frames]. rewrite Td. cbn [set_counts input_frames input_frames_used] in *. lia. }
      intros N1 F1. destruct c as [cs rec].
      destruct I as [G Hm Mp B Hg Eo En Er Hw Hu He].
      destruct (fetch_ok CS2 rcb dummy pool ch rec_proper st d (cs, rec) m Mp B) as (d1' & c1' & m1' & Ef' & B1 & X1 & X2 & X3 & X4 & X5 & _).
      rewrite Ef in Ef'. injection Ef' as <- <- <-.
      assert (Vp : 0 < input_frames d1 -> data_in d1 <> 0).
      { intros Q. destruct V as (_ & _ & _ & _ & _ & V & _). cbn [clamp set_frames data_in input_frames] in V. apply V. lia. }
      assert (Keep1 : forall a, data <= a < data + frames * ch -> m1 a = m a) by (intros a Ha; apply X5, rec_alone, Hbuf, Ha).
      (* the situation after the callback has been asked *)
      assert (A : exists log seg out tw, behind asked log /\ Forall (at_ratio r) seg /\ total_gen seg = gen /\ run T0 (log ++ seg) (out0 ++ out) tw (N1 - Z.max 0 (input_frames d1)) /\ twins tw (set_mode st MODE_PROCESS) /\
          mread_n m data (Z.to_nat (gen * ch)) = Ok out /\ Z.max 0 (input_frames d1) <= N1 /\
          holds m1 (data_in d1) ch (Z.max 0 (input_frames d1)) X (N1 - Z.max 0 (input_frames d1)) /\
          prev_kept (N1 - Z.max 0 (input_frames d1)) (clamp d1) m1 /\ Z.max 0 (input_frames d1) * ch <= zlen (last (snd c1) []) /\
          (end_of_input d1 = 0 \/ end_of_input d1 = 1) /\ (end_of_input d1 = 1 -> sinc -> ended (fst c1))).
      { destruct (fetch_stream st d cs rec m d1 c1 m1 Mp B Ef Vp Hn0 N1 F1) as [(Z0 & -> & -> & ->)|(Z0 & N & F & EN & Ho & Hl & Hb & Hen)].
        - destruct (Hj N1 F1) as [(log & seg & out & tw & Q1 & Q2 & Q3 & S1 & S2 & S3) S4 S5 S6 S7 S8 S9 S10].
          rewrite Z.max_r by lia. exists log, seg, out, tw. do 8 (split; [assumption|]). split.
          { intros K. destruct (S7 K) as [S|[S|S]]; [left|right; left|right; right]; unfold clamp; cbn [set_frames input_frames data_in data_out output_frames]; try rewrite Z.max_r by lia; assumption. }
          auto.
        - destruct (Hj N F) as [(log & seg & out & tw & Q1 & Q2 & Q3 & S1 & S2 & S3) S4 S5 S6 S7 S8 S9 S10].
          exists log, seg, out, tw. do 3 (split; [assumption|]). rewrite EN. replace (N + Z.max 0 (input_frames d1) - Z.max 0 (input_frames d1)) with N by lia. rewrite Z0, Z.sub_0_r in S1.
          split; [exact S1|]. split; [exact S2|]. split; [exact S3|]. assert (Np := fits_pos _ _ F). split; [lia|]. split; [exact Ho|]. split.
          { intros K. cbn [clamp set_frames input_frames]. destruct (Hb K); [left|right; left]; lia. }
          split; [lia|]. split.
          { unfold cb_fetch in Ef. rewrite Z0 in Ef. cbn [Z.eqb] in Ef. destruct (rcb _ _ _ m) as [[[cs' m'] ptr] n]. injection Ef as <- _ _. cbn [end_of_input].
            destruct (n =? 0); [now right|exact S9]. }
          intros Q s. destruct (Hen Q) as [Q'|Q']; [|exact (Q' s)]. specialize (S10 Q' s). cbn [fst] in S10.
          unfold cb_fetch in Ef. rewrite Z0 in Ef. cbn [Z.eqb recorded] in Ef. assert (Me := proj1 (H_end s) (st_callback st) (st_user_data st) cs m).
          destruct (cb _ _ cs m) as [[[cs' m'] ptr] n]. injection Ef as _ <- _. cbn [fst]. exact (proj2 Me S10). }
      destruct A as (log & seg & out & tw & Q1 & Q2 & Q3 & S1 & S2 & S3 & S4 & S5 & S6 & S7 & S8 & S9).
      set (n := Z.max 0 (input_frames d1)) in *. set (o := N1 - n) in *.
      destruct (process_twin _ _ _ _ _ _ _ _ (twins_sym _ _ S2) E) as (tw2 & E2 & T2).
      assert (R' := R). destruct R' as (_ & Td & Tu & Tg & v & Tw & Tk). assert (V' := V). destruct V' as (V1 & V2 & V3 & V4 & V5 & V6 & V7 & V8 & V9 & V10 & V11 & V12).
      assert (Y : data_in d2 = data_in d1 /\ data_out d2 = data_out d1 /\ input_frames d2 = n /\ output_frames d2 = output_frames d1 /\ end_of_input d2 = end_of_input d1)
        by (rewrite Td; repeat split). destruct Y as (Y1 & Y2 & Y3 & Y4 & Y5).
      cbn [clamp set_frames input_frames output_frames data_in data_out src_ratio] in *. fold n in Tu, V1, V3, V6, V10, V12.
      set (us := input_frames_used d2) in *. set (ge := output_frames_gen d2) in *.
      assert (Ed1 : data_out d1 = data + gen * ch) by congruence. assert (Eo1 : output_frames d1 = frames - gen) by congruence.
      (* the input block is not written to *)
      assert (Keep2 : forall i, 0 <= i < n * ch -> m2 (data_in d1 + i) = m1 (data_in d1 + i)).
      { intros i Hi. apply Tk. destruct V12 as [V12|V12]; cbn [fst snd] in V12; nia. }
      (* the chunk *)
      destruct (mread_n_ok m2 (Z.to_nat (ge * ch)) (data_out d1)) as [chunk Ec].
      { intros j Hx. apply (reply_keeps ch Hch (clamp d1) m1 d2 m2 _ R). apply V11. nia. }
      assert (Lg : legal o (clamp d1) m1).
      { split.
        - unfold lin_legal. destruct kd eqn:K; [exact I|]. destruct (S6 K) as [S|[S|(O1 & S & D)]]; cbn [clamp set_frames input_frames data_in data_out output_frames] in *; [left; exact S|right; left; exact S|].
          right; right. split.
          { intros i k Hi Hk. rewrite (S i k Hi Hk). unfold from0. f_equal. f_equal. lia. }
          unfold disjoint_ranges. rewrite Eo1 in *.
          destruct (Z_le_gt_dec (data_in d1) (data_out d1)) as [Q|Q]; [left; lia|]. right.
          destruct (Z_le_gt_dec (data_out d1 + (frames - gen) * ch) (data_in d1 - ch)) as [Q4|Q4]; [exact Q4|exfalso].
          destruct (Z_le_gt_dec (data_in d1 - ch) (data_out d1)) as [Q5|Q5].
          + apply (D (data_out d1 - data_in d1)); nia.
          + apply (D (- ch)); nia.
        - intros s Q i k Hi. cbn [clamp set_frames end_of_input input_frames] in *. destruct S8 as [S8|S8]; [congruence|].
          destruct F1 as [_ F2]. apply (F2 s (S9 S8 s)). fold n in Hi. unfold o in Hi. lia. }
      constructor; cbn [rest input_frames data_in data_out output_frames end_of_input]; rewrite ?Y1, ?Y2, ?Y3, ?Y4, ?Y5; fold us; fold ge.
      - exists log, (seg ++ [Ev_call (clamp d1) d2]), (out ++ chunk), tw2. replace (N1 - (n - us)) with (o + us) by (unfold o; lia). rewrite !app_assoc.
        split; [exact Q1|]. assert (Er1 : src_ratio (clamp d1) = r) by (cbn [clamp set_frames src_ratio]; congruence).
        split; [apply Forall_app; split; [exact Q2|constructor; [exact Er1|constructor]]|].
        split; [rewrite gen_snoc, Q3; reflexivity|].
        split; [apply (run1 T0 (log ++ seg) (out0 ++ out) tw o (clamp d1) m1 tw2 d2 m2 chunk); auto|].
        + rewrite Er1. exact Hal.
        + split.
          * assert (Md : st_mode st2 = MODE_PROCESS) by (apply (ak_mode _ _ _ (process_adm _ _ _ _ _ _ _ E))).
            rewrite (mode_back st2 Md). exact (twins_sym _ _ T2).
          * replace (Z.to_nat ((gen + ge) * ch)) with (Z.to_nat (gen * ch) + Z.to_nat (ge * ch))%nat by nia.
            apply mread_n_app.
            { rewrite <- S3. transitivity (mread_n m1 data (Z.to_nat (gen * ch))); apply mread_n_ext; intros j Hx.
              - apply Tk. nia.
              - apply Keep1. nia. }
            rewrite Z2Nat.id by nia. rewrite <- Ed1. exact Ec.
      - lia.
      - lia.
      - intros i k Hi Hk. replace (data_in d1 + us * ch + (i * ch + k)) with (data_in d1 + ((us + i) * ch + k)) by ring.
        rewrite Keep2 by nia. rewrite (S5 (us + i) k) by lia. f_equal. f_equal. unfold o. lia.
      - intros K. cbn [rest input_frames data_in data_out output_frames]. rewrite ?Y1, ?Y2, ?Y3, ?Y4. fold us. fold ge.
        destruct (Z.eq_dec us 0) as [U0|U0].
        + rewrite U0. replace (n - 0) with n by lia. rewrite Z.mul_0_l, !Z.add_0_r. fold o.
          destruct (S6 K) as [S|[S|(O1 & S & D)]]; cbn [clamp set_frames input_frames data_in data_out output_frames] in *; [left; exact S|right; left; exact S|].
          right; right. split; [exact O1|]. split.
          * intros i k Hi Hk. rewrite <- (S i k Hi Hk). apply Tk. assert (i = 0) by lia. subst i.
            assert (Dk := D (- ch + k) ltac:(lia)). cbn [Z.mul] in *. intros Q. apply Dk. nia.
          * intros i Hi. specialize (D i Hi). rewrite Eo1 in *. nia.
        + right; right. split; [unfold o; lia|]. split.
          * intros i k Hi Hk. assert (i = 0) by lia. subst i. replace (data_in d1 + us * ch - ch + (0 * ch + k)) with (data_in d1 + ((us - 1) * ch + k)) by ring.
            rewrite Keep2 by nia. rewrite (S5 (us - 1) k) by lia. f_equal. f_equal. unfold o. lia.
          * intros i Hi. destruct V12 as [V12|V12]; nia.
      - nia.
      - exact S8.
      - exact S9.
    Qed.
  End Turn.

  (** ** Between reads *)
  Definition before : Z := match kd with Lin => 1 | Zoh => 0 end.
  Record at_rest (T0 : SRC_STATE) (asked : list (f64 * Z + f64)) (out : list f32) (N : Z) (st : SRC_STATE) (c : CS2) (m : mem) : Prop := mkRest {
    ar_run : exists log tw, behind asked log /\ run T0 log out tw (N - st_saved_frames st) /\ twins tw (set_mode st MODE_PROCESS);
    ar_o : st_saved_frames st <= N;
    ar_holds : holds m (st_saved_data st) ch (st_saved_frames st) X (N - st_saved_frames st);
    ar_prev : kd = Lin -> st_saved_frames st = 0 \/ 3 <= st_saved_frames st \/
      (1 <= N - st_saved_frames st /\ holds m (st_saved_data st - ch) ch 1 X (N - st_saved_frames st - 1));
    ar_last : st_saved_frames st * ch <= zlen (last (snd c) [])
  }.
  Definition resting (T0 : SRC_STATE) (asked : list (f64 * Z + f64)) (out : list f32) (st : SRC_STATE) (c : CS2) (m : mem) : Prop :=
    cb_good pool ch Good st /\ 0 <= st_saved_frames st /\ forall N, fits c N -> at_rest T0 asked out N st c m.

  Lemma rest_kept T0 asked out st c m m1 : 
    (forall i, 0 <= i < st_saved_frames st * ch -> m1 (st_saved_data st + i) = m (st_saved_data st + i)) ->
    (0 < st_saved_frames st < 3 -> forall i, - before * ch <= i < 0 -> m1 (st_saved_data st + i) = m (st_saved_data st + i)) ->
    resting T0 asked out st c m -> resting T0 asked out st c m1.
  Proof.
    intros K K' (G & P & R). split; [exact G|]. split; [exact P|]. intros N F. destruct (R N F) as [R1 R2 R3 R4 R5]. constructor; auto.
    - intros i k Hi Hk. rewrite <- (R3 i k Hi Hk). apply K. nia.
    - intros Q. destruct (Z.eq_dec (st_saved_frames st) 0) as [Z0|Z0]; [now left|]. destruct (Z_lt_ge_dec (st_saved_frames st) 3) as [Z3|Z3]; [|right; left; lia].
      destruct (R4 Q) as [S|[S|[O S]]]; [lia|lia|right; right]. split; [exact O|].
      intros i k Hi Hk. assert (i = 0) by lia. subst i. rewrite <- (S 0 k Hi Hk).
      replace (st_saved_data st - ch + (0 * ch + k)) with (st_saved_data st + (k - ch)) by ring. apply K'; [lia|]. unfold before. rewrite Q. nia.
  Qed.

  Lemma read_stream T0 asked out st c m fuel r frames data n st' c' m' chunk : resting T0 asked out st c m -> allow r ->
    (0 < st_saved_frames st < 3 -> forall i, - before * ch <= i < 0 -> ~ (data <= st_saved_data st + i < data + frames * ch)) ->
    legal_read pool ch r frames data m -> (forall a, data <= a < data + frames * ch -> leaves_alone CS cb a) ->
    src_callback_read CS2 rcb dummy fuel (Some st) r frames data c m = Ok (n, Some st', c', m') ->
    src_error (Some st') = 0 -> mread_n m' data (Z.to_nat (n * ch)) = Ok chunk ->
    resting T0 (asked ++ [inl (r, n)]) (out ++ chunk) st' c' m'.
  Proof.
    intros (G & P & R) Ha Dj Lg Al E Er Ec.
    destruct (Z_le_gt_dec frames 0) as [F0|F0].
    { unfold src_callback_read in E. replace (frames <=? 0) with true in E by (symmetry; now apply Z.leb_le). injection E as <- <- <- <-.
      cbn [Z.mul Z.to_nat mread_n] in Ec. injection Ec as <-. rewrite app_nil_r. split; [exact G|]. split; [exact P|]. intros N F. destruct (R N F) as [(log & tw & R0 & R1 & R1') R2 R3 R4 R5].
      constructor; auto. exists log, tw. rewrite <- (app_nil_r log) at 1. split; [apply B_read; [exact R0|constructor|reflexivity]|auto]. }
    assert (Lg' := Lg). destruct Lg' as [?|(Nn & L1 & L2 & L3 & L4 & L5)]; [lia|].
    set (Q := fun q : loop_result CS2 => let '(e, s, d, g, c1, m1) := q in e = 0 -> J r data T0 asked out s d g c1 m1).
    destruct (read_cases CS2 rcb dummy pool ch Good allowed Hch G_ch G_mode G_saved G_error G_call rec_proper st r frames data c m
      (J r data T0 asked out) Q False (fun _ _ _ => 0)) with (fuel := fuel) as [(n1 & st1 & c1 & m1 & E1 & G1 & _ & [(_ & _ & _ & [[_ K]|K])|(_ & Hr & q & Hq & Oc)])|(f & E1 & _)];
      try assumption.
    - intros s d g c1 m1 _ Hj _. unfold Q. intros _. exact Hj.
    - intros s d g c1 m1 q Hr I Hj L T. unfold Q.
      inversion T as [d1 cs1 x1 e d2 Ef Ne Dd|d1 cs1 x1 e st2 d2 m2 Ef V E2 R2 G2 Ne|d1 cs1 x1 st2 d2 m2 Ef V E2 R2 G2 Ee Eg|]; subst; try (intros; contradiction).
      intros _. exact (turn_step r frames data m T0 asked out Ha L1 Al s d g c1 m1 d1 cs1 x1 st2 d2 m2 I Hj L Ef V E2 R2).
    - intros s d g c1 m1 s' d' g' c2 m2 Hr I Hj L T _. split; [|intros []].
      inversion T as [| | |d1 cs1 x1 st2 d2 x2 Ef V E2 R2 G2 Nx]. subst.
      exact (turn_step r frames data m T0 asked out Ha L1 Al s d g c1 m1 d1 c2 x1 st2 d2 m2 I Hj L Ef V E2 R2).
    - intros; contradiction.
    - intros _ Hr. split; [exact P|]. intros N F. destruct (R N F) as [(log & tw & R0 & R1 & R1') R2 R3 R4 R5].
      constructor; cbn [first_data input_frames data_in data_out output_frames end_of_input]; auto.
      + exists log, [], [], tw. rewrite !app_nil_r. auto 7.
      + intros K. cbn [first_data input_frames data_in data_out output_frames]. 
        destruct (Z.eq_dec (st_saved_frames st) 0) as [Z0|Z0]; [now left|]. destruct (Z_lt_ge_dec (st_saved_frames st) 3) as [Z3|Z3]; [|right; left; lia].
        destruct (R4 K) as [S|[S|[O S]]]; [lia|lia|right; right].
        split; [exact O|]. split; [exact S|]. intros i Hi. apply Dj; [lia|]. unfold before. rewrite K. lia.
      + discriminate.
    - lia.
    - rewrite E in E1. injection E1 as <- <- <- <-. rewrite K in Er. discriminate Er.
    - rewrite E in E1. injection E1 as <- <- <- <-. destruct q as [[[[[e s] d] g] c2] m2]. cbn in Oc. destruct Oc as (-> & -> & [(-> & -> & ->)|(Ne & _ & ->)]).
      2: { cbn in Er. contradiction. }
      destruct (Hq eq_refl) as [Hn Hs]. split; [exact G1|]. split; [exact Hn|]. intros N F.
      destruct (Hs N F) as [(log & seg & o2 & tw & Q1 & Q2 & Q3 & S1 & S2 & S3) S4 S5 S6 S7 S8 S9 S10]. rewrite Ec in S3. injection S3 as <-.
      constructor; cbn [set_saved st_saved_frames st_saved_data]; auto.
      + exists (log ++ seg), tw. split; [apply B_read; assumption|]. split; [exact S1|]. eapply twins_trans; [exact S2|reflexivity].
      + intros K. destruct (S7 K) as [S|[S|(O & S & _)]]; auto.
    - rewrite E in E1. discriminate E1.
  Qed.

  Lemma set_stream T0 asked out st c m r st' : resting T0 asked out st c m -> allow r -> in_range r -> src_set_ratio (Some st) r = (0, Some st') ->
    resting T0 (asked ++ [inr r]) out st' c m.
  Proof.
    intros (G & P & R) Ha Ir E. assert (E' := E). unfold src_set_ratio in E. destruct (is_bad_src_ratio r) eqn:Eb; [discriminate E|]. injection E as <-.
    split; [|split; [exact P|]].
    - destruct G as (G1 & G2). split; [apply G_ratio; [exact G1| |exact Eb]|exact G2]. destruct Ir as [Fi _]. destruct r; try discriminate Fi; reflexivity.
    - intros N F. destruct (R N F) as [(log & tw & R0 & R1 & R1') R2 R3 R4 R5]. constructor; auto.
      exists (log ++ [Ev_ratio r]), (set_ratio tw r). split; [apply B_set, R0|]. split.
      + apply (run2 T0 log out tw _ r); auto. unfold src_set_ratio. rewrite Eb. reflexivity.
      + unfold twins in *. cbn [set_saved st_saved_frames]. change (set_mode (set_ratio st r) MODE_PROCESS) with (set_ratio (set_mode st MODE_PROCESS) r). rewrite R1'. reflexivity.
  Qed.

  Lemma reads_stream st0 cs0 m0 asked out st c m : reads CS2 rcb dummy pool ch allow before st0 (cs0, []) m0 asked out st c m ->
    cb_good pool ch Good st0 -> st_saved_frames st0 = 0 ->
    forall T0, twins T0 (set_mode st0 MODE_PROCESS) -> resting T0 asked out st c m.
  Proof.
    intros H G Sv T0 Tw. remember (cs0, []) as c0 eqn:Ec0.
    induction H as [st cs m|st0 c0 m0 asked out st c m m1 fuel r frames data n st' c' m' chunk H IH Ha K Dj Lg Al E Er Ec|st0 c0 m0 asked out st c m r st' H IH Ha Ir E].
    - subst cs. split; [exact G|]. split; [lia|]. intros N F.
      assert (N0 : N = 0). { destruct F as [[L _] _]. cbn in L. nia. }
      constructor; rewrite ?Sv; try (intros; lia).
      + exists [], T0. subst N. split; [constructor|]. split; [constructor|exact Tw].
      + intros i k Hi. lia.
      + cbn. lia.
    - specialize (IH Ec0 G Sv Tw). eapply read_stream; [|exact Ha|intros B i Hi; exact (proj2 (Dj B i Hi))|exact Lg| |exact E|exact Er|exact Ec].
      + exact (rest_kept T0 asked out st c m m1 K (fun B i Hi => proj1 (Dj B i Hi)) IH).
      + intros a Hi f ud cs x. specialize (Al a Hi f ud (cs, []) x). cbn [recorded] in Al. destruct (cb f ud cs x) as [[[cs' x'] ptr] k]. exact Al.
    - exact (set_stream T0 asked out st c m r st' (IH Ec0 G Sv Tw) Ha Ir E).
  Qed.

  (** The calls as a stream in the sense of ApiHist and SincApi. *)
  Lemma streaming_snoc al leg st o log out st1 o1 d m e st2 d2 m2 chunk : streaming ch X al leg st o log out st1 o1 ->
    valid_call ch d m -> holds m (data_in d) ch (input_frames d) X o1 -> al (src_ratio d) -> leg o1 d m ->
    src_process (Some st1) (Some d) m = Ok (e, Some st2, Some d2, m2) ->
    mread_n m2 (data_out d) (Z.to_nat (output_frames_gen d2 * ch)) = Ok chunk ->
    streaming ch X al leg st o (log ++ [Ev_call d d2]) (out ++ chunk) st2 (o1 + input_frames_used d2).
  Proof.
    intros S V H A Lg E Ec. induction S; cbn [app].
    - rewrite <- (app_nil_r chunk). econstructor; eauto. constructor.
    - rewrite <- app_assoc. econstructor; eauto.
    - econstructor; eauto.
  Qed.
  Lemma sinc_streaming_snoc al st o log out st1 o1 d m st2 d2 m2 chunk : sinc_streaming ch X al st o log out st1 o1 ->
    valid_call ch d m -> holds m (data_in d) ch (input_frames d) X o1 -> al (src_ratio d) ->
    (end_of_input d <> 0 -> forall i c, o1 + input_frames d <= i -> X i c = fzero) ->
    src_process (Some st1) (Some d) m = Ok (0, Some st2, Some d2, m2) ->
    mread_n m2 (data_out d) (Z.to_nat (output_frames_gen d2 * ch)) = Ok chunk ->
    sinc_streaming ch X al st o (log ++ [Ev_call d d2]) (out ++ chunk) st2 (o1 + input_frames_used d2).
  Proof.
    intros S V H A Lg E Ec. induction S; cbn [app].
    - rewrite <- (app_nil_r chunk). econstructor; eauto. constructor.
    - rewrite <- app_assoc. econstructor; eauto.
    - econstructor; eauto.
  Qed.
  Lemma streaming_set al leg st o log out st1 o1 r st2 : streaming ch X al leg st o log out st1 o1 -> in_range r -> al r -> src_set_ratio (Some st1) r = (0, Some st2) ->
    streaming ch X al leg st o (log ++ [Ev_ratio r]) out st2 o1.
  Proof.
    intros S Ir A E. induction S; cbn [app].
    - eapply ApiHist.S_ratio; eauto. constructor.
    - econstructor; eauto.
    - econstructor; eauto.
  Qed.
  Lemma sinc_streaming_set al st o log out st1 o1 r st2 : sinc_streaming ch X al st o log out st1 o1 -> in_range r -> al r -> src_set_ratio (Some st1) r = (0, Some st2) ->
    sinc_streaming ch X al st o (log ++ [Ev_ratio r]) out st2 o1.
  Proof.
    intros S Ir A E. induction S; cbn [app].
    - eapply SS_ratio; eauto. constructor.
    - econstructor; eauto.
    - econstructor; eauto.
  Qed.
  Lemma run_streaming T0 log out st o : run T0 log out st o -> streaming ch X allow (lin_legal kd ch X) T0 0 log out st o.
  Proof.
    intros R. induction R as [|log out st o d m st1 d1 m1 chunk R IH V H Er [Lg _] E Ec|log out st o r st1 R IH Ir A E]; [constructor| |].
    - eapply streaming_snoc; eauto.
    - eapply streaming_set; eauto.
  Qed.
  Lemma run_sinc T0 log out st o : sinc -> run T0 log out st o -> sinc_streaming ch X allow T0 0 log out st o.
  Proof.
    intros s R. induction R as [|log out st o d m st1 d1 m1 chunk R IH V H Er [_ Lg] E Ec|log out st o r st1 R IH Ir A E]; [constructor| |].
    - eapply sinc_streaming_snoc; eauto.
    - eapply sinc_streaming_set; eauto.
  Qed.
End Stream.
