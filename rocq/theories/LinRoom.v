(** Linear interpolation with short blocks: when calls return (C17, C28, C30). *)
From Coq Require Import ZArith Reals List Bool Lia.
From Flocq Require Import Core IEEE754.BinarySingleNaN.
From Verif Require Import Base FloatFacts PosFacts Types Api Heap Callback ApiHist HoldSpec HoldFacts HoldCore HoldCall HoldProcess ProcFacts
  HoldMain SincApi CbSpec CbCore CbHold LinAny LinMapped LinRoomSpec.
Import ListNotations.
Local Open Scope Z_scope.

(** ** src_process *)
Lemma before_run CS (cb : callback_t CS) dummy : forall cs st,
  hold_ok Lin st -> st_mode st = MODE_PROCESS -> Forall (valid_op (st_channels st)) cs -> Forall (op_before (st_channels st)) cs ->
  exists rs st', api_run CS cb dummy st cs = Ok (rs, st') /\ Forall2 (honest (st_channels st)) cs rs.
Proof.
  induction cs as [|c cs IH]; intros st Hok Hm Hv Hr.
  - exists [], st. repeat split; auto.
  - inversion Hv as [|? ? V1 V2]; subst. inversion Hr as [|? ? R1 R2]; subst.
    assert (Step : exists r st1, api_step CS cb dummy st c = Ok (r, st1) /\ honest (st_channels st) c r /\
              hold_ok Lin st1 /\ st_mode st1 = MODE_PROCESS /\ st_channels st1 = st_channels st).
    { destruct c as [[d|] m|fuel ratio frames data cs0 m|r| | |]; cbn [api_step].
      - destruct (linear_mapped st d m Hok Hm V1 R1) as (st' & d' & m' & E & H & O & S & _).
        rewrite E. cbn [bind keep]. eexists; eexists; split; [reflexivity|]. split; [exact H|].
        split; [exact O|]. destruct S as (_ & _ & S1 & S2 & _). split; congruence.
      - unfold src_process. rewrite Hm. cbn. eexists; eexists; split; [reflexivity|]. repeat split; auto; try apply Hok. discriminate.
      - unfold src_callback_read. destruct (frames <=? 0); [|rewrite Hm]; cbn;
          eexists; eexists; (split; [reflexivity|]); repeat split; auto; try apply Hok.
      - destruct (set_ratio_ok Lin st r Hok V1) as (e & st' & E & O & M & C). rewrite E. cbn [keep].
        eexists; eexists; split; [reflexivity|]. split; [exact I|]. split; [exact O|]. split; congruence.
      - destruct (hold_reset_ok Lin st Hok) as (st' & E & O & M & C & _). rewrite E. cbn [bind keep].
        eexists; eexists; split; [reflexivity|]. split; [exact I|]. split; [exact O|]. split; congruence.
      - eexists; eexists; split; [reflexivity|]. repeat split; auto; apply Hok.
      - eexists; eexists; split; [reflexivity|]. repeat split; auto; apply Hok. }
    destruct Step as (r & st1 & E1 & H1 & O1 & M1 & C1).
    destruct (IH st1 O1 M1) as (rs & st2 & E2 & H2); rewrite ?C1; auto.
    cbn [api_run]. rewrite E1. cbn [bind]. rewrite E2. cbn [bind].
    exists (r :: rs), st2. split; [reflexivity|]. rewrite C1 in H2. constructor; auto.
Qed.
Lemma linear_before ch st : created SRC_LINEAR ch st -> channels_fit ch ->
  forall CS (cb : callback_t CS) dummy cs, Forall (valid_op ch) cs -> Forall (op_before ch) cs ->
  exists rs st', api_run CS cb dummy st cs = Ok (rs, st') /\ Forall2 (honest ch) cs rs.
Proof.
  intros C F CS cb dummy cs V B. destruct (created_fresh Lin ch st C F) as [K Kc Km _ _ _]. rewrite <- Kc in *. now apply before_run.
Qed.

(** ** src_callback_read *)
Section Read.
  Variables (CS : Type) (cb : callback_t CS) (dummy : Z) (pool : Z -> Prop) (ch : Z).
  Hypothesis Hch : 0 < ch.
  Hypothesis Hcb : proper CS cb dummy pool ch.
  Hypothesis Hbig : no_short_blocks CS cb.
  Notation Good := (hold_good Lin ch).
  Notation turn := (turn CS cb dummy ch Good).
  Notation inv := (inv CS cb pool ch Good).

  Definition linked (p n : Z) : Prop := p <> 0 -> 0 < n < 3 -> forall c, 0 <= c < ch -> pool (p - ch + c).
  Definition J (_ : SRC_STATE) (d : SRC_DATA) (_ : Z) (_ : CS) (_ : mem) : Prop := linked (data_in d) (input_frames d).
  Definition Q (r : loop_result CS) : Prop := let '(_, _, d, _, _, _) := r in linked (data_in d) (input_frames d).

  Lemma fetch_linked st d cs m d1 cs1 m1 : linked (data_in d) (input_frames d) -> cb_fetch CS cb dummy st d cs m = (d1, cs1, m1) -> linked (data_in d1) (input_frames d1).
  Proof.
    intros L E. unfold cb_fetch in E. destruct (input_frames d =? 0); [|injection E as <- _ _; exact L].
    assert (B := Hbig (st_callback st) (st_user_data st) cs m). destruct (cb _ _ _ _) as [[[c2 m2] ptr] n]. injection E as <- _ _. intros _ H. cbn in H. lia.
  Qed.
  Lemma clamp_linked d : linked (data_in d) (input_frames d) -> linked (data_in (clamp d)) (input_frames (clamp d)).
  Proof. intros L N H. apply (L N). cbn in H. lia. Qed.
  Lemma rest_linked d m d2 m2 : linked (data_in d) (input_frames d) -> block_in pool ch (data_in d) (input_frames d) -> valid_call ch (clamp d) m ->
    honest_reply ch (clamp d) m 0 d2 m2 -> linked (data_in (rest ch d2)) (input_frames (rest ch d2)).
  Proof.
    intros L B V (_ & Td & Tu & _). destruct V as (V1 & _ & _ & _ & _ & V6 & _).
    assert (X : data_in d2 = data_in d /\ input_frames d2 = Z.max 0 (input_frames d)) by (rewrite Td; split; reflexivity). destruct X as [X1 X2].
    cbn [rest data_in input_frames clamp set_frames] in *. rewrite X1, X2. set (us := input_frames_used d2) in *. clearbody us. intros N H c Hc.
    destruct (Z.eq_dec us 0) as [->|U].
    - replace (data_in d + 0 * ch - ch + c) with (data_in d - ch + c) by lia. apply L; [intros Z0; apply N; lia|lia|exact Hc].
    - destruct B as [_ [B|[B|(_ & _ & B)]]]; [lia|exfalso; apply V6; [lia|exact B]|].
      replace (data_in d + us * ch - ch + c) with (data_in d + ((us - 1) * ch + c)) by lia. apply B. nia.
  Qed.
  Lemma fetch_block st d cs m d1 cs1 m1 : mapped pool m -> block_in pool ch (data_in d) (input_frames d) -> cb_fetch CS cb dummy st d cs m = (d1, cs1, m1) ->
    block_in pool ch (data_in d1) (input_frames d1).
  Proof.
    intros Mp B E. destruct (fetch_ok CS cb dummy pool ch Hcb st d cs m Mp B) as (d2 & c2 & m2 & E2 & B2 & _). rewrite E in E2. now injection E2 as <- _ _.
  Qed.

  Section One.
    Variables (ratio : f64) (frames data : Z) (m0 : mem).
    Lemma J_done st d gen cs m r : in_range ratio -> inv ratio frames data m0 st d gen cs m -> J st d gen cs m -> gen < frames -> turn st d gen cs m (inl r) -> Q r.
    Proof.
      intros _ Iv Hj _ T. destruct Iv as [_ _ Mp B _ _ _ _ _ _ _]. unfold J in Hj.
      inversion T as [d1 cs1 m1 e d2 Ef Ne Dd|d1 cs1 m1 e st2 d2 m2 Ef V E R G2 Ne|d1 cs1 m1 st2 d2 m2 Ef V E R G2 Ee Eg|]; subst; clear T; cbn [Q];
        assert (L1 := fetch_linked _ _ _ _ _ _ _ Hj Ef); assert (B1 := fetch_block _ _ _ _ _ _ _ Mp B Ef).
      - destruct Dd as [->| ->]; [exact L1|apply clamp_linked; exact L1].
      - destruct R as [[Z0 _]|(_ & _ & Z0 & _)]; [contradiction|]. rewrite Z0. apply clamp_linked in L1. exact L1.
      - exact (rest_linked _ _ _ _ L1 B1 V R).
    Qed.
    Lemma J_next st d gen cs m st' d' gen' cs' m' : inv ratio frames data m0 st d gen cs m -> J st d gen cs m ->
      turn st d gen cs m (inr (st', d', gen', cs', m')) -> J st' d' gen' cs' m'.
    Proof.
      intros Iv Hj T. destruct Iv as [_ _ Mp B _ _ _ _ _ _ _]. unfold J in *. inversion T as [| | |d1 cs1 m1 st2 d2 m2 Ef V E R G2 Ng]; subst; clear T.
      exact (rest_linked _ _ _ _ (fetch_linked _ _ _ _ _ _ _ Hj Ef) (fetch_block _ _ _ _ _ _ _ Mp B Ef) V R).
    Qed.

    Hypothesis Hr : in_range ratio.
    Hypothesis Hf : frames * ch <= 2 ^ 50.
    Hypothesis Hd : 0 <= data.
    Hypothesis Hd1 : data + frames * ch <= 2 ^ 60.
    Hypothesis Hap : out_apart pool ch frames data.

    Lemma body_total st d gen cs m : inv ratio frames data m0 st d gen cs m -> J st d gen cs m -> gen < frames -> exists k, body CS cb dummy st d gen cs m = Ok k.
    Proof.
      intros Iv Hj L. assert (Iv' := Iv). destruct Iv' as [G Hm Mp B Hg Eo En Er Hw Hu _]. unfold body.
      destruct (fetch_ok CS cb dummy pool ch Hcb st d cs m Mp B) as (d1 & cs1 & m1 & Ef & B1 & F1 & F2 & F3 & F4 & _). rewrite Ef.
      assert (L1 := fetch_linked _ _ _ _ _ _ _ Hj Ef).
      assert (Mp1 : mapped pool m1) by (intros a A; apply F4, Mp, A).
      assert (Hw1 : data_out d1 = 0 \/ writable m1 (data_out d1) ch (output_frames d1)).
      { rewrite F1, F2, Eo, En. destruct Hw as [[-> ->]|Hw]; [left; lia|right]. intros i Hi. apply F4.
        replace (data + gen * ch + i) with (data + (gen * ch + i)) by lia. apply Hw. nia. }
      assert (Cc : st_channels (set_mode st MODE_PROCESS) = ch) by apply G.
      destruct (process_cases pool ch (set_mode st MODE_PROCESS) d1 m1 Hch Cc eq_refl) as [(e & Ne & P)|[V P]]; try assumption.
      - rewrite F3, Er. exact Hr.
      - rewrite F2. lia.
      - rewrite F2, En. nia.
      - rewrite F1, Eo. nia.
      - rewrite F1, F2, Eo, En. lia.
      - destruct P as [P|P]; rewrite P; cbn [bind]; (replace (e =? 0) with false by (symmetry; now apply Z.eqb_neq)); cbn [negb]; eauto.
      - rewrite P. assert (V' := V). rewrite <- Cc in V'.
        destruct (linear_mapped (set_mode st MODE_PROCESS) (clamp d1) m1 (proj1 G) eq_refl V') as (st2 & d2 & m2 & E & T & _ & S & _).
        + intros H. rewrite Cc. assert (N : data_in d1 <> 0). { destruct V as (_ & _ & _ & _ & _ & V6 & _). apply V6. exact (proj1 H). }
          apply clamp_linked in L1. assert (U := L1 N H). change (data_in (clamp d1)) with (data_in d1) in *.
          change (data_out (clamp d1)) with (data_out d1). change (output_frames (clamp d1)) with (output_frames d1).
          split; [intros c Hc; apply Mp1, U, Hc|]. rewrite F1, F2, Eo, En. unfold disjoint_ranges.
          assert (U' : forall c, 0 <= c < ch -> ~ (data <= data_in d1 - ch + c < data + frames * ch)) by (intros c Hc; apply Hap, U; assumption).
          assert (Oc : 0 < (frames - gen) * ch) by nia.
          destruct (Z_le_gt_dec (data_in d1 - ch + ch) (data + gen * ch)) as [A|A]; [left; exact A|right].
          destruct (Z_le_gt_dec (data + gen * ch + (frames - gen) * ch) (data_in d1 - ch)) as [C|C]; [exact C|exfalso].
          destruct (Z_lt_ge_dec (data_in d1 - ch) (data + gen * ch)) as [D|D].
          * apply (U' (data + gen * ch - (data_in d1 - ch))); [lia|]. nia.
          * apply (U' 0); [lia|]. nia.
        + rewrite E. cbn [bind Z.eqb negb]. rewrite Cc in T. destruct T as (_ & Td & Tu & Tg & _).
          assert (Ch : st_channels (set_mode st2 MODE_CALLBACK) = ch). { destruct S as (_ & _ & S & _). cbn in S, Cc |- *. congruence. }
          rewrite Ch. assert (X1 : input_frames d2 = input_frames (clamp d1) /\ output_frames d2 = output_frames d1) by (rewrite Td; split; reflexivity).
          destruct X1 as (X2 & X3). destruct V as (V1 & V2 & V3 & V4 & _). cbn [output_frames input_frames clamp set_frames] in *.
          rewrite !long_ok by nia. cbn [bind]. destruct (_ && _); eauto.
    Qed.

    Lemma loop_total : forall fuel st d gen cs m, inv ratio frames data m0 st d gen cs m -> J st d gen cs m ->
      (exists r, cb_loop CS cb dummy fuel frames st d gen cs m = Ok r) \/ cb_loop CS cb dummy fuel frames st d gen cs m = Fault F_fuel.
    Proof.
      induction fuel as [|fuel IH]; intros st d gen cs m Iv Hj; [now right|]. rewrite loop_body. destruct (Z.ltb_spec gen frames) as [L|L]; [|eauto].
      destruct (body_total st d gen cs m Iv Hj L) as (k & E). rewrite E. cbn [bind]. destruct k as [r|[[[[st' d'] gen'] cs'] m']]; [eauto|].
      destruct (body_turn CS cb dummy pool ch Good (hold_faults Lin) Hch (hg_ch Lin ch) (hg_mode Lin ch) (hg_call Lin ch) Hcb ratio frames data m0 Hr Hf Hd Hd1 st d gen cs m Iv L)
        as [(f & E' & _)|(k & E' & T)]; rewrite E in E'; [discriminate E'|]. injection E' as <-.
      destruct (turn_next CS cb dummy pool ch Good Hch (hg_mode Lin ch) Hcb ratio frames data m0 _ _ _ _ _ _ _ _ _ _ Iv L T) as (Iv' & _).
      apply IH; [exact Iv'|]. exact (J_next _ _ _ _ _ _ _ _ _ _ Iv Hj T).
    Qed.
  End One.

  Definition lin_ready (st : SRC_STATE) : Prop := cb_good pool ch Good st /\ linked (st_saved_data st) (st_saved_frames st).

  Lemma read_total st ratio frames data cs m fuel : lin_ready st -> legal_read pool ch ratio frames data m -> out_apart pool ch frames data ->
    (exists n st' cs' m', src_callback_read CS cb dummy fuel (Some st) ratio frames data cs m = Ok (n, Some st', cs', m') /\ lin_ready st' /\
       read_ok CS cb ch ratio frames data st m n st' cs' m') \/
    (src_callback_read CS cb dummy fuel (Some st) ratio frames data cs m = Fault F_fuel /\ (nonnegative CS cb -> Z.of_nat fuel <= 259 * frames + 258)).
  Proof.
    intros [Gd Lk] Lg Ap.
    destruct (read_cases CS cb dummy pool ch Good (hold_faults Lin) Hch (hg_ch Lin ch) (hg_mode Lin ch) (hg_saved Lin ch) (hg_error Lin ch) (hg_call Lin ch) Hcb
      st ratio frames data cs m J Q False (fun _ _ _ => 0)
      (fun _ _ _ _ _ _ H _ => H) (J_done ratio frames data m)
      (fun s d g c x s' d' g' c' x' _ Iv Hj _ T _ => conj (J_next ratio frames data m s d g c x s' d' g' c' x' Iv Hj T) (fun F : False => match F with end))
      (fun _ _ _ _ _ _ _ F => match F with end) fuel Gd Lg (fun _ _ => Lk)) as [(n & st' & cs' & m' & E & K & R & X)|(f & E & Fp & Af)].
    - left. exists n, st', cs', m'. split; [exact E|]. split; [|exact R]. split; [exact K|].
      destruct X as [(_ & _ & _ & [[-> _]| ->])|(_ & _ & r & Hq & Ho)]; [exact Lk|exact Lk|].
      destruct r as [[[[[e st1] d1] g] cs1] m1]. cbn in Hq, Ho. destruct Ho as (_ & _ & [(_ & _ & ->)|(_ & _ & ->)]); exact Hq.
    - right. assert (Ff : src_callback_read CS cb dummy fuel (Some st) ratio frames data cs m = Fault F_fuel).
      { clear Af. unfold src_callback_read in *. destruct Gd as (G & Hm & Hc & B). rewrite Hm in *. replace (st_callback st =? 0) with false in * by (symmetry; now apply Z.eqb_neq).
        destruct (frames <=? 0); [discriminate E|]. destruct (is_bad_src_ratio ratio) eqn:Bd; [discriminate E|].
        destruct Lg as [O|(Nn & H1 & H2 & H3 & H4 & H5)]; [lia|].
        assert (Hr : in_range ratio) by (apply is_bad_src_ratio_spec in Bd; destruct Bd; [congruence|assumption]).
        assert (Iv : inv ratio frames data m st (first_data st ratio frames data) 0 cs m).
        { constructor; try assumption; try reflexivity; cbn [first_data data_out output_frames end_of_input]; try lia. destruct H4; auto. }
        destruct (loop_total ratio frames data m Hr H1 H2 H3 Ap fuel st _ 0 cs m Iv Lk) as [(r & El)|El]; fold (first_data st ratio frames data) in *; rewrite El in *; [|reflexivity].
        exfalso. destruct r as [[[[[e s1] d1] g1] c1] x1]. cbn [bind] in E. destruct (negb _); discriminate E. }
      split; [exact Ff|]. intros Nn.
      destruct (read_plain CS cb dummy pool ch Good (hold_faults Lin) Hch (hg_ch Lin ch) (hg_mode Lin ch) (hg_saved Lin ch) (hg_error Lin ch) (hg_call Lin ch) Hcb
        (hold_mu) 257 st ratio frames data cs m fuel Gd Lg) as [(n & st' & cs' & m' & E' & _)|(f' & E' & A')]; rewrite Ff in E'; [discriminate E'|]. injection E' as <-.
      destruct A' as [A'|(_ & A')]; [now elim A'|]. specialize (A' (hg_drains Lin ch) Nn). lia.
  Qed.

  Lemma step_ready st c : lin_ready st -> legal_cb_op CS pool ch c -> apart_op CS pool ch c ->
    forall r st', api_step CS cb dummy st c = Ok (r, st') -> lin_ready st'.
  Proof.
    intros [H Lk] Lg Ap r0 st' E. 
    destruct (cb_step CS cb dummy pool ch Good (hold_faults Lin) Hch (hg_ch Lin ch) (hg_mode Lin ch) (hg_saved Lin ch) (hg_error Lin ch) (hg_call Lin ch) Hcb (hg_ratio Lin ch) (hg_reset Lin ch) st c H Lg)
      as [(r1 & st1 & E1 & H1)|(f & E1 & _)]; rewrite E in E1; [|discriminate E1]. injection E1 as <- <-. split; [exact H1|].
    destruct c as [d m|fuel ratio frames data cs m|r| | |]; cbn [api_step legal_cb_op apart_op] in *.
    - unfold src_process in E. destruct H as (G & Hm & H'). rewrite Hm in E. cbn in E. injection E as _ <-. exact Lk.
    - destruct (read_total st ratio frames data cs m fuel (conj H Lk) Lg Ap) as [(n & st2 & cs' & m' & E2 & [_ K] & _)|(E2 & _)]; rewrite E2 in E; [|discriminate E].
      cbn [bind keep] in E. injection E as _ <-. exact K.
    - unfold src_set_ratio in E. destruct (is_bad_src_ratio r); cbn [keep] in E; injection E as _ <-; exact Lk.
    - unfold src_reset in E. destruct (vt_reset st) as [s|f]; [|discriminate E]. cbn [bind keep] in E. injection E as _ <-. intros N. now elim N.
    - injection E as _ <-. exact Lk.
    - injection E as _ <-. exact Lk.
  Qed.
End Read.

Lemma run_ready CS (cb : callback_t CS) dummy pool ch : channels_fit ch -> proper CS cb dummy pool ch -> no_short_blocks CS cb ->
  forall st, cb_after_apart CS cb dummy pool ch (cb_created SRC_LINEAR ch) st -> 0 < ch /\ lin_ready pool ch st.
Proof.
  intros Hfit Hcb Hb st (st0 & cs & rs & C & Lg & Ap & E). destruct (hold_cb_new Lin ch pool Hfit st0 C) as [G L]. split; [exact L|].
  assert (R0 : lin_ready pool ch st0).
  { split; [exact G|]. destruct C as (bld & orc & func & ud & h & c & h' & E0 & ->). destruct (cb_new_shape _ _ _ _ _ _ _ _ _ E0) as (Nf & c0 & E1 & ->).
    assert (C : created SRC_LINEAR ch (c_state c0)) by (exists bld, orc, h, c0, h'; auto). destruct (created_state Lin ch _ C) as [_ Es]. rewrite Es.
    intros N. now elim N. }
  clear C G. revert st0 rs R0 E Lg Ap. induction cs as [|c cs IH]; intros st0 rs R0 E Lg Ap; cbn [api_run] in E; [injection E as _ <-; exact R0|].
  inversion Lg; subst. inversion Ap; subst. destruct (api_step CS cb dummy st0 c) as [[r st1]|] eqn:E1; [|discriminate E]. cbn [bind] in E.
  destruct (api_run CS cb dummy st1 cs) as [[rs1 st2]|] eqn:E2; [|discriminate E]. cbn [bind] in E. injection E as _ <-.
  apply (IH st1 rs1); auto. exact (step_ready CS cb dummy pool ch L Hcb Hb st0 c R0 H1 H3 r st1 E1).
Qed.

Lemma linear_reads ch CS (cb : callback_t CS) dummy pool : channels_fit ch -> proper CS cb dummy pool ch -> no_short_blocks CS cb ->
  forall st, cb_after_apart CS cb dummy pool ch (cb_created SRC_LINEAR ch) st ->
  forall fuel ratio frames data cs m, legal_read pool ch ratio frames data m -> out_apart pool ch frames data ->
  match src_callback_read CS cb dummy fuel (Some st) ratio frames data cs m with
  | Ok (n, st', cs', m') => exists s, st' = Some s /\ read_ok CS cb ch ratio frames data st m n s cs' m'
  | Fault f => f = F_fuel
  end.
Proof.
  intros F P B st A fuel ratio frames data cs m Lg Ap. destruct (run_ready CS cb dummy pool ch F P B st A) as [L R].
  destruct (read_total CS cb dummy pool ch L P B st ratio frames data cs m fuel R Lg Ap) as [(n & st' & cs' & m' & E & _ & K)|(E & _)]; rewrite E; eauto.
Qed.
Lemma linear_returns ch CS (cb : callback_t CS) dummy pool : channels_fit ch -> proper CS cb dummy pool ch -> no_short_blocks CS cb -> nonnegative CS cb ->
  forall st, cb_after_apart CS cb dummy pool ch (cb_created SRC_LINEAR ch) st ->
  forall fuel ratio frames data cs m, legal_read pool ch ratio frames data m -> out_apart pool ch frames data -> 259 * (Z.max 0 frames + 1) <= Z.of_nat fuel ->
  exists n st' cs' m', src_callback_read CS cb dummy fuel (Some st) ratio frames data cs m = Ok (n, st', cs', m').
Proof.
  intros F P B Nn st A fuel ratio frames data cs m Lg Ap Hfu. destruct (run_ready CS cb dummy pool ch F P B st A) as [L R].
  destruct (read_total CS cb dummy pool ch L P B st ratio frames data cs m fuel R Lg Ap) as [(n & st' & cs' & m' & E & _ & K)|(E & Q)]; [eauto 6|].
  specialize (Q Nn). lia.
Qed.
Lemma linear_call_before ch st d m : after_history Lin ch st -> channels_fit ch -> valid_call ch d m ->
  (0 < input_frames d < 3 -> (forall k, 0 <= k < ch -> m (data_in d - ch + k) <> None) /\
     disjoint_ranges (data_in d - ch) ch (data_out d) (output_frames d * ch)) ->
  exists st' d' m', src_process (Some st) (Some d) m = Ok (0, Some st', Some d', m') /\ honest_reply ch d m 0 d' m' /\
    (0 < input_frames d -> 0 < output_frames d -> 0 < input_frames_used d' \/ 0 < output_frames_gen d').
Proof.
  intros A F V B. destruct (history_state Lin ch st A F) as (K & Km & Kc). rewrite <- Kc in V, B.
  destruct (linear_mapped st d m K Km V B) as (st' & d' & m' & E & H & _ & _ & G & P & _).
  exists st', d', m'. rewrite Kc in H. auto.
Qed.
