(** What a process function may change, for every converter: only ratio, position, error and the contents of the private
    data of the state, only the two frame counts of SRC_DATA; error codes; and locality: what it does depends only on the
    mapped memory it actually uses. *)
From Coq Require Import ZArith List Bool Lia FunctionalExtensionality.
From Verif Require Import Base SincCopies SincCopiesEq Types Common Zoh Linear Sinc Api.
Import ListNotations.
Local Open Scope Z_scope.

(** Open up one step of a computation that is known to succeed. *)
Ltac ok_step H :=
  match type of H with
  | Ok _ = Ok _ => injection H; clear H; intros; subst
  | Fault _ = Ok _ => discriminate H
  | bind ?e _ = Ok _ =>
      let E := fresh "E" in
      destruct e as [?v|?f] eqn:E; cbn [bind] in H; [|discriminate H]
  | (let '(_, _) := ?p in _) = Ok _ => destruct p
  | (if ?b then _ else _) = Ok _ => destruct b eqn:?
  | (match ?x with P_null => _ | P_hold _ => _ | P_sinc _ => _ end) = Ok _ => destruct x eqn:?
  end.
Ltac ok_steps H := repeat ok_step H.

(** Private data of the same kind and size (and, for sinc, with the same tables). *)
Definition same_shape (p q : priv_ptr) : Prop :=
  match p, q with
  | P_null, P_null => True
  | P_hold a, P_hold b => length (h_last_value a) = length (h_last_value b)
  | P_sinc a, P_sinc b =>
      s_coeff_half_len a = s_coeff_half_len b /\ s_index_inc a = s_index_inc b /\ s_coeffs a = s_coeffs b /\
      s_b_len a = s_b_len b /\ length (s_buffer a) = length (s_buffer b)
  | _, _ => False
  end.

Record kept (st st' : SRC_STATE) : Prop := {
  k_vt : st_vt st = st_vt st';
  k_ch : st_channels st = st_channels st';
  k_mode : st_mode st = st_mode st';
  k_cb : st_callback st = st_callback st';
  k_ud : st_user_data st = st_user_data st';
  k_sf : st_saved_frames st = st_saved_frames st';
  k_sd : st_saved_data st = st_saved_data st';
  k_priv : same_shape (st_priv st) (st_priv st')
}.

Lemma shape_refl p : same_shape p p.
Proof. destruct p; cbn; auto. Qed.
Lemma shape_trans p q r : same_shape p q -> same_shape q r -> same_shape p r.
Proof. destruct p, q, r; cbn; try tauto; intuition congruence. Qed.
Lemma kept_refl st : kept st st.
Proof. constructor; auto using shape_refl. Qed.
Lemma kept_trans a b c : kept a b -> kept b c -> kept a c.
Proof. intros [] []. constructor; try congruence. eauto using shape_trans. Qed.

(** ** Lists *)
Lemma zset_length {A} (l : list A) i x l' : zset l i x = Ok l' -> length l' = length l.
Proof.
  unfold zset, zlen. intros H. ok_step H; [discriminate H|]. apply orb_false_elim in Heqb as [? ?].
  injection H as <-. rewrite app_length, firstn_length. cbn. rewrite skipn_length. lia.
Qed.
Lemma blit_length {A} (l src : list A) off l' : blit l off src = Ok l' -> length l' = length l.
Proof.
  unfold blit, zlen. intros H. ok_step H; [discriminate H|]. apply orb_false_elim in Heqb as [? ?].
  injection H as <-. rewrite !app_length, firstn_length, skipn_length. lia.
Qed.
Lemma load_frame_length m : forall n a lv ch lv', load_frame m a lv ch n = Ok lv' -> length lv' = length lv.
Proof.
  induction n as [|n IH]; cbn; intros a lv ch lv' H; ok_steps H; auto.
  apply IH in H. apply zset_length in E0. congruence.
Qed.

(** ** Shape of what the process functions return *)
Definition proc_shape (st : SRC_STATE) (d : SRC_DATA) (res : proc_result) : Prop :=
  let '(e, st', d', m') := res in
  (e = 0 \/ e = SRC_ERR_NO_PRIVATE \/ e = SRC_ERR_BAD_INTERNAL_STATE \/ e = SRC_ERR_SINC_PREPARE_DATA_BAD_LEN) /\
  kept st st' /\ d' = set_counts d (input_frames_used d') (output_frames_gen d') /\
  (e <> 0 -> d' = d) /\ (st_error st' = st_error st \/ st_error st' = 0 \/ st_error st' = e).

Lemma counts_id d : d = set_counts d (input_frames_used d) (output_frames_gen d).
Proof. now destruct d. Qed.

Ltac fin_kept := constructor; cbn; auto; match goal with H : st_priv _ = _ |- _ => rewrite H; cbn end; try congruence.

Lemma zoh_shape st d m res : zoh_vari_process st d m = Ok res -> proc_shape st d res.
Proof.
  unfold zoh_vari_process. intros H. ok_steps H; unfold proc_shape;
    (split; [tauto|split; [|split; [auto using counts_id|split; [intros X; first [reflexivity|destruct (X eq_refl)]|cbn; tauto]]]]);
    auto using kept_refl; fin_kept.
  all: repeat match goal with
    | E : (if _ then _ else _) = Ok _ |- _ => ok_steps E
    | E : bind _ _ = Ok _ |- _ => ok_steps E
    | E : load_frame _ _ _ _ _ = Ok _ |- _ => apply load_frame_length in E
    end; try congruence.
Qed.
Lemma linear_shape st d m res : linear_vari_process st d m = Ok res -> proc_shape st d res.
Proof.
  unfold linear_vari_process. intros H. ok_steps H; unfold proc_shape;
    (split; [tauto|split; [|split; [auto using counts_id|split; [intros X; first [reflexivity|destruct (X eq_refl)]|cbn; tauto]]]]);
    auto using kept_refl; fin_kept.
  all: repeat match goal with
    | E : (if _ then _ else _) = Ok _ |- _ => ok_steps E
    | E : bind _ _ = Ok _ |- _ => ok_steps E
    | E : load_frame _ _ _ _ _ = Ok _ |- _ => apply load_frame_length in E
    end; try congruence.
Qed.

Lemma move_down_shape s half s' : move_down s half = Ok s' -> same_shape (P_sinc s) (P_sinc s').
Proof. unfold move_down. intros H. ok_steps H. cbn. apply blit_length in E2. auto. Qed.
Lemma prepare_room_shape s ch half r : prepare_room s ch half = Ok r -> same_shape (P_sinc s) (P_sinc (fst r)).
Proof.
  unfold prepare_room. intros H. ok_steps H; cbn [fst]; auto using shape_refl; eauto using move_down_shape. cbn. auto.
Qed.
Lemma prepare_end_shape s half s' : prepare_end s half = Ok s' -> same_shape (P_sinc s) (P_sinc s').
Proof.
  unfold prepare_end. intros H. do 3 ok_step H.
  assert (S : same_shape (P_sinc s) (P_sinc v1)) by (ok_steps E1; auto using shape_refl; eauto using move_down_shape).
  clear E1. cbv zeta in H. ok_step H. ok_step H; [discriminate H|]. ok_steps H.
  apply blit_length in E2. cbn in *. intuition congruence.
Qed.
Lemma prepare_shape s ch d half m r : prepare_data s ch d half m = Ok r ->
  (fst r = 0 \/ fst r = SRC_ERR_SINC_PREPARE_DATA_BAD_LEN) /\ same_shape (P_sinc s) (P_sinc (snd r)).
Proof.
  unfold prepare_data. intros H. ok_step H; [ok_steps H; auto using shape_refl|].
  ok_step H; [ok_steps H; auto using shape_refl|].
  ok_step H. ok_step H. apply prepare_room_shape in E. cbn [fst] in E.
  cbv zeta in H. do 4 ok_step H; [ok_steps H; auto|].
  do 4 ok_step H. apply blit_length in E4.
  assert (S : same_shape (P_sinc s) (P_sinc (s_set_buf s0 (s_in_used s0 + (Z.min (wrap_int v) z - v0)) (s_b_current s0) v1
                                              (s_b_real_end s0) v3))) by (cbn in *; intuition congruence).
  ok_step H.
  - ok_step H. ok_step H. match goal with Q : prepare_end _ _ = Ok _ |- _ => apply prepare_end_shape in Q; split; [auto|];
      eapply shape_trans; [exact S|exact Q] end.
  - ok_steps H. auto.
Qed.
Lemma advance_shape s ch x r : sinc_advance s ch x = Ok r -> same_shape (P_sinc s) (P_sinc (fst r)).
Proof. unfold sinc_advance. intros H. ok_steps H. cbn. auto. Qed.

Lemma sinc_loop_shape mono nch ch half d lr tm : forall fuel s err idx r m res,
  sinc_loop fuel mono nch ch half d lr tm s err idx r m = Ok res ->
  let '(e, s', err', _, _, _) := res in
  (e = 0 \/ e = SRC_ERR_SINC_PREPARE_DATA_BAD_LEN) /\ same_shape (P_sinc s) (P_sinc s') /\
  (err' = err \/ err' = 0 \/ err' = e).
Proof.
  induction fuel as [|f IH]; cbn [sinc_loop]; intros s err idx r m res H; [discriminate H|].
  ok_step H; [|ok_steps H; auto using shape_refl].
  do 4 ok_step H.
  assert (S : same_shape (P_sinc s) (P_sinc s0) /\
              ((z = err \/ z = 0) \/ (b = true /\ z = SRC_ERR_SINC_PREPARE_DATA_BAD_LEN)) /\
              (b = true -> z = 0 \/ z = SRC_ERR_SINC_PREPARE_DATA_BAD_LEN)).
  { ok_step E0; [|injection E0 as <- <- <-; split; [apply shape_refl|]; split; [auto|discriminate]].
    ok_step E0. ok_step E0. apply prepare_shape in E1. cbn [fst snd] in E1. destruct E1 as [Ee Es].
    ok_step E0.
    - injection E0 as <- <- <-. split; [exact Es|]. destruct Ee as [->| ->]; [discriminate|auto].
    - ok_step E0. injection E0 as <- <- <-. auto. }
  destruct S as (Ss & Se & Sb). destruct b.
  { injection H as <-. specialize (Sb eq_refl). tauto. }
  assert (Sz : z = err \/ z = 0) by (destruct Se as [|[? _]]; [auto|discriminate]).
  ok_step H. { injection H as <-. tauto. }
  cbv zeta in H. ok_step H. ok_step H. ok_step H. ok_step H. ok_step H.
  apply advance_shape in E4. cbn [fst] in E4. apply IH in H. destruct res as [[[[[e s'] err'] ?] ?] ?].
  destruct H as (He & Hs & Hr). split; [exact He|]. split.
  - eapply shape_trans; [exact Ss|]. eapply shape_trans; [|exact Hs]. eapply shape_trans; [|exact E4]. cbn. auto.
  - intuition congruence.
Qed.

Lemma sinc_shape mono nch st d m res : sinc_process mono nch st d m = Ok res -> proc_shape st d res.
Proof.
  unfold sinc_process. intros H. ok_step H.
  - ok_steps H. unfold proc_shape. split; [tauto|]. split; [apply kept_refl|]. auto using counts_id.
  - discriminate H.
  - ok_step H. ok_step H. cbv zeta in H. ok_step H.
    + ok_steps H. unfold proc_shape. split; [tauto|]. split; [fin_kept; auto|]. auto using counts_id.
    + ok_step H. ok_step H. ok_step H. ok_step H. do 5 ok_step H. apply sinc_loop_shape in E3.
      apply advance_shape in E2. cbn [fst] in E2.
      assert (S : same_shape (P_sinc s) (P_sinc s1)).
      { eapply shape_trans; [|apply E3]. eapply shape_trans; [|exact E2]. cbn. auto. }
      destruct E3 as (He & _ & Hr).
      ok_step H.
      * ok_steps H. unfold proc_shape. split; [tauto|]. split; [fin_kept; exact S|]. split; [apply counts_id|].
        split; [auto|]. cbn. destruct Hr as [->|[->| ->]]; auto.
      * ok_steps H. unfold proc_shape. split; [tauto|]. split; [fin_kept; exact S|]. split; [reflexivity|].
        split; [intros X; destruct (X eq_refl)|]. cbn. apply negb_false_iff, Z.eqb_eq in Heqb0. subst. destruct Hr as [->|[->| ->]]; auto.
Qed.

Lemma vt_shape st d m res : vt_process st d m = Ok res -> proc_shape st d res.
Proof. unfold vt_process. destruct (st_vt st); intros H;
  [exact (zoh_shape _ _ _ _ H)|exact (linear_shape _ _ _ _ H)|rewrite mono_copy in H|rewrite stereo_copy in H|rewrite quad_copy in H
  |rewrite hex_copy in H|rewrite multichan_copy in H]; exact (sinc_shape _ _ _ _ _ _ H).
Qed.
