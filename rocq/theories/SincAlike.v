(** The control flow of the sinc converters does not look at sample values: two converters that differ only in the contents
    of their buffers, run on memories that differ only in their contents, take the same decisions. *)
From Coq Require Import ZArith List Bool Lia.
From Flocq Require Import Core IEEE754.BinarySingleNaN.
From Verif Require Import Base Types Common Sinc Api.
Import ListNotations.
Local Open Scope Z_scope.

Section Alike.
(** [strict]: the accessible addresses are the same too, and so are the faults. *)
Variable strict : Prop.

(** Two computations end in the same way. *)
Definition both {A B} (R : A -> B -> Prop) (x : outcome A) (y : outcome B) : Prop :=
  match x, y with Ok a, Ok b => R a b | Fault f, Fault g => strict -> f = g | _, _ => ~ strict end.
Lemma both_fault {A B} (R : A -> B -> Prop) f : both R (Fault f) (Fault f).
Proof. intros _. reflexivity. Qed.

Lemma both_bind {A B C D} (R : A -> B -> Prop) (S : C -> D -> Prop) x y k k' :
  both R x y -> (forall a b, R a b -> both S (k a) (k' b)) -> both S (bind x k) (bind y k').
Proof.
  destruct x as [a|f], y as [b|g]; cbn [bind]; intros H K.
  - apply K. exact H.
  - cbn in H. destruct (k a); cbn; tauto.
  - cbn in H. destruct (k' b); cbn; tauto.
  - exact H.
Qed.
Lemma both_same {A C D} (S : C -> D -> Prop) (x : outcome A) k k' :
  (forall a, both S (k a) (k' a)) -> both S (bind x k) (bind x k').
Proof. destruct x; cbn [bind]; auto. intros _. apply both_fault. Qed.

Definition like_len {A} (l l' : list A) : Prop := length l = length l'.
Lemma len_z {A} (l l' : list A) : like_len l l' -> zlen l = zlen l'.
Proof. unfold like_len, zlen. lia. Qed.

Lemma zget_both {A} (l l' : list A) i : like_len l l' -> both (fun _ _ => True) (zget l i) (zget l' i).
Proof.
  intros L. unfold zget. destruct (i <? 0); [apply both_fault|].
  destruct (nth_error l (Z.to_nat i)) eqn:E, (nth_error l' (Z.to_nat i)) eqn:E'; cbn; auto.
  - apply nth_error_None in E'. assert (Z.to_nat i < length l)%nat by (apply nth_error_Some; congruence). unfold like_len in L. lia.
  - apply nth_error_None in E. assert (Z.to_nat i < length l')%nat by (apply nth_error_Some; congruence). unfold like_len in L. lia.
Qed.
Lemma slice_both {A} (l l' : list A) i n : like_len l l' -> both like_len (slice l i n) (slice l' i n).
Proof.
  intros L. unfold slice. rewrite (len_z _ _ L). destruct (_ || _); [apply both_fault|]. cbn. unfold like_len in *. rewrite !firstn_length, !skipn_length. lia.
Qed.
Lemma blit_both {A} (l l' : list A) i x x' : like_len l l' -> like_len x x' -> both like_len (blit l i x) (blit l' i x').
Proof.
  intros L M. unfold blit. rewrite (len_z _ _ L), (len_z _ _ M). destruct (_ || _); [apply both_fault|]. cbn. unfold like_len in *.
  rewrite !app_length, !firstn_length, !skipn_length. lia.
Qed.
Lemma blit_len {A} (l : list A) i x b : blit l i x = Ok b -> length b = length l.
Proof.
  unfold blit. destruct ((i <? 0) || (zlen l <? i + zlen x)) eqn:E; [discriminate|]. intros [= <-]. apply orb_false_iff in E as [E1 E2].
  apply Z.ltb_ge in E1, E2. unfold zlen in *. rewrite !app_length, firstn_length, skipn_length. lia.
Qed.

(** Memories with the same accessible addresses. *)
Definition like_mem (m m' : mem) : Prop := strict -> forall a, m a = None <-> m' a = None.
Lemma mread_n_both n : forall a m m', like_mem m m' -> both like_len (mread_n m a n) (mread_n m' a n).
Proof.
  induction n as [|n IH]; intros a m m' L; cbn [mread_n]; [reflexivity|].
  apply (both_bind (fun _ _ => True)).
  { unfold mread. destruct (m a) eqn:E, (m' a) eqn:E'; cbn; auto; intros St; specialize (L St a); intuition congruence. }
  intros x y _. apply (both_bind like_len); [apply IH; exact L|]. intros l l' H. cbn. unfold like_len in *. cbn. lia.
Qed.
Lemma mwrite_both m m' a x x' : like_mem m m' -> both like_mem (mwrite m a x) (mwrite m' a x').
Proof.
  intros L. unfold mwrite. destruct (m a) eqn:E, (m' a) eqn:E'; cbn; auto; try (intros St; specialize (L St a); intuition congruence).
  intros St b. destruct (b =? a); [split; discriminate|apply (L St)].
Qed.
Lemma mwrite_list_both xs : forall xs' m m' a, like_len xs xs' -> like_mem m m' -> both like_mem (mwrite_list m a xs) (mwrite_list m' a xs').
Proof.
  induction xs as [|x xs IH]; intros [|x' xs'] m m' a L M; try discriminate L; cbn [mwrite_list]; [exact M|].
  apply (both_bind like_mem); [now apply mwrite_both|]. intros m1 m1' M1. apply IH; [unfold like_len in *; cbn in L; lia|exact M1].
Qed.

(** ** The filter *)
Definition with_buf (s : sinc_data) (b : list f32) : sinc_data :=
  mkSinc (s_in_count s) (s_in_used s) (s_out_count s) (s_out_gen s) (s_coeff_half_len s) (s_index_inc s)
         (s_src_ratio s) (s_input_index s) (s_coeffs s) (s_b_current s) (s_b_end s) (s_b_real_end s) (s_b_len s) b.
Definition like (s s' : sinc_data) : Prop := exists b, s' = with_buf s b /\ like_len (s_buffer s) b.
Lemma like_refl s : like s s.
Proof. exists (s_buffer s). split; [now destruct s|reflexivity]. Qed.
Lemma like_self s b : like_len (s_buffer s) b -> like s (with_buf s b).
Proof. exists b. auto. Qed.

Lemma accumulate_both ic : forall acc acc' b b' di, like_len b b' -> like_len acc acc' -> both like_len (accumulate ic b di acc) (accumulate ic b' di acc').
Proof.
  induction acc as [|a acc IH]; intros [|a' acc'] b b' di L M; try discriminate M; cbn [accumulate]; [reflexivity|].
  apply (both_bind (fun _ _ => True)); [now apply zget_both|]. intros x y _.
  apply (both_bind like_len); [apply IH; [exact L|unfold like_len in *; cbn in M; lia]|]. intros l l' H. cbn. unfold like_len in *. cbn. lia.
Qed.
Lemma coeff_asserts_with weak s b i : coeff_asserts weak (with_buf s b) i = coeff_asserts weak s i.
Proof. reflexivity. Qed.
Lemma data_asserts_with s b nch di : data_asserts (with_buf s b) nch di = data_asserts s nch di.
Proof. reflexivity. Qed.
Lemma left_both : forall fuel s b nch i fi di acc acc', like_len (s_buffer s) b -> like_len acc acc' ->
  both like_len (left_loop fuel s nch i fi di acc) (left_loop fuel (with_buf s b) nch i fi di acc').
Proof.
  induction fuel as [|fuel IH]; intros s b nch i fi di acc acc' L M; cbn [left_loop]; [apply both_fault|].
  destruct (fi <? 0); [exact M|]. rewrite coeff_asserts_with. destruct (coeff_asserts _ _ _); [|apply both_fault].
  apply both_same. intros ic. rewrite data_asserts_with. destruct (data_asserts _ _ _); [|apply both_fault]. apply (both_bind like_len); [now apply accumulate_both|]. intros l l' H.
  apply both_same. intros fi'. apply both_same. intros di'. apply IH; assumption.
Qed.
Lemma right_both : forall fuel mono s b nch i fi di acc acc', like_len (s_buffer s) b -> like_len acc acc' ->
  both like_len (right_loop fuel mono s nch i fi di acc) (right_loop fuel mono (with_buf s b) nch i fi di acc').
Proof.
  induction fuel as [|fuel IH]; intros mono s b nch i fi di acc acc' L M; cbn [right_loop]; [apply both_fault|].
  rewrite coeff_asserts_with. destruct (coeff_asserts _ _ _); [|apply both_fault].
  apply both_same. intros ic. rewrite data_asserts_with. destruct (data_asserts _ _ _); [|apply both_fault]. apply (both_bind like_len); [now apply accumulate_both|]. intros l l' H.
  apply both_same. intros fi'. apply both_same. intros di'. destruct (0 <? fi'); [apply IH; assumption|exact H].
Qed.
Lemma calc_both mono s b nch channels i sfi sc sc' : like_len (s_buffer s) b ->
  both like_len (calc_output mono s nch channels i sfi sc) (calc_output mono (with_buf s b) nch channels i sfi sc').
Proof.
  intros L. unfold calc_output. apply (both_bind like_len).
  - unfold calc_left. cbn [with_buf s_coeff_half_len s_b_current]. repeat (apply both_same; intros ?). destruct a6. destruct (in_scratch nch); [|apply both_fault]. now apply left_both.
  - intros ls ls' Hl. apply (both_bind like_len).
    + unfold calc_right. cbn [with_buf s_coeff_half_len s_b_current]. repeat (apply both_same; intros ?). destruct (in_scratch nch); [|apply both_fault]. now apply right_both.
    + intros rs rs' Hr. cbn. unfold like_len in *. rewrite !map_length, !combine_length. lia.
Qed.

(** ** Filling the buffer *)
Definition like2 {B} (x y : sinc_data * B) : Prop := like (fst x) (fst y) /\ snd x = snd y.

Lemma move_both s b half : like_len (s_buffer s) b -> both like (move_down s half) (move_down (with_buf s b) half).
Proof.
  intros L. unfold move_down. cbn [with_buf s_b_end s_b_current s_buffer s_in_used s_b_real_end].
  apply both_same. intros len. apply both_same. intros n. apply (both_bind like_len); [now apply slice_both|]. intros p p' Hp.
  apply (both_bind like_len); [now apply blit_both|]. intros q q' Hq. apply both_same. intros e. exists q'. split; [reflexivity|exact Hq].
Qed.
Lemma room_both s b channels half : like_len (s_buffer s) b -> both like2 (prepare_room s channels half) (prepare_room (with_buf s b) channels half).
Proof.
  intros L. unfold prepare_room. cbn [with_buf s_b_end s_b_current s_buffer s_in_used s_b_real_end s_b_len].
  destruct (s_b_current s =? 0).
  - apply both_same. intros h2. apply both_same. intros len. split; [|reflexivity]. exists b. split; [reflexivity|exact L].
  - apply both_same. intros e1. apply both_same. intros e2. destruct (e2 <? s_b_len s).
    + apply both_same. intros l. split; [|reflexivity]. exists b. split; [reflexivity|exact L].
    + apply (both_bind like); [now apply move_both|]. intros s1 s1' (b1 & -> & L1). apply both_same. intros l. split; [|reflexivity].
      exists b1. split; [reflexivity|exact L1].
Qed.
Lemma end_both s b half : like_len (s_buffer s) b -> both like (prepare_end s half) (prepare_end (with_buf s b) half).
Proof.
  intros L. unfold prepare_end. cbn [with_buf s_b_end s_b_current s_buffer s_in_used s_b_real_end s_b_len].
  apply both_same. intros free. apply both_same. intros h5. apply (both_bind like).
  { destruct (free <? h5); [now apply move_both|exists b; split; [reflexivity|exact L]]. }
  intros s1 s1' (b1 & -> & L1). cbn [with_buf s_b_end s_b_current s_buffer s_in_used s_b_real_end s_b_len].
  apply both_same. intros e. destruct (_ <? 0); [apply both_fault|].
  apply (both_bind like_len); [apply blit_both; [exact L1|reflexivity]|]. intros q q' Hq. apply both_same. intros e'. exists q'. split; [reflexivity|exact Hq].
Qed.
Lemma prepare_both s b channels d half m m' : like_len (s_buffer s) b -> like_mem m m' ->
  both (fun x y => fst x = fst y /\ like (snd x) (snd y)) (prepare_data s channels d half m) (prepare_data (with_buf s b) channels d half m').
Proof.
  intros L M. unfold prepare_data. cbn [with_buf s_b_real_end].
  destruct (0 <=? s_b_real_end s); [split; [reflexivity|now apply like_self]|].
  destruct (data_in d =? 0); [split; [reflexivity|now apply like_self]|].
  apply (both_bind like2); [now apply room_both|]. intros [s1 room] [s1' room'] [(b1 & E & L1) E2]. cbn [fst snd] in *. subst s1' room'.
  cbn [with_buf s_b_end s_b_current s_buffer s_in_used s_in_count s_b_real_end s_b_len].
  apply both_same. intros rst. apply both_same. intros r. apply both_same. intros e.
  destruct (_ || _); [split; [reflexivity|now apply like_self]|].
  apply (both_bind like_len); [now apply mread_n_both|]. intros xs xs' Hx.
  apply (both_bind like_len); [now apply blit_both|]. intros q q' Hq. apply both_same. intros h2.
  cbn [s_set_buf s_b_end s_b_current s_in_used s_in_count]. apply both_same. intros av.
  destruct (_ && _ && _).
  - apply (both_bind like).
    + apply (end_both (s_set_buf s1 _ _ _ _ q) q'). exact Hq.
    + intros s3 s3' H3. split; [reflexivity|exact H3].
  - split; [reflexivity|]. exists q'. split; [reflexivity|exact Hq].
Qed.

(** ** The loop *)
Definition like_loop (x y : Z * sinc_data * Z * f64 * f64 * mem) : Prop :=
  let '(e, s, err, i, r, m) := x in let '(e', s', err', i', r', m') := y in
  e = e' /\ like s s' /\ err = err' /\ i = i' /\ r = r' /\ like_mem m m'.

Definition reload_of (s : sinc_data) (channels half : Z) (d : SRC_DATA) (err : Z) (m : mem) (sih : Z) : outcome (sinc_data * Z * bool) :=
  if sih <=? half then
    do (e, s') <- prepare_data s channels d half m ;
    if negb (e =? 0) then Ok (s', e, true)
    else do sih' <- samples_in_hand s' ; Ok (s', 0, sih' <=? half)
  else Ok (s, err, false).
Lemma reload_both s b channels half d err m m' sih : like_len (s_buffer s) b -> like_mem m m' ->
  both (fun x y => like (fst (fst x)) (fst (fst y)) /\ snd (fst x) = snd (fst y) /\ snd x = snd y)
    (reload_of s channels half d err m sih) (reload_of (with_buf s b) channels half d err m' sih).
Proof.
  intros L M. unfold reload_of. destruct (sih <=? half).
  - eapply both_bind; [now apply prepare_both|]. intros [e s1] [e' s1'] [E (b1 & E1 & L1)]. cbn [fst snd] in *. subst e' s1'.
    destruct (negb (e =? 0)); [cbn; auto using like_self|]. change (samples_in_hand (with_buf s1 b1)) with (samples_in_hand s1).
    apply both_same. intros sih'. cbn. auto using like_self.
  - cbn. auto using like_self.
Qed.

Lemma advance_both s b channels i : like_len (s_buffer s) b -> both like2 (sinc_advance s channels i) (sinc_advance (with_buf s b) channels i).
Proof.
  intros L. unfold sinc_advance. cbn [with_buf s_b_current s_b_len]. do 3 (apply both_same; intros ?). split; [|reflexivity]. exists b. auto.
Qed.

Lemma loop_both : forall fuel mono nch channels half d last term s b err idx r m m', like_len (s_buffer s) b -> like_mem m m' ->
  both like_loop (sinc_loop fuel mono nch channels half d last term s err idx r m)
                 (sinc_loop fuel mono nch channels half d last term (with_buf s b) err idx r m').
Proof.
  induction fuel as [|fuel IH]; intros mono nch channels half d last term s b err idx r m m' L M; cbn [sinc_loop]; [apply both_fault|].
  cbn [with_buf s_out_gen s_out_count]. destruct (s_out_gen s <? s_out_count s).
  2: { cbn. auto 10 using like_self. }
  change (samples_in_hand (with_buf s b)) with (samples_in_hand s). apply both_same. intros sih.
  eapply both_bind; [exact (reload_both s b channels half d err m m' sih L M)|].
  intros [[s1 e1] stop] [[s1' e1'] stop'] ((b1 & E1 & L1) & E2 & E3). cbn [fst snd] in *. subst s1' e1' stop'.
  destruct stop; [cbn; auto 10 using like_self|]. change (at_end mono (with_buf s1 b1) idx term) with (at_end mono s1 idx term).
  destruct (at_end mono s1 idx term); [cbn; auto 10 using like_self|].
  cbn [with_buf s_out_gen s_out_count s_index_inc].
  eapply both_bind; [now apply calc_both|]. intros out out' Ho.
  eapply both_bind; [now apply mwrite_list_both|]. intros m1 m1' M1.
  apply both_same. intros og. eapply both_bind; [exact (advance_both (s_set_out_gen s1 og) b1 channels _ L1)|].
  intros [s2 i2] [s2' i2'] [(b2 & E4 & L4) E5]. cbn [fst snd] in *. subst s2' i2'. apply IH; assumption.
Qed.

(** ** The converter *)
Definition like_state (st st' : SRC_STATE) : Prop :=
  exists s s', st_priv st = P_sinc s /\ st' = set_priv st (P_sinc s') /\ like s s'.
Definition like_reply (x y : proc_result) : Prop :=
  let '(e, st, d, m) := x in let '(e', st', d', m') := y in e = e' /\ like_state st st' /\ d = d' /\ like_mem m m'.

Lemma process_both mono nch st st' d m m' : like_state st st' -> like_mem m m' ->
  both like_reply (sinc_process mono nch st d m) (sinc_process mono nch st' d m').
Proof.
  intros (s & s' & E & -> & (b & -> & L)) M. unfold sinc_process. rewrite E.
  cbn [set_priv st_priv st_channels st_last_ratio st_last_position st_error].
  apply both_same. intros ic. apply both_same. intros oc.
  destruct (is_bad_src_ratio (st_last_ratio st)).
  { cbn. split; [reflexivity|]. split; [|auto]. eexists _, _. split; [reflexivity|]. split; [reflexivity|]. exists b. auto. }
  apply (both_same _ (half_filter_len (s_set_counts s ic 0 oc 0) (st_channels st) (st_last_ratio st) (src_ratio d))). intros half.
  eapply both_bind; [exact (advance_both (s_set_counts s ic 0 oc 0) b (st_channels st) _ L)|].
  intros [s1 i1] [s1' i1'] [(b1 & E1 & L1) E2]. cbn [fst snd] in *. subst s1' i1'.
  eapply both_bind; [now apply loop_both|].
  intros [[[[[e s2] err] i2] r2] m2] [[[[[e' s2'] err'] i2'] r2'] m2'] (-> & (b2 & -> & L2) & -> & -> & -> & M2).
  destruct (negb (e' =? 0)).
  { cbn. split; [reflexivity|]. split; [|auto]. eexists _, _. split; [reflexivity|]. split; [reflexivity|]. exists b2. auto. }
  cbn [with_buf s_in_used s_out_gen]. apply both_same. intros used. apply both_same. intros gen.
  cbn. split; [reflexivity|]. split; [|auto]. eexists _, _. split; [reflexivity|]. split; [reflexivity|]. exists b2. auto.
Qed.
End Alike.
