(** Corollaries about sinc converters in the form stated in Properties_Sinc.v. *)
From Coq Require Import ZArith Reals List Bool Lia Lra.
From Flocq Require Import Core IEEE754.BinarySingleNaN.
From Verif Require Import Base FloatFacts PosFacts Types Common Sinc Api Heap Callback ApiHist HoldSpec HoldFacts HoldValue HoldRamp HoldCore
  HoldProcess HoldStream HoldMain LifeSpec ErrFacts ProcFacts HeapFacts LifeFacts SincSpec SincFacts SincCalc SincPrep SincLoop SincProcess SincCall
  SincApi SincHist SincStream SincMain SincLen.
Import ListNotations.
Local Open Scope Z_scope.

(** ** C18 - C20 *)
Lemma sinc_honest t ch st : table_fit t -> sinc_new t ch st ->
  forall CS (cb : callback_t CS) dummy cs rs st', Forall (valid_op ch) cs -> api_run CS cb dummy st cs = Ok (rs, st') ->
  Forall2 (truthful ch) cs rs.
Proof. intros Ht N CS cb dummy cs rs st' V E. assert (Q := sinc_any_history t ch st Ht N CS cb dummy cs V). rewrite E in Q. apply Q. Qed.

Lemma sinc_ratio_valid t ch st : table_fit t -> sinc_new t ch st ->
  forall CS (cb : callback_t CS) dummy cs rs st', Forall (valid_op ch) cs -> api_run CS cb dummy st cs = Ok (rs, st') ->
  (st_last_ratio st' = dzero \/ in_range (st_last_ratio st')) /\ Forall2 (never SRC_ERR_BAD_INTERNAL_STATE) cs rs.
Proof.
  intros Ht N CS cb dummy cs rs st' V E. assert (Q := sinc_any_history t ch st Ht N CS cb dummy cs V). rewrite E in Q. destruct Q as [Q R].
  split; [exact R|]. clear R E V. induction Q as [|c r cs rs H Q IH]; constructor; [|exact IH].
  destruct c as [[d|] m| | | | |]; cbn; try exact I. destruct r as [e [d'|] m'| |]; cbn in *; try exact I; [|contradiction].
  destruct H as [H|H]; destruct H as [-> _]; discriminate.
Qed.

Lemma sinc_ramp_valid last new ch frames k : in_range last -> in_range new -> 0 < ch -> Z.of_nat k < frames -> frames * ch <= 2 ^ 50 ->
  in_range (sinc_ramp last new ch frames k).
Proof.
  intros A B C D E. destruct (sinc_ramp_ok last new ch frames k (sinc_ramp last new ch frames k) A B C D E) as (_ & G & _); [|exact G].
  intros Q. unfold sinc_ramp. now rewrite Q.
Qed.

Lemma sinc_returns t ch st : table_fit t -> sinc_new t ch st ->
  forall CS (cb : callback_t CS) dummy cs, Forall (valid_op ch) cs -> api_run CS cb dummy st cs <> Fault F_fuel.
Proof. intros Ht N CS cb dummy cs V E. assert (Q := sinc_any_history t ch st Ht N CS cb dummy cs V). rewrite E in Q. now apply Q. Qed.

(** ** C27 *)
Lemma sinc_same_ratio inc coeffs ch X st log out st1 o1 d m st2 d2 m2 : table_fit (inc, coeffs) -> sinc_start (inc, coeffs) ch st ->
  (forall i k, i < 0 -> X i k = fzero) -> sinc_streaming ch X in_range st 0 log out st1 o1 ->
  valid_call ch d m -> holds m (data_in d) ch (input_frames d) X o1 ->
  (end_of_input d <> 0 -> forall i c, o1 + input_frames d <= i -> X i c = fzero) ->
  src_process (Some st1) (Some d) m = Ok (0, Some st2, Some d2, m2) ->
  st_last_ratio st1 = src_ratio d -> st_last_ratio st2 = src_ratio d.
Proof.
  intros Ht S Hx Run V Hin Hend E Er. destruct (start_tape inc coeffs ch X st Ht S Hx) as (Hch & Ot & _ & _).
  destruct (vari_run inc coeffs ch Ht Hch X _ _ _ _ _ _ Run Fresh Ot) as (ph1 & Ot1).
  destruct (tape_call inc coeffs ch Ht Hch X st1 o1 ph1 d m st2 d2 m2 Ot1 V Hin Hend E) as (ph2 & dep & _ & _ & _ & _ & _ & _ & _ & Lr & _).
  assert (Hr : in_range (src_ratio d)) by apply V.
  assert (Es : start_ratio st1 (src_ratio d) = src_ratio d).
  { apply (start_val st1 _ (fun x => x = src_ratio d)); [right; rewrite Er; exact Hr|now right|reflexivity]. }
  rewrite Es in Lr. rewrite Lr. destruct (Z.to_nat (output_frames_gen d2)); [reflexivity|]. now apply ramp_same.
Qed.

(** ** C32 *)
Lemma sinc_errors t ch st : table_fit t -> sinc_new t ch st ->
  forall CS (cb : callback_t CS) dummy cs rs st', Forall (valid_op ch) cs -> api_run CS cb dummy st cs = Ok (rs, st') ->
  Forall2 (fun c r => match c, r with
                      | A_process (Some d) _, R_process e _ _ => input_frames d * ch < 2 ^ 31 -> e = 0
                      | _, _ => True
                      end) cs rs.
Proof.
  intros Ht N CS cb dummy cs rs st' V E. assert (Q := sinc_honest t ch st Ht N CS cb dummy cs rs st' V E). clear E V.
  induction Q as [|c r cs rs H Q IH]; constructor; [|exact IH].
  destruct c as [[d|] m| | | | |]; try exact I. destruct r as [e [d'|] m'| |]; cbn in *; try exact I; [|contradiction].
  intros L. destruct H as [H|(_ & H & _)]; [apply H|lia].
Qed.

(** ** C33 *)
Lemma sinc_same_prefix inc coeffs ch X r st1 log1 out1 st1' o1 st2 log2 out2 st2' o2 : table_fit (inc, coeffs) ->
  sinc_start (inc, coeffs) ch st1 -> sinc_start (inc, coeffs) ch st2 -> (forall i k, i < 0 -> X i k = fzero) -> in_range r ->
  sinc_streaming ch X (eq r) st1 0 log1 out1 st1' o1 -> sinc_streaming ch X (eq r) st2 0 log2 out2 st2' o2 ->
  total_gen log1 <= total_gen log2 -> exists rest, out2 = out1 ++ rest.
Proof.
  intros Ht S1 S2 Hx G R1 R2 L. destruct (start_flow inc coeffs ch X r st1 Ht S1 Hx) as (Hch & Fl & _).
  destruct (flow_run inc coeffs ch Ht Hch X r G _ _ _ _ _ _ R1 Fresh Fl) as (_ & _ & _ & Tg & _).
  assert (F1 := sinc_convolution inc coeffs ch X r _ _ _ _ _ Ht S1 Hx G R1).
  assert (F2 := sinc_convolution inc coeffs ch X r _ _ _ _ _ Ht S2 Hx G R2).
  apply (frames_prefix ch out1 out2 _ _ _ ltac:(lia) (conj Tg L) F1 F2).
Qed.

(** ** C34: two channel counts *)
Lemma close2 G1 G2 c e1 e2 : (Rabs (G1 - c) <= e1 -> Rabs (G2 - c) <= e2 -> Rabs (G1 - G2) <= e1 + e2)%R.
Proof. intros A B. apply Rabs_le_inv in A, B. apply Rabs_le. lra. Qed.

Lemma sinc_converted_length t ch r N G : table_fit t -> in_range r -> (/ 191 <= B2R r)%R -> sinc_converted t ch r N G ->
  (Rabs (IZR G - B2R r * IZR N) <= 1 + (B2R r + 1) * (/ IZR (2 ^ 20) + IZR G / IZR (2 ^ 52)))%R.
Proof.
  intros Ht Ir Lo (X & st & log & out & st1 & o1 & d & m & st2 & d2 & m2 & S & Hx & Run & Op & V & Hin & Er & He & Hend & Hd & Hs & EN & E & Lt & ->).
  destruct t as [inc coeffs]. rewrite <- EN in Hend.
  assert (U := sinc_takes_all inc coeffs ch X r N st log out st1 o1 d m st2 d2 m2 Ht S Hx Ir Lo Run Op ltac:(lia) (fun _ => EN) V Hin Er (fun _ => Hend) Hd Hs E Lt).
  assert (L := sinc_length inc coeffs ch X r st log out st1 o1 d m st2 d2 m2 Ht S Hx Ir Lo Run V Hin Er He Hend Hd Hs E Lt).
  cbv zeta in L. rewrite U, EN in L. exact L.
Qed.

Lemma sinc_channel_counts t t' ch ch' r N G G' : table_fit t -> table_fit t' -> in_range r -> (/ 191 <= B2R r)%R ->
  sinc_converted t ch r N G -> sinc_converted t' ch' r N G' ->
  (Rabs (IZR G - IZR G') <= 2 + (B2R r + 1) * (/ IZR (2 ^ 19) + (IZR G + IZR G') / IZR (2 ^ 52)))%R.
Proof.
  intros Ht Ht' Ir Lo A B. assert (LA := sinc_converted_length _ _ _ _ _ Ht Ir Lo A). assert (LB := sinc_converted_length _ _ _ _ _ Ht' Ir Lo B).
  assert (Q := close2 _ _ _ _ _ LA LB). apply Rle_trans with (1 := Q).
  replace (/ IZR (2 ^ 19))%R with (/ IZR (2 ^ 20) + / IZR (2 ^ 20))%R.
  2:{ change (IZR (2 ^ 20)) with 1048576%R. change (IZR (2 ^ 19)) with 524288%R. lra. }
  unfold Rdiv. right. ring.
Qed.

Lemma hold_converted_length kd ch r N G : channels_fit ch -> in_range r -> converted kd ch r N G ->
  (Rabs (IZR G - B2R r * IZR N) <= (B2R r + 1) * (1 + IZR G / IZR (2 ^ 52)))%R.
Proof.
  intros F Ir (X & st & log & out & st1 & o1 & d & m & st2 & d2 & m2 & S & Run & Pr & V & Hin & Er & Ld & EN & E & Lt & ->).
  exact (length_bound kd ch X r N st log out st1 o1 d m 0 st2 d2 m2 S F Ir Run Pr V Hin Er Ld EN E Lt).
Qed.

Lemma hold_channel_counts kd ch ch' r N G G' : channels_fit ch -> channels_fit ch' -> in_range r ->
  converted kd ch r N G -> converted kd ch' r N G' ->
  (Rabs (IZR G - IZR G') <= (B2R r + 1) * (2 + (IZR G + IZR G') / IZR (2 ^ 52)))%R.
Proof.
  intros F F' Ir A B. assert (LA := hold_converted_length _ _ _ _ _ F Ir A). assert (LB := hold_converted_length _ _ _ _ _ F' Ir B).
  assert (Q := close2 _ _ _ _ _ LA LB). apply Rle_trans with (1 := Q). unfold Rdiv. right. ring.
Qed.

(** ** C35 *)
Lemma no_block m a ch X o n : n <= 0 -> holds m a ch n X o.
Proof. intros L i c Hi Hc. lia. Qed.
Lemma sinc_flush inc coeffs ch X r st log out st1 N d m st2 d2 m2 : table_fit (inc, coeffs) -> sinc_start (inc, coeffs) ch st ->
  (forall i k, i < 0 -> X i k = fzero) -> (forall i c, N <= i -> X i c = fzero) -> in_range r -> (/ 191 <= B2R r)%R ->
  sinc_streaming ch X (eq r) st 0 log out st1 N ->
  valid_call ch d m -> input_frames d = 0 -> end_of_input d <> 0 -> data_in d <> 0 -> src_ratio d = r ->
  src_process (Some st1) (Some d) m = Ok (0, Some st2, Some d2, m2) -> output_frames_gen d2 < output_frames d ->
  let G := IZR (total_gen log + output_frames_gen d2) in
  (Rabs (G - B2R r * IZR N) <= 1 + (B2R r + 1) * (/ IZR (2 ^ 20) + G / IZR (2 ^ 52)))%R.
Proof.
  intros Ht S Hx Hz G Lo Run V Z0 He Hd Er E Lt Gr.
  assert (Hz' : forall i c, N + input_frames d <= i -> X i c = fzero) by (intros i c Hi; apply Hz; lia).
  assert (Hin : holds m (data_in d) ch (input_frames d) X N) by (apply no_block; lia).
  assert (Hs : input_frames d * ch < 2 ^ 31) by (rewrite Z0; reflexivity).
  destruct (start_flow inc coeffs ch X r st Ht S Hx) as (Hch & Fl & P).
  destruct (flow_run inc coeffs ch Ht Hch X r G _ _ _ _ _ _ Run Fresh Fl) as (ph1 & Fl1 & _).
  destruct (flow_call inc coeffs ch Ht Hch X r G st1 N ph1 d m st2 d2 m2 Fl1 V Er Hin (fun _ => Hz') E) as (ph2 & Fl2 & Hu & _).
  assert (L := sinc_length inc coeffs ch X r st log out st1 N d m st2 d2 m2 Ht S Hx G Lo Run V Hin Er He Hz' Hd Hs E Lt).
  cbv zeta in L. replace (input_frames_used d2) with 0 in L by lia. rewrite Z.add_0_r in L. exact L.
Qed.
Lemma hold_flush kd ch X r st log out st1 N d m e st2 d2 m2 : at_start kd ch st -> channels_fit ch -> in_range r ->
  streaming ch X (eq r) (lin_legal kd ch X) st 0 log out st1 N -> presented 0 log <= N ->
  valid_call ch d m -> input_frames d = 0 -> src_ratio d = r ->
  src_process (Some st1) (Some d) m = Ok (e, Some st2, Some d2, m2) -> output_frames_gen d2 < output_frames d ->
  let G := IZR (total_gen log + output_frames_gen d2) in
  (Rabs (G - B2R r * IZR N) <= (B2R r + 1) * (1 + G * / IZR (2 ^ 52)))%R.
Proof.
  intros A F Ir Run Pr V Z0 Er E Lt.
  apply (length_bound kd ch X r N st log out st1 N d m e st2 d2 m2); auto; try lia.
  - apply no_block. lia.
  - destruct kd; cbn; [exact I|]. left. exact Z0.
Qed.
