(** Concrete streams in several blocks: example cases for Properties_Hold.v and Properties_Sinc.v. *)
From Coq Require Import ZArith Reals List Bool Lia Lra.
From Flocq Require Import Core IEEE754.BinarySingleNaN.
From Verif Require Import Base FloatFacts Types Api ApiHist HoldSpec HoldCore HoldRamp HoldMain.
Import ListNotations.
Local Open Scope Z_scope.

(** Address a holds the number a, up to 4000; frame i of channel c is the number 100 + i ch + c, up to 4000. *)
Definition numbers : mem := fun a => if 1 <=? a then Some (f_of_Z (Z.min a 4000)) else None.
Definition numbered (ch : Z) : stream := fun i c => f_of_Z (Z.max 1 (Z.min (100 + i * ch + c) 4000)).
(** n frames from frame o of the stream on, room for k frames at address 2^40. *)
Definition block (ch : Z) (r : f64) (o n k last : Z) : SRC_DATA := mkData (100 + o * ch) (2 ^ 40) n k 0 0 last r.

Lemma numbers_at a j : 1 <= a -> 0 <= j -> numbers (a + j) <> None.
Proof. intros A J. unfold numbers. destruct (Z.leb_spec 1 (a + j)); [discriminate|lia]. Qed.
Lemma block_holds ch o n : 1 <= ch -> 0 <= o -> holds numbers (100 + o * ch) ch n (numbered ch) o.
Proof.
  intros C O i c Hi Hc. unfold numbers, numbered. destruct (Z.leb_spec 1 (100 + o * ch + (i * ch + c))); [|nia].
  f_equal. f_equal. replace (100 + (o + i) * ch + c) with (100 + o * ch + (i * ch + c)) by ring. lia.
Qed.
Lemma block_valid ch r o n k last : 1 <= ch <= 128 -> in_range r -> 0 <= o <= 1000 -> 0 <= n <= 1000 -> 0 <= k <= 1000 ->
  valid_call ch (block ch r o n k last) numbers.
Proof.
  intros C R O N K. unfold valid_call, block. cbn [data_in data_out input_frames output_frames src_ratio].
  repeat (split; [first [lia|exact R|nia]|]). split; [intros j Hj; apply numbers_at; nia|].
  split; [intros j Hj; apply numbers_at; lia|]. left. nia.
Qed.

(** The blocks (n, k) one after the other, all at ratio r, give g frames and take u. *)
Fixpoint goes (ch : Z) (r : f64) (bl : list (Z * Z)) (st : SRC_STATE) (o u g : Z) : bool :=
  match bl with
  | [] => (u =? o) && (g =? 0)
  | (n, k) :: bl' =>
      match src_process (Some st) (Some (block ch r o n k 0)) numbers with
      | Ok (e, Some st1, Some d1, m1) =>
          (0 <=? input_frames_used d1) && (o + input_frames_used d1 <=? 1000) &&
          match mread_n m1 (2 ^ 40) (Z.to_nat (output_frames_gen d1 * ch)) with
          | Ok _ => goes ch r bl' st1 (o + input_frames_used d1) u (g - output_frames_gen d1)
          | _ => false
          end
      | _ => false
      end
  end.
Definition sizes (bl : list (Z * Z)) : Prop := Forall (fun b => 3 <= fst b <= 1000 /\ 0 <= snd b <= 1000) bl.
Lemma goes_stream kd ch r bl st o u g : 1 <= ch <= 128 -> in_range r -> sizes bl -> 0 <= o <= 1000 -> goes ch r bl st o u g = true ->
  exists log out st', streaming ch (numbered ch) (eq r) (lin_legal kd ch (numbered ch)) st o log out st' u /\ total_gen log = g.
Proof.
  intros C R. revert st o g. induction bl as [|[n k] bl IH]; intros st o g S O H; cbn [goes] in H.
  - apply andb_prop in H as [H1 H2]. apply Z.eqb_eq in H1, H2. subst u g. exists [], [], st. split; [constructor|reflexivity].
  - inversion S as [|x l [Sn Sk] Sr]; subst x l. cbn [fst snd] in Sn, Sk.
    destruct (src_process (Some st) (Some (block ch r o n k 0)) numbers) as [[[[e [st1|]] [d1|]] m1]|f] eqn:E; try discriminate.
    apply andb_prop in H as [H H3]. apply andb_prop in H as [H1 H2]. apply Z.leb_le in H1, H2.
    destruct (mread_n m1 (2 ^ 40) (Z.to_nat (output_frames_gen d1 * ch))) as [chunk|f] eqn:M; [|discriminate].
    destruct (IH st1 (o + input_frames_used d1) (g - output_frames_gen d1) Sr ltac:(lia) H3) as (log & out & st' & T & G).
    exists (Ev_call (block ch r o n k 0) d1 :: log), (chunk ++ out), st'. split; [|cbn [total_gen]; lia].
    eapply S_call; [apply block_valid; try lia; exact R|apply block_holds; lia|reflexivity| |exact E|exact M|exact T].
    destruct kd; cbn; [exact I|lia].
Qed.

(** Two ways of cutting ten frames at ratio 2, and at ratio 1; stereo. *)
Definition cut1 : list (Z * Z) := [(4, 3); (3, 100); (3, 100)].
Definition cut2 : list (Z * Z) := [(10, 100)].
Lemma cuts_sizes : sizes cut1 /\ sizes cut2.
Proof. split; repeat (constructor; [cbn; lia|]); constructor. Qed.
Lemma cut_runs kd :
  goes 2 (d_of_Z 2) cut1 (ex_conv kd 2) 0 7 (match kd with Zoh => 15 | Lin => 14 end) = true /\
  goes 2 (d_of_Z 2) cut2 (ex_conv kd 2) 0 10 (match kd with Zoh => 21 | Lin => 20 end) = true /\
  goes 2 done_ cut1 (ex_conv kd 2) 0 9 (match kd with Zoh => 10 | Lin => 9 end) = true.
Proof. destruct kd; vm_compute; auto. Qed.
(** C23, C24. *)
Lemma cuts_case kd : exists log1 out1 st1 o1 log2 out2 st2 o2, at_start kd 2 (ex_conv kd 2) /\
  streaming 2 (numbered 2) (eq (d_of_Z 2)) (lin_legal kd 2 (numbered 2)) (ex_conv kd 2) 0 log1 out1 st1 o1 /\
  streaming 2 (numbered 2) (eq (d_of_Z 2)) (lin_legal kd 2 (numbered 2)) (ex_conv kd 2) 0 log2 out2 st2 o2 /\
  0 < total_gen log1 /\ total_gen log1 < total_gen log2.
Proof.
  destruct (cut_runs kd) as (R1 & R2 & _). destruct cuts_sizes as [S1 S2].
  destruct (goes_stream kd 2 (d_of_Z 2) cut1 _ 0 _ _ ltac:(lia) two_range S1 ltac:(lia) R1) as (log1 & out1 & st1 & T1 & G1).
  destruct (goes_stream kd 2 (d_of_Z 2) cut2 _ 0 _ _ ltac:(lia) two_range S2 ltac:(lia) R2) as (log2 & out2 & st2 & T2 & G2).
  exists log1, out1, st1, 7, log2, out2, st2, 10. split; [left; apply ex_created|]. split; [exact T1|]. split; [exact T2|].
  rewrite G1, G2. destruct kd; lia.
Qed.
(** C26. *)
Lemma numbered_fine ch i c : is_finite (numbered ch i c) = true /\ numbered ch i c <> B754_zero true.
Proof.
  unfold numbered. set (z := Z.max 1 (Z.min (100 + i * ch + c) 4000)). destruct (f_of_Z_val z) as [V F]; [unfold z; lia|]. split; [exact F|].
  intros E. rewrite E in V. cbn in V. apply (f_equal Zfloor) in V. rewrite !(Zfloor_IZR) in V. unfold z in V. lia.
Qed.
Lemma unity_case kd : exists log out st' o', at_start kd 2 (ex_conv kd 2) /\ B2R done_ = 1%R /\
  streaming 2 (numbered 2) (eq done_) (lin_legal kd 2 (numbered 2)) (ex_conv kd 2) 0 log out st' o' /\ total_gen log = match kd with Zoh => 10 | Lin => 9 end.
Proof.
  destruct (cut_runs kd) as (_ & _ & R). destruct cuts_sizes as [S _].
  destruct (goes_stream kd 2 done_ cut1 _ 0 _ _ ltac:(lia) one_range S ltac:(lia) R) as (log & out & st' & T & G).
  exists log, out, st', 9. split; [left; apply ex_created|]. split; [exact (proj1 done_val)|]. split; [exact T|exact G].
Qed.
