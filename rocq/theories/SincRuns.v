(** Two calls of the fastest sinc converter: example cases for C27, C35 and C42. *)
From Coq Require Import ZArith Reals List Bool Lia Lra.
From Flocq Require Import Core IEEE754.BinarySingleNaN.
From Verif Require Import Base FloatFacts Types Api ApiHist HoldSpec HoldMain HoldThms SincSpec SincApi SincTables SincCases.
Import ListNotations.
Local Open Scope Z_scope.

(** N ones. *)
Definition stretch (N : Z) : stream := fun i _ => if (0 <=? i) && (i <? N) then f_of_Z 1 else fzero.
Lemma stretch_before N i k : i < 0 -> stretch N i k = fzero.
Proof. intros H. unfold stretch. destruct (Z.leb_spec 0 i); [lia|reflexivity]. Qed.
Lemma stretch_after N i k : N <= i -> stretch N i k = fzero.
Proof. intros H. unfold stretch. destruct (Z.ltb_spec i N); [lia|]. now rewrite andb_false_r. Qed.
Lemma stretch_holds N ch o n : 1 <= ch -> 0 <= o -> o + n <= N -> holds ones 100 ch n (stretch N) o.
Proof.
  intros C O L i c Hi Hc. unfold ones, stretch. destruct (Z.leb_spec 1 (100 + (i * ch + c))); [|nia].
  destruct (Z.leb_spec 0 (o + i)); [|lia]. destruct (Z.ltb_spec (o + i) N); [reflexivity|lia].
Qed.

(** n1 frames at ratio r1, then n2 frames at ratio r2: used and generated. *)
Definition twice (ch : Z) (r1 : f64) (n1 k1 : Z) (r2 : f64) (n2 k2 last : Z) : option (Z * Z * Z * Z) :=
  match src_process (Some (fast_new ch)) (Some (request r1 n1 k1 0)) ones with
  | Ok (e, Some st1, Some d1, m1) =>
      match mread_n m1 (2 ^ 40) (Z.to_nat (output_frames_gen d1 * ch)), src_process (Some st1) (Some (request r2 n2 k2 last)) ones with
      | Ok _, Ok (e', Some st2, Some d2, m2) =>
          if (e =? 0) && (e' =? 0) then Some (input_frames_used d1, output_frames_gen d1, input_frames_used d2, output_frames_gen d2) else None
      | _, _ => None
      end
  | _ => None
  end.
Lemma twice_stream N ch r1 n1 k1 r2 n2 k2 last g1 u2 g2 : 1 <= ch <= 128 -> in_range r1 -> in_range r2 -> 0 <= n1 <= 1000 -> 0 <= k1 <= 1000 ->
  0 <= n2 <= 1000 -> 0 <= k2 <= 1000 -> n1 + n2 <= N -> twice ch r1 n1 k1 r2 n2 k2 last = Some (n1, g1, u2, g2) ->
  exists log out st1 st2 d2 m2, sinc_streaming ch (stretch N) (eq r1) (fast_new ch) 0 log out st1 n1 /\ total_gen log = g1 /\ ends_at N 0 log /\
    valid_call ch (request r2 n2 k2 last) ones /\ holds ones 100 ch n2 (stretch N) n1 /\
    src_process (Some st1) (Some (request r2 n2 k2 last)) ones = Ok (0, Some st2, Some d2, m2) /\ input_frames_used d2 = u2 /\ output_frames_gen d2 = g2.
Proof.
  intros C R1 R2 N1 K1 N2 K2 L H. unfold twice in H.
  destruct (src_process (Some (fast_new ch)) (Some (request r1 n1 k1 0)) ones) as [[[[e [st1|]] [d1|]] m1]|f] eqn:E; try discriminate.
  destruct (mread_n m1 (2 ^ 40) (Z.to_nat (output_frames_gen d1 * ch))) as [chunk|f] eqn:M; [|discriminate].
  destruct (src_process (Some st1) (Some (request r2 n2 k2 last)) ones) as [[[[e' [st2|]] [d2|]] m2]|f] eqn:E'; try discriminate.
  destruct (Z.eqb_spec e 0) as [->|]; [|discriminate]. destruct (Z.eqb_spec e' 0) as [->|]; [|discriminate]. cbn [andb] in H.
  injection H as U1 G1 U2 G2.
  exists [Ev_call (request r1 n1 k1 0) d1], (chunk ++ []), st1, st2, d2, m2.
  split. { rewrite <- U1 at 2. eapply SS_call; [apply request_valid; try lia; exact R1|apply stretch_holds; cbn; lia|reflexivity| |exact E|exact M|constructor].
    intros X. now elim X. }
  split; [cbn; lia|]. split; [cbn; split; [lia|exact I]|]. split; [apply request_valid; try lia; exact R2|]. split; [apply stretch_holds; lia|].
  split; [exact E'|]. split; [exact U2|exact G2].
Qed.

(** C27: 25 frames at ratio 1, then a call that moves to ratio 2. *)
Lemma ramp_twice : twice 1 done_ 25 1 (d_of_Z 2) 4 2 0 = Some (25, 1, 0, 2).
Proof. vm_compute. reflexivity. Qed.
Lemma ramp_run : exists log out st1 st2 d2 m2, sinc_start fastest_table 1 (fast_new 1) /\ sinc_streaming 1 (stretch 30) (eq done_) (fast_new 1) 0 log out st1 25 /\
  valid_call 1 (request (d_of_Z 2) 4 2 0) ones /\ holds ones 100 1 4 (stretch 30) 25 /\
  src_process (Some st1) (Some (request (d_of_Z 2) 4 2 0)) ones = Ok (0, Some st2, Some d2, m2) /\ total_gen log = 1 /\ output_frames_gen d2 = 2.
Proof.
  destruct (twice_stream 30 1 done_ 25 1 (d_of_Z 2) 4 2 0 1 0 2 ltac:(lia) one_range two_range ltac:(lia) ltac:(lia) ltac:(lia) ltac:(lia) ltac:(lia) ramp_twice)
    as (log & out & st1 & st2 & d2 & m2 & S & G & _ & V & H & P & _ & G2).
  exists log, out, st1, st2, d2, m2. split; [left; exact new1|]. repeat (split; [eassumption|]). assumption.
Qed.
(** C35: seven frames at ratio 1/4, then an empty last block; C42: four frames, then four. *)
Lemma end_twice : twice 1 (part 4) 7 5 (part 4) 0 5 1 = Some (7, 0, 0, 1) /\ twice 1 (part 4) 4 5 (part 4) 4 5 1 = Some (4, 0, 4, 2).
Proof. split; vm_compute; reflexivity. Qed.
Lemma end_run n1 n N g : (n1 = 7 /\ n = 0 /\ N = 7 /\ g = 1) \/ (n1 = 4 /\ n = 4 /\ N = 8 /\ g = 2) -> exists log out st1 st2 d2 m2,
  sinc_start fastest_table 1 (fast_new 1) /\ sinc_streaming 1 (stretch N) (eq (part 4)) (fast_new 1) 0 log out st1 n1 /\ ends_at N 0 log /\
  valid_call 1 (request (part 4) n 5 1) ones /\ holds ones 100 1 n (stretch N) n1 /\
  src_process (Some st1) (Some (request (part 4) n 5 1)) ones = Ok (0, Some st2, Some d2, m2) /\ output_frames_gen d2 = g.
Proof.
  intros H. assert (T : twice 1 (part 4) n1 5 (part 4) n 5 1 = Some (n1, 0, n, g)) by (destruct H as [(-> & -> & -> & ->)|(-> & -> & -> & ->)]; apply end_twice).
  assert (R := part_range 4 ltac:(lia)).
  destruct (twice_stream N 1 (part 4) n1 5 (part 4) n 5 1 0 n g ltac:(lia) R R ltac:(lia) ltac:(lia) ltac:(lia) ltac:(lia) ltac:(lia) T)
    as (log & out & st1 & st2 & d2 & m2 & S & G & EN & V & HO & P & _ & G2).
  exists log, out, st1, st2, d2, m2. split; [left; exact new1|]. repeat (split; [eassumption|]). assumption.
Qed.
(** C27: the ratio set, then the same ratio asked for. *)
Definition set_and_go (st : SRC_STATE) (r : f64) (d : SRC_DATA) : option Z :=
  match src_set_ratio (Some st) r with
  | (e, Some st1) => match src_process (Some st1) (Some d) ones with Ok (e', Some _, Some d2, _) => if (e =? 0) && (e' =? 0) then Some (output_frames_gen d2) else None | _ => None end
  | _ => None
  end.
Lemma set_gen st r d g N : in_range r -> set_and_go st r d = Some g ->
  exists log out st1 st2 d2 m2, sinc_streaming 1 (stretch N) (eq r) st 0 log out st1 0 /\ st_last_ratio st1 = r /\
    src_process (Some st1) (Some d) ones = Ok (0, Some st2, Some d2, m2) /\ output_frames_gen d2 = g.
Proof.
  unfold set_and_go. intros R H. destruct (thm_C27_set_ratio st r R) as (st1 & E & L & _). rewrite E in H.
  destruct (src_process (Some st1) (Some d) ones) as [[[[e' [st2|]] [d2|]] m2]|f] eqn:P; try discriminate.
  cbn [Z.eqb andb] in H. destruct (Z.eqb_spec e' 0) as [->|]; [|discriminate]. injection H as G.
  exists [Ev_ratio r], [], st1, st2, d2, m2. split; [eapply SS_ratio; [exact R|reflexivity|exact E|constructor]|]. auto.
Qed.
Lemma set_goes : set_and_go (fast_new 1) (part 2) (request (part 2) 60 1 0) = Some 1.
Proof. vm_compute. reflexivity. Qed.
Lemma same_run : exists log out st1 st2 d2 m2, sinc_start fastest_table 1 (fast_new 1) /\ sinc_streaming 1 (stretch 60) (eq (part 2)) (fast_new 1) 0 log out st1 0 /\
  valid_call 1 (request (part 2) 60 1 0) ones /\ holds ones 100 1 60 (stretch 60) 0 /\ st_last_ratio st1 = part 2 /\
  src_process (Some st1) (Some (request (part 2) 60 1 0)) ones = Ok (0, Some st2, Some d2, m2) /\ output_frames_gen d2 = 1.
Proof.
  assert (R := part_range 2 ltac:(lia)). destruct (set_gen (fast_new 1) (part 2) _ 1 60 R set_goes) as (log & out & st1 & st2 & d2 & m2 & S & L & P & G).
  exists log, out, st1, st2, d2, m2. split; [left; exact new1|]. split; [exact S|]. split; [apply request_valid; try lia; exact R|].
  split; [apply stretch_holds; lia|]. split; [exact L|]. split; [exact P|exact G].
Qed.
