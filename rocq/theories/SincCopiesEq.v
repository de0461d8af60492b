(** Each copy of the sinc process function is the common form [sinc_process] at its channel number. *)
From Coq Require Import ZArith List Bool Lia.
From Flocq Require Import Core IEEE754.BinarySingleNaN.
From Verif Require Import Base Types Common Sinc SincCopies.
Import ListNotations.
Local Open Scope Z_scope.

(** ** Arrays *)
Lemma zget_mid {A} (pre post : list A) a : zget (pre ++ a :: post) (zlen pre) = Ok a.
Proof.
  unfold zget, zlen. replace (Z.of_nat (length pre) <? 0) with false by (symmetry; apply Z.ltb_ge; lia).
  rewrite Nat2Z.id, nth_error_app2 by lia. now rewrite Nat.sub_diag.
Qed.
Lemma zset_mid {A} (pre post : list A) a b : zset (pre ++ a :: post) (zlen pre) b = Ok (pre ++ b :: post).
Proof.
  unfold zset, zlen. rewrite app_length. cbn [length].
  replace (Z.of_nat (length pre) <? 0) with false by (symmetry; apply Z.ltb_ge; lia).
  replace (Z.of_nat (length pre + S (length post)) <=? Z.of_nat (length pre)) with false by (symmetry; apply Z.leb_gt; lia). cbn [orb].
  rewrite Nat2Z.id, firstn_app, Nat.sub_diag, firstn_all, skipn_app. cbn [firstn]. rewrite app_nil_r, skipn_all2 by lia.
  replace (length pre + 1 - length pre)%nat with 1%nat by lia. reflexivity.
Qed.
Lemma zlen_snoc {A} (pre : list A) a : zlen (pre ++ [a]) = zlen pre + 1.
Proof. unfold zlen. rewrite app_length. cbn [length]. lia. Qed.
Lemma bind_ok {A} (x : outcome A) : (do a <- x ; Ok a) = x.
Proof. now destruct x. Qed.

(** The accumulating loop over the channels. *)
Definition acc_body (icoeff : f64) (buffer : list f32) (data_index : Z) (ch : Z) (l : list f64) : outcome (list f64) :=
  do x <- zget buffer (data_index + ch) ;
  do a <- zget l ch ;
  zset l ch (dadd a (dmul icoeff (d_of_f x))).
Lemma for_acc icoeff buf di : forall acc pre post,
  for_loop (length acc) (zlen pre) (acc_body icoeff buf di) (pre ++ acc ++ post) =
  do acc' <- accumulate icoeff buf (di + zlen pre) acc ; Ok (pre ++ acc' ++ post).
Proof.
  induction acc as [|a acc IH]; intros pre post; cbn [length for_loop accumulate bind app]; [reflexivity|].
  unfold acc_body at 1. destruct (zget buf (di + zlen pre)) as [x|]; cbn [bind]; [|reflexivity].
  rewrite zget_mid. cbn [bind]. rewrite zset_mid. cbn [bind].
  specialize (IH (pre ++ [dadd a (dmul icoeff (d_of_f x))]) post). rewrite zlen_snoc, <- app_assoc in IH. cbn [app] in IH. rewrite IH, Z.add_assoc.
  destruct (accumulate icoeff buf (di + zlen pre + 1) acc) as [l|]; cbn [bind]; [|reflexivity]. now rewrite <- app_assoc.
Qed.
Lemma for_acc_all icoeff buf di n acc post : length acc = n ->
  for_loop n 0 (acc_body icoeff buf di) (acc ++ post) = do acc' <- accumulate icoeff buf di acc ; Ok (acc' ++ post).
Proof. intros <-. assert (H := for_acc icoeff buf di acc [] post). cbn [zlen length app] in H. change (zlen (@nil f64)) with 0 in H. now rewrite Z.add_0_r in H. Qed.
Lemma for_acc_here icoeff buf di n acc : length acc = n ->
  for_loop n 0 (acc_body icoeff buf di) acc = accumulate icoeff buf di acc.
Proof.
  intros H. assert (Q := for_acc_all icoeff buf di n acc [] H). rewrite app_nil_r in Q. rewrite Q.
  destruct (accumulate icoeff buf di acc) as [l|]; cbn [bind]; [now rewrite app_nil_r|reflexivity].
Qed.
Lemma accumulate_length icoeff buf : forall acc di acc', accumulate icoeff buf di acc = Ok acc' -> length acc' = length acc.
Proof.
  induction acc as [|a acc IH]; intros di acc' H; cbn [accumulate] in H; [injection H as <-; reflexivity|].
  destruct (zget buf di); [cbn [bind] in H|discriminate H]. destruct (accumulate icoeff buf (di + 1) acc) eqn:E; [cbn [bind] in H|discriminate H].
  injection H as <-. cbn [length]. f_equal. exact (IH _ _ E).
Qed.
(** The writing loop. *)
Definition out_body (scale : f64) (output : Z) (ls rs : list f64) (ch : Z) (m : mem) : outcome mem :=
  do l <- zget ls ch ;
  do r <- zget rs ch ;
  mwrite m (output + ch) (f_of_d (dmul scale (dadd l r))).
Lemma for_out scale output : forall ls rs pl pr tl tr m, length ls = length rs -> length pl = length pr ->
  for_loop (length ls) (zlen pl) (out_body scale output (pl ++ ls ++ tl) (pr ++ rs ++ tr)) m =
  mwrite_list m (output + zlen pl) (map (fun lr => f_of_d (dmul scale (dadd (fst lr) (snd lr)))) (combine ls rs)).
Proof.
  induction ls as [|l ls IH]; intros [|r rs] pl pr tl tr m E P; try discriminate E; cbn [length for_loop combine map mwrite_list]; [reflexivity|].
  unfold out_body at 1. cbn [app]. rewrite zget_mid. cbn [bind]. replace (zlen pl) with (zlen pr) at 1 by (unfold zlen; congruence). rewrite zget_mid. cbn [bind fst snd].
  destruct (mwrite m (output + zlen pl) (f_of_d (dmul scale (dadd l r)))) as [m'|]; cbn [bind]; [|reflexivity].
  specialize (IH rs (pl ++ [l]) (pr ++ [r]) tl tr m' ltac:(cbn in E; congruence) ltac:(rewrite !app_length; cbn; congruence)).
  rewrite zlen_snoc, <- !app_assoc in IH. cbn [app] in IH. now rewrite IH, Z.add_assoc.
Qed.
Lemma for_out_all scale output n ls rs tl tr m : length ls = n -> length rs = n ->
  for_loop n 0 (out_body scale output (ls ++ tl) (rs ++ tr)) m =
  mwrite_list m output (map (fun lr => f_of_d (dmul scale (dadd (fst lr) (snd lr)))) (combine ls rs)).
Proof.
  intros <- H. assert (Q := for_out scale output ls rs [] [] tl tr m ltac:(congruence) eq_refl). cbn [app] in Q. change (zlen (@nil f64)) with 0 in Q.
  now rewrite Z.add_0_r in Q.
Qed.
Lemma for_out_here scale output n ls rs m : length ls = n -> length rs = n ->
  for_loop n 0 (out_body scale output ls rs) m = mwrite_list m output (map (fun lr => f_of_d (dmul scale (dadd (fst lr) (snd lr)))) (combine ls rs)).
Proof. intros H1 H2. assert (Q := for_out_all scale output n ls rs [] [] m H1 H2). now rewrite !app_nil_r in Q. Qed.

Lemma left_length : forall fuel s nch inc fi di acc l, left_loop fuel s nch inc fi di acc = Ok l -> length l = length acc.
Proof.
  induction fuel as [|fuel IH]; intros s nch inc fi di acc l H; cbn [left_loop] in H; [discriminate H|].
  destruct (fi <? 0); [injection H as <-; reflexivity|]. destruct (coeff_asserts _ _ _); [|discriminate H].
  destruct (interp_coeff _ _); [cbn [bind] in H|discriminate H]. destruct (data_asserts _ _ _); [|discriminate H].
  destruct (accumulate _ _ _ _) eqn:E; [cbn [bind] in H|discriminate H]. apply accumulate_length in E.
  destruct (int_op _); [cbn [bind] in H|discriminate H]. destruct (int_op _); [cbn [bind] in H|discriminate H]. rewrite (IH _ _ _ _ _ _ _ H). exact E.
Qed.
Lemma right_length : forall fuel mono s nch inc fi di acc l, right_loop fuel mono s nch inc fi di acc = Ok l -> length l = length acc.
Proof.
  induction fuel as [|fuel IH]; intros mono s nch inc fi di acc l H; cbn [right_loop] in H; [discriminate H|].
  destruct (coeff_asserts _ _ _); [|discriminate H].
  destruct (interp_coeff _ _); [cbn [bind] in H|discriminate H]. destruct (data_asserts _ _ _); [|discriminate H].
  destruct (accumulate _ _ _ _) eqn:E; [cbn [bind] in H|discriminate H]. apply accumulate_length in E.
  destruct (int_op _); [cbn [bind] in H|discriminate H]. destruct (int_op _); [cbn [bind] in H|discriminate H].
  destruct (0 <? _); [rewrite (IH _ _ _ _ _ _ _ _ H)|injection H as <-]; exact E.
Qed.

(** Case splits that go in step on both sides of an equation between outcomes. *)
Ltac split_bind :=
  match goal with
  | |- bind ?x _ = bind ?x _ => destruct x; cbn [bind]; [|reflexivity]
  end.
Lemma leb_ltb a : (0 <=? a) = negb (a <? 0).
Proof. rewrite Z.leb_antisym. reflexivity. Qed.
Lemma check_and {A} (a b : bool) (x : outcome A) f : (if a then if b then x else Fault f else Fault f) = if a && b then x else Fault f.
Proof. now destruct a, b. Qed.

(** ** The wings *)
Lemma single_left_eq : forall fuel s inc fi di a,
  left_loop fuel s 1 inc fi di [a] = do l <- single_left fuel s inc fi di a ; Ok [l].
Proof.
  induction fuel as [|fuel IH]; intros s inc fi di a; cbn [single_left left_loop]; [reflexivity|].
  rewrite leb_ltb. destruct (fi <? 0); cbn [negb]; [reflexivity|]. unfold coeff_asserts.
  destruct ((0 <=? fp_to_int fi) && (fp_to_int fi + 1 <? s_coeff_half_len s + 2)); [|reflexivity].
  unfold interp_coeff. destruct (zget (s_coeffs s) (fp_to_int fi)) as [c0|]; cbn [bind]; [|reflexivity].
  destruct (zget (s_coeffs s) (fp_to_int fi + 1)) as [c1|]; cbn [bind]; [|reflexivity].
  unfold data_asserts. replace (di + 1 - 1) with di by lia.
  destruct ((0 <=? di) && (di <? s_b_len s)); cbn [andb]; [|reflexivity]. destruct (di <? s_b_end s); [|reflexivity].
  cbn [accumulate]. destruct (zget (s_buffer s) di) as [x|]; cbn [bind]; [|reflexivity].
  destruct (int_op (fi - inc)); cbn [bind]; [|reflexivity]. destruct (int_op (di + 1)); cbn [bind]; [|reflexivity]. apply IH.
Qed.
Lemma single_right_eq : forall fuel s inc fi di a,
  right_loop fuel true s 1 inc fi di [a] = do l <- single_right fuel s inc fi di a ; Ok [l].
Proof.
  induction fuel as [|fuel IH]; intros s inc fi di a; cbn [single_right right_loop]; [reflexivity|].
  unfold coeff_asserts. destruct (fp_to_int fi <? s_coeff_half_len s + 2); [|reflexivity].
  unfold interp_coeff. destruct (zget (s_coeffs s) (fp_to_int fi)) as [c0|]; cbn [bind]; [|reflexivity].
  destruct (zget (s_coeffs s) (fp_to_int fi + 1)) as [c1|]; cbn [bind]; [|reflexivity].
  unfold data_asserts. replace (di + 1 - 1) with di by lia.
  destruct ((0 <=? di) && (di <? s_b_len s)); cbn [andb]; [|reflexivity]. destruct (di <? s_b_end s); [|reflexivity].
  cbn [accumulate]. destruct (zget (s_buffer s) di) as [x|]; cbn [bind]; [|reflexivity].
  destruct (int_op (fi - inc)) as [fi'|]; cbn [bind]; [|reflexivity]. destruct (int_op (di - 1)); cbn [bind]; [|reflexivity].
  destruct (0 <? fi'); [apply IH|reflexivity].
Qed.

Lemma stereo_left_eq : forall fuel s inc fi di acc, length acc = 2%nat ->
  stereo_left fuel s inc fi di acc = left_loop fuel s 2 inc fi di acc.
Proof.
  induction fuel as [|fuel IH]; intros s inc fi di acc L; cbn [stereo_left left_loop]; [reflexivity|].
  rewrite leb_ltb. destruct (fi <? 0); cbn [negb]; [reflexivity|]. unfold coeff_asserts.
  destruct ((0 <=? fp_to_int fi) && (fp_to_int fi + 1 <? s_coeff_half_len s + 2)); [|reflexivity].
  unfold interp_coeff. destruct (zget (s_coeffs s) (fp_to_int fi)) as [c0|]; cbn [bind]; [|reflexivity].
  destruct (zget (s_coeffs s) (fp_to_int fi + 1)) as [c1|]; cbn [bind]; [|reflexivity].
  rewrite check_and. unfold data_asserts. replace (di + 2 - 1) with (di + 1) by lia.
  destruct ((0 <=? di) && (di + 1 <? s_b_len s) && (di + 1 <? s_b_end s)); [|reflexivity].
  change (fun ch left_ => do x <- zget (s_buffer s) (di + ch) ; do a <- zget left_ ch ; zset left_ ch (dadd a (dmul (dadd (d_of_f c0) (dmul (fp_to_double fi) (d_of_f (fsub c1 c0)))) (d_of_f x))))
    with (acc_body (dadd (d_of_f c0) (dmul (fp_to_double fi) (d_of_f (fsub c1 c0)))) (s_buffer s) di).
  rewrite for_acc_here by exact L.
  destruct (accumulate _ _ _ _) as [acc'|] eqn:E; cbn [bind]; [|reflexivity]. apply accumulate_length in E.
  split_bind. split_bind. apply IH. congruence.
Qed.
Lemma stereo_right_eq : forall fuel s inc fi di acc, length acc = 2%nat ->
  stereo_right fuel s inc fi di acc = right_loop fuel false s 2 inc fi di acc.
Proof.
  induction fuel as [|fuel IH]; intros s inc fi di acc L; cbn [stereo_right right_loop]; [reflexivity|].
  unfold coeff_asserts. destruct ((0 <=? fp_to_int fi) && (fp_to_int fi + 1 <? s_coeff_half_len s + 2)); [|reflexivity].
  unfold interp_coeff. destruct (zget (s_coeffs s) (fp_to_int fi)) as [c0|]; cbn [bind]; [|reflexivity].
  destruct (zget (s_coeffs s) (fp_to_int fi + 1)) as [c1|]; cbn [bind]; [|reflexivity].
  rewrite check_and. unfold data_asserts. replace (di + 2 - 1) with (di + 1) by lia.
  destruct ((0 <=? di) && (di + 1 <? s_b_len s) && (di + 1 <? s_b_end s)); [|reflexivity].
  change (fun ch right_ => do x <- zget (s_buffer s) (di + ch) ; do a <- zget right_ ch ; zset right_ ch (dadd a (dmul (dadd (d_of_f c0) (dmul (fp_to_double fi) (d_of_f (fsub c1 c0)))) (d_of_f x))))
    with (acc_body (dadd (d_of_f c0) (dmul (fp_to_double fi) (d_of_f (fsub c1 c0)))) (s_buffer s) di).
  rewrite for_acc_here by exact L.
  destruct (accumulate _ _ _ _) as [acc'|] eqn:E; cbn [bind]; [|reflexivity]. apply accumulate_length in E.
  split_bind. split_bind. destruct (0 <? _); [apply IH; congruence|reflexivity].
Qed.

Lemma quad_left_eq : forall fuel s inc fi di acc, length acc = 4%nat ->
  quad_left fuel s inc fi di acc = left_loop fuel s 4 inc fi di acc.
Proof.
  induction fuel as [|fuel IH]; intros s inc fi di acc L; cbn [quad_left left_loop]; [reflexivity|].
  rewrite leb_ltb. destruct (fi <? 0); cbn [negb]; [reflexivity|]. unfold coeff_asserts.
  destruct ((0 <=? fp_to_int fi) && (fp_to_int fi + 1 <? s_coeff_half_len s + 2)); [|reflexivity].
  unfold interp_coeff. destruct (zget (s_coeffs s) (fp_to_int fi)) as [c0|]; cbn [bind]; [|reflexivity].
  destruct (zget (s_coeffs s) (fp_to_int fi + 1)) as [c1|]; cbn [bind]; [|reflexivity].
  rewrite check_and. unfold data_asserts. replace (di + 4 - 1) with (di + 3) by lia.
  destruct ((0 <=? di) && (di + 3 <? s_b_len s) && (di + 3 <? s_b_end s)); [|reflexivity].
  change (fun ch left_ => do x <- zget (s_buffer s) (di + ch) ; do a <- zget left_ ch ; zset left_ ch (dadd a (dmul (dadd (d_of_f c0) (dmul (fp_to_double fi) (d_of_f (fsub c1 c0)))) (d_of_f x))))
    with (acc_body (dadd (d_of_f c0) (dmul (fp_to_double fi) (d_of_f (fsub c1 c0)))) (s_buffer s) di).
  rewrite for_acc_here by exact L.
  destruct (accumulate _ _ _ _) as [acc'|] eqn:E; cbn [bind]; [|reflexivity]. apply accumulate_length in E.
  split_bind. split_bind. apply IH. congruence.
Qed.
Lemma quad_right_eq : forall fuel s inc fi di acc, length acc = 4%nat ->
  quad_right fuel s inc fi di acc = right_loop fuel false s 4 inc fi di acc.
Proof.
  induction fuel as [|fuel IH]; intros s inc fi di acc L; cbn [quad_right right_loop]; [reflexivity|].
  unfold coeff_asserts. destruct ((0 <=? fp_to_int fi) && (fp_to_int fi + 1 <? s_coeff_half_len s + 2)); [|reflexivity].
  unfold interp_coeff. destruct (zget (s_coeffs s) (fp_to_int fi)) as [c0|]; cbn [bind]; [|reflexivity].
  destruct (zget (s_coeffs s) (fp_to_int fi + 1)) as [c1|]; cbn [bind]; [|reflexivity].
  rewrite check_and. unfold data_asserts. replace (di + 4 - 1) with (di + 3) by lia.
  destruct ((0 <=? di) && (di + 3 <? s_b_len s) && (di + 3 <? s_b_end s)); [|reflexivity].
  change (fun ch right_ => do x <- zget (s_buffer s) (di + ch) ; do a <- zget right_ ch ; zset right_ ch (dadd a (dmul (dadd (d_of_f c0) (dmul (fp_to_double fi) (d_of_f (fsub c1 c0)))) (d_of_f x))))
    with (acc_body (dadd (d_of_f c0) (dmul (fp_to_double fi) (d_of_f (fsub c1 c0)))) (s_buffer s) di).
  rewrite for_acc_here by exact L.
  destruct (accumulate _ _ _ _) as [acc'|] eqn:E; cbn [bind]; [|reflexivity]. apply accumulate_length in E.
  split_bind. split_bind. destruct (0 <? _); [apply IH; congruence|reflexivity].
Qed.

Lemma hex_left_eq : forall fuel s inc fi di acc, length acc = 6%nat ->
  hex_left fuel s inc fi di acc = left_loop fuel s 6 inc fi di acc.
Proof.
  induction fuel as [|fuel IH]; intros s inc fi di acc L; cbn [hex_left left_loop]; [reflexivity|].
  rewrite leb_ltb. destruct (fi <? 0); cbn [negb]; [reflexivity|]. unfold coeff_asserts.
  destruct ((0 <=? fp_to_int fi) && (fp_to_int fi + 1 <? s_coeff_half_len s + 2)); [|reflexivity].
  unfold interp_coeff. destruct (zget (s_coeffs s) (fp_to_int fi)) as [c0|]; cbn [bind]; [|reflexivity].
  destruct (zget (s_coeffs s) (fp_to_int fi + 1)) as [c1|]; cbn [bind]; [|reflexivity].
  rewrite check_and. unfold data_asserts. replace (di + 6 - 1) with (di + 5) by lia.
  destruct ((0 <=? di) && (di + 5 <? s_b_len s) && (di + 5 <? s_b_end s)); [|reflexivity].
  change (fun ch left_ => do x <- zget (s_buffer s) (di + ch) ; do a <- zget left_ ch ; zset left_ ch (dadd a (dmul (dadd (d_of_f c0) (dmul (fp_to_double fi) (d_of_f (fsub c1 c0)))) (d_of_f x))))
    with (acc_body (dadd (d_of_f c0) (dmul (fp_to_double fi) (d_of_f (fsub c1 c0)))) (s_buffer s) di).
  rewrite for_acc_here by exact L.
  destruct (accumulate _ _ _ _) as [acc'|] eqn:E; cbn [bind]; [|reflexivity]. apply accumulate_length in E.
  split_bind. split_bind. apply IH. congruence.
Qed.
Lemma hex_right_eq : forall fuel s inc fi di acc, length acc = 6%nat ->
  hex_right fuel s inc fi di acc = right_loop fuel false s 6 inc fi di acc.
Proof.
  induction fuel as [|fuel IH]; intros s inc fi di acc L; cbn [hex_right right_loop]; [reflexivity|].
  unfold coeff_asserts. destruct ((0 <=? fp_to_int fi) && (fp_to_int fi + 1 <? s_coeff_half_len s + 2)); [|reflexivity].
  unfold interp_coeff. destruct (zget (s_coeffs s) (fp_to_int fi)) as [c0|]; cbn [bind]; [|reflexivity].
  destruct (zget (s_coeffs s) (fp_to_int fi + 1)) as [c1|]; cbn [bind]; [|reflexivity].
  rewrite check_and. unfold data_asserts. replace (di + 6 - 1) with (di + 5) by lia.
  destruct ((0 <=? di) && (di + 5 <? s_b_len s) && (di + 5 <? s_b_end s)); [|reflexivity].
  change (fun ch right_ => do x <- zget (s_buffer s) (di + ch) ; do a <- zget right_ ch ; zset right_ ch (dadd a (dmul (dadd (d_of_f c0) (dmul (fp_to_double fi) (d_of_f (fsub c1 c0)))) (d_of_f x))))
    with (acc_body (dadd (d_of_f c0) (dmul (fp_to_double fi) (d_of_f (fsub c1 c0)))) (s_buffer s) di).
  rewrite for_acc_here by exact L.
  destruct (accumulate _ _ _ _) as [acc'|] eqn:E; cbn [bind]; [|reflexivity]. apply accumulate_length in E.
  split_bind. split_bind. destruct (0 <? _); [apply IH; congruence|reflexivity].
Qed.

Lemma multi_left_eq : forall fuel s ch inc fi di acc post, length acc = Z.to_nat ch ->
  multi_left fuel s ch inc fi di (acc ++ post) = do l <- left_loop fuel s ch inc fi di acc ; Ok (l ++ post).
Proof.
  induction fuel as [|fuel IH]; intros s ch inc fi di acc post L; cbn [multi_left left_loop]; [reflexivity|].
  rewrite leb_ltb. destruct (fi <? 0); cbn [negb]; [reflexivity|]. unfold coeff_asserts.
  destruct ((0 <=? fp_to_int fi) && (fp_to_int fi + 1 <? s_coeff_half_len s + 2)); [|reflexivity].
  unfold interp_coeff. destruct (zget (s_coeffs s) (fp_to_int fi)) as [c0|]; cbn [bind]; [|reflexivity].
  destruct (zget (s_coeffs s) (fp_to_int fi + 1)) as [c1|]; cbn [bind]; [|reflexivity].
  rewrite check_and. unfold data_asserts. replace (di + (ch - 1)) with (di + ch - 1) by lia.
  destruct ((0 <=? di) && (di + ch - 1 <? s_b_len s) && (di + ch - 1 <? s_b_end s)); [|reflexivity].
  change (fun ch0 left_ => do x <- zget (s_buffer s) (di + ch0) ; do a <- zget left_ ch0 ; zset left_ ch0 (dadd a (dmul (dadd (d_of_f c0) (dmul (fp_to_double fi) (d_of_f (fsub c1 c0)))) (d_of_f x))))
    with (acc_body (dadd (d_of_f c0) (dmul (fp_to_double fi) (d_of_f (fsub c1 c0)))) (s_buffer s) di).
  rewrite for_acc_all by exact L.
  destruct (accumulate _ _ _ _) as [acc'|] eqn:E; cbn [bind]; [|reflexivity]. apply accumulate_length in E.
  destruct (int_op (fi - inc)); cbn [bind]; [|reflexivity]. destruct (int_op (di + ch)); cbn [bind]; [|reflexivity]. apply IH. congruence.
Qed.
Lemma multi_right_eq : forall fuel s ch inc fi di acc post, length acc = Z.to_nat ch ->
  multi_right fuel s ch inc fi di (acc ++ post) = do l <- right_loop fuel false s ch inc fi di acc ; Ok (l ++ post).
Proof.
  induction fuel as [|fuel IH]; intros s ch inc fi di acc post L; cbn [multi_right right_loop]; [reflexivity|].
  unfold coeff_asserts. destruct ((0 <=? fp_to_int fi) && (fp_to_int fi + 1 <? s_coeff_half_len s + 2)); [|reflexivity].
  unfold interp_coeff. destruct (zget (s_coeffs s) (fp_to_int fi)) as [c0|]; cbn [bind]; [|reflexivity].
  destruct (zget (s_coeffs s) (fp_to_int fi + 1)) as [c1|]; cbn [bind]; [|reflexivity].
  rewrite check_and. unfold data_asserts. replace (di + (ch - 1)) with (di + ch - 1) by lia.
  destruct ((0 <=? di) && (di + ch - 1 <? s_b_len s) && (di + ch - 1 <? s_b_end s)); [|reflexivity].
  change (fun ch0 right_ => do x <- zget (s_buffer s) (di + ch0) ; do a <- zget right_ ch0 ; zset right_ ch0 (dadd a (dmul (dadd (d_of_f c0) (dmul (fp_to_double fi) (d_of_f (fsub c1 c0)))) (d_of_f x))))
    with (acc_body (dadd (d_of_f c0) (dmul (fp_to_double fi) (d_of_f (fsub c1 c0)))) (s_buffer s) di).
  rewrite for_acc_all by exact L.
  destruct (accumulate _ _ _ _) as [acc'|] eqn:E; cbn [bind]; [|reflexivity]. apply accumulate_length in E.
  destruct (int_op (fi - inc)) as [fi'|]; cbn [bind]; [|reflexivity]. destruct (int_op (di - ch)); cbn [bind]; [|reflexivity].
  destruct (0 <? fi'); [apply IH; congruence|reflexivity].
Qed.

(** ** calc_output *)
Lemma int_in z z' : int_op z = Ok z' -> z' = z /\ - 2 ^ 31 <= z <= 2 ^ 31 - 1.
Proof.
  unfold int_op, in_int, int_min, int_max. destruct ((- 2 ^ 31 <=? z) && (z <=? 2 ^ 31 - 1)) eqn:E; [|discriminate].
  apply andb_prop in E as [E1 E2]. apply Z.leb_le in E1, E2. intros H. injection H as <-. lia.
Qed.
Lemma int_some z : - 2 ^ 31 <= z <= 2 ^ 31 - 1 -> int_op z = Ok z.
Proof. intros H. unfold int_op, in_int, int_min, int_max. rewrite (proj2 (Z.leb_le _ _)), (proj2 (Z.leb_le _ _)) by lia. reflexivity. Qed.
Lemma ceil_one d : int_div_ceil d 1 = if 0 <=? d then int_op d else Fault F_assert.
Proof.
  unfold int_div_ceil. cbn [Z.ltb Z.compare andb]. rewrite andb_true_r. destruct (0 <=? d); [|reflexivity].
  replace (d + (1 - 1)) with d by lia. destruct (int_op d); cbn [bind]; [|reflexivity]. unfold c_div. cbn [Z.eqb]. now rewrite Z.quot_1_r.
Qed.
Lemma div_in a b q : int_div a b = Ok q -> - 2 ^ 31 <= q <= 2 ^ 31 - 1.
Proof. unfold int_div. destruct (b =? 0); [discriminate|]. intros H. apply int_in in H as [-> H]. exact H. Qed.

Lemma single_eq s inc st scale :
  calc_output true s 1 1 inc st scale = do x <- calc_output_single s inc st ; Ok [f_of_d (dmul scale x)].
Proof.
  unfold calc_output, calc_output_single, calc_left, calc_right.
  destruct (int_to_fp (s_coeff_half_len s)) as [mx|]; cbn [bind]; [|reflexivity].
  destruct (int_op (mx - st)) as [d|]; cbn [bind]; [|reflexivity].
  destruct (int_div d inc) as [cc|] eqn:Ecc; cbn [bind]; [|reflexivity]. apply div_in in Ecc.
  destruct (int_op (cc * inc)) as [p|]; cbn [bind]; [|reflexivity].
  destruct (int_op (st + p)) as [fi|]; cbn [bind]; [|reflexivity].
  rewrite Z.mul_1_l, (int_some cc) by exact Ecc. cbn [bind].
  destruct (int_op (s_b_current s - cc)) as [di|]; cbn [bind]; [|reflexivity].
  assert (E : (if di <? 0 then do steps <- int_div_ceil (- di) 1 ; do max_steps <- int_div_ceil fi inc ;
                 if steps <=? max_steps then do p <- int_op (inc * steps) ; do fi <- int_op (fi - p) ; do q <- int_op (steps * 1) ; do di <- int_op (di + q) ; Ok (fi, di) else Fault F_assert
               else Ok (fi, di)) =
              (if di <? 0 then do steps <- int_op (- di) ; do most <- int_div_ceil fi inc ;
                 if steps <=? most then do p <- int_op (inc * steps) ; do fi <- int_op (fi - p) ; do di <- int_op (di + steps) ; Ok (fi, di) else Fault F_assert
               else Ok (fi, di))).
  { destruct (Z.ltb_spec di 0) as [L|L]; [|reflexivity]. rewrite ceil_one. replace (0 <=? - di) with true by (symmetry; apply Z.leb_le; lia).
    destruct (int_op (- di)) as [steps|] eqn:Es; cbn [bind]; [|reflexivity]. apply int_in in Es as [-> Es].
    destruct (int_div_ceil fi inc) as [ms|]; cbn [bind]; [|reflexivity]. destruct (- di <=? ms); [|reflexivity].
    split_bind. split_bind. rewrite Z.mul_1_r, (int_some (- di)) by exact Es. reflexivity. }
  rewrite E. clear E. match goal with |- bind (bind ?x _) _ = _ => destruct x as [[fi' di']|] end; cbn [bind]; [|reflexivity].
  change (in_scratch 1) with true. change (repeat dzero (Z.to_nat 1)) with [dzero].
  rewrite single_left_eq. match goal with |- bind (bind ?x _) _ = _ => destruct x as [l|] end; cbn [bind]; [|reflexivity].
  destruct (int_op (inc - st)) as [f0|]; cbn [bind]; [|reflexivity].
  destruct (int_op (mx - f0)) as [d1|]; cbn [bind]; [|reflexivity].
  destruct (int_div d1 inc) as [c1|]; cbn [bind]; [|reflexivity].
  destruct (int_op (c1 * inc)) as [p1|]; cbn [bind]; [|reflexivity].
  destruct (int_op (f0 + p1)) as [f1|]; cbn [bind]; [|reflexivity].
  destruct (int_op (s_b_current s + 1)) as [b1|]; cbn [bind]; [|reflexivity].
  destruct (int_op (b1 + c1)) as [di1|]; cbn [bind]; [|reflexivity].
  rewrite single_right_eq. match goal with |- bind (bind ?x _) _ = _ => destruct x as [r|] end; cbn [bind]; [|reflexivity]. reflexivity.
Qed.

Lemma stereo_eq s ch inc st scale output m :
  calc_output_stereo s ch inc st scale output m = do out <- calc_output false s 2 ch inc st scale ; mwrite_list m output out.
Proof.
  unfold calc_output, calc_output_stereo, calc_left, calc_right.
  destruct (int_to_fp (s_coeff_half_len s)) as [mx|]; cbn [bind]; [|reflexivity].
  destruct (int_op (mx - st)) as [d|]; cbn [bind]; [|reflexivity].
  destruct (int_div d inc) as [cc|]; cbn [bind]; [|reflexivity].
  destruct (int_op (cc * inc)) as [p|]; cbn [bind]; [|reflexivity].
  destruct (int_op (st + p)) as [fi|]; cbn [bind]; [|reflexivity].
  destruct (int_op (ch * cc)) as [x|]; cbn [bind]; [|reflexivity].
  destruct (int_op (s_b_current s - x)) as [di|]; cbn [bind]; [|reflexivity].
  match goal with |- bind ?x _ = _ => destruct x as [[fi' di']|] end; cbn [bind]; [|reflexivity].
  change (in_scratch 2) with true. change (repeat dzero (Z.to_nat 2)) with [dzero; dzero].
  rewrite stereo_left_eq by reflexivity. destruct (left_loop _ _ _ _ _ _ _) as [l|] eqn:El; cbn [bind]; [|reflexivity]. apply left_length in El. cbn [length] in El.
  destruct (int_op (inc - st)) as [f0|]; cbn [bind]; [|reflexivity].
  destruct (int_op (mx - f0)) as [d1|]; cbn [bind]; [|reflexivity].
  destruct (int_div d1 inc) as [c1|]; cbn [bind]; [|reflexivity].
  destruct (int_op (c1 * inc)) as [p1|]; cbn [bind]; [|reflexivity].
  destruct (int_op (f0 + p1)) as [f1|]; cbn [bind]; [|reflexivity].
  destruct (int_op (1 + c1)) as [c2|]; cbn [bind]; [|reflexivity].
  destruct (int_op (ch * c2)) as [x1|]; cbn [bind]; [|reflexivity].
  destruct (int_op (s_b_current s + x1)) as [di1|]; cbn [bind]; [|reflexivity].
  rewrite stereo_right_eq by reflexivity. destruct (right_loop _ _ _ _ _ _ _ _) as [r|] eqn:Er; cbn [bind]; [|reflexivity]. apply right_length in Er. cbn [length] in Er.
  exact (for_out_here scale output 2 l r m El Er).
Qed.

Lemma quad_eq s ch inc st scale output m :
  calc_output_quad s ch inc st scale output m = do out <- calc_output false s 4 ch inc st scale ; mwrite_list m output out.
Proof.
  unfold calc_output, calc_output_quad, calc_left, calc_right.
  destruct (int_to_fp (s_coeff_half_len s)) as [mx|]; cbn [bind]; [|reflexivity].
  destruct (int_op (mx - st)) as [d|]; cbn [bind]; [|reflexivity].
  destruct (int_div d inc) as [cc|]; cbn [bind]; [|reflexivity].
  destruct (int_op (cc * inc)) as [p|]; cbn [bind]; [|reflexivity].
  destruct (int_op (st + p)) as [fi|]; cbn [bind]; [|reflexivity].
  destruct (int_op (ch * cc)) as [x|]; cbn [bind]; [|reflexivity].
  destruct (int_op (s_b_current s - x)) as [di|]; cbn [bind]; [|reflexivity].
  match goal with |- bind ?x _ = _ => destruct x as [[fi' di']|] end; cbn [bind]; [|reflexivity].
  change (in_scratch 4) with true. change (repeat dzero (Z.to_nat 4)) with [dzero; dzero; dzero; dzero].
  rewrite quad_left_eq by reflexivity. destruct (left_loop _ _ _ _ _ _ _) as [l|] eqn:El; cbn [bind]; [|reflexivity]. apply left_length in El. cbn [length] in El.
  destruct (int_op (inc - st)) as [f0|]; cbn [bind]; [|reflexivity].
  destruct (int_op (mx - f0)) as [d1|]; cbn [bind]; [|reflexivity].
  destruct (int_div d1 inc) as [c1|]; cbn [bind]; [|reflexivity].
  destruct (int_op (c1 * inc)) as [p1|]; cbn [bind]; [|reflexivity].
  destruct (int_op (f0 + p1)) as [f1|]; cbn [bind]; [|reflexivity].
  destruct (int_op (1 + c1)) as [c2|]; cbn [bind]; [|reflexivity].
  destruct (int_op (ch * c2)) as [x1|]; cbn [bind]; [|reflexivity].
  destruct (int_op (s_b_current s + x1)) as [di1|]; cbn [bind]; [|reflexivity].
  rewrite quad_right_eq by reflexivity. destruct (right_loop _ _ _ _ _ _ _ _) as [r|] eqn:Er; cbn [bind]; [|reflexivity]. apply right_length in Er. cbn [length] in Er.
  exact (for_out_here scale output 4 l r m El Er).
Qed.

Lemma hex_eq s ch inc st scale output m :
  calc_output_hex s ch inc st scale output m = do out <- calc_output false s 6 ch inc st scale ; mwrite_list m output out.
Proof.
  unfold calc_output, calc_output_hex, calc_left, calc_right.
  destruct (int_to_fp (s_coeff_half_len s)) as [mx|]; cbn [bind]; [|reflexivity].
  destruct (int_op (mx - st)) as [d|]; cbn [bind]; [|reflexivity].
  destruct (int_div d inc) as [cc|]; cbn [bind]; [|reflexivity].
  destruct (int_op (cc * inc)) as [p|]; cbn [bind]; [|reflexivity].
  destruct (int_op (st + p)) as [fi|]; cbn [bind]; [|reflexivity].
  destruct (int_op (ch * cc)) as [x|]; cbn [bind]; [|reflexivity].
  destruct (int_op (s_b_current s - x)) as [di|]; cbn [bind]; [|reflexivity].
  match goal with |- bind ?x _ = _ => destruct x as [[fi' di']|] end; cbn [bind]; [|reflexivity].
  change (in_scratch 6) with true. change (repeat dzero (Z.to_nat 6)) with [dzero; dzero; dzero; dzero; dzero; dzero].
  rewrite hex_left_eq by reflexivity. destruct (left_loop _ _ _ _ _ _ _) as [l|] eqn:El; cbn [bind]; [|reflexivity]. apply left_length in El. cbn [length] in El.
  destruct (int_op (inc - st)) as [f0|]; cbn [bind]; [|reflexivity].
  destruct (int_op (mx - f0)) as [d1|]; cbn [bind]; [|reflexivity].
  destruct (int_div d1 inc) as [c1|]; cbn [bind]; [|reflexivity].
  destruct (int_op (c1 * inc)) as [p1|]; cbn [bind]; [|reflexivity].
  destruct (int_op (f0 + p1)) as [f1|]; cbn [bind]; [|reflexivity].
  destruct (int_op (1 + c1)) as [c2|]; cbn [bind]; [|reflexivity].
  destruct (int_op (ch * c2)) as [x1|]; cbn [bind]; [|reflexivity].
  destruct (int_op (s_b_current s + x1)) as [di1|]; cbn [bind]; [|reflexivity].
  rewrite hex_right_eq by reflexivity. destruct (right_loop _ _ _ _ _ _ _ _) as [r|] eqn:Er; cbn [bind]; [|reflexivity]. apply right_length in Er. cbn [length] in Er.
  exact (for_out_here scale output 6 l r m El Er).
Qed.

Lemma blit_front {A} (l src : list A) : (length src <= length l)%nat -> blit l 0 src = Ok (src ++ skipn (length src) l).
Proof. intros H. unfold blit, zlen. cbn [Z.ltb Z.compare orb]. replace (Z.of_nat (length l) <? 0 + Z.of_nat (length src)) with false by (symmetry; apply Z.ltb_ge; lia). reflexivity. Qed.
Lemma blit_long {A} (l src : list A) : (length l < length src)%nat -> blit l 0 src = Fault F_oob.
Proof. intros H. unfold blit, zlen. cbn [Z.ltb Z.compare orb]. now replace (Z.of_nat (length l) <? 0 + Z.of_nat (length src)) with true by (symmetry; apply Z.ltb_lt; lia). Qed.

(** The contents of left_calc and right_calc before the call do not matter. *)
Lemma multi_eq s lc rc ch inc st scale output m : length lc = Z.to_nat MAX_CHANNELS -> length rc = Z.to_nat MAX_CHANNELS ->
  calc_output_multi s lc rc inc st ch scale output m = do out <- calc_output false s ch ch inc st scale ; mwrite_list m output out.
Proof.
  intros Ll Lr. assert (SB : forall v, length v = Z.to_nat MAX_CHANNELS -> forall (k : list f64 -> outcome mem),
    (if 0 <=? ch then do a <- blit v 0 (repeat dzero (Z.to_nat ch)) ; k a else Fault F_oob) =
    (if in_scratch ch then k (repeat dzero (Z.to_nat ch) ++ skipn (Z.to_nat ch) v) else Fault F_oob)).
  { intros v Lv k. unfold in_scratch. destruct (Z.leb_spec 0 ch) as [H|H]; cbn [andb]; [|reflexivity]. destruct (Z.leb_spec ch MAX_CHANNELS) as [H1|H1].
    - rewrite blit_front by (rewrite repeat_length; lia). cbn [bind]. now rewrite repeat_length.
    - rewrite blit_long by (rewrite repeat_length; unfold MAX_CHANNELS in *; lia). reflexivity. }
  unfold calc_output, calc_output_multi, calc_left, calc_right.
  destruct (int_to_fp (s_coeff_half_len s)) as [mx|]; cbn [bind]; [|reflexivity].
  destruct (int_op (mx - st)) as [d|]; cbn [bind]; [|reflexivity].
  destruct (int_div d inc) as [cc|]; cbn [bind]; [|reflexivity].
  destruct (int_op (cc * inc)) as [p|]; cbn [bind]; [|reflexivity].
  destruct (int_op (st + p)) as [fi|]; cbn [bind]; [|reflexivity].
  destruct (int_op (ch * cc)) as [x|]; cbn [bind]; [|reflexivity].
  destruct (int_op (s_b_current s - x)) as [di|]; cbn [bind]; [|reflexivity].
  match goal with |- bind ?x _ = _ => destruct x as [[fi' di']|] end; cbn [bind]; [|reflexivity].
  rewrite (SB lc Ll). destruct (in_scratch ch) eqn:Es; [|reflexivity].
  rewrite multi_left_eq by apply repeat_length. destruct (left_loop _ _ _ _ _ _ _) as [l|] eqn:El; cbn [bind]; [|reflexivity]. apply left_length in El. rewrite repeat_length in El.
  destruct (int_op (inc - st)) as [f0|]; cbn [bind]; [|reflexivity].
  destruct (int_op (mx - f0)) as [d1|]; cbn [bind]; [|reflexivity].
  destruct (int_div d1 inc) as [c1|]; cbn [bind]; [|reflexivity].
  destruct (int_op (c1 * inc)) as [p1|]; cbn [bind]; [|reflexivity].
  destruct (int_op (f0 + p1)) as [f1|]; cbn [bind]; [|reflexivity].
  destruct (int_op (1 + c1)) as [c2|]; cbn [bind]; [|reflexivity].
  destruct (int_op (ch * c2)) as [x1|]; cbn [bind]; [|reflexivity].
  destruct (int_op (s_b_current s + x1)) as [di1|]; cbn [bind]; [|reflexivity].
  rewrite (SB rc Lr).
  rewrite multi_right_eq by apply repeat_length. destruct (right_loop _ _ _ _ _ _ _ _) as [r|] eqn:Er; cbn [bind]; [|reflexivity]. apply right_length in Er. rewrite repeat_length in Er.
  exact (for_out_all scale output (Z.to_nat ch) l r _ _ m El Er).
Qed.

(** ** The main loops *)
Lemma bind_bind {A B C} (x : outcome A) (f : A -> outcome B) (g : B -> outcome C) : bind (bind x f) g = bind x (fun a => bind (f a) g).
Proof. now destruct x. Qed.
Lemma mwrite_one m a x : mwrite_list m a [x] = mwrite m a x.
Proof. cbn. now destruct (mwrite m a x). Qed.

Lemma mono_loop_eq st data half term : forall fuel s err idx r m,
  mono_loop fuel st data half term s err idx r m =
  sinc_loop fuel true 1 (st_channels st) half data (st_last_ratio st) term s err idx r m.
Proof.
  induction fuel as [|fuel IH]; intros s err idx r m; cbn [mono_loop sinc_loop]; [reflexivity|].
  destruct (s_out_gen s <? s_out_count s); [|reflexivity].
  unfold samples_in_hand at 1. rewrite !bind_bind.
  split_bind. rewrite bind_bind. split_bind. split_bind.
  match goal with |- bind ?x _ = bind ?y _ => assert (E : x = y) end.
  { destruct (_ <=? half); [|reflexivity]. destruct (prepare_data s (st_channels st) data half m) as [[e s']|]; cbn [bind]; [|reflexivity].
    destruct (negb (e =? 0)); [reflexivity|]. unfold samples_in_hand.
    destruct (int_op (s_b_end s' - _)); cbn [bind]; [|reflexivity]. destruct (int_op (_ + _)); reflexivity. }
  rewrite E. clear E. match goal with |- bind ?x _ = _ => destruct x as [[[f1 e1] stop]|] end; cbn [bind]; [|reflexivity].
  destruct stop; [reflexivity|]. unfold at_end. destruct (_ && _); [reflexivity|].
  unfold ramp_ratio, next_index, sinc_advance. cbv zeta. rewrite single_eq, bind_bind. destruct (calc_output_single _ _ _) as [x|]; cbn [bind]; [|reflexivity]. rewrite mwrite_one.
  match goal with |- bind ?x _ = _ => destruct x as [m'|] end; cbn [bind]; [|reflexivity].
  split_bind. rewrite bind_bind. split_bind. rewrite bind_bind. split_bind. rewrite bind_bind. split_bind. apply IH.
Qed.
Theorem mono_copy st data m : sinc_mono_vari_process st data m = sinc_process true 1 st data m.
Proof.
  unfold sinc_mono_vari_process, sinc_process. destruct (st_priv st) as [|h|f]; try reflexivity.
  split_bind. split_bind. destruct (is_bad_src_ratio _); [reflexivity|]. unfold half_filter_len, sinc_advance. cbv zeta. rewrite bind_bind.
  split_bind. split_bind. rewrite !bind_bind. split_bind. rewrite bind_bind. split_bind. rewrite bind_bind. split_bind. now rewrite mono_loop_eq.
Qed.

Lemma stereo_loop_eq st data half term : forall fuel s err idx r m,
  stereo_loop fuel st data half term s err idx r m =
  sinc_loop fuel false 2 (st_channels st) half data (st_last_ratio st) term s err idx r m.
Proof.
  induction fuel as [|fuel IH]; intros s err idx r m; cbn [stereo_loop sinc_loop]; [reflexivity|].
  destruct (s_out_gen s <? s_out_count s); [|reflexivity].
  unfold samples_in_hand at 1. rewrite !bind_bind.
  split_bind. rewrite bind_bind. split_bind. split_bind.
  match goal with |- bind ?x _ = bind ?y _ => assert (E : x = y) end.
  { destruct (_ <=? half); [|reflexivity]. destruct (prepare_data s (st_channels st) data half m) as [[e s']|]; cbn [bind]; [|reflexivity].
    destruct (negb (e =? 0)); [reflexivity|]. unfold samples_in_hand.
    destruct (int_op (s_b_end s' - _)); cbn [bind]; [|reflexivity]. destruct (int_op (_ + _)); reflexivity. }
  rewrite E. clear E. match goal with |- bind ?x _ = _ => destruct x as [[[f1 e1] stop]|] end; cbn [bind]; [|reflexivity].
  destruct stop; [reflexivity|]. unfold at_end. destruct (_ && _); [reflexivity|].
  unfold ramp_ratio, next_index, sinc_advance. cbv zeta. rewrite stereo_eq, bind_bind. match goal with |- bind ?x _ = _ => destruct x as [out|] end; cbn [bind]; [|reflexivity].
  match goal with |- bind ?x _ = _ => destruct x as [m'|] end; cbn [bind]; [|reflexivity].
  split_bind. rewrite bind_bind. split_bind. rewrite bind_bind. split_bind. rewrite bind_bind. split_bind. apply IH.
Qed.
Theorem stereo_copy st data m : sinc_stereo_vari_process st data m = sinc_process false 2 st data m.
Proof.
  unfold sinc_stereo_vari_process, sinc_process. destruct (st_priv st) as [|h|f]; try reflexivity.
  split_bind. split_bind. destruct (is_bad_src_ratio _); [reflexivity|]. unfold half_filter_len, sinc_advance. cbv zeta. rewrite bind_bind.
  split_bind. split_bind. rewrite !bind_bind. split_bind. rewrite bind_bind. split_bind. rewrite bind_bind. split_bind. now rewrite stereo_loop_eq.
Qed.

Lemma quad_loop_eq st data half term : forall fuel s err idx r m,
  quad_loop fuel st data half term s err idx r m =
  sinc_loop fuel false 4 (st_channels st) half data (st_last_ratio st) term s err idx r m.
Proof.
  induction fuel as [|fuel IH]; intros s err idx r m; cbn [quad_loop sinc_loop]; [reflexivity|].
  destruct (s_out_gen s <? s_out_count s); [|reflexivity].
  unfold samples_in_hand at 1. rewrite !bind_bind.
  split_bind. rewrite bind_bind. split_bind. split_bind.
  match goal with |- bind ?x _ = bind ?y _ => assert (E : x = y) end.
  { destruct (_ <=? half); [|reflexivity]. destruct (prepare_data s (st_channels st) data half m) as [[e s']|]; cbn [bind]; [|reflexivity].
    destruct (negb (e =? 0)); [reflexivity|]. unfold samples_in_hand.
    destruct (int_op (s_b_end s' - _)); cbn [bind]; [|reflexivity]. destruct (int_op (_ + _)); reflexivity. }
  rewrite E. clear E. match goal with |- bind ?x _ = _ => destruct x as [[[f1 e1] stop]|] end; cbn [bind]; [|reflexivity].
  destruct stop; [reflexivity|]. unfold at_end. destruct (_ && _); [reflexivity|].
  unfold ramp_ratio, next_index, sinc_advance. cbv zeta. rewrite quad_eq, bind_bind. match goal with |- bind ?x _ = _ => destruct x as [out|] end; cbn [bind]; [|reflexivity].
  match goal with |- bind ?x _ = _ => destruct x as [m'|] end; cbn [bind]; [|reflexivity].
  split_bind. rewrite bind_bind. split_bind. rewrite bind_bind. split_bind. rewrite bind_bind. split_bind. apply IH.
Qed.
Theorem quad_copy st data m : sinc_quad_vari_process st data m = sinc_process false 4 st data m.
Proof.
  unfold sinc_quad_vari_process, sinc_process. destruct (st_priv st) as [|h|f]; try reflexivity.
  split_bind. split_bind. destruct (is_bad_src_ratio _); [reflexivity|]. unfold half_filter_len, sinc_advance. cbv zeta. rewrite bind_bind.
  split_bind. split_bind. rewrite !bind_bind. split_bind. rewrite bind_bind. split_bind. rewrite bind_bind. split_bind. now rewrite quad_loop_eq.
Qed.

Lemma hex_loop_eq st data half term : forall fuel s err idx r m,
  hex_loop fuel st data half term s err idx r m =
  sinc_loop fuel false 6 (st_channels st) half data (st_last_ratio st) term s err idx r m.
Proof.
  induction fuel as [|fuel IH]; intros s err idx r m; cbn [hex_loop sinc_loop]; [reflexivity|].
  destruct (s_out_gen s <? s_out_count s); [|reflexivity].
  unfold samples_in_hand at 1. rewrite !bind_bind.
  split_bind. rewrite bind_bind. split_bind. split_bind.
  match goal with |- bind ?x _ = bind ?y _ => assert (E : x = y) end.
  { destruct (_ <=? half); [|reflexivity]. destruct (prepare_data s (st_channels st) data half m) as [[e s']|]; cbn [bind]; [|reflexivity].
    destruct (negb (e =? 0)); [reflexivity|]. unfold samples_in_hand.
    destruct (int_op (s_b_end s' - _)); cbn [bind]; [|reflexivity]. destruct (int_op (_ + _)); reflexivity. }
  rewrite E. clear E. match goal with |- bind ?x _ = _ => destruct x as [[[f1 e1] stop]|] end; cbn [bind]; [|reflexivity].
  destruct stop; [reflexivity|]. unfold at_end. destruct (_ && _); [reflexivity|].
  unfold ramp_ratio, next_index, sinc_advance. cbv zeta. rewrite hex_eq, bind_bind. match goal with |- bind ?x _ = _ => destruct x as [out|] end; cbn [bind]; [|reflexivity].
  match goal with |- bind ?x _ = _ => destruct x as [m'|] end; cbn [bind]; [|reflexivity].
  split_bind. rewrite bind_bind. split_bind. rewrite bind_bind. split_bind. rewrite bind_bind. split_bind. apply IH.
Qed.
Theorem hex_copy st data m : sinc_hex_vari_process st data m = sinc_process false 6 st data m.
Proof.
  unfold sinc_hex_vari_process, sinc_process. destruct (st_priv st) as [|h|f]; try reflexivity.
  split_bind. split_bind. destruct (is_bad_src_ratio _); [reflexivity|]. unfold half_filter_len, sinc_advance. cbv zeta. rewrite bind_bind.
  split_bind. split_bind. rewrite !bind_bind. split_bind. rewrite bind_bind. split_bind. rewrite bind_bind. split_bind. now rewrite hex_loop_eq.
Qed.

Lemma multi_loop_eq st data half term : forall fuel s err idx r m,
  multi_loop fuel st data half term s err idx r m =
  sinc_loop fuel false (st_channels st) (st_channels st) half data (st_last_ratio st) term s err idx r m.
Proof.
  induction fuel as [|fuel IH]; intros s err idx r m; cbn [multi_loop sinc_loop]; [reflexivity|].
  destruct (s_out_gen s <? s_out_count s); [|reflexivity].
  unfold samples_in_hand at 1. rewrite !bind_bind.
  split_bind. rewrite bind_bind. split_bind. split_bind.
  match goal with |- bind ?x _ = bind ?y _ => assert (E : x = y) end.
  { destruct (_ <=? half); [|reflexivity]. destruct (prepare_data s (st_channels st) data half m) as [[e s']|]; cbn [bind]; [|reflexivity].
    destruct (negb (e =? 0)); [reflexivity|]. unfold samples_in_hand.
    destruct (int_op (s_b_end s' - _)); cbn [bind]; [|reflexivity]. destruct (int_op (_ + _)); reflexivity. }
  rewrite E. clear E. match goal with |- bind ?x _ = _ => destruct x as [[[f1 e1] stop]|] end; cbn [bind]; [|reflexivity].
  destruct stop; [reflexivity|]. unfold at_end. destruct (_ && _); [reflexivity|].
  unfold ramp_ratio, next_index, sinc_advance. cbv zeta. rewrite multi_eq by apply repeat_length. rewrite bind_bind. match goal with |- bind ?x _ = _ => destruct x as [out|] end; cbn [bind]; [|reflexivity].
  match goal with |- bind ?x _ = _ => destruct x as [m'|] end; cbn [bind]; [|reflexivity].
  split_bind. rewrite bind_bind. split_bind. rewrite bind_bind. split_bind. rewrite bind_bind. split_bind. apply IH.
Qed.
Theorem multichan_copy st data m : sinc_multichan_vari_process st data m = sinc_process false (st_channels st) st data m.
Proof.
  unfold sinc_multichan_vari_process, sinc_process. destruct (st_priv st) as [|h|f]; try reflexivity.
  split_bind. split_bind. destruct (is_bad_src_ratio _); [reflexivity|]. unfold half_filter_len, sinc_advance. cbv zeta. rewrite bind_bind.
  split_bind. split_bind. rewrite !bind_bind. split_bind. rewrite bind_bind. split_bind. rewrite bind_bind. split_bind. now rewrite multi_loop_eq.
Qed.
