(** src_process does not look at the fields of the callback interface. *)
From Coq Require Import ZArith List Bool Lia.
From Verif Require Import Base SincCopies SincCopiesEq Types Common Zoh Linear Sinc Api Callback ProcFacts.
Import ListNotations.
Local Open Scope Z_scope.

(** [a] with the callback fields of [b]. *)
Definition put (b a : SRC_STATE) : SRC_STATE :=
  mkState (st_vt a) (st_last_ratio a) (st_last_position a) (st_error a) (st_channels a) (st_mode a)
    (st_callback b) (st_user_data b) (st_saved_frames b) (st_saved_data b) (st_priv a).
Definition put_res (b : SRC_STATE) (o : outcome proc_result) : outcome proc_result :=
  match o with Ok (e, s, d, m) => Ok (e, put b s, d, m) | Fault f => Fault f end.

Ltac steps := repeat (cbn [bind put_res];
  match goal with
  | |- bind ?e _ = put_res _ (bind ?e _) => destruct e
  | |- (let '(_, _) := ?p in _) = put_res _ (let '(_, _) := ?p in _) => destruct p
  | |- (if ?c then _ else _) = put_res _ (if ?c then _ else _) => destruct c
  end); try reflexivity.

Lemma zoh_put b a d m : zoh_vari_process (put b a) d m = put_res b (zoh_vari_process a d m).
Proof.
  destruct a as [vt lr lp er c mo cbk ud sf sd pr]. unfold zoh_vari_process, put; cbn [st_vt st_last_ratio st_last_position st_error st_channels st_mode st_callback st_user_data st_saved_frames st_saved_data st_priv].
  destruct (input_frames d <=? 0); [reflexivity|]. destruct pr as [|h|s]; [reflexivity| |reflexivity]. steps.
Qed.
Lemma linear_put b a d m : linear_vari_process (put b a) d m = put_res b (linear_vari_process a d m).
Proof.
  destruct a as [vt lr lp er c mo cbk ud sf sd pr]. unfold linear_vari_process, put; cbn [st_vt st_last_ratio st_last_position st_error st_channels st_mode st_callback st_user_data st_saved_frames st_saved_data st_priv].
  destruct (input_frames d <=? 0); [reflexivity|]. destruct pr as [|h|s]; [reflexivity| |reflexivity]. steps.
Qed.
Lemma sinc_put mono n b a d m : sinc_process mono n (put b a) d m = put_res b (sinc_process mono n a d m).
Proof.
  destruct a as [vt lr lp er c mo cbk ud sf sd pr]. unfold sinc_process, put; cbn [st_vt st_last_ratio st_last_position st_error st_channels st_mode st_callback st_user_data st_saved_frames st_saved_data st_priv].
  destruct pr as [|h|s]; [reflexivity|reflexivity|]. steps.
Qed.
Lemma vt_put b a d m : vt_process (put b a) d m = put_res b (vt_process a d m).
Proof.
  unfold vt_process. change (st_vt (put b a)) with (st_vt a). destruct (st_vt a).
  1: apply zoh_put. 1: apply linear_put.
  1: rewrite !mono_copy. 2: rewrite !stereo_copy. 3: rewrite !quad_copy. 4: rewrite !hex_copy. 5: rewrite !multichan_copy.
  all: apply sinc_put.
Qed.

Lemma process_put b a d m :
  src_process (Some (put b a)) d m =
  match src_process (Some a) d m with Ok (e, so, d', m') => Ok (e, option_map (put b) so, d', m') | Fault f => Fault f end.
Proof.
  unfold src_process. change (st_mode (put b a)) with (st_mode a). change (st_channels (put b a)) with (st_channels a).
  destruct (negb (is_process (st_mode a))); [reflexivity|]. destruct d as [d|]; [|reflexivity].
  destruct (_ || _); [reflexivity|]. destruct (is_bad_src_ratio _); [reflexivity|].
  destruct (overlap_test _ _) as [ov|]; [|reflexivity]. cbn [bind]. destruct ov; [reflexivity|].
  change (st_last_ratio (put b a)) with (st_last_ratio a).
  set (x := dlt (st_last_ratio a) _).
  assert (E : (if x then set_ratio (put b a) (src_ratio (set_counts (set_frames d (if input_frames d <? 0 then 0 else input_frames d) (if output_frames d <? 0 then 0 else output_frames d)) 0 0)) else put b a)
    = put b (if x then set_ratio a (src_ratio (set_counts (set_frames d (if input_frames d <? 0 then 0 else input_frames d) (if output_frames d <? 0 then 0 else output_frames d)) 0 0)) else a)) by (destruct x; reflexivity).
  rewrite E. set (s := if x then set_ratio a _ else a). change (st_last_ratio (put b s)) with (st_last_ratio s). rewrite vt_put.
  destruct (dlt (dabs _) _); (destruct (vt_process s _ m) as [[[[e s'] d'] m']|]; reflexivity).
Qed.

(** Two states that differ in the callback fields only. *)
Definition twins (a b : SRC_STATE) : Prop := b = put b a.
Lemma twins_refl a : twins a a. Proof. destruct a; reflexivity. Qed.
Lemma twins_trans a b c : twins a b -> twins b c -> twins a c.
Proof. unfold twins. intros -> ->. reflexivity. Qed.
Lemma twins_sym a b : twins a b -> twins b a.
Proof. unfold twins. intros ->. destruct a; reflexivity. Qed.
Lemma twins_saved a x y : twins a (set_saved a x y). Proof. reflexivity. Qed.
Lemma twins_mode a b : twins a b -> st_mode a = st_mode b.
Proof. unfold twins. intros ->. reflexivity. Qed.

Lemma process_twin a b d m e a' d' m' : twins a b -> src_process (Some a) d m = Ok (e, Some a', d', m') ->
  exists b', src_process (Some b) d m = Ok (e, Some b', d', m') /\ twins a' b'.
Proof. unfold twins. intros T E. rewrite T, process_put, E. cbn [option_map]. eexists. split; [reflexivity|]. reflexivity. Qed.
