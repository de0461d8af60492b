(** Example cases and small corollaries for Properties_Api.v. *)
From Coq Require Import ZArith List Bool String Reals Lia Lra.
From Flocq Require Import Core IEEE754.BinarySingleNaN.
From Verif Require Import Base FloatFacts PosFacts Types Sinc Api Heap Callback HoldSpec ApiHist HoldCore HoldRamp HoldProcess HoldStream HoldValue HoldMain
  ApiSpec ApiFacts ApiThms LifeSpec HeapFacts LifeFacts LifeThms.
Import ListNotations.
Local Open Scope Z_scope.

Lemma c07_case : in_range (d_of_Z 2) /\ is_nan (d_of_Z 300) = false /\ ~ in_range (d_of_Z 300) /\
  is_nan (B754_infinity false : f64) = false /\ ~ in_range (B754_infinity false : f64).
Proof.
  split; [exact two_range|]. split; [reflexivity|]. split; [|split; [reflexivity|]].
  - rewrite <- bad_ratio_true by reflexivity. vm_compute. reflexivity.
  - rewrite <- bad_ratio_true by reflexivity. vm_compute. reflexivity.
Qed.

Definition overlap_data : SRC_DATA := mkData 100 105 4 4 0 0 0 (d_of_Z 2).
Lemma overlap_addressable : addressable 2 overlap_data.
Proof. unfold addressable, overlap_data. cbn. lia. Qed.
Lemma c08_case : addressable 2 overlap_data /\ first_violated (Some (ex_conv Zoh 2)) (Some overlap_data) SRC_ERR_DATA_OVERLAP.
Proof.
  split; [exact overlap_addressable|].
  apply (accepted_thm (Some (ex_conv Zoh 2)) (Some overlap_data) (fun _ => None) _ (Some (ex_conv Zoh 2)) (Some overlap_data) (fun _ => None)).
  - intros st d E1 E2. injection E1 as <-. injection E2 as <-. split; [cbn; lia|exact overlap_addressable].
  - reflexivity.
  - cbn. auto 10.
Qed.
Lemma c09_case : addressable 2 overlap_data /\ in_range (src_ratio overlap_data) /\
  (exists a, data_in overlap_data <= a < data_in overlap_data + input_frames overlap_data * 2 /\
             data_out overlap_data <= a < data_out overlap_data + output_frames overlap_data * 2).
Proof. split; [exact overlap_addressable|]. split; [exact two_range|]. exists 106. cbn. lia. Qed.

Definition cb_conv : SRC_STATE :=
  set_callback (set_mode (blank_state VT_linear 1 (P_hold (mkHold false 0 0 0 0 [fzero]))) MODE_CALLBACK) 7 8.
Lemma c10_case : life MODE_PROCESS (set_ratio (ex_conv Zoh 2) (d_of_Z 2)) /\ life MODE_CALLBACK cb_conv.
Proof.
  split.
  - apply (L_step MODE_PROCESS unit (fun _ _ cs m => (cs, m, None, 0)) 0 (ex_conv Zoh 2) (A_set_ratio (d_of_Z 2)) (R_code 0)); [|reflexivity].
    destruct (ex_created Zoh) as (bld & orc & h & c & h' & E & ->). exact (L_new _ _ _ _ _ _ _ _ E).
  - eapply (L_callback (mkBuild None None None) (fun _ => true) 7 SRC_LINEAR 1 8 (mkHeap 1 []) 0 (mkConv 1 2 3 cb_conv)). reflexivity.
Qed.

(** C12 *)
Lemma fresh_channels bld ty ch st : fresh bld ty ch st -> st_channels st = ch.
Proof. intros [t bl _ _ _ _ ->|_ _ ->|_ _ ->]; reflexivity. Qed.
Lemma c12_created bld orc ty ch h : heap_ok h -> build_ok bld -> known bld ty -> 1 <= ch ->
  (is_sinc bld ty -> ch <= MAX_CHANNELS) ->
  exists h',
   (src_new bld orc ty ch h = Ok (SRC_ERR_MALLOC_FAILED, None, h') /\ some_failed orc h h') \/
   (exists c, src_new bld orc ty ch h = Ok (0, Some c, h') /\ ~ some_failed orc h h' /\ src_get_channels (Some (c_state c)) = ch).
Proof.
  intros H B K Hc Hs. destruct (new_thm bld orc ty ch h H B K Hc Hs) as (h' & _ & _ & [(E & _ & F)|(c & E & _ & F & G)]); exists h'.
  - auto.
  - right. exists c. split; [exact E|]. split; [exact F|]. exact (fresh_channels _ _ _ _ G).
Qed.
Lemma c12_callback_created bld orc func ty ch ud h : func <> 0 -> heap_ok h -> build_ok bld -> known bld ty -> 1 <= ch ->
  (is_sinc bld ty -> ch <= MAX_CHANNELS) ->
  exists h',
   (src_callback_new bld orc func ty ch ud h = Ok (SRC_ERR_MALLOC_FAILED, None, h') /\ some_failed orc h h') \/
   (exists c, src_callback_new bld orc func ty ch ud h = Ok (0, Some c, h') /\ ~ some_failed orc h h' /\
      src_get_channels (Some (c_state c)) = ch).
Proof.
  intros Hf H B K Hc Hs. destruct (callback_new_thm bld orc func ty ch ud h Hf H B K Hc Hs) as (h' & _ & _ & [(E & _ & F)|(c & E & _ & F & st & G & Es)]); exists h'.
  - auto.
  - right. exists c. split; [exact E|]. split; [exact F|]. rewrite Es. exact (fresh_channels _ _ _ _ G).
Qed.
Lemma c12_refusals bld orc ty ch h :
  (~ known bld ty -> src_new bld orc ty ch h = Ok (SRC_ERR_BAD_CONVERTER, None, h)) /\
  (is_sinc bld ty -> MAX_CHANNELS < ch -> src_new bld orc ty ch h = Ok (SRC_ERR_BAD_CHANNEL_COUNT, None, h)) /\
  (forall ud, src_callback_new bld orc 0 ty ch ud h = Ok (SRC_ERR_BAD_CALLBACK, None, h)).
Proof. split; [exact (new_unknown bld orc ty ch h)|]. split; [exact (new_many bld orc ty ch h)|]. reflexivity. Qed.
Lemma c12_exactly bld orc ty ch h e c h' :
  (src_new bld orc ty ch h = Ok (e, c, h') -> e = 0 <-> c <> None) /\
  (forall func ud, src_callback_new bld orc func ty ch ud h = Ok (e, c, h') -> e = 0 <-> c <> None).
Proof.
  split.
  - intros E. exact (proj2 (new_codes _ _ _ _ _ _ _ _ E)).
  - intros func ud E. destruct (Z.eq_dec func 0) as [->|N].
    + injection E as <- <- <-. split; [discriminate|congruence].
    + rewrite callback_new_ok in E by exact N. destruct (src_new bld orc ty ch h) as [[[e1 [c1|]] h1]|f] eqn:En; try discriminate E;
        injection E as <- <- <-; apply new_codes in En; destruct En as [_ En]; [|exact En].
      split; [discriminate|]. intros _. apply En. discriminate.
Qed.

(** A build with one small sinc table. *)
Definition small_table : Z * list f32 := (2, repeat fzero 8).
Definition small_build : build := mkBuild None None (Some small_table).
Lemma c12_case : heap_ok (mkHeap 5 [2; 4]) /\ build_ok small_build /\ known small_build SRC_SINC_FASTEST /\
  known small_build SRC_ZERO_ORDER_HOLD /\ ~ known small_build 7 /\ is_sinc small_build SRC_SINC_FASTEST.
Proof.
  split; [|split; [|split; [|split; [|split]]]].
  - split; cbn.
    + repeat constructor; cbn; intuition discriminate.
    + intros b [<-|[<-|[]]]; lia.
  - intros ty t. unfold small_build, sinc_table. cbn [bld_fast bld_medium bld_best].
    destruct (ty =? SRC_SINC_FASTEST); [|destruct (ty =? _); [discriminate|destruct (ty =? _); discriminate]].
    intros E. injection E as <-. unfold table_ok, small_table, zlen. rewrite repeat_length. lia.
  - left. discriminate.
  - right. auto.
  - intros [K|[K|K]]; [apply K; reflexivity|discriminate K|discriminate K].
  - discriminate.
Qed.
