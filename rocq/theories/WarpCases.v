(** The cases of C54 and C55. *)
From Coq Require Import ZArith Reals List Bool Lia.
From Flocq Require Import Core IEEE754.BinarySingleNaN.
From Verif Require Import Base Types Common Sinc Api Heap ApiHist HoldSpec LifeSpec ApiCases SincSpec SincTables Timewarp WarpSpec WarpThms.
Import ListNotations.
Local Open Scope Z_scope.

(** A build with the two tables in the source; two arrays of 1024 floats. *)
Definition two_tables : build := mkBuild None (Some mid_qual_table) (Some fastest_table).
Definition two_arrays : mem := fun a => if (5000 <=? a) && (a <? 7048) then Some fzero else None.

Lemma two_tables_ok : build_ok two_tables.
Proof.
  intros ty t. unfold two_tables, sinc_table. cbn [bld_fast bld_medium bld_best].
  destruct (ty =? SRC_SINC_FASTEST); [intros E; injection E as <-; apply fastest_fit|].
  destruct (ty =? _); [intros E; injection E as <-; apply mid_qual_fit|]. destruct (ty =? _); discriminate.
Qed.
Lemma two_arrays_ok : arrays two_arrays 5000 6024.
Proof.
  unfold arrays, two_arrays. split; [lia|]. split; [lia|]. split; [lia|]. intros j Hj.
  destruct (Z.leb_spec 5000 (5000 + j)), (Z.ltb_spec (5000 + j) 7048), (Z.leb_spec 5000 (6024 + j)), (Z.ltb_spec (6024 + j) 7048); try lia. split; discriminate.
Qed.
Lemma warp_case : exists c h1, heap_ok (mkHeap 5 [2; 4]) /\ build_ok two_tables /\ sinc_table two_tables SRC_SINC_MEDIUM_QUALITY = Some mid_qual_table /\
  table_fit mid_qual_table /\ src_new two_tables (fun _ => true) SRC_SINC_MEDIUM_QUALITY 2 (mkHeap 5 [2; 4]) = Ok (0, Some c, h1) /\
  warp_ok the_warp /\ spaced the_warp /\ 2 <= zlen the_warp /\ arrays two_arrays 5000 6024.
Proof.
  assert (Hh : heap_ok (mkHeap 5 [2; 4])) by apply c12_case.
  destruct (c12_created two_tables (fun _ => true) SRC_SINC_MEDIUM_QUALITY 2 _ Hh two_tables_ok) as (h1 & [[_ Q]|(c & E & _)]).
  - left. discriminate.
  - lia.
  - intros _. unfold MAX_CHANNELS. lia.
  - exfalso. destruct Q as (n & _ & Q). discriminate Q.
  - exists c, h1. split; [exact Hh|]. split; [exact two_tables_ok|]. split; [reflexivity|]. split; [exact mid_qual_fit|]. split; [exact E|].
    destruct warp_fine as [W1 W2]. split; [exact W1|]. split; [exact W2|]. split; [unfold zlen; cbn; lia|exact two_arrays_ok].
Qed.
