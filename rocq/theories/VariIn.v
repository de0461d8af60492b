(** The callback of the varispeed player fills its buffer with the file, played over and over. *)
From Coq Require Import ZArith Reals List Bool Lia.
From Flocq Require Import Core IEEE754.BinarySingleNaN.
From Verif Require Import Base Types Api Callback ApiHist HoldSpec HoldCore HoldStream Sinc SincLoop CbSpec CbReadSpec CbStream CbFeedSpec Timewarp Varispeed VariSpec.
Import ListNotations.
Local Open Scope Z_scope.

Lemma mwrite_list_spares : forall l a m m', mwrite_list m a l = Ok m' ->
  (forall b, ~ (a <= b < a + zlen l) -> m' b = m b) /\ (forall b, m b <> None -> m' b <> None).
Proof.
  induction l as [|x l IH]; intros a m m' E; cbn [mwrite_list] in E.
  - injection E as <-. auto.
  - unfold mwrite in E. destruct (m a) as [y|] eqn:Ea; cbn [bind] in E; [|discriminate E]. destruct (IH _ _ _ E) as [A B]. unfold zlen in *. cbn [length]. split.
    + intros b Hb. rewrite A by lia. destruct (Z.eqb_spec b a); [lia|reflexivity].
    + intros b Hb. apply B. destruct (Z.eqb_spec b a); [discriminate|exact Hb].
Qed.

Section Buf.
  Variables (F : stream) (N ch buffer : Z).
  Hypothesis Hch : 1 <= ch <= 128.
  Hypothesis Hbuf : 0 < buffer /\ buffer + 4096 <= 2 ^ 60.
  Definition block_len := 4096 / ch.
  Notation n := block_len.
  Definition own (a : Z) : Prop := buffer <= a < buffer + 4096.

  Lemma n_ok : 32 <= n <= 4096 /\ n * ch <= 4096.
  Proof. unfold block_len. split; [split; [apply Z.div_le_lower_bound|apply Z.div_le_upper_bound]; lia|]. rewrite Z.mul_comm. apply Z.mul_div_le. lia. Qed.

  Lemma quot_n : Z.quot 4096 ch = n.
  Proof. apply Z.quot_div_nonneg; lia. Qed.

  Lemma fill_any : forall fuel read at_ m at' m', 0 <= read <= n -> vs_fill F N ch buffer fuel n read at_ m = Ok (at', m') ->
    (forall b, ~ own b -> m' b = m b) /\ (forall b, m b <> None -> m' b <> None).
  Proof.
    destruct n_ok as [N1 N2]. induction fuel as [|fuel IH]; intros read at_ m at' m' Hr E; cbn [vs_fill] in E; [discriminate E|].
    destruct (read <? n); [|injection E as _ <-; auto]. rewrite int_ok in E by (assert (read * ch <= n * ch) by (apply Z.mul_le_mono_nonneg_r; lia); lia). cbn [bind] in E.
    unfold sf_readf_float in E. set (k := Z.max 0 (Z.min (n - read) (N - at_))) in E. assert (Hk : 0 <= k <= n - read) by (unfold k; lia).
    destruct (mwrite_list m (buffer + read * ch) (file_samples F ch at_ k)) as [m1|] eqn:E1; cbn [bind] in E; [|discriminate E].
    destruct (mwrite_list_spares _ _ _ _ E1) as [A B]. rewrite int_ok in E by lia. cbn [bind] in E. apply IH in E; [|lia]. destruct E as [A' B'].
    assert (L : zlen (file_samples F ch at_ k) = k * ch) by (unfold zlen, file_samples; rewrite map_length, seq_length; nia). rewrite L in A.
    split; [|auto]. intros b Hb. rewrite A' by exact Hb. apply A. unfold own in Hb. nia.
  Qed.

  Lemma cb_shape f ud at_ m : exists at' m' ptr k, vs_callback F N ch buffer f ud at_ m = (at', m', ptr, k) /\
    (forall b, ~ own b -> m' b = m b) /\ (forall b, m b <> None -> m' b <> None) /\ ((ptr = Some buffer /\ k = n) \/ (ptr = None /\ k = -1)).
  Proof.
    unfold vs_callback, src_input_callback, c_div, VS_BUFFER_LEN. destruct (Z.eqb_spec ch 0) as [C0|C0]; [lia|].
    destruct n_ok as [N1 N2]. rewrite quot_n.
    assert (Ei : int_op n = Ok n) by (apply int_ok; nia). rewrite ?Ei. cbn [bind].
    destruct (vs_fill F N ch buffer (S (Z.to_nat n)) n 0 at_ m) as [[at' m']|f'] eqn:E; cbn [bind].
    - destruct (fill_any _ 0 _ _ _ _ ltac:(lia) E). exists at', m', (Some buffer), n. auto 6.
    - exists at_, m, None, (-1). auto 6.
  Qed.
  Lemma cb_proper dummy : 0 <= dummy <= 2 ^ 60 -> proper Z (vs_callback F N ch buffer) dummy own ch.
  Proof.
    intros Hd f ud at_ m _. destruct (cb_shape f ud at_ m) as (at' & m' & ptr & k & -> & A & B & C). split; [exact B|].
    destruct n_ok as [N1 N2]. destruct C as [[-> ->]|[-> ->]]; (split; [lia|]); [right; right|left; lia].
    split; [nia|]. split; [nia|]. unfold own. intros i Hi. nia.
  Qed.
  Lemma cb_alone a : ~ own a -> leaves_alone Z (vs_callback F N ch buffer) a.
  Proof. intros Ha f ud at_ m. destruct (cb_shape f ud at_ m) as (at' & m' & ptr & k & -> & A & _). now apply A. Qed.
  Lemma cb_marks : marks_end Z (vs_callback F N ch buffer) (fun _ => False) /\ stays_ended Z (vs_callback F N ch buffer) (fun _ => False).
  Proof.
    destruct n_ok as [N1 N2]. split; intros f ud at_ m; [|intros []]. destruct (cb_shape f ud at_ m) as (at' & m' & ptr & k & -> & _ & _ & C).
    split; [lia|auto].
  Qed.

  (** ** With a file that has frames *)
  Hypothesis HN : 1 <= N.

  Lemma looped_at i c : 0 <= i -> looped F N i c = F (i mod N) c.
  Proof. intros H. unfold looped. destruct (Z.ltb_spec i 0); [lia|reflexivity]. Qed.
  Lemma looped_low i c : i < 0 -> looped F N i c = fzero.
  Proof. intros H. unfold looped. destruct (Z.ltb_spec i 0); [reflexivity|lia]. Qed.

  Lemma fill_ok base : 0 <= base -> forall fuel read at_ m, mapped own m -> 0 <= read <= n -> n - read < Z.of_nat fuel -> at_ = (base + read) mod N ->
    holds m buffer ch read (looped F N) base ->
    exists m', vs_fill F N ch buffer fuel n read at_ m = Ok ((base + n) mod N, m') /\ holds m' buffer ch n (looped F N) base.
  Proof.
    intros Hb. destruct n_ok as [N1 N2]. induction fuel as [|fuel IH]; intros read at_ m Mp Hr Hf Ha Hh; [lia|]. cbn [vs_fill].
    destruct (Z.ltb_spec read n) as [L|L].
    2: { assert (read = n) by lia. subst read at_. exists m. auto. }
    rewrite int_ok by (assert (read * ch <= n * ch) by (apply Z.mul_le_mono_nonneg_r; lia); lia). cbn [bind]. unfold sf_readf_float.
    assert (Hat : 0 <= at_ < N) by (rewrite Ha; apply Z.mod_pos_bound; lia).
    rewrite Z.max_r by lia. set (k := Z.min (n - read) (N - at_)). assert (Hk : 1 <= k <= n - read /\ k <= N - at_) by (unfold k; lia). clearbody k.
    unfold file_samples.
    destruct (mwrite_list_ok (fun j => F (at_ + j / ch) (j mod ch)) (Z.to_nat (k * ch)) 0 (buffer + read * ch) m) as (m1 & -> & W1 & W2).
    { intros j Hj. apply Mp. unfold own. nia. }
    cbn [bind]. rewrite int_ok by lia. cbn [bind]. rewrite Z2Nat.id in W1, W2 by nia.
    apply IH; [|lia|lia| |].
    - intros a A. destruct (Z_lt_ge_dec a (buffer + read * ch)); [rewrite W2 by lia; now apply Mp|].
      destruct (Z_lt_ge_dec a (buffer + read * ch + k * ch)); [|rewrite W2 by lia; now apply Mp].
      replace a with (buffer + read * ch + (a - (buffer + read * ch))) by lia. rewrite W1 by lia. discriminate.
    - assert (Em : (base + (read + k)) mod N = (at_ + k) mod N).
      { rewrite Ha, Z.add_assoc. rewrite Zplus_mod_idemp_l. reflexivity. }
      rewrite Em. destruct (Z.ltb_spec (at_ + k) 0); [lia|]. destruct (Z.eqb_spec (at_ + k) N) as [Q|Q]; cbn [orb].
      + rewrite Q. symmetry. apply Z_mod_same_full.
      + symmetry. apply Z.mod_small. lia.
    - intros i c Hi Hc. destruct (Z_lt_ge_dec i read) as [I|I].
      + rewrite W2 by nia. apply Hh; lia.
      + replace (buffer + i * ch + c) with (buffer + read * ch + ((i - read) * ch + c)) by lia.
        replace (buffer + (i * ch + c)) with (buffer + read * ch + ((i - read) * ch + c)) by lia.
        rewrite W1 by nia. cbn [Z.of_nat]. rewrite Z.add_0_l.
        replace (((i - read) * ch + c) / ch) with (i - read) by (rewrite Z.add_comm, Z_div_plus, Z.div_small by lia; lia).
        replace (((i - read) * ch + c) mod ch) with c by (rewrite Z.add_comm, Z_mod_plus, Z.mod_small by lia; lia).
        rewrite looped_at by lia. f_equal. f_equal. replace (base + i) with (base + read + (i - read)) by lia.
        rewrite <- Zplus_mod_idemp_l, <- Ha. symmetry. apply Z.mod_small. lia.
  Qed.

  (** The callback after it has handed out [rec]. *)
  Definition fed (c : Z * list (list f32)) : Prop :=
    fst c = (zlen (snd c) * n) mod N /\ begins ch (looped F N) (concat (snd c)) (zlen (snd c) * n).

  Lemma cb_feeds dummy least : least <= n -> always_feeds _ (recorded Z (vs_callback F N ch buffer) dummy ch) dummy own ch least fed.
  Proof.
    intros Hle f ud [at_ rec] m Mp [Ha Hb]. cbn [fst snd] in *. destruct n_ok as [N1 N2].
    assert (Z0 : 0 <= zlen rec) by (unfold zlen; lia).
    destruct (fill_ok (zlen rec * n) ltac:(nia) (S (Z.to_nat n)) 0 at_ m Mp ltac:(lia) ltac:(lia)) as (m' & E & Hh).
    { rewrite Z.add_0_r. exact Ha. }
    { intros i c Hi. lia. }
    cbn [recorded]. unfold vs_callback, src_input_callback, c_div, VS_BUFFER_LEN. destruct (Z.eqb_spec ch 0) as [C0|C0]; [lia|].
    rewrite quot_n.
    assert (Ei : int_op n = Ok n) by (apply int_ok; nia). rewrite ?Ei. cbn [bind]. rewrite E. cbn [bind].
    split; [|split; [lia|split; [lia|lia]]].
    unfold fed. cbn [fst snd]. assert (Zl : forall x, zlen (rec ++ [x]) = zlen rec + 1) by (intros x; unfold zlen; rewrite app_length; cbn [length]; lia).
    rewrite !Zl. replace ((zlen rec + 1) * n) with (zlen rec * n + n) by ring. split; [reflexivity|].
    rewrite concat_app. cbn [concat]. rewrite app_nil_r.
    destruct (block_at_frames ch ltac:(lia) m' buffer n ltac:(lia)) as (l & -> & Ll & Sl).
    { intros i Hi. replace i with (i / ch * ch + i mod ch) by (rewrite Z.mul_comm; symmetry; apply Z.div_mod; lia).
      assert (0 <= i mod ch < ch) by (apply Z.mod_pos_bound; lia). assert (0 <= i / ch) by (apply Z.div_pos; lia). assert (i / ch < n) by (apply Z.div_lt_upper_bound; lia).
      rewrite Hh by lia. discriminate. }
    unfold begins in *.
    refine (is_frames_ext ch _ _ _ _ (is_frames_app ch _ l (zlen rec * n) n (looped F N) (fun i => looped F N (zlen rec * n + i)) ltac:(lia) ltac:(nia) ltac:(lia) Hb _) _).
    - split; [exact Ll|]. intros k c Hk Hc. unfold sample. rewrite Sl by nia. apply Hh; lia.
    - intros k c Hk Hc. destruct (Z.ltb_spec k (zlen rec * n)); [reflexivity|]. f_equal. lia.
  Qed.
End Buf.
