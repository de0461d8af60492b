(** The varispeed player (C57, C58). *)
From Coq Require Import ZArith Reals List Bool Lia Lra.
From Flocq Require Import Core IEEE754.BinarySingleNaN.
From Verif Require Import Base FloatFacts PosFacts Types Api Heap Callback ApiHist HoldSpec HoldFacts HoldCore HoldCall HoldProcess HoldStream ProcFacts
  Sinc SincSpec SincFacts SincProcess SincCall SincApi SincHist SincStream CbSpec CbCore CbSinc CbReadSpec CbStream CbReadThms CbHold CbFeedSpec CbFeed VarSpec VarThms
  AccSpec GainMain SincTables Timewarp Varispeed VariSpec VariIn VariSpeed.
Import ListNotations.
Local Open Scope Z_scope.

Lemma top_val : B2R top_speed = (3 / 2)%R /\ in_range top_speed.
Proof.
  destruct (d_of_Z_val 3 ltac:(lia)) as [A1 A2]. destruct (d_of_Z_val 2 ltac:(lia)) as [B1 B2].
  destruct (ddiv_val (d_of_Z 3) (d_of_Z 2) A2) as [V F].
  { rewrite B1. lra. }
  { rewrite A1, B1, Rabs_pos_eq by lra. apply Rle_trans with (bpow radix2 1); [simpl; lra|apply bpow_le; lia]. }
  assert (Q : B2R top_speed = (3 / 2)%R).
  { unfold top_speed. rewrite V, A1, B1. apply rnd64_id. replace (3 / 2)%R with (IZR 3 * bpow radix2 (-1))%R by (simpl; lra). apply fmt64_dyadic; lia. }
  split; [exact Q|]. split; [exact F|]. split; unfold top_speed in *; rewrite Q; lra.
Qed.

Section Play.
  Variables (sine : f64 -> f64) (F : stream) (N ch buffer samples dummy : Z) (turns : nat) (st0 : SRC_STATE) (m0 : mem).
  Hypothesis Hsine : sine_ok sine.
  Hypothesis Hdiv : 1 <= ch /\ (ch | 32).
  Hypothesis HN : 1 <= N.
  Hypothesis Hdummy : 0 <= dummy <= 2 ^ 60.
  Hypothesis Harr : vs_arrays m0 buffer samples.
  Notation cb := (vs_callback F N ch buffer).
  Notation rcb := (recorded Z cb dummy ch).
  Notation pool := (own buffer).
  Notation b := (32 / ch).
  (** The converter: [Good] states, blocks of at least [least] frames, [before] frames looked back at. *)
  Variables (Good : SRC_STATE -> Prop) (least before : Z).
  Hypothesis Hleast : least <= 32.
  Hypothesis Hbefore : before = 0 \/ (before = 1 /\ least = 3).
  Hypothesis Hnew : ready pool ch Good least st0.
  Hypothesis Hfeeds : forall st cs r data m, proper _ rcb dummy pool ch -> always_feeds _ rcb dummy pool ch least (fed F N ch) ->
    ready pool ch Good least st -> fed F N ch cs -> fine_read pool ch r 64 data m ->
    exists st' cs' m', src_callback_read _ rcb dummy turns (Some st) r 64 data cs m = Ok (64, Some st', cs', m') /\
      ready pool ch Good least st' /\ fed F N ch cs' /\
      (forall a, leaves_alone _ rcb a -> ~ (data <= a < data + 64 * ch) -> m' a = m a) /\
      (forall a, m a <> None -> m' a <> None).

  Lemma b_ok : ch * b = 32 /\ 1 <= b <= 32 /\ 1 <= ch <= 32.
  Proof.
    destruct Hdiv as [H [q Q]]. rewrite Q, Z.div_mul by lia. assert (0 < q) by nia. nia.
  Qed.
  Lemma ch_ok : 1 <= ch <= 128. Proof. destruct b_ok. lia. Qed.
  Lemma buf_ok : 0 < buffer /\ buffer + 4096 <= 2 ^ 60. Proof. destruct Harr as (? & ? & ? & _). lia. Qed.

  (** After [calls] calls that gave [given] and, in the current one, [count] frames. *)
  Record vs_inv (v : vs) (given : list f32) (count : Z) (speeds : list f64) (rec : list (list f32)) : Prop := {
    vi_ready : ready pool ch Good least (vs_state v);
    vi_fed : fed F N ch (vs_at v, rec);
    vi_reads : exists chunk, mread_n (vs_mem v) samples (Z.to_nat (count * ch)) = Ok chunk /\
      reads _ rcb dummy pool ch speedy before st0 (0, []) m0 (at_speeds speeds) (given ++ chunk) (vs_state v) (vs_at v, rec) (vs_mem v);
    vi_point : vs_point v = zlen speeds;
    vi_speeds : speeds_near speeds;
    vi_arrays : vs_arrays (vs_mem v) buffer samples;
    vi_mem : forall a, ~ (buffer <= a < buffer + 4096) -> ~ (samples <= a < samples + 2048) -> vs_mem v a = m0 a }.

  Lemma block_step v given i speeds rec : vs_inv v given (64 * i) speeds rec -> 0 <= i < b -> zlen speeds < 2 ^ 30 ->
    exists r st' at' m' more, vs_ratio sine (vs_point v) = Ok r /\
      src_callback_read Z cb dummy turns (Some (vs_state v)) r VARISPEED_BLOCK_LEN (samples + 64 * i * ch) (vs_at v) (vs_mem v) = Ok (64, Some st', at', m') /\
      vs_inv (mkVs st' (vs_point v + 1) at' m') given (64 * (i + 1)) (speeds ++ [r]) (rec ++ more).
  Proof.
    intros I Hi Hs. destruct I as [I1 I2 (chunk & I3 & I4) I5 I6 I7 I8]. assert (Z0 : 0 <= zlen speeds) by (unfold zlen; lia).
    destruct b_ok as (B1 & B2 & B3). assert (Hch := ch_ok). assert (Hbuf := buf_ok).
    destruct (speed_ok sine (vs_point v) Hsine ltac:(lia)) as (r & Er & Nr). rewrite I5 in Nr.
    set (data := samples + 64 * i * ch). assert (Ai := I7). destruct Ai as (A1 & A2 & A3 & A4 & A5 & A6 & A7).
    assert (Hib : (i + 1) * ch <= 32) by nia.
    assert (Mp : mapped pool (vs_mem v)). { intros a A. unfold own in A. replace a with (buffer + (a - buffer)) by lia. apply A6. lia. }
    assert (Fr : fine_read pool ch r 64 data (vs_mem v)).
    { split; [apply Nr|]. intros _. unfold data. split; [lia|]. split; [nia|]. split; [nia|]. split.
      - intros j Hj. rewrite <- Z.add_assoc. apply A7. nia.
      - split; [exact Mp|]. unfold own. intros a A. nia. }
    assert (P := cb_proper F N ch buffer Hch Hbuf dummy Hdummy).
    assert (Lb : least <= block_len ch) by (destruct (n_ok ch Hch); lia).
    destruct (Hfeeds (vs_state v) (vs_at v, rec) r data (vs_mem v) (rec_proper Z cb dummy pool ch P) (cb_feeds F N ch buffer Hch Hbuf HN dummy least Lb) I1 I2 Fr)
      as (st' & [at' rec'] & m' & E & R1 & R2 & R3 & R4).
    assert (Er' := read_erased Z cb dummy ch turns (Some (vs_state v)) r 64 data (vs_at v) rec (vs_mem v)).
    destruct (src_callback_read Z cb dummy turns (Some (vs_state v)) r 64 data (vs_at v) (vs_mem v)) as [[[[n s] c2] m2]|f] eqn:Ep; [|rewrite E in Er'; discriminate Er'].
    destruct Er' as [more Er']. rewrite E in Er'. injection Er' as <- <- <- -> <-.
    exists r, st', at', m', more. split; [exact Er|]. split; [exact Ep|].
    assert (al : forall a, ~ pool a -> leaves_alone _ rcb a) by (intros a A; apply rec_alone, cb_alone; auto).
    assert (Keep : forall a, ~ (buffer <= a < buffer + 4096) -> ~ (data <= a < data + 64 * ch) -> m' a = vs_mem v a) by (intros a A B; apply R3; [apply al|]; assumption).
    destruct (mread_n_ok m' (Z.to_nat (64 * ch)) data) as [piece Epc].
    { intros j Hj. apply R4. unfold data. rewrite <- Z.add_assoc. apply A7. nia. }
    constructor; cbn [vs_state vs_point vs_at vs_mem].
    - exact R1.
    - exact R2.
    - exists (chunk ++ piece). split.
      + replace (Z.to_nat (64 * (i + 1) * ch)) with (Z.to_nat (64 * i * ch) + Z.to_nat (64 * ch))%nat by nia. apply mread_n_app.
        * rewrite <- I3. apply mread_n_ext. intros j Hj. apply Keep; unfold data; nia.
        * rewrite Z2Nat.id by nia. exact Epc.
      + unfold at_speeds. rewrite map_app, app_assoc. cbn [map].
        eapply (R_read _ rcb dummy pool ch speedy before st0 (0, []) m0 _ _ _ _ _ (vs_mem v) turns r 64 data 64 st' (at', rec ++ more) m' piece I4);
          [|reflexivity| | | |exact E| |exact Epc].
        * split; [apply Nr|]. rewrite (proj1 top_val). apply Nr.
        * intros Sv j Hj. split; [reflexivity|]. destruct Hbefore as [B0|[B0 L3]]; [rewrite B0 in Hj; lia|].
          destruct I1 as (_ & _ & _ & _ & _ & _ & _ & _ & Bl). rewrite B0 in Hj.
          assert (Q := Bl ltac:(lia) (j + ch) ltac:(lia)). unfold own, data in *. replace (st_saved_data (vs_state v) - ch + (j + ch)) with (st_saved_data (vs_state v) + j) in Q by lia. nia.
        * right. destruct Nr as [[Nf _] _]. destruct Fr as [_ Fr]. destruct (Fr ltac:(lia)) as (G1 & G2 & G3 & G4 & G5 & _).
          split; [destruct r; try discriminate; reflexivity|]. split; [exact G1|]. split; [lia|]. split; [exact G3|]. split; [right; exact G4|exact G5].
        * intros a A. apply al. unfold own, data in *. nia.
        * apply R1.
    - rewrite I5. unfold zlen. rewrite app_length. cbn [length]. lia.
    - intros k x Hk. destruct (Nat.lt_ge_cases k (length speeds)) as [L|L]; [rewrite nth_error_app1 in Hk by exact L; exact (I6 _ _ Hk)|].
      rewrite nth_error_app2 in Hk by exact L. destruct (k - length speeds)%nat as [|j] eqn:Ek; [|destruct j; discriminate Hk]. injection Hk as <-.
      replace k with (Z.to_nat (zlen speeds)) by (unfold zlen; lia). exact Nr.
    - unfold vs_arrays. split; [exact A1|]. split; [exact A2|]. split; [exact A3|]. split; [exact A4|]. split; [exact A5|].
      split; intros j Hj; apply R4; auto.
    - intros a X1 X2. rewrite Keep; [now apply I8|exact X1|unfold data; nia].
  Qed.

  Lemma blocks_run given : forall fuel i v speeds rec, vs_inv v given (64 * i) speeds rec -> 0 <= i <= b -> zlen speeds + (b - i) <= 2 ^ 30 -> b - i < Z.of_nat fuel ->
    exists v' sp' more, vs_blocks sine F N ch buffer dummy turns fuel samples (64 * b) (64 * i) v = Ok (Some v') /\
      vs_inv v' given (64 * b) (speeds ++ sp') (rec ++ more) /\ zlen sp' = b - i.
  Proof.
    destruct b_ok as (B1 & B2 & B3). induction fuel as [|fuel IH]; intros i v speeds rec I Hi Hs Hf; [lia|]. cbn [vs_blocks].
    destruct (Z.ltb_spec (64 * i) (64 * b)) as [L|L].
    2: { assert (i = b) by lia. subst i. exists v, [], []. rewrite !app_nil_r. split; [reflexivity|]. split; [exact I|]. unfold zlen. cbn [length]. lia. }
    destruct (block_step v given i speeds rec I ltac:(lia) ltac:(lia)) as (r & st' & at' & m' & more & Er & Ep & I').
    assert (Z0 : 0 <= zlen speeds) by (unfold zlen; lia).
    rewrite Er. cbn [bind]. rewrite (vi_point _ _ _ _ _ I), int_ok by lia. cbn [bind]. rewrite int_ok by nia. cbn [bind]. rewrite Ep. cbn [bind].
    change (64 <? VARISPEED_BLOCK_LEN) with false. cbn iota. rewrite int_ok by (unfold VARISPEED_BLOCK_LEN; lia). cbn [bind].
    replace (64 * i + VARISPEED_BLOCK_LEN) with (64 * (i + 1)) by (unfold VARISPEED_BLOCK_LEN; lia).
    rewrite (vi_point _ _ _ _ _ I) in I'.
    assert (Zl : zlen (speeds ++ [r]) = zlen speeds + 1) by (unfold zlen; rewrite app_length; cbn [length]; lia).
    destruct (IH (i + 1) _ _ _ I' ltac:(lia) ltac:(lia) ltac:(lia)) as (v' & sp & mo & E & I2 & Zs).
    exists v', (r :: sp), (more ++ mo). split; [exact E|]. rewrite <- !app_assoc in I2. split; [exact I2|]. unfold zlen in *. cbn [length]. lia.
  Qed.

  Lemma run_ok : forall calls v given speeds rec, vs_inv v given 0 speeds rec -> zlen speeds + Z.of_nat calls * b <= 2 ^ 30 -> 
    exists v' given' sp' more, vs_run sine F N ch buffer dummy turns calls samples v given = Ok (Some (v', given')) /\
      vs_inv v' given' 0 (speeds ++ sp') (rec ++ more) /\ zlen sp' = Z.of_nat calls * b /\ zlen given' = zlen given + Z.of_nat calls * 2048.
  Proof.
    destruct b_ok as (B1 & B2 & B3). induction calls as [|calls IH]; intros v given speeds rec I Hs; cbn [vs_run].
    - exists v, given, [], []. rewrite !app_nil_r. split; [reflexivity|]. split; [exact I|]. unfold zlen. cbn [length]. lia.
    - unfold c_div, AUDIO_BUFFER_LEN. destruct (Z.eqb_spec ch 0) as [C0|C0]; [lia|]. cbn [bind].
      replace (Z.quot 2048 ch) with (64 * b) by (rewrite Z.quot_div_nonneg by lia; apply Z.div_unique_exact; lia).
      unfold varispeed_get_data.
      destruct (blocks_run given (S (Z.to_nat (64 * b))) 0 v speeds rec I ltac:(lia) ltac:(lia) ltac:(lia)) as (v1 & sp1 & mo1 & E1 & I1 & Z1).
      change (64 * 0) with 0 in E1. rewrite E1. cbn [bind]. destruct (Z.eqb_spec (64 * b) 0); [lia|].
      destruct (vi_reads _ _ _ _ _ I1) as (chunk & Ec & Rd). rewrite Ec. cbn [bind].
      assert (I2 : vs_inv v1 (given ++ chunk) 0 (speeds ++ sp1) (rec ++ mo1)).
      { destruct I1 as [J1 J2 J3 J4 J5 J6 J7]. constructor; auto. exists []. rewrite app_nil_r. split; [reflexivity|exact Rd]. }
      assert (Zl : zlen (speeds ++ sp1) = zlen speeds + b) by (unfold zlen in *; rewrite app_length; lia).
      destruct (IH v1 (given ++ chunk) (speeds ++ sp1) (rec ++ mo1) I2 ltac:(lia)) as (v' & g' & sp & mo & E & I3 & Z3 & Z4).
      exists v', g', (sp1 ++ sp), (mo1 ++ mo). split; [exact E|]. rewrite !app_assoc. split; [exact I3|].
      destruct (mread_n_spec _ _ _ _ Ec) as [Lc _]. unfold zlen in *. rewrite app_length in *. split; nia.
  Qed.

  Lemma start_inv : vs_inv (mkVs st0 0 0 m0) [] 0 [] [].
  Proof.
    assert (Hch := ch_ok). constructor; cbn [vs_state vs_point vs_at vs_mem].
    - exact Hnew.
    - split; [reflexivity|]. split; [reflexivity|]. cbn. intros; lia.
    - exists []. split; [reflexivity|]. constructor.
    - reflexivity.
    - intros k r Hk. destruct k; discriminate Hk.
    - exact Harr.
    - auto.
  Qed.

  Lemma behind_total : forall asked log, behind asked log -> forall speeds, asked = at_speeds speeds -> total_gen log = 64 * zlen speeds.
  Proof.
    assert (app : forall l1 l2, total_gen (l1 ++ l2) = total_gen l1 + total_gen l2).
    { induction l1 as [|[d d'|r] l1 IH]; intros l2; cbn [app total_gen]; [reflexivity| |]; rewrite IH; lia. }
    induction 1 as [|asked log r n seg _ IH _ T|asked log r _ IH]; intros speeds E.
    - destruct speeds; [reflexivity|discriminate E].
    - destruct (exists_last (l := speeds)) as (sp & x & ->). { intros ->. cbn in E. destruct asked; discriminate E. }
      unfold at_speeds in E. rewrite map_app in E. apply app_inj_tail in E. destruct E as [E1 E2]. injection E2 as _ ->.
      rewrite app, (IH sp E1), T. unfold zlen. rewrite app_length. cbn [length]. lia.
    - destruct (exists_last (l := speeds)) as (sp & x & ->). { intros ->. cbn in E. destruct asked; discriminate E. }
      unfold at_speeds in E. rewrite map_app in E. apply app_inj_tail in E. destruct E as [_ E2]. discriminate E2.
  Qed.

  Lemma what_is_read v given speeds rec : vs_inv v given 0 speeds rec ->
    reads _ rcb dummy pool ch speedy before st0 (0, []) m0 (at_speeds speeds) given (vs_state v) (vs_at v, rec) (vs_mem v) /\
    begins ch (looped F N) (concat rec) (zlen rec * block_len ch).
  Proof.
    intros I. destruct (vi_reads _ _ _ _ _ I) as (chunk & Ec & Rd). injection Ec as <-. rewrite app_nil_r in Rd.
    destruct (vi_fed _ _ _ _ _ I) as [_ Bg]. auto.
  Qed.

  (** Everything about [calls] calls but what the converter makes of its input. *)
  Lemma player calls : Z.of_nat calls * b <= 2 ^ 30 -> exists v given speeds rec,
    vs_run sine F N ch buffer dummy turns calls samples (mkVs st0 0 0 m0) [] = Ok (Some (v, given)) /\
    zlen given = Z.of_nat calls * 2048 /\ src_error (Some (vs_state v)) = 0 /\
    (forall a, ~ (buffer <= a < buffer + 4096) -> ~ (samples <= a < samples + 2048) -> vs_mem v a = m0 a) /\
    zlen speeds = Z.of_nat calls * b /\ speeds_near speeds /\ vs_point v = zlen speeds /\
    reads _ rcb dummy pool ch speedy before st0 (0, []) m0 (at_speeds speeds) given (vs_state v) (vs_at v, rec) (vs_mem v) /\
    begins ch (looped F N) (concat rec) (zlen rec * block_len ch).
  Proof.
    intros Hc. destruct (run_ok calls _ _ _ _ start_inv) as (v & g & sp & mo & E & I & Z1 & Z2).
    { unfold zlen. cbn [length]. lia. }
    cbn [app] in I. exists v, g, sp, mo. split; [exact E|]. split; [unfold zlen in *; cbn [length] in Z2; lia|].
    split; [apply (vi_ready _ _ _ _ _ I)|]. split; [apply (vi_mem _ _ _ _ _ I)|]. split; [exact Z1|]. split; [apply (vi_speeds _ _ _ _ _ I)|].
    split; [exact (vi_point _ _ _ _ _ I)|]. exact (what_is_read _ _ _ _ I).
  Qed.
End Play.

Lemma sinc_feeds_64 inc coeffs ch F N buffer dummy turns : table_fit (inc, coeffs) -> 1 <= ch <= 128 -> 2 ^ 35 <= Z.of_nat turns ->
  let rcb := recorded Z (vs_callback F N ch buffer) dummy ch in let pool := own buffer in
  forall st cs r data m, proper _ rcb dummy pool ch -> always_feeds _ rcb dummy pool ch 1 (fed F N ch) ->
    ready pool ch (sinc_open inc coeffs ch) 1 st -> fed F N ch cs -> fine_read pool ch r 64 data m ->
    exists st' cs' m', src_callback_read _ rcb dummy turns (Some st) r 64 data cs m = Ok (64, Some st', cs', m') /\
      ready pool ch (sinc_open inc coeffs ch) 1 st' /\ fed F N ch cs' /\
      (forall a, leaves_alone _ rcb a -> ~ (data <= a < data + 64 * ch) -> m' a = m a) /\
      (forall a, m a <> None -> m' a <> None).
Proof.
  intros Ht Hch Htu rcb pool st cs r data m P A R Fe Fr.
  exact (sinc_feeds_more (inc, coeffs) ch _ rcb dummy pool (fed F N ch) st cs r 64 data m turns Ht Hch P A R Fe Fr ltac:(lia)).
Qed.
Lemma hold_feeds_64 kd ch F N buffer dummy turns : 0 < ch -> 2 ^ 35 <= Z.of_nat turns ->
  let rcb := recorded Z (vs_callback F N ch buffer) dummy ch in let pool := own buffer in
  forall st cs r data m, proper _ rcb dummy pool ch -> always_feeds _ rcb dummy pool ch (least_of kd) (fed F N ch) ->
    ready pool ch (hold_good kd ch) (least_of kd) st -> fed F N ch cs -> fine_read pool ch r 64 data m ->
    exists st' cs' m', src_callback_read _ rcb dummy turns (Some st) r 64 data cs m = Ok (64, Some st', cs', m') /\
      ready pool ch (hold_good kd ch) (least_of kd) st' /\ fed F N ch cs' /\
      (forall a, leaves_alone _ rcb a -> ~ (data <= a < data + 64 * ch) -> m' a = m a) /\
      (forall a, m a <> None -> m' a <> None).
Proof.
  intros Hch Htu rcb pool st cs r data m P A R Fe Fr.
  exact (hold_feeds_more kd ch _ rcb dummy pool (fed F N ch) st cs r 64 data m turns Hch P A R Fe Fr ltac:(lia)).
Qed.

Section All.
  Variables (sine : f64 -> f64) (bld : build) (orc : Z -> bool) (F : stream) (N func ud ty ch buffer samples dummy : Z) (turns : nat).
  Variables (h : heap) (m : mem) (c : converter) (h1 : heap).
  Hypothesis Hs : sine_ok sine.
  Hypothesis Hty : a_converter bld ty.
  Hypothesis Hn : src_callback_new bld orc func ty ch ud h = Ok (0, Some c, h1).
  Hypothesis Hd : (ch | 32).
  Hypothesis HN : 1 <= N.
  Hypothesis Hdu : 0 <= dummy <= 2 ^ 60.
  Hypothesis Htu : 2 ^ 35 <= Z.of_nat turns.
  Hypothesis Ha : vs_arrays m buffer samples.

  Lemma not_sinc kd : sinc_table bld (type_of kd) = None.
  Proof. destruct kd; reflexivity. Qed.

  Lemma all_calls calls : Z.of_nat calls * (32 / ch) <= 2 ^ 30 -> 1 <= ch /\ exists v given,
    vs_run sine F N ch buffer dummy turns calls samples (mkVs (c_state c) 0 0 m) [] = Ok (Some (v, given)) /\
    zlen given = Z.of_nat calls * 2048 /\ src_error (Some (vs_state v)) = 0 /\
    (forall a, ~ (buffer <= a < buffer + 4096) -> ~ (samples <= a < samples + 2048) -> vs_mem v a = m a) /\
    vs_point v = Z.of_nat calls * (32 / ch) /\
    exists speeds log, zlen speeds = Z.of_nat calls * (32 / ch) /\ speeds_near speeds /\ behind (at_speeds speeds) log /\
      total_gen log = Z.of_nat calls * (2048 / ch) /\ converts bld ty ch (looped F N) log given.
  Proof.
    intros Hc.
    assert (Tot : 1 <= ch -> forall speeds log, zlen speeds = Z.of_nat calls * (32 / ch) -> behind (at_speeds speeds) log -> total_gen log = Z.of_nat calls * (2048 / ch)).
    { intros H1 speeds log Z1 S3. rewrite (behind_total _ _ S3 speeds eq_refl), Z1. destruct Hd as [q Q].
      replace (2048 / ch) with (64 * q) by (apply Z.div_unique_exact; nia). replace (32 / ch) with q by (apply Z.div_unique_exact; nia). lia. }
    assert (Hbuf : 0 < buffer /\ buffer + 4096 <= 2 ^ 60) by (destruct Ha as (? & ? & ? & _); lia).
    destruct Hty as [([inc coeffs] & T0 & Ht)|Ht].
    - assert (C : sinc_cb_new (inc, coeffs) ch (c_state c)) by (exists bld, orc, func, ty, ud, h, c, h1; auto).
      destruct (sinc_cb_state inc coeffs ch (c_state c) (fun _ => False) Ht C) as [Hch _]. assert (Hdiv : 1 <= ch /\ (ch | 32)) by (split; [lia|exact Hd]).
      split; [lia|].
      destruct (player sine F N ch buffer samples dummy turns (c_state c) m Hs Hdiv HN Hdu Ha (sinc_open inc coeffs ch) 1 0 ltac:(lia) (or_introl eq_refl)
        (so_new inc coeffs ch Ht Hch (own buffer) (c_state c) C) (sinc_feeds_64 inc coeffs ch F N buffer dummy turns Ht Hch Htu) calls Hc)
        as (v & g & sp & rec & E & Z1 & Er & K & Zs & Sn & Pt & Rd & Bg).
      exists v, g. split; [exact E|]. split; [exact Z1|]. split; [exact Er|]. split; [exact K|]. split; [lia|]. destruct (cb_marks F N ch buffer Hch Hbuf) as [M1 M2].
      destruct (sinc_stream (inc, coeffs) ch Z (vs_callback F N ch buffer) dummy (own buffer) (fun _ => False) speedy 0 m (at_speeds sp) g (c_state c) (vs_state v) (vs_at v) rec (vs_mem v) (looped F N) _ Ht
        (cb_proper F N ch buffer Hch Hbuf dummy Hdu) M1 M2 C Rd Bg ltac:(intros [])) as (T & log & T' & o & S1 & S2 & S3 & _).
      exists sp, log. split; [exact Zs|]. split; [exact Sn|]. split; [exact S3|]. split; [apply (Tot (proj1 Hdiv) sp log Zs S3)|].
      unfold converts. rewrite T0. eauto.
    - assert (Q : exists kd, ty = type_of kd) by (destruct Ht as [-> | ->]; [exists Zoh|exists Lin]; reflexivity). destruct Q as [kd Q]. subst ty.
      assert (C : cb_created (type_of kd) ch (c_state c)) by (exists bld, orc, func, ud, h, c, h1; auto).
      assert (Hch : channels_fit ch) by (apply Z.divide_pos_le in Hd; unfold channels_fit; lia).
      destruct (hold_new_ready kd ch (own buffer) (c_state c) Hch C) as [Hc0 Rdy]. assert (Hdiv : 1 <= ch /\ (ch | 32)) by (split; [lia|exact Hd]).
      assert (Hch' : 1 <= ch <= 128) by (apply Z.divide_pos_le in Hd; lia).
      split; [lia|].
      destruct (player sine F N ch buffer samples dummy turns (c_state c) m Hs Hdiv HN Hdu Ha (hold_good kd ch) (least_of kd) (match kd with Lin => 1 | Zoh => 0 end)
        ltac:(destruct kd; cbn; lia) ltac:(destruct kd; cbn; auto) Rdy (hold_feeds_64 kd ch F N buffer dummy turns Hc0 Htu) calls Hc)
        as (v & g & sp & rec & E & Z1 & Er & K & Zs & Sn & Pt & Rd & Bg).
      exists v, g. split; [exact E|]. split; [exact Z1|]. split; [exact Er|]. split; [exact K|]. split; [lia|].
      destruct (hold_stream ch Z (vs_callback F N ch buffer) dummy (own buffer) speedy Hch (cb_proper F N ch buffer Hch' Hbuf dummy Hdu) 0 m (at_speeds sp) g (c_state c) (vs_state v) (vs_at v) rec (vs_mem v)
        (looped F N) _ Bg kd C) as (T & log & T' & o & S1 & S2 & S3 & _).
      { intros _ f u a x. destruct (cb_shape F N ch buffer Hch' Hbuf f u a x) as (? & ? & ? & k & -> & _ & _ & W). destruct (n_ok ch Hch'). destruct W as [[_ ->]|[_ ->]]; lia. }
      { exact Rd. }
      exists sp, log. split; [exact Zs|]. split; [exact Sn|]. split; [exact S3|]. split; [apply (Tot (proj1 Hdiv) sp log Zs S3)|].
      unfold converts. rewrite not_sinc. exists T, T', o, kd. auto.
  Qed.
End All.

Lemma varispeed_plays sine bld orc F N func ud ty ch buffer samples dummy turns calls h m c h1 :
  sine_ok sine -> a_converter bld ty -> src_callback_new bld orc func ty ch ud h = Ok (0, Some c, h1) ->
  (ch | 32) -> 1 <= N -> 0 <= dummy <= 2 ^ 60 -> 2 ^ 35 <= Z.of_nat turns -> vs_arrays m buffer samples -> Z.of_nat calls * (32 / ch) <= 2 ^ 30 ->
  exists v given, varispeed_play sine bld orc F N func ud ty ch buffer samples dummy turns calls h m = Ok (Some (v, given)) /\
    zlen given = Z.of_nat calls * 2048 /\ src_error (Some (vs_state v)) = 0 /\
    (forall a, ~ (buffer <= a < buffer + 4096) -> ~ (samples <= a < samples + 2048) -> vs_mem v a = m a).
Proof.
  intros Hs Hty Hn Hd HN Hdu Htu Ha Hc.
  destruct (all_calls sine bld orc F N func ud ty ch buffer samples dummy turns h m c h1 Hs Hty Hn Hd HN Hdu Htu Ha calls Hc) as (_ & v & g & A & B & C & D & _).
  exists v, g. split; [unfold varispeed_play; rewrite Hn; exact A|]. auto.
Qed.
Lemma varispeed_stream sine bld orc F N func ud ty ch buffer samples dummy turns calls h m c h1 :
  sine_ok sine -> a_converter bld ty -> src_callback_new bld orc func ty ch ud h = Ok (0, Some c, h1) ->
  (ch | 32) -> 1 <= N -> 0 <= dummy <= 2 ^ 60 -> 2 ^ 35 <= Z.of_nat turns -> vs_arrays m buffer samples -> Z.of_nat calls * (32 / ch) <= 2 ^ 30 ->
  exists v given, varispeed_play sine bld orc F N func ud ty ch buffer samples dummy turns calls h m = Ok (Some (v, given)) /\
    exists speeds log, zlen speeds = Z.of_nat calls * (32 / ch) /\ speeds_near speeds /\ behind (at_speeds speeds) log /\ total_gen log = Z.of_nat calls * (2048 / ch) /\
      converts bld ty ch (looped F N) log given.
Proof.
  intros Hs Hty Hn Hd HN Hdu Htu Ha Hc.
  destruct (all_calls sine bld orc F N func ud ty ch buffer samples dummy turns h m c h1 Hs Hty Hn Hd HN Hdu Htu Ha calls Hc) as (_ & v & g & A & _ & _ & _ & _ & K).
  exists v, g. split; [unfold varispeed_play; rewrite Hn; exact A|exact K].
Qed.

Lemma varispeed_sinc sine bld orc inc coeffs F N func ud ty ch buffer samples dummy turns calls h m c h1 (A : f32) :
  sinc_table bld ty = Some (inc, coeffs) -> (inc, coeffs) = fastest_table \/ (inc, coeffs) = mid_qual_table -> within ch (looped F N) A -> (6 * Rabs (B2R A) < IZR (2 ^ 128))%R ->
  sine_ok sine -> a_converter bld ty -> src_callback_new bld orc func ty ch ud h = Ok (0, Some c, h1) ->
  (ch | 32) -> 1 <= N -> 0 <= dummy <= 2 ^ 60 -> 2 ^ 35 <= Z.of_nat turns -> vs_arrays m buffer samples -> Z.of_nat calls * (32 / ch) <= 2 ^ 30 ->
  exists v given, varispeed_play sine bld orc F N func ud ty ch buffer samples dummy turns calls h m = Ok (Some (v, given)) /\
    exists speeds log, zlen speeds = Z.of_nat calls * (32 / ch) /\ speeds_near speeds /\ behind (at_speeds speeds) log /\
      exists rho, follows (/ IZR (2 ^ 33)) None log rho /\
      forall k c, 0 <= k < Z.of_nat calls * (2048 / ch) -> 0 <= c < ch -> exists u t y cut, reached rho k u (B2R t) /\ is_finite t = true /\
        sample ch given k c = Some y /\ is_finite y = true /\ cut < u - table_reach inc coeffs top_speed /\
        (Rabs (B2R y - ideal_sinc inc coeffs (from_on cut (fun i => B2R (looped F N i c))) (u, t) (rho (Z.to_nat k))) <= 6 / 10000000 * Rabs (B2R A) + / IZR (2 ^ 149))%R /\
        (table_reach inc coeffs (rho (Z.to_nat k)) <= table_reach inc coeffs top_speed ->
         (Rabs (B2R y - ideal_sinc inc coeffs (fun i => B2R (looped F N i c)) (u, t) (rho (Z.to_nat k))) <= 6 / 10000000 * Rabs (B2R A) + / IZR (2 ^ 149))%R) /\
        (1 / 2 <= B2R (rho (Z.to_nat k)) <= 3 / 2)%R.
Proof.
  intros Tt Tb W U Hs Hty Hn Hd HN Hdu Htu Ha Hc.
  destruct (varispeed_stream sine bld orc F N func ud ty ch buffer samples dummy turns calls h m c h1 Hs Hty Hn Hd HN Hdu Htu Ha Hc)
    as (v & g & E & sp & log & B1 & B2 & B3 & B4 & B5).
  exists v, g. split; [exact E|]. exists sp, log. split; [exact B1|]. split; [exact B2|]. split; [exact B3|].
  unfold converts in B5. rewrite Tt in B5. destruct B5 as (T & T' & o & B5 & B6).
  destruct (sinc_varied inc coeffs ch (looped F N) (1 / 2) top_speed A T log g T' o Tb (or_introl B5) (proj2 top_val) W U (fun i j Hi => looped_low F N i j Hi) B6) as (rho & Fo & K).
  exists rho. split; [exact Fo|]. intros k j Hk Hj. rewrite <- B4 in Hk. destruct (K k j Hk Hj) as (u & t & y & cut & K1 & K2 & K3 & K4 & K5 & K6 & K7 & _ & K8).
  rewrite (proj1 top_val) in K8. exists u, t, y, cut. auto 9.
Qed.

Lemma speedy_range r : is_finite r = true -> speedy r -> in_range r.
Proof. unfold speedy. rewrite (proj1 top_val). intros Fi H. split; [exact Fi|]. split; lra. Qed.
Lemma streaming_weaken ch X (al al' : f64 -> Prop) leg st o log out st1 o1 : (forall r, in_range r -> al r -> al' r) -> streaming ch X al leg st o log out st1 o1 ->
  streaming ch X al' leg st o log out st1 o1.
Proof.
  intros W H. induction H; [constructor| |].
  - econstructor; eauto. apply W; [|assumption]. match goal with V : valid_call _ _ _ |- _ => apply V end.
  - econstructor; eauto.
Qed.

Lemma varispeed_zoh sine bld orc F N func ud ch buffer samples dummy turns calls h m c h1 :
  sine_ok sine -> src_callback_new bld orc func SRC_ZERO_ORDER_HOLD ch ud h = Ok (0, Some c, h1) ->
  (ch | 32) -> 1 <= N -> 0 <= dummy <= 2 ^ 60 -> 2 ^ 35 <= Z.of_nat turns -> vs_arrays m buffer samples -> Z.of_nat calls * (32 / ch) <= 2 ^ 30 ->
  exists v given, varispeed_play sine bld orc F N func ud SRC_ZERO_ORDER_HOLD ch buffer samples dummy turns calls h m = Ok (Some (v, given)) /\
    exists speeds log, zlen speeds = Z.of_nat calls * (32 / ch) /\ speeds_near speeds /\ behind (at_speeds speeds) log /\
      exists rho, follows (/ IZR (2 ^ 42)) None log rho /\
      forall k c, 0 <= k < Z.of_nat calls * (2048 / ch) -> 0 <= c < ch -> exists u t, reached rho k u t /\ sample ch given k c = Some (looped F N (Z.max 0 (u - 1)) c).
Proof.
  intros Hs Hn Hd HN Hdu Htu Ha Hc.
  destruct (varispeed_stream sine bld orc F N func ud SRC_ZERO_ORDER_HOLD ch buffer samples dummy turns calls h m c h1 Hs (or_intror (or_introl eq_refl)) Hn Hd HN Hdu Htu Ha Hc)
    as (v & g & E & sp & log & B1 & B2 & B3 & B4 & B5).
  exists v, g. split; [exact E|]. exists sp, log. split; [exact B1|]. split; [exact B2|]. split; [exact B3|].
  unfold converts in B5. change SRC_ZERO_ORDER_HOLD with (type_of Zoh) in B5. rewrite not_sinc in B5. destruct B5 as (T & T' & o & kd & Q & C & S).
  assert (kd = Zoh) by (destruct kd; [reflexivity|discriminate Q]). subst kd.
  assert (Hch : channels_fit ch) by (apply Z.divide_pos_le in Hd; unfold channels_fit; lia).
  destruct (zoh_varied ch (looped F N) T log g T' o (or_introl C) Hch (streaming_weaken ch _ speedy in_range _ T 0 log g T' o (fun r R _ => R) S)) as (rho & Fo & K).
  rewrite B4 in K. eauto.
Qed.
Lemma varispeed_linear sine bld orc F N func ud ch buffer samples dummy turns calls h m c h1 (A : f32) : within ch (looped F N) A ->
  sine_ok sine -> src_callback_new bld orc func SRC_LINEAR ch ud h = Ok (0, Some c, h1) ->
  (ch | 32) -> 1 <= N -> 0 <= dummy <= 2 ^ 60 -> 2 ^ 35 <= Z.of_nat turns -> vs_arrays m buffer samples -> Z.of_nat calls * (32 / ch) <= 2 ^ 30 ->
  exists v given, varispeed_play sine bld orc F N func ud SRC_LINEAR ch buffer samples dummy turns calls h m = Ok (Some (v, given)) /\
    exists speeds log, zlen speeds = Z.of_nat calls * (32 / ch) /\ speeds_near speeds /\ behind (at_speeds speeds) log /\
      exists rho, follows (/ IZR (2 ^ 42)) None log rho /\
      forall k c, 0 <= k < Z.of_nat calls * (2048 / ch) -> 0 <= c < ch -> exists u t y, reached rho k u t /\ sample ch given k c = Some y /\ is_finite y = true /\
        (Rabs (B2R y - on_line (B2R (looped F N (Z.max 0 (u - 1)) c)) (B2R (looped F N (Z.max 0 u) c)) t) <= / 16000000 * Rabs (B2R A) + / IZR (2 ^ 149))%R.
Proof.
  intros W Hs Hn Hd HN Hdu Htu Ha Hc.
  destruct (varispeed_stream sine bld orc F N func ud SRC_LINEAR ch buffer samples dummy turns calls h m c h1 Hs (or_intror (or_intror eq_refl)) Hn Hd HN Hdu Htu Ha Hc)
    as (v & g & E & sp & log & B1 & B2 & B3 & B4 & B5).
  exists v, g. split; [exact E|]. exists sp, log. split; [exact B1|]. split; [exact B2|]. split; [exact B3|].
  unfold converts in B5. change SRC_LINEAR with (type_of Lin) in B5. rewrite not_sinc in B5. destruct B5 as (T & T' & o & kd & Q & C & S).
  assert (kd = Lin) by (destruct kd; [discriminate Q|reflexivity]). subst kd.
  assert (Hch : channels_fit ch) by (apply Z.divide_pos_le in Hd; unfold channels_fit; lia).
  destruct (lin_varied ch (looped F N) A T log g T' o (or_introl C) Hch W (streaming_weaken ch _ speedy in_range _ T 0 log g T' o (fun r R _ => R) S)) as (rho & Fo & K).
  rewrite B4 in K. eauto.
Qed.

(** After 2^30 blocks the counter overflows. *)
Lemma vs_run_more sine F N ch buffer dummy turns samples : forall calls v given v' given', 
  vs_run sine F N ch buffer dummy turns calls samples v given = Ok (Some (v', given')) -> 2048 / ch <> 0 -> 0 < ch ->
  vs_run sine F N ch buffer dummy turns (S calls) samples v given = vs_run sine F N ch buffer dummy turns 1 samples v' given'.
Proof.
  induction calls as [|calls IH]; intros v given v' given' E Q Hch; [injection E as -> ->; reflexivity|].
  cbn [vs_run] in E. change (vs_run sine F N ch buffer dummy turns (S (S calls)) samples v given) with
    (do out_frames <- c_div AUDIO_BUFFER_LEN ch ;
     do r <- varispeed_get_data sine F N ch buffer dummy turns samples out_frames v ;
        match r with
        | None => Ok None
        | Some (n, v') =>
            if n =? 0 then Ok (Some (v', given))
            else do chunk <- mread_n (vs_mem v') samples (Z.to_nat (n * ch)) ;
                 vs_run sine F N ch buffer dummy turns (S calls) samples v' (given ++ chunk)
        end).
  destruct (c_div AUDIO_BUFFER_LEN ch) as [of|] eqn:Eo; cbn [bind] in *; [|discriminate E].
  unfold c_div, AUDIO_BUFFER_LEN in Eo. destruct (ch =? 0); [discriminate Eo|]. injection Eo as <-. rewrite Z.quot_div_nonneg in * by lia.
  unfold varispeed_get_data in *. destruct (vs_blocks _ _ _ _ _ _ _ _ _ _ _ _) as [[v1|]|]; cbn [bind] in *; try discriminate E.
  destruct (Z.eqb_spec (2048 / ch) 0); [contradiction|]. destruct (mread_n _ _ _) as [chunk|]; cbn [bind] in *; [|discriminate E].
  apply IH; assumption.
Qed.
Lemma varispeed_overflow sine bld orc F N func ud ty ch buffer samples dummy turns calls h m c h1 :
  sine_ok sine -> a_converter bld ty -> src_callback_new bld orc func ty ch ud h = Ok (0, Some c, h1) ->
  (ch | 32) -> 1 <= N -> 0 <= dummy <= 2 ^ 60 -> 2 ^ 35 <= Z.of_nat turns -> vs_arrays m buffer samples -> Z.of_nat calls * (32 / ch) = 2 ^ 30 ->
  varispeed_play sine bld orc F N func ud ty ch buffer samples dummy turns (S calls) h m = Fault F_overflow.
Proof.
  intros Hs Hty Hn Hd HN Hdu Htu Ha Hc.
  destruct (all_calls sine bld orc F N func ud ty ch buffer samples dummy turns h m c h1 Hs Hty Hn Hd HN Hdu Htu Ha calls ltac:(lia)) as (Hch & v & g & E & _ & _ & _ & Pt & _).
  assert (ch <= 32) by (apply Z.divide_pos_le in Hd; lia).
  unfold varispeed_play. rewrite Hn. cbn [bind].
  assert (Q : 16 <= 2048 / ch) by (apply Z.div_le_lower_bound; lia).
  rewrite (vs_run_more _ _ _ _ _ _ _ _ calls _ _ _ _ E ltac:(lia) ltac:(lia)). cbn [vs_run].
  unfold c_div, AUDIO_BUFFER_LEN. destruct (Z.eqb_spec ch 0) as [C0|C0]; [lia|]. cbn [bind]. rewrite Z.quot_div_nonneg by lia.
  unfold varispeed_get_data. cbn [vs_blocks]. destruct (Z.ltb_spec 0 (2048 / ch)); [|lia].
  unfold vs_ratio. rewrite Pt, Hc. reflexivity.
Qed.

(** A file without frames is read for ever. *)
Lemma empty_file F ch buffer n m : 0 < n -> forall fuel, vs_fill F 0 ch buffer fuel n 0 0 m = Fault F_fuel.
Proof.
  intros Hn. induction fuel as [|fuel IH]; cbn [vs_fill]; [reflexivity|]. destruct (Z.ltb_spec 0 n); [|lia].
  rewrite Z.mul_0_l. rewrite int_ok by lia. cbn [bind]. unfold sf_readf_float. replace (Z.max 0 (Z.min (n - 0) (0 - 0))) with 0 by lia.
  cbn [file_samples Z.mul Z.to_nat seq map mwrite_list bind]. rewrite int_ok by lia. cbn [bind]. exact IH.
Qed.
