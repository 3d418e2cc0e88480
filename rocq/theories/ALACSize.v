(** * How long the code of a block of residuals can get *)
From Verif Require Import Prelude PreludeFacts MetadataProofs ALACBits ALACGolomb ALACGolombProofs.

(** ** One residual *)
Lemma meanK_spec mb : 0 <= mb <= 2 ^ 26 -> let k := meanK stdAg mb in 1 <= k <= 14 /\ 2 ^ k <= mb / 512 + 3 /\ (k < 14 -> mb / 512 + 3 < 2 ^ (k + 1)).
Proof.
  intros H k. change (2 ^ 26) with 67108864 in H. assert (K : 1 <= k <= 14) by (apply meanK_range; change (2 ^ 32) with 4294967296; lia). split; [exact K|].
  unfold k, meanK in *. cbn [ag_kb stdAg] in *. unfold KB0, lg3a in *. rewrite Z.shiftr_div_pow2 in * by lia. change (2 ^ 9) with 512 in *.
  unfold u32 in *. rewrite uN_small in * by (change (2 ^ 32) with 4294967296; lia). destruct (log2_floor (mb / 512 + 3)) as (e & He & Hb); [change (2 ^ 32) with 4294967296; lia|].
  rewrite (lead_is _ e) in * by assumption. replace (31 - (31 - e)) with e in * by lia. split.
  - eapply Z.le_trans; [|apply Hb]. apply Z.pow_le_mono_r; lia.
  - intros L. rewrite Z.min_l by lia. apply Hb.
Qed.

(** A residual takes at most [bits + 9] bits; without the escape it takes at most 23. *)
Lemma code32_bits bits k n : 1 <= k <= 14 -> 0 <= n -> 
  (n / (2 ^ k - 1) < 9 /\ fbits (code32 bits k n) <= n / (2 ^ k - 1) + k + 1) \/ (9 <= n / (2 ^ k - 1) /\ fbits (code32 bits k n) = bits + 9).
Proof.
  intros Hk Hn. unfold code32. destruct (Z.ltb_spec (n / (2 ^ k - 1)) 9) as [L|L]; [left|right].
  - split; [exact L|]. destruct (n mod (2 ^ k - 1) =? 0); unfold fbits; cbn [fold_right fst]; lia.
  - split; [lia|]. unfold fbits. cbn [fold_right fst]. lia.
Qed.
(** Before a run of zeros the mean is small, and so is the residual: it takes at most 4 bits. *)
Lemma meanNext_val mb n zm : 0 <= mb <= 2 ^ 26 -> 0 <= n <= 65535 -> 0 <= zm <= 1 -> meanNext stdAg mb n zm = 40 * (n + zm) + mb - 40 * mb / 512.
Proof.
  intros Hm Hn Hz. unfold meanNext. cbn [ag_pb stdAg]. unfold PB0, CLAMP. change (2 ^ 26) with 67108864 in *. replace (65535 <? n) with false by lia.
  rewrite Z.shiftr_div_pow2 by lia. change (2 ^ 9) with 512. unfold u32. rewrite (uN_small 32 (40 * mb)) by (change (2 ^ 32) with 4294967296; lia).
  rewrite uN_small by (change (2 ^ 32) with 4294967296; lia). reflexivity.
Qed.
Lemma before_run bits mb n zm : 0 <= mb <= 2 ^ 26 -> 0 <= n -> 0 <= zm <= 1 -> meanNext stdAg mb n zm < 128 ->
  mb < 140 /\ fbits (code32 bits (meanK stdAg mb) n) <= 4.
Proof.
  intros Hm Hn Hz L. destruct (Z_le_gt_dec n 65535) as [N|N].
  2:{ unfold meanNext, CLAMP in L. replace (65535 <? n) with true in L by lia. lia. }
  rewrite meanNext_val in L by lia. change (2 ^ 26) with 67108864 in Hm. assert (M : mb < 140 /\ n <= 3) by lia. split; [lia|].
  destruct (meanK_spec mb) as (K & A & B); [change (2 ^ 26) with 67108864; lia|]. set (k := meanK stdAg mb) in *. replace (mb / 512) with 0 in * by lia.
  assert (k = 1). { destruct (Z.eq_dec k 1); [assumption|]. assert (2 ^ 2 <= 2 ^ k) by (apply Z.pow_le_mono_r; lia). change (2 ^ 2) with 4 in *. lia. }
  rewrite H. unfold code32. change (2 ^ 1 - 1) with 1. rewrite Z.div_1_r, Z.mod_1_r. replace (n <? 9) with true by lia. unfold fbits. cbn [Z.eqb fold_right fst]. lia.
Qed.
(** A run of [nz] zeros takes at most 25 bits, and at most 17 if it is shorter than 27. *)
Lemma code16_bits k nz : 2 <= k <= 8 -> 0 <= nz -> fbits (code16 k nz) <= 25 /\ (nz < 27 -> fbits (code16 k nz) <= 17) /\ (nz = 0 -> fbits (code16 k nz) <= 8).
Proof.
  intros Hk Hn. assert (M : 2 ^ 2 <= 2 ^ k) by (apply Z.pow_le_mono_r; lia). change (2 ^ 2) with 4 in M. split; [apply code16_ok; assumption|].
  unfold code16. split.
  - intros L. assert (D : nz / (2 ^ k - 1) < 9) by (apply Z.div_lt_upper_bound; lia). replace (nz / (2 ^ k - 1) <? 9) with true by lia.
    assert (0 <= nz / (2 ^ k - 1)) by (apply Z.div_pos; lia). destruct (nz mod (2 ^ k - 1) =? 0); unfold fbits; cbn [fold_right fst]; lia.
  - intros ->. rewrite Z.div_0_l, Z.mod_0_l by lia. cbn [Z.ltb Z.compare Z.eqb]. unfold fbits. cbn [fold_right fst]. lia.
Qed.

(** ** At most [bits + 9] bits a residual *)
Lemma gfields_size bits fuel : forall xs mb zm, 16 <= bits <= 25 -> 0 <= mb <= 2 ^ 26 -> codable bits xs zm -> (length xs <= fuel)%nat ->
  fbits (gfields fuel bits xs mb zm) <= zlen xs * (bits + 9).
Proof.
  induction fuel as [|fuel IH]; intros xs mb zm Hb Hm C Hf.
  - destruct xs; [|cbn in Hf; lia]. cbn [gfields]. change (fbits []) with 0. change (zlen (@nil Z)) with 0. lia.
  - destruct xs as [|x xs]; [cbn [gfields]; change (fbits []) with 0; change (zlen (@nil Z)) with 0; lia|].
    pose proof (zmode_range _ _ _ C) as Zr. apply codable_next in C. destruct C as (Hx & Hz & F).
    destruct (zig_is bits x zm ltac:(lia) Hx Hz) as [_ Rn]. cbn [gfields]. cbv zeta. set (n := zig x zm) in *.
    pose proof (meanNext_range mb n zm Hm ltac:(lia) Zr) as M1. pose proof (before_run bits mb n zm Hm ltac:(lia) Zr) as BR. set (mb1 := meanNext stdAg mb n zm) in *.
    destruct (meanK_spec mb Hm) as (K & _ & _). pose proof (code32_bits bits (meanK stdAg mb) n K ltac:(lia)) as CB.
    rewrite fbits_app. cbn [length] in Hf. rewrite zlen_cons.
    destruct (runNext mb1 && (0 <? zlen xs)) eqn:R.
    + apply andb_true_iff in R. destruct R as [R R2]. rewrite runNext_spec in R by (change (2 ^ 26) with 67108864 in M1; change (2 ^ 30) with 1073741824; lia).
      pose proof (runK_range mb1 ltac:(lia)) as RK. destruct (runLength_spec xs) as (A1 & A2 & _ & _). set (nz := runLength xs) in *.
      destruct (code16_bits (runK mb1) nz RK ltac:(lia)) as (B2 & B3 & _). destruct (BR ltac:(lia)) as [_ B4]. rewrite fbits_app.
      specialize (IH (zskipn nz xs) 0 (if 65535 <=? nz then 0 else 1) Hb ltac:(lia) (codable_run bits xs F) ltac:(rewrite zskipn_length by lia; lia)).
      rewrite zlen_skipn in IH by lia. rewrite Z.max_r in IH by lia. destruct (Z_lt_ge_dec nz 27) as [S|S]; nia.
    + specialize (IH xs mb1 0 Hb M1 (codable_0 bits xs F) ltac:(lia)). lia.
Qed.

(** ** 16-bit residuals: fewer than 24 bits on average

    An escape takes 25 bits, but it makes the mean grow by a quarter at least; everything else takes at most 22 bits and makes it
    shrink by a tenth at most. *)
Definition level (mb : Z) : Z := Z.log2 ((mb + 512) ^ 4).
Lemma level_move w w' num den j : 0 < w -> 0 < w' -> 0 <= j -> 0 < den -> 0 <= num -> num * w <= den * w' -> den ^ 4 <= 2 ^ j * num ^ 4 -> Z.log2 (w ^ 4) - j <= Z.log2 (w' ^ 4).
Proof.
  intros Hw Hw' Hj Hd Hn H1 H2. assert (P : 0 < 2 ^ j) by (apply Z.pow_pos_nonneg; lia). assert (P4 : 0 < w ^ 4) by (apply Z.pow_pos_nonneg; lia). assert (P4' : 0 < w' ^ 4) by (apply Z.pow_pos_nonneg; lia). assert (D4 : 0 < den ^ 4) by (apply Z.pow_pos_nonneg; lia).
  assert (Q : num ^ 4 * w ^ 4 <= den ^ 4 * w' ^ 4). { rewrite <- !Z.pow_mul_l. apply Z.pow_le_mono_l. nia. }
  assert (R : w ^ 4 <= 2 ^ j * w' ^ 4). { set (a := w ^ 4) in *. set (b := w' ^ 4) in *. set (c := num ^ 4) in *. set (d := den ^ 4) in *. set (e := 2 ^ j) in *. clearbody a b c d e. nia. }
  apply Z.log2_le_mono in R. rewrite Z.mul_comm, Z.log2_mul_pow2 in R by lia. lia.
Qed.
Lemma level_up w w' : 0 < w -> 0 < w' -> 5 * w <= 4 * w' -> Z.log2 (w ^ 4) + 1 <= Z.log2 (w' ^ 4).
Proof.
  intros Hw Hw' H. assert (P4 : 0 < w ^ 4) by (apply Z.pow_pos_nonneg; lia).
  assert (Q : 625 * w ^ 4 <= 256 * w' ^ 4). { change 625 with (5 ^ 4). change 256 with (4 ^ 4). rewrite <- !Z.pow_mul_l. apply Z.pow_le_mono_l. lia. }
  assert (R : w ^ 4 * 2 ^ 1 <= w' ^ 4) by (change (2 ^ 1) with 2; lia). apply Z.log2_le_mono in R. rewrite Z.log2_mul_pow2 in R by lia. lia.
Qed.
Lemma level_range mb : 0 <= mb <= 2 ^ 26 -> 36 <= level mb <= 105.
Proof.
  intros H. change (2 ^ 26) with 67108864 in H. unfold level. split.
  - change 36 with (Z.log2 (512 ^ 4)). apply Z.log2_le_mono. apply Z.pow_le_mono_l. lia.
  - assert (E : Z.log2 (67109376 ^ 4) = 104) by reflexivity. enough (Z.log2 ((mb + 512) ^ 4) <= 104) by lia. rewrite <- E. apply Z.log2_le_mono. apply Z.pow_le_mono_l. lia.
Qed.

Lemma gfields_size16 fuel : forall xs mb zm, 0 <= mb <= 2 ^ 26 -> codable 16 xs zm -> (length xs <= fuel)%nat ->
  2 * fbits (gfields fuel 16 xs mb zm) <= 47 * zlen xs + 3 * (105 - level mb).
Proof.
  induction fuel as [|fuel IH]; intros xs mb zm Hm C Hf; pose proof (level_range mb Hm) as LR.
  - destruct xs; [|cbn in Hf; lia]. cbn [gfields]. change (fbits []) with 0. change (zlen (@nil Z)) with 0. lia.
  - destruct xs as [|x xs]; [cbn [gfields]; change (fbits []) with 0; change (zlen (@nil Z)) with 0; lia|].
    pose proof (zmode_range _ _ _ C) as Zr. apply codable_next in C. destruct C as (Hx & Hz & F).
    destruct (zig_is 16 x zm ltac:(lia) Hx Hz) as [_ Rn]. cbn [gfields]. cbv zeta. set (n := zig x zm) in *. change (2 ^ 16) with 65536 in Rn.
    pose proof (meanNext_range mb n zm Hm ltac:(lia) Zr) as M1. pose proof (before_run 16 mb n zm Hm ltac:(lia) Zr) as BR. pose proof (meanNext_val mb n zm Hm ltac:(lia) Zr) as MV. set (mb1 := meanNext stdAg mb n zm) in *.
    destruct (meanK_spec mb Hm) as (K & KL & KH). pose proof (code32_bits 16 (meanK stdAg mb) n K ltac:(lia)) as CB. set (k := meanK stdAg mb) in *.
    change (2 ^ 26) with 67108864 in Hm, M1.
    rewrite fbits_app. cbn [length] in Hf. rewrite zlen_cons.
    destruct (runNext mb1 && (0 <? zlen xs)) eqn:R.
    + apply andb_true_iff in R. destruct R as [R R2]. rewrite runNext_spec in R by (change (2 ^ 30) with 1073741824; lia).
      pose proof (runK_range mb1 ltac:(lia)) as RK. destruct (runLength_spec xs) as (A1 & A2 & _ & _). set (nz := runLength xs) in *.
      destruct (code16_bits (runK mb1) nz RK ltac:(lia)) as (B2 & _ & B3). destruct (BR ltac:(lia)) as [MS B4]. rewrite fbits_app.
      specialize (IH (zskipn nz xs) 0 (if 65535 <=? nz then 0 else 1) ltac:(lia) (codable_run 16 xs F) ltac:(rewrite zskipn_length by lia; lia)).
      rewrite zlen_skipn in IH by lia. rewrite Z.max_r in IH by lia.
      assert (LV : level mb - 2 <= level 0) by (apply (level_move (mb + 512) (0 + 512) 71 100 2); lia).
      destruct (Z.eq_dec nz 0) as [S|S]; [specialize (B3 S); lia|lia].
    + specialize (IH xs mb1 0 ltac:(change (2 ^ 26) with 67108864; lia) (codable_0 16 xs F) ltac:(lia)).
      destruct CB as [[D CB]|[D CB]].
      * assert (LV : level mb - 1 <= level mb1) by (apply (level_move (mb + 512) (mb1 + 512) 17 20 1); lia).
        enough (fbits (code32 16 k n) <= 22) by lia. eapply Z.le_trans; [exact CB|]. destruct (Z.eq_dec k 14) as [->|N].
        -- change (2 ^ 14 - 1) with 16383. lia.
        -- lia.
      * assert (LV : level mb + 1 <= level mb1).
        { apply (level_up (mb + 512) (mb1 + 512)); [lia|lia|]. assert (N : k < 14). { destruct (Z.eq_dec k 14) as [E|]; [|lia]. rewrite E in D. change (2 ^ 14 - 1) with 16383 in D. lia. }
          specialize (KH N). rewrite Z.pow_add_r in KH by lia. change (2 ^ 1) with 2 in KH.
          assert (P : 2 <= 2 ^ k) by (change 2 with (2 ^ 1) at 1; apply Z.pow_le_mono_r; lia).
          assert (D2 : 9 * (2 ^ k - 1) <= n). { pose proof (Z.mul_div_le n (2 ^ k - 1) ltac:(lia)). nia. }
          lia. }
        lia.
Qed.

Lemma golomb_size bits xs : 16 <= bits <= 25 -> Forall (inRange bits) xs -> fbits (golombFields bits xs) <= zlen xs * (bits + 9).
Proof. intros Hb F. apply gfields_size; [exact Hb|exact mb0_ok|apply codable_0; exact F|lia]. Qed.
Lemma golomb_size16 xs : Forall (inRange 16) xs -> 2 * fbits (golombFields 16 xs) <= 47 * zlen xs + 207.
Proof.
  intros F. pose proof (gfields_size16 (length xs) xs MB0 0 mb0_ok (codable_0 16 xs F) ltac:(lia)) as H. assert (E : level MB0 = 36) by reflexivity. rewrite E in H. exact H.
Qed.
