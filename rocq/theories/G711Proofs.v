(** Proofs about [G711]. *)
From Verif Require Import Prelude PreludeFacts G711.

(** ** Segment search *)
Lemma search_cases v :
  (v <= 255 /\ search v seg_end = 0) \/
  (256 <= v <= 511 /\ search v seg_end = 1) \/
  (512 <= v <= 1023 /\ search v seg_end = 2) \/
  (1024 <= v <= 2047 /\ search v seg_end = 3) \/
  (2048 <= v <= 4095 /\ search v seg_end = 4) \/
  (4096 <= v <= 8191 /\ search v seg_end = 5) \/
  (8192 <= v <= 16383 /\ search v seg_end = 6) \/
  (16384 <= v <= 32767 /\ search v seg_end = 7) \/
  (32768 <= v /\ search v seg_end = 8).
Proof.
  unfold seg_end; cbn [search].
  destruct (Z.leb_spec v 255); [left; lia|].
  destruct (Z.leb_spec v 511); [right; left; lia|].
  destruct (Z.leb_spec v 1023); [do 2 right; left; lia|].
  destruct (Z.leb_spec v 2047); [do 3 right; left; lia|].
  destruct (Z.leb_spec v 4095); [do 4 right; left; lia|].
  destruct (Z.leb_spec v 8191); [do 5 right; left; lia|].
  destruct (Z.leb_spec v 16383); [do 6 right; left; lia|].
  destruct (Z.leb_spec v 32767); [do 7 right; left; lia|].
  do 8 right; lia.
Qed.

Lemma land15 x : Z.land x 15 = x mod 16.
Proof. change 15 with (Z.ones 4). rewrite Z.land_ones by lia. reflexivity. Qed.

Lemma code_or s q : 0 <= s < 8 -> 0 <= q < 16 ->
  u8 (Z.lor (Z.shiftl s 4) q) = 16 * s + q.
Proof.
  intros Hs Hq.
  assert (H : forallb (fun c => u8 (Z.lor (Z.shiftl (c / 16) 4) (c mod 16)) =? c)
                      (zrange_aux 128 0) = true) by (vm_compute; reflexivity).
  pose proof (sweep _ _ H (16 * s + q) ltac:(lia)) as E.
  apply Z.eqb_eq in E.
  replace ((16 * s + q) / 16) with s in E by lia.
  replace ((16 * s + q) mod 16) with q in E by lia. exact E.
Qed.

Lemma code_or8 s q : 0 <= s < 8 -> 0 <= q < 16 ->
  u8 (Z.lor (u8 (Z.shiftl s 4)) q) = 16 * s + q.
Proof.
  intros Hs Hq. rewrite <- code_or by auto. f_equal. f_equal.
  unfold u8; apply uN_small. rewrite Z.shiftl_mul_pow2 by lia. lia.
Qed.

(** ** mu-law *)

(** Reconstruction level (unbiased magnitude) of code [c] = 16*segment + quantum. *)
Definition umid (c : Z) : Z := (8 * (c mod 16) + 132) * 2 ^ (c / 16) - 132.

Lemma ulaw_dec_pos c : 0 <= c < 128 -> ulaw2linear (u8 (Z.lxor c 255)) = umid c.
Proof.
  intros Hc.
  assert (H : forallb (fun c => ulaw2linear (u8 (Z.lxor c 255)) =? umid c)
                      (zrange_aux 128 0) = true) by (vm_compute; reflexivity).
  apply Z.eqb_eq. apply (sweep _ _ H); lia.
Qed.
Lemma ulaw_dec_neg c : 0 <= c < 128 -> ulaw2linear (u8 (Z.lxor c 127)) = - umid c.
Proof.
  intros Hc.
  assert (H : forallb (fun c => ulaw2linear (u8 (Z.lxor c 127)) =? - umid c)
                      (zrange_aux 128 0) = true) by (vm_compute; reflexivity).
  apply Z.eqb_eq. apply (sweep _ _ H); lia.
Qed.

(** Code word chosen for a biased magnitude. *)
Definition ucode (v : Z) : Z :=
  let s := search v seg_end in
  if s >=? 8 then 127 else 16 * s + (v / 2 ^ (s + 3)) mod 16.

Lemma search_range v : 0 <= search v seg_end <= 8.
Proof. pose proof (search_cases v); lia. Qed.

Lemma ucode_range v : 0 <= ucode v < 128.
Proof.
  unfold ucode. pose proof (search_range v).
  destruct (Z.geb_spec (search v seg_end) 8); [lia|].
  pose proof (Z.mod_pos_bound (v / 2 ^ (search v seg_end + 3)) 16 ltac:(lia)). lia.
Qed.

Lemma linear2ulaw_code x :
  linear2ulaw x = u8 (Z.lxor (ucode (Z.abs x + 132)) (if x <? 0 then 127 else 255)).
Proof.
  unfold linear2ulaw, BIAS, ucode.
  destruct (Z.ltb_spec x 0).
  - replace (132 - x) with (Z.abs x + 132) by lia.
    set (v := Z.abs x + 132). pose proof (search_range v).
    destruct (Z.geb_spec (search v seg_end) 8); [reflexivity|].
    rewrite land15, Z.shiftr_div_pow2 by lia.
    rewrite code_or; auto; lia.
  - replace (x + 132) with (Z.abs x + 132) by lia.
    set (v := Z.abs x + 132). pose proof (search_range v).
    destruct (Z.geb_spec (search v seg_end) 8); [reflexivity|].
    rewrite land15, Z.shiftr_div_pow2 by lia.
    rewrite code_or; auto; lia.
Qed.

Lemma ulaw_dec_enc x :
  ulaw2linear (linear2ulaw x) =
  if x <? 0 then - umid (ucode (Z.abs x + 132)) else umid (ucode (Z.abs x + 132)).
Proof.
  rewrite linear2ulaw_code. pose proof (ucode_range (Z.abs x + 132)).
  destruct (x <? 0); [apply ulaw_dec_neg | apply ulaw_dec_pos]; lia.
Qed.

Definition uquant (v : Z) : Z := umid (ucode v).

(** Closed form of the reconstruction level per segment. *)
Lemma uquant_seg v s : 0 <= s < 8 -> 132 <= v -> 2 ^ (s + 7) <= v < 2 ^ (s + 8) ->
  uquant v = 2 ^ (s + 3) * (v / 2 ^ (s + 3)) + 2 ^ (s + 2) - 132.
Proof.
  intros Hs Hv Hr. unfold uquant, ucode.
  assert (Hcase : s = 0 \/ s = 1 \/ s = 2 \/ s = 3 \/ s = 4 \/ s = 5 \/ s = 6 \/ s = 7) by lia.
  pose proof (search_cases v) as Hc.
  destruct Hcase as [->|[->|[->|[->|[->|[->|[->| ->]]]]]]]; cbn in Hr;
  match goal with |- context [2 ^ (?k + 3) * _] =>
    assert (E : search v seg_end = k) by lia; rewrite E; clear E;
    change (k >=? 8) with false; cbv iota;
    let p := eval compute in (2 ^ (k + 3)) in
    change (2 ^ (k + 3)) with p;
    let p2 := eval compute in (2 ^ (k + 2)) in change (2 ^ (k + 2)) with p2;
    unfold umid;
    let q := constr:((v / p) mod 16) in
    replace ((16 * k + q) / 16) with k by lia;
    replace ((16 * k + q) mod 16) with q by lia;
    let p3 := eval compute in (2 ^ k) in change (2 ^ k) with p3
  end; lia.
Qed.

Lemma uquant_sat v : 32768 <= v -> uquant v = 32124.
Proof.
  intros H. unfold uquant, ucode.
  pose proof (search_cases v) as Hc.
  assert (E : search v seg_end = 8) by lia. rewrite E. reflexivity.
Qed.

Lemma useg v : 132 <= v < 32768 -> exists s, 0 <= s < 8 /\ 2 ^ (s + 7) <= v < 2 ^ (s + 8).
Proof.
  intros H.
  destruct (Z_lt_le_dec v 256); [exists 0; cbn; lia|].
  destruct (Z_lt_le_dec v 512); [exists 1; cbn; lia|].
  destruct (Z_lt_le_dec v 1024); [exists 2; cbn; lia|].
  destruct (Z_lt_le_dec v 2048); [exists 3; cbn; lia|].
  destruct (Z_lt_le_dec v 4096); [exists 4; cbn; lia|].
  destruct (Z_lt_le_dec v 8192); [exists 5; cbn; lia|].
  destruct (Z_lt_le_dec v 16384); [exists 6; cbn; lia|].
  exists 7; cbn; lia.
Qed.

Ltac seg_split s :=
  let Hcase := fresh in
  assert (Hcase : s = 0 \/ s = 1 \/ s = 2 \/ s = 3 \/ s = 4 \/ s = 5 \/ s = 6 \/ s = 7) by lia;
  destruct Hcase as [->|[->|[->|[->|[->|[->|[->| ->]]]]]]].

Lemma uquant_error v s : 0 <= s < 8 -> 132 <= v -> 2 ^ (s + 7) <= v < 2 ^ (s + 8) ->
  - 2 ^ (s + 2) < (v - 132) - uquant v + 1 <= 2 ^ (s + 2).
Proof.
  intros Hs Hv Hr. rewrite (uquant_seg v s) by auto.
  seg_split s; zpow; lia.
Qed.

Lemma uquant_bounds v s : 0 <= s < 8 -> 132 <= v -> 2 ^ (s + 7) <= v < 2 ^ (s + 8) ->
  Z.max 132 (2 ^ (s + 7)) <= uquant v + 132 < 2 ^ (s + 8).
Proof.
  intros Hs Hv Hr. rewrite (uquant_seg v s) by auto.
  seg_split s; zpow; lia.
Qed.

Lemma uquant_range v : 132 <= v -> 0 <= uquant v <= 32124.
Proof.
  intros Hv. destruct (Z_lt_le_dec v 32768) as [H|H].
  - destruct (useg v ltac:(lia)) as (s & Hs & Hr).
    rewrite (uquant_seg v s) by auto. seg_split s; zpow; lia.
  - rewrite uquant_sat by auto; lia.
Qed.

Lemma uquant_mono v w : 132 <= v -> v <= w -> uquant v <= uquant w.
Proof.
  intros Hv Hvw.
  destruct (Z_lt_le_dec w 32768) as [H|H].
  2:{ rewrite (uquant_sat w) by auto. apply uquant_range; auto. }
  destruct (useg v ltac:(lia)) as (s & Hs & Hr).
  destruct (useg w ltac:(lia)) as (s' & Hs' & Hr').
  destruct (Z_lt_le_dec s s') as [Hlt|Hge].
  - pose proof (uquant_bounds v s Hs Hv Hr).
    pose proof (uquant_bounds w s' Hs' ltac:(lia) Hr').
    assert (2 ^ (s + 8) <= 2 ^ (s' + 7)) by (apply Z.pow_le_mono_r; lia). lia.
  - assert (s = s').
    { destruct (Z_lt_le_dec s' s); [|lia].
      assert (2 ^ (s' + 8) <= 2 ^ (s + 7)) by (apply Z.pow_le_mono_r; lia). lia. }
    subst s'. rewrite (uquant_seg v s), (uquant_seg w s) by (auto; lia).
    assert (0 < 2 ^ (s + 3)) by (apply Z.pow_pos_nonneg; lia).
    assert (v / 2 ^ (s + 3) <= w / 2 ^ (s + 3)) by (apply Z.div_le_mono; lia).
    nia.
Qed.

Lemma uquant_idem v : 132 <= v -> uquant (uquant v + 132) = uquant v.
Proof.
  intros Hv. destruct (Z_lt_le_dec v 32768) as [H|H].
  - destruct (useg v ltac:(lia)) as (s & Hs & Hr).
    pose proof (uquant_bounds v s Hs Hv Hr) as Hb.
    rewrite (uquant_seg (uquant v + 132) s) by (auto; lia).
    rewrite (uquant_seg v s) by auto.
    seg_split s; zpow; lia.
  - rewrite (uquant_sat v) by auto. reflexivity.
Qed.

Lemma ulaw_quant x :
  ulaw2linear (linear2ulaw x) = if x <? 0 then - uquant (Z.abs x + 132) else uquant (Z.abs x + 132).
Proof. apply ulaw_dec_enc. Qed.

Lemma ulaw_code_roundtrip b : 0 <= b < 256 ->
  linear2ulaw (ulaw2linear b) = if b =? 127 then 255 else b.
Proof.
  intros Hb.
  assert (H : forallb (fun b => linear2ulaw (ulaw2linear b) =? (if b =? 127 then 255 else b))
                      (zrange_aux 256 0) = true) by (vm_compute; reflexivity).
  apply Z.eqb_eq. apply (sweep _ _ H); lia.
Qed.

Lemma ulaw_dec_range b : 0 <= b < 256 -> -32124 <= ulaw2linear b <= 32124.
Proof.
  intros Hb.
  assert (H : forallb (fun b => (-32124 <=? ulaw2linear b) && (ulaw2linear b <=? 32124))
                      (zrange_aux 256 0) = true) by (vm_compute; reflexivity).
  pose proof (sweep _ _ H b ltac:(lia)). lia.
Qed.

Lemma ulaw_monotone x y : x <= y ->
  ulaw2linear (linear2ulaw x) <= ulaw2linear (linear2ulaw y).
Proof.
  intros Hxy. rewrite !ulaw_quant.
  pose proof (uquant_range (Z.abs x + 132) ltac:(lia)).
  pose proof (uquant_range (Z.abs y + 132) ltac:(lia)).
  destruct (Z.ltb_spec x 0), (Z.ltb_spec y 0); try lia.
  - pose proof (uquant_mono (Z.abs y + 132) (Z.abs x + 132)). lia.
  - apply uquant_mono; lia.
Qed.

Lemma ulaw_error x s : 0 <= s < 8 -> 2 ^ (s + 7) <= Z.abs x + 132 < 2 ^ (s + 8) ->
  Z.abs (ulaw2linear (linear2ulaw x) - x) <= 2 ^ (s + 2).
Proof.
  intros Hs Hr. rewrite ulaw_quant.
  pose proof (uquant_error (Z.abs x + 132) s Hs ltac:(lia) Hr).
  destruct (Z.ltb_spec x 0); lia.
Qed.

Lemma ulaw_saturate x : 32768 <= Z.abs x + 132 ->
  ulaw2linear (linear2ulaw x) = 32124 * Z.sgn x.
Proof.
  intros H. rewrite ulaw_quant, uquant_sat by auto.
  destruct (Z.ltb_spec x 0); [rewrite Z.sgn_neg|rewrite Z.sgn_pos]; lia.
Qed.

Lemma ulaw_idem x :
  ulaw2linear (linear2ulaw (ulaw2linear (linear2ulaw x))) = ulaw2linear (linear2ulaw x).
Proof.
  rewrite (ulaw_quant (ulaw2linear (linear2ulaw x))). rewrite ulaw_quant.
  pose proof (uquant_range (Z.abs x + 132) ltac:(lia)).
  pose proof (uquant_idem (Z.abs x + 132) ltac:(lia)) as Hi.
  destruct (Z.ltb_spec x 0).
  - destruct (Z.ltb_spec (- uquant (Z.abs x + 132)) 0);
      rewrite Z.abs_opp, Z.abs_eq, Hi by lia; [reflexivity|lia].
  - destruct (Z.ltb_spec (uquant (Z.abs x + 132)) 0); [lia|].
    rewrite Z.abs_eq, Hi by lia; reflexivity.
Qed.

(** ** A-law *)

Definition amid (c : Z) : Z :=
  let t := 16 * (c mod 16) in
  if c / 16 =? 0 then t + 8 else (t + 264) * 2 ^ (c / 16 - 1).

Lemma alaw_dec_pos c : 0 <= c < 128 -> alaw2linear (u8 (Z.lxor c 213)) = amid c.
Proof.
  intros Hc.
  assert (H : forallb (fun c => alaw2linear (u8 (Z.lxor c 213)) =? amid c)
                      (zrange_aux 128 0) = true) by (vm_compute; reflexivity).
  apply Z.eqb_eq. apply (sweep _ _ H); lia.
Qed.
Lemma alaw_dec_neg c : 0 <= c < 128 -> alaw2linear (u8 (Z.lxor c 85)) = - amid c.
Proof.
  intros Hc.
  assert (H : forallb (fun c => alaw2linear (u8 (Z.lxor c 85)) =? - amid c)
                      (zrange_aux 128 0) = true) by (vm_compute; reflexivity).
  apply Z.eqb_eq. apply (sweep _ _ H); lia.
Qed.

Definition acode (v : Z) : Z :=
  let s := search v seg_end in
  if s >=? 8 then 127 else 16 * s + (v / 2 ^ (if s <? 2 then 4 else s + 3)) mod 16.

Lemma acode_range v : 0 <= acode v < 128.
Proof.
  unfold acode. pose proof (search_range v).
  destruct (Z.geb_spec (search v seg_end) 8); [lia|].
  pose proof (Z.mod_pos_bound (v / 2 ^ (if search v seg_end <? 2 then 4 else search v seg_end + 3)) 16 ltac:(lia)). lia.
Qed.

Lemma linear2alaw_code x :
  linear2alaw x = if x >=? 0 then u8 (Z.lxor (acode x) 213)
                  else u8 (Z.lxor (acode (- x - 8)) 85).
Proof.
  unfold linear2alaw, acode.
  destruct (Z.geb_spec x 0).
  - pose proof (search_range x).
    destruct (Z.geb_spec (search x seg_end) 8); [reflexivity|].
    destruct (Z.ltb_spec (search x seg_end) 2);
    rewrite land15, Z.shiftr_div_pow2 by lia;
    (rewrite code_or8; [reflexivity|lia|apply Z.mod_pos_bound; lia]).
  - set (v := - x - 8). pose proof (search_range v).
    destruct (Z.geb_spec (search v seg_end) 8); [reflexivity|].
    destruct (Z.ltb_spec (search v seg_end) 2);
    rewrite land15, Z.shiftr_div_pow2 by lia;
    (rewrite code_or8; [reflexivity|lia|apply Z.mod_pos_bound; lia]).
Qed.

Definition aquant (v : Z) : Z := amid (acode v).

Lemma alaw_quant x :
  alaw2linear (linear2alaw x) = if x >=? 0 then aquant x else - aquant (- x - 8).
Proof.
  rewrite linear2alaw_code. unfold aquant.
  destruct (Z.geb_spec x 0); [apply alaw_dec_pos | apply alaw_dec_neg]; apply acode_range.
Qed.

(** Quantisation step of A-law at non-negative scaled magnitude [v]. *)
Lemma aquant_seg0 v : 0 <= v < 256 -> aquant v = 16 * (v / 16) + 8.
Proof.
  intros Hv. unfold aquant, acode.
  pose proof (search_cases v) as Hc. assert (E : search v seg_end = 0) by lia.
  rewrite E. change (0 >=? 8) with false; change (0 <? 2) with true; cbv iota.
  change (2 ^ 4) with 16. unfold amid.
  replace ((16 * 0 + (v / 16) mod 16) / 16) with 0 by lia.
  change (0 =? 0) with true; cbv iota. lia.
Qed.

Lemma aquant_seg v s : 1 <= s < 8 -> 2 ^ (s + 7) <= v < 2 ^ (s + 8) ->
  aquant v = 2 ^ (s + 3) * (v / 2 ^ (s + 3)) + 2 ^ (s + 2).
Proof.
  intros Hs Hr. unfold aquant, acode.
  assert (Hcase : s = 1 \/ s = 2 \/ s = 3 \/ s = 4 \/ s = 5 \/ s = 6 \/ s = 7) by lia.
  pose proof (search_cases v) as Hc.
  destruct Hcase as [->|[->|[->|[->|[->|[->| ->]]]]]]; cbn in Hr;
  match goal with |- context [2 ^ (?k + 3) * _] =>
    assert (E : search v seg_end = k) by lia; rewrite E; clear E;
    change (k >=? 8) with false; cbv iota;
    let e := eval compute in (if k <? 2 then 4 else k + 3) in
    change (if k <? 2 then 4 else k + 3) with e;
    let p := eval compute in (2 ^ e) in
    change (2 ^ (k + 3)) with p; change (2 ^ e) with p;
    let p2 := eval compute in (2 ^ (k + 2)) in change (2 ^ (k + 2)) with p2;
    unfold amid;
    let q := constr:((v / p) mod 16) in
    replace ((16 * k + q) / 16) with k by lia;
    replace ((16 * k + q) mod 16) with q by lia;
    change (k =? 0) with false; cbv iota;
    let p3 := eval compute in (2 ^ (k - 1)) in change (2 ^ (k - 1)) with p3
  end; lia.
Qed.

Lemma aseg v : 256 <= v < 32768 -> exists s, 1 <= s < 8 /\ 2 ^ (s + 7) <= v < 2 ^ (s + 8).
Proof.
  intros H.
  destruct (Z_lt_le_dec v 512); [exists 1; cbn; lia|].
  destruct (Z_lt_le_dec v 1024); [exists 2; cbn; lia|].
  destruct (Z_lt_le_dec v 2048); [exists 3; cbn; lia|].
  destruct (Z_lt_le_dec v 4096); [exists 4; cbn; lia|].
  destruct (Z_lt_le_dec v 8192); [exists 5; cbn; lia|].
  destruct (Z_lt_le_dec v 16384); [exists 6; cbn; lia|].
  exists 7; cbn; lia.
Qed.

Ltac seg_split1 s :=
  let Hcase := fresh in
  assert (Hcase : s = 1 \/ s = 2 \/ s = 3 \/ s = 4 \/ s = 5 \/ s = 6 \/ s = 7) by lia;
  destruct Hcase as [->|[->|[->|[->|[->|[->| ->]]]]]].

Lemma aquant_bounds v s : 1 <= s < 8 -> 2 ^ (s + 7) <= v < 2 ^ (s + 8) ->
  2 ^ (s + 7) <= aquant v < 2 ^ (s + 8).
Proof.
  intros Hs Hr. rewrite (aquant_seg v s) by auto.
  seg_split1 s; zpow; lia.
Qed.

Lemma aquant_range v : 0 <= v < 32768 -> 8 <= aquant v <= 32256.
Proof.
  intros Hv. destruct (Z_lt_le_dec v 256).
  - rewrite aquant_seg0 by lia. lia.
  - destruct (aseg v ltac:(lia)) as (s & Hs & Hr).
    rewrite (aquant_seg v s) by auto. seg_split1 s; zpow; lia.
Qed.

Lemma aquant_mono v w : 0 <= v -> v <= w -> w < 32768 -> aquant v <= aquant w.
Proof.
  intros Hv Hvw Hw.
  destruct (Z_lt_le_dec w 256) as [H|H].
  - rewrite !aquant_seg0 by lia. lia.
  - destruct (aseg w ltac:(lia)) as (s' & Hs' & Hr').
    pose proof (aquant_bounds w s' Hs' Hr') as Bw.
    destruct (Z_lt_le_dec v 256) as [H0|H0].
    + rewrite (aquant_seg0 v) by lia.
      assert (2 ^ (1 + 7) <= 2 ^ (s' + 7)) by (apply Z.pow_le_mono_r; lia).
      change (2 ^ (1 + 7)) with 256 in *. lia.
    + destruct (aseg v ltac:(lia)) as (s & Hs & Hr).
      pose proof (aquant_bounds v s Hs Hr) as Bv.
      destruct (Z_lt_le_dec s s') as [Hlt|Hge].
      * assert (2 ^ (s + 8) <= 2 ^ (s' + 7)) by (apply Z.pow_le_mono_r; lia). lia.
      * assert (s = s').
        { destruct (Z_lt_le_dec s' s); [|lia].
          assert (2 ^ (s' + 8) <= 2 ^ (s + 7)) by (apply Z.pow_le_mono_r; lia). lia. }
        subst s'. rewrite (aquant_seg v s), (aquant_seg w s) by auto.
        assert (0 < 2 ^ (s + 3)) by (apply Z.pow_pos_nonneg; lia).
        assert (v / 2 ^ (s + 3) <= w / 2 ^ (s + 3)) by (apply Z.div_le_mono; lia).
        nia.
Qed.

(** Error of the magnitude quantiser, in terms of the segment's step. *)
Lemma aquant_error0 v : 0 <= v < 256 -> -8 <= v - aquant v <= 7.
Proof. intros; rewrite aquant_seg0 by lia; lia. Qed.
Lemma aquant_error v s : 1 <= s < 8 -> 2 ^ (s + 7) <= v < 2 ^ (s + 8) ->
  - 2 ^ (s + 2) <= v - aquant v < 2 ^ (s + 2).
Proof.
  intros Hs Hr. rewrite (aquant_seg v s) by auto.
  seg_split1 s; zpow; lia.
Qed.

Lemma alaw_code_roundtrip b : 0 <= b < 256 -> linear2alaw (alaw2linear b) = b.
Proof.
  intros Hb.
  assert (H : forallb (fun b => linear2alaw (alaw2linear b) =? b)
                      (zrange_aux 256 0) = true) by (vm_compute; reflexivity).
  apply Z.eqb_eq. apply (sweep _ _ H); lia.
Qed.

Lemma alaw_dec_range b : 0 <= b < 256 -> -32256 <= alaw2linear b <= 32256.
Proof.
  intros Hb.
  assert (H : forallb (fun b => (-32256 <=? alaw2linear b) && (alaw2linear b <=? 32256))
                      (zrange_aux 256 0) = true) by (vm_compute; reflexivity).
  pose proof (sweep _ _ H b ltac:(lia)). lia.
Qed.

Lemma linear2ulaw_byte x : 0 <= linear2ulaw x < 256.
Proof. rewrite linear2ulaw_code. apply (uN_range 8); lia. Qed.
Lemma linear2alaw_byte x : 0 <= linear2alaw x < 256.
Proof. rewrite linear2alaw_code. destruct (x >=? 0); apply (uN_range 8); lia. Qed.

Lemma alaw_idem x :
  alaw2linear (linear2alaw (alaw2linear (linear2alaw x))) = alaw2linear (linear2alaw x).
Proof. now rewrite alaw_code_roundtrip by apply linear2alaw_byte. Qed.

Lemma alaw_monotone x y :
  -32768 <= x -> y <= 32767 -> x <= y -> (x < -7 \/ 0 <= x) -> (y < -7 \/ 0 <= y) ->
  alaw2linear (linear2alaw x) <= alaw2linear (linear2alaw y).
Proof.
  intros Hx Hy Hxy Hx' Hy'. rewrite !alaw_quant.
  destruct (Z.geb_spec x 0), (Z.geb_spec y 0); try lia.
  - apply aquant_mono; lia.
  - pose proof (aquant_range (- x - 8) ltac:(lia)).
    pose proof (aquant_range y ltac:(lia)). lia.
  - pose proof (aquant_mono (- y - 8) (- x - 8)). lia.
Qed.

Lemma alaw_error x s : -32768 <= x <= 32767 -> (x < -7 \/ 0 <= x) ->
  1 <= s < 8 -> (s = 1 \/ 2 ^ (s + 7) <= Z.abs x) -> Z.abs x < 2 ^ (s + 8) ->
  Z.abs (alaw2linear (linear2alaw x) - x) <= 2 ^ (s + 2) + (if x <? 0 then 7 else 0).
Proof.
  intros Hx Hx' Hs Hr1 Hr2. rewrite alaw_quant.
  assert (P : forall v, 0 <= v <= Z.abs x -> Z.abs (v - aquant v) <= 2 ^ (s + 2) /\ v - aquant v < 2 ^ (s + 2)).
  { intros v Hv. destruct (Z_lt_le_dec v 256).
    - pose proof (aquant_error0 v ltac:(lia)).
      assert (2 ^ (1 + 2) <= 2 ^ (s + 2)) by (apply Z.pow_le_mono_r; lia).
      change (2 ^ (1 + 2)) with 8 in *. lia.
    - assert (v < 32768) .
      { assert (2 ^ (s + 8) <= 2 ^ (7 + 8)) by (apply Z.pow_le_mono_r; lia).
        change (2 ^ (7 + 8)) with 32768 in *. lia. }
      destruct (aseg v ltac:(lia)) as (s' & Hs' & Hr').
      assert (s' <= s).
      { destruct (Z_lt_le_dec s s'); [|lia].
        assert (2 ^ (s + 8) <= 2 ^ (s' + 7)) by (apply Z.pow_le_mono_r; lia). lia. }
      pose proof (aquant_error v s' Hs' Hr').
      assert (2 ^ (s' + 2) <= 2 ^ (s + 2)) by (apply Z.pow_le_mono_r; lia). lia. }
  destruct (Z.geb_spec x 0).
  - replace (x <? 0) with false by lia. pose proof (P x ltac:(lia)). lia.
  - replace (x <? 0) with true by lia. pose proof (P (- x - 8) ltac:(lia)).
    assert (8 <= 2 ^ (s + 2)) by (change 8 with (2 ^ 3); apply Z.pow_le_mono_r; lia).
    lia.
Qed.

Lemma alaw_small_negative x : -7 <= x <= -1 -> alaw2linear (linear2alaw x) = -248.
Proof.
  intros H. assert (x = -7 \/ x = -6 \/ x = -5 \/ x = -4 \/ x = -3 \/ x = -2 \/ x = -1) as C by lia.
  destruct C as [->|[->|[->|[->|[->|[->| ->]]]]]]; reflexivity.
Qed.
