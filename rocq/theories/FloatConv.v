(** * Floating-point facts for the sample converters *)
From Verif Require Import Prelude PreludeFacts Convert ConvertProofs Float FloatFacts Arrange.

Notation isD := (isV 53 1024).
Notation isF := (isV 24 128).

Lemma SFmul_comm prec emax f g : SFmul prec emax f g = SFmul prec emax g f.
Proof. destruct f, g; cbn; try reflexivity; f_equal; try (apply xorb_comm). all: rewrite ?(Pos.mul_comm m), ?(Z.add_comm e), ?(xorb_comm s); reflexivity. Qed.

Lemma raux_over prec emax s m e j m0 e0 : 0 <= j -> fexp prec emax (Zpos (digits2_pos m0) + e0) = e0 -> emax - prec < e0 -> Zpos m = Zpos m0 * 2 ^ j -> e + j = e0 ->
  binary_round_aux prec emax s (Zpos m) e loc_Exact = S754_infinity s.
Proof.
  intros Hj Hc Hx Em Ee. unfold binary_round_aux, shr_fexp. cbn [Zdigits2].
  rewrite (digits_mul m0 j Hj m Em). replace (Zpos (digits2_pos m0) + j + e) with (Zpos (digits2_pos m0) + e0) by lia. rewrite Hc.
  replace (e0 - e) with j by lia.
  assert (E1 : shr (shr_record_of_loc (Zpos m) loc_Exact) e j = (Build_shr_record (Zpos m0) false false, e0)).
  { unfold shr. destruct j as [|j|j]; [| |lia].
    - change (2 ^ 0) with 1 in Em. rewrite Z.mul_1_r in Em. rewrite Em. cbn [shr_record_of_loc]. f_equal. lia.
    - cbn [shr_record_of_loc]. rewrite Em, shr_iter. f_equal. lia. }
  rewrite E1. cbn [shr_m loc_of_shr_record round_nearest_even Zdigits2]. rewrite Hc, Z.sub_diag. cbn [shr shr_record_of_loc shr_m].
  replace (e0 <=? emax - prec) with false by lia. reflexivity.
Qed.

Lemma isD_ofZ z : Z.abs z < 2 ^ 53 -> isD (dOfZ z) z 0.
Proof. intros H. apply isV_small; unfold emin; lia. Qed.
Lemma isF_ofZ z : Z.abs z < 2 ^ 24 -> isF (fOfZ z) z 0.
Proof. intros H. apply isV_small; unfold emin; lia. Qed.

(** A finite valid float is its mantissa times a power of two. *)
Lemma toDouble_val f z k : isF f z k -> isD (toDouble f) z k.
Proof.
  intros H. pose proof H as (Hv & Hf & Hz & _). destruct f as [s| | |s m e]; try contradiction.
  - apply isV_is_zero in H as [-> ->]. apply isV_zero.
  - cbn [valid_binary] in Hv. pose proof (bounded_exp 24 128 _ _ Hv) as (B1 & B2 & B3). apply bounded_spec in Hv as [_ B4]. change (emin 24 128) with (-149) in *.
    assert (Bm : Zpos m < 2 ^ 53) by (pose proof (digits_bounds m) as D; pose proof (Z.pow_le_mono_r 2 (Zpos (digits2_pos m)) 53 ltac:(lia) ltac:(lia)); lia).
    assert (I : isD (binary_normalize 53 1024 (cond_Zopp s (Zpos m)) e false) (cond_Zopp s (Zpos m)) e) by (apply isV_small; unfold emin; destruct s; cbn [cond_Zopp]; lia).
    assert (E : toDouble (S754_finite s m e) = binary_normalize 53 1024 (cond_Zopp s (Zpos m)) e false) by (destruct s; reflexivity). rewrite E.
    destruct I as (I1 & I2 & I3 & K & I4 & I5 & I6). split; [exact I1|]. split; [exact I2|]. split; [exact I3|].
    destruct (isV_low _ _ _ _ _ H) as (K0 & HK). destruct (HK (Z.min K0 (Z.min K e)) ltac:(lia)) as (A & C & D).
    exists (Z.min K0 (Z.min K e)). split; [exact A|]. split; [eapply expGe_le; [|exact I5]; lia|].
    set (L := Z.min K0 (Z.min K e)) in *. replace L with (K - (K - L)) at 1 by lia. rewrite V_lower, I6 by (auto; lia). rewrite <- D. cbn [V].
    rewrite <- Z.mul_assoc, <- Z.pow_add_r by lia. replace (e - K + (K - L)) with (e - L) by lia. destruct s; cbn [cond_Zopp]; ring.
Qed.
Lemma toFloat_val f z k : isD f z k -> Z.abs z < 2 ^ 24 -> -149 <= k -> k <= 104 -> isF (toFloat f) z k.
Proof.
  intros H Hz Hk1 Hk2. pose proof H as (Hv & Hf & Hn & _).
  assert (I : isF (binary_normalize 24 128 z k false) z k) by (apply isV_small; unfold emin; lia).
  destruct f as [s| | |s m e]; try contradiction.
  - apply isV_is_zero in H as [-> ->]. apply isV_zero.
  - assert (E : toFloat (S754_finite s m e) = binary_normalize 24 128 (cond_Zopp s (Zpos m)) e false) by (destruct s; reflexivity). rewrite E.
    destruct (isV_low _ _ _ _ _ H) as (K0 & HK). destruct (isV_low _ _ _ _ _ I) as (K1 & HK1). set (L := Z.min (Z.min K0 K1) e).
    destruct (HK L ltac:(lia)) as (A & C & D). destruct (HK1 L ltac:(lia)) as (A1 & C1 & D1). cbn [expGe V] in *.
    erewrite (norm_by_value 24 128 ltac:(lia) _ _ (binary_normalize 24 128 z k false) z k L); [exact I|exact I|lia|lia|exact C1|]. rewrite <- D. destruct s; cbn [cond_Zopp]; ring.
Qed.

(** Multiplication by a power of two: exact, or infinite. *)
Definition pow2d (j : Z) : spec_float := S754_finite false 4503599627370496 (j - 52).
Lemma pow2d_val j : -1000 <= j <= 1000 -> isD (pow2d j) 1 j.
Proof.
  intros Hj. assert (B : bounded 53 1024 4503599627370496 (j - 52) = true).
  { apply bounded_spec. change (Zpos (digits2_pos 4503599627370496)) with 53. unfold fexp, emin. lia. }
  pose proof (isV_finite 53 1024 false _ _ B) as H. cbn [cond_Zopp] in H. change 4503599627370496 with (1 * 2 ^ 52) in H. apply isV_up in H; [|lia]. replace (j - 52 + 52) with j in H by lia. exact H.
Qed.

(** What a finite double times 2^j is truncated to. *)
Definition scaleTrunc (x : spec_float) (j : Z) : Z :=
  match x with
  | S754_finite s m e => cond_Zopp s (if 0 <=? e + j then Zpos m * 2 ^ (e + j) else Zpos m / 2 ^ (- (e + j)))
  | _ => 0
  end.

Lemma fclip_val t a k lo hi flo fhi w : isD t a k -> isD flo lo 0 -> isD fhi hi 0 -> lo <= hi -> inS w lo = true -> inS w hi = true ->
  toInt w (fmax (fmin t fhi) flo) = Ok (Z.max lo (Z.min hi (if 0 <=? k then a * 2 ^ k else Z.quot a (2 ^ (- k))))).
Proof.
  intros Ht Hlo Hhi Hlh Wl Wh. set (K := Z.max 0 (- k)).
  (* everything as multiples of 2^-K *)
  assert (Tt : isD t (a * 2 ^ (k + K)) (- K)). { replace (- K) with (k - (k + K)) by lia. apply isV_down; [lia|exact Ht]. }
  assert (Tl : isD flo (lo * 2 ^ K) (- K)) by (apply (isV_down _ _ _ _ 0 K); [lia|exact Hlo]).
  assert (Th : isD fhi (hi * 2 ^ K) (- K)) by (apply (isV_down _ _ _ _ 0 K); [lia|exact Hhi]).
  set (A := a * 2 ^ (k + K)) in *. assert (P : 0 < 2 ^ K) by (apply Z.pow_pos_nonneg; lia).
  assert (Q : (if 0 <=? k then a * 2 ^ k else Z.quot a (2 ^ (- k))) = Z.quot A (2 ^ K)).
  { unfold A. destruct (Z.leb_spec 0 k).
    - replace K with 0 by lia. rewrite Z.add_0_r. change (2 ^ 0) with 1. now rewrite Z.quot_1_r.
    - replace (k + K) with 0 by lia. replace K with (- k) by lia. change (2 ^ 0) with 1. now rewrite Z.mul_1_r. }
  rewrite Q. clear Q.
  assert (TR : forall f z, isD f z (- K) -> forall y, y = Z.quot z (2 ^ K) -> inS w y = true -> toInt w f = Ok y).
  { intros f z Hf y -> Hy. unfold toInt. rewrite (truncZ_val 53 1024 f z K) by (auto; lia). rewrite Hy. reflexivity. }
  unfold fmin, fmax, SFltb. rewrite (SFcompare_val 53 1024 ltac:(lia) _ _ _ _ _ Th Tt).
  assert (QL : Z.quot (lo * 2 ^ K) (2 ^ K) = lo) by (apply Z.quot_mul; lia). assert (QH : Z.quot (hi * 2 ^ K) (2 ^ K) = hi) by (apply Z.quot_mul; lia).
  apply inS_spec in Wl. apply inS_spec in Wh.
  destruct (Z.compare_spec (hi * 2 ^ K) A) as [C|C|C].
  - rewrite (SFcompare_val 53 1024 ltac:(lia) _ _ _ _ _ Tt Tl). 
    assert (QA : Z.quot A (2 ^ K) = hi) by (rewrite <- C; exact QH). rewrite QA.
    destruct (Z.compare_spec A (lo * 2 ^ K)) as [C'|C'|C']; [|nia|]; (eapply TR; [exact Tt| |apply inS_spec; lia]; lia).
  - rewrite (SFcompare_val 53 1024 ltac:(lia) _ _ _ _ _ Th Tl).
    assert (QA : hi <= Z.quot A (2 ^ K)) by (rewrite <- QH; apply Z.quot_le_mono; lia).
    destruct (Z.compare_spec (hi * 2 ^ K) (lo * 2 ^ K)) as [C'|C'|C']; [|nia|]; (eapply TR; [exact Th| |apply inS_spec; lia]; lia).
  - rewrite (SFcompare_val 53 1024 ltac:(lia) _ _ _ _ _ Tt Tl).
    assert (QA : Z.quot A (2 ^ K) <= hi) by (rewrite <- QH; apply Z.quot_le_mono; lia).
    destruct (Z.compare_spec A (lo * 2 ^ K)) as [C'|C'|C'].
    + assert (QB : Z.quot A (2 ^ K) = lo) by (rewrite C'; exact QL). eapply TR; [exact Tt| |apply inS_spec; lia]; lia.
    + assert (QB : Z.quot A (2 ^ K) <= lo) by (rewrite <- QL; apply Z.quot_le_mono; lia). eapply TR; [exact Tl| |apply inS_spec; lia]; lia.
    + assert (QB : lo <= Z.quot A (2 ^ K)) by (rewrite <- QL; apply Z.quot_le_mono; lia). eapply TR; [exact Tt| |apply inS_spec; lia]; lia.
Qed.

Lemma affine_toInt c x : affine floatMapping (signedMapping c) x = dadd (dmul (pow2d (bits c - 1)) x) (S754_zero false).
Proof. destruct c; reflexivity. Qed.
Lemma affine_toFloat c x : affine (signedMapping c) floatMapping x = dadd (dmul (pow2d (- (bits c - 1))) x) (S754_zero false).
Proof. destruct c; reflexivity. Qed.
Lemma affine_val j x a k h : -1000 <= j <= 1000 -> isD x a k -> isD h a (k + j) -> dadd (dmul (pow2d j) x) (S754_zero false) = h.
Proof.
  intros Hj Hx Hh. unfold dmul. rewrite SFmul_comm.
  rewrite (SFmul_val 53 1024 ltac:(lia) ltac:(lia) x (pow2d j) h a 1 k j); [|exact Hx|apply pow2d_val; lia|lia|rewrite Z.mul_1_r; exact Hh].
  unfold dadd. apply (SFadd_val 53 1024 ltac:(lia) _ _ h a 0 (k + j)); [exact Hh|apply isV_zero|]. rewrite Z.add_0_r. exact Hh.
Qed.
Lemma affine_over j s m e : 0 <= j <= 1000 -> bounded 53 1024 m e = true -> 971 < e + j -> dadd (dmul (pow2d j) (S754_finite s m e)) (S754_zero false) = S754_infinity s.
Proof.
  intros Hj Hb Ho. pose proof (bounded_exp 53 1024 _ _ Hb) as (B1 & B2 & B3). change (emin 53 1024) with (-1074) in *.
  assert (Hd : Zpos (digits2_pos m) = 53) by (destruct B2; lia).
  assert (E : dmul (pow2d j) (S754_finite s m e) = S754_infinity s).
  { unfold dmul. rewrite SFmul_comm. unfold pow2d, SFmul. rewrite xorb_false_r. apply raux_over with (j := 52) (m0 := m) (e0 := e + j); [lia| |lia| |lia].
    - rewrite Hd. unfold fexp, emin. lia.
    - rewrite Pos2Z.inj_mul. reflexivity. }
  rewrite E. reflexivity.
Qed.

(** The samples a float or double is turned into: truncated and confined to the range of the code. *)
Definition toIntSpec (c : intcode) (x : spec_float) : Z :=
  let lo := - 2 ^ (bits c - 1) in let hi := 2 ^ (bits c - 1) - 1 in
  match x with
  | S754_infinity s => if s then lo else hi
  | _ => Z.max lo (Z.min hi (scaleTrunc x (bits c - 1)))
  end.

Lemma code_limits c : isD (minClip (signedMapping c)) (- 2 ^ (bits c - 1)) 0 /\ isD (maxClip (signedMapping c)) (2 ^ (bits c - 1) - 1) 0 /\
  - 2 ^ (bits c - 1) <= 2 ^ (bits c - 1) - 1 /\ inS (cbits c) (- 2 ^ (bits c - 1)) = true /\ inS (cbits c) (2 ^ (bits c - 1) - 1) = true.
Proof. destruct c; (split; [apply isD_ofZ; reflexivity|]); (split; [apply isD_ofZ; reflexivity|]); (split; [cbn; lia|]); split; reflexivity. Qed.

Lemma floatToInt_spec c x : valid_binary 53 1024 x = true -> x <> S754_nan ->
  floatToIntClip (cbits c) floatMapping (signedMapping c) x = Ok (toIntSpec c x).
Proof.
  intros Hv Hn. unfold floatToIntClip. rewrite affine_toInt. destruct x as [s|s| |s m e]; [| |congruence|].
  - replace (dadd (dmul (pow2d (bits c - 1)) (S754_zero s)) (S754_zero false)) with (S754_zero false) by (destruct s; reflexivity).
    destruct c; reflexivity.
  - replace (dadd (dmul (pow2d (bits c - 1)) (S754_infinity s)) (S754_zero false)) with (S754_infinity s) by (destruct s; reflexivity).
    destruct c, s; vm_compute; reflexivity.
  - cbn [valid_binary] in Hv. pose proof (bounded_exp 53 1024 _ _ Hv) as (B1 & B2 & B3). change (emin 53 1024) with (-1074) in *.
    assert (Bm : Zpos m < 2 ^ 53) by (pose proof (digits_bounds m) as D; pose proof (Z.pow_le_mono_r 2 (Zpos (digits2_pos m)) 53 ltac:(lia) ltac:(lia)); lia).
    destruct (code_limits c) as (L1 & L2 & L3 & L4 & L5). unfold toIntSpec.
    set (j := bits c - 1) in *. assert (Hj : 0 <= j <= 31) by (unfold j; destruct c; cbn; lia).
    destruct (Z.le_gt_cases (e + j) 971) as [Ho|Ho].
    + assert (I : isD (binary_normalize 53 1024 (cond_Zopp s (Zpos m)) (e + j) false) (cond_Zopp s (Zpos m)) (e + j)) by (apply isV_small; unfold emin; destruct s; cbn [cond_Zopp]; lia).
      rewrite (affine_val j _ _ e _ ltac:(lia) (isV_finite 53 1024 s m e Hv) I).
      rewrite (fclip_val _ _ _ _ _ _ _ _ I L1 L2 L3 L4 L5). do 3 f_equal. unfold scaleTrunc.
      destruct (Z.leb_spec 0 (e + j)); destruct s; cbn [cond_Zopp]; try ring.
      * rewrite Z.quot_opp_l by (apply Z.pow_nonzero; lia). rewrite Z.quot_div_nonneg by (try lia; apply Z.pow_pos_nonneg; lia). reflexivity.
      * rewrite Z.quot_div_nonneg by (try lia; apply Z.pow_pos_nonneg; lia). reflexivity.
    + rewrite (affine_over j s m e ltac:(lia) Hv ltac:(lia)).
      assert (Ex : toInt (cbits c) (fmax (fmin (S754_infinity s) (maxClip (signedMapping c))) (minClip (signedMapping c))) = Ok (if s then - 2 ^ j else 2 ^ j - 1)) by (unfold j; destruct c, s; vm_compute; reflexivity).
      rewrite Ex. f_equal. unfold scaleTrunc. replace (0 <=? e + j) with true by lia.
      assert (2 ^ 31 <= 2 ^ (e + j)) by (apply Z.pow_le_mono_r; lia). assert (2 ^ j <= 2 ^ 31) by (apply Z.pow_le_mono_r; lia).
      assert (2 ^ (e + j) <= Zpos m * 2 ^ (e + j)) by nia. set (X := Zpos m * 2 ^ (e + j)) in *. assert (0 < 2 ^ j) by (apply Z.pow_pos_nonneg; lia). destruct s; cbn [cond_Zopp]; lia.
Qed.

(** An integer sample, as a fraction of full scale. *)
Definition isFrac (c : intcode) (z : Z) (s : smp) : Prop :=
  match s with SD f => isD f z (- (bits c - 1)) | SF f => isF f z (- (bits c - 1)) | _ => False end.

Lemma small_sample c z : inSigned c z -> Z.abs z <= 2 ^ (bits c - 1) /\ Z.abs z < 2 ^ 53 /\ (c <> kInt32 -> Z.abs z < 2 ^ 24).
Proof.
  unfold inSigned. intros H. split; [lia|]. split; [|intros]; destruct c; cbn [bits] in *; try congruence;
  change (2 ^ 53) with 9007199254740992; change (2 ^ 24) with 16777216; change (2 ^ (8 - 1)) with 128 in H; change (2 ^ (16 - 1)) with 32768 in H; change (2 ^ (24 - 1)) with 8388608 in H; change (2 ^ (32 - 1)) with 2147483648 in H; lia.
Qed.

Lemma int_to_double c z : inSigned c z -> isD (affine (signedMapping c) floatMapping (dOfZ z)) z (- (bits c - 1)).
Proof.
  intros Hz. destruct (small_sample c z Hz) as (S1 & S2 & S3). rewrite affine_toFloat.
  assert (Hb : 8 <= bits c <= 32) by (destruct c; cbn; lia).
  assert (I : isD (binary_normalize 53 1024 z (- (bits c - 1)) false) z (- (bits c - 1))) by (apply isV_small; unfold emin; lia).
  rewrite (affine_val (- (bits c - 1)) (dOfZ z) z 0 _ ltac:(lia) (isD_ofZ z S2) I). exact I.
Qed.
Lemma int_to_float c z : c <> kInt32 -> inSigned c z -> isF (toFloat (affine (signedMapping c) floatMapping (toDouble (fOfZ z)))) z (- (bits c - 1)).
Proof.
  intros Hc Hz. destruct (small_sample c z Hz) as (S1 & S2 & S3). assert (Hb : 8 <= bits c <= 32) by (destruct c; cbn; lia).
  assert (E : toDouble (fOfZ z) = dOfZ z). { eapply (isV_fun 53 1024); [lia|apply toDouble_val, isF_ofZ, S3, Hc|apply isD_ofZ, S2]. }
  rewrite E. apply toFloat_val; [apply int_to_double, Hz|apply S3, Hc|lia|lia].
Qed.
Lemma frac_to_int c z f : inSigned c z -> isD f z (- (bits c - 1)) -> floatToIntClip (cbits c) floatMapping (signedMapping c) f = Ok z.
Proof.
  intros Hz Hf. destruct (small_sample c z Hz) as (S1 & S2 & S3). assert (Hb : 8 <= bits c <= 32) by (destruct c; cbn; lia).
  unfold floatToIntClip. rewrite affine_toInt.
  assert (I0 : isD (dOfZ z) z (- (bits c - 1) + (bits c - 1))) by (replace (- (bits c - 1) + (bits c - 1)) with 0 by lia; apply isD_ofZ, S2).
  rewrite (affine_val (bits c - 1) f z (- (bits c - 1)) (dOfZ z) ltac:(lia) Hf I0).
  destruct (code_limits c) as (L1 & L2 & L3 & L4 & L5). rewrite (fclip_val _ _ _ _ _ _ _ _ (isD_ofZ z S2) L1 L2 L3 L4 L5).
  change (2 ^ 0) with 1. cbn [Z.leb Z.compare]. f_equal. unfold inSigned in Hz. lia.
Qed.
