(** * Positions and sample rates: the arithmetic of ModuleState::setup (modules/ModuleState.cpp:110, 183-189, 196-197)

    [llrint(frame * rateA / rateB)] in double.  When the two rates are equal the product and the quotient are both
    rounded, and still the result is the frame one started from. *)
From Coq Require Import Floats.SpecFloat.
From Verif Require Import Prelude PreludeFacts Float FloatFacts FloatConv FloatValid.
From Coq Require Import Lia.

(** llrint(3) in the default rounding mode: to the nearest integer, ties to even. *)
Definition rintZ (f : spec_float) : option Z :=
  match f with
  | S754_finite s m e =>
      Some (cond_Zopp s (if 0 <=? e then Zpos m * 2 ^ e
                         else let d := 2 ^ (- e) in let q := Zpos m / d in
                              match 2 * (Zpos m mod d) ?= d with
                              | Lt => q | Gt => q + 1 | Eq => if Z.even q then q else q + 1
                              end))
  | S754_zero _ => Some 0
  | _ => None
  end.
(** The result is unspecified when it does not fit a long long; [UB] stands for that. *)
Definition llrint (f : spec_float) : res Z :=
  match rintZ f with
  | Some z => if inS 64 z then Ok z else UB
  | None => UB
  end.
(** ModuleState.cpp:110 and 189: [llrint(frame * a / b)]; int64 to double first. *)
Definition scaleFrame (frame : Z) (a b : spec_float) : res Z := llrint (ddiv (dmul (dOfZ frame) a) b).
(** ModuleState.cpp:186: [llrint(frame * (a / b))] *)
Definition scaleTotal (frame : Z) (a b : spec_float) : res Z := llrint (dmul (dOfZ frame) (ddiv a b)).
(** ModuleState.cpp:196-197: [(AFframecount) (frame * a / b)], truncated *)
Definition scaleTrunc (frame : Z) (a b : spec_float) : res Z := toInt 64 (ddiv (dmul (dOfZ frame) a) b).

(** Sample rates with room for the products: positive, normal, between 2^-900 and 2^900. *)
Definition usualRate (r : spec_float) : Prop :=
  match r with S754_finite false m e => 2 ^ 52 <= Zpos m < 2 ^ 53 /\ -952 <= e <= 847 | _ => False end.

Section Near.
Context (prec emax : Z) (Hp : 1 < prec) (He : prec < emax).
Notation emin := (emin prec emax).
Notation fexp := (fexp prec emax).
(** Rounding takes one of the two neighbours. *)
Lemma raux_near s m e l k : 0 < m -> 0 <= k -> 2 ^ (prec - 1 + k) <= m < 2 ^ (prec + k) -> emin <= e + k -> e + k < emax - prec ->
  exists m' e' m2, binary_round_aux prec emax s m e l = S754_finite s m' e' /\ e + k <= e' <= e + k + 1 /\
    m / 2 ^ k <= m2 <= m / 2 ^ k + 1 /\ Zpos m' * 2 ^ (e' - (e + k)) = m2 /\ 2 ^ (prec - 1) <= Zpos m' < 2 ^ prec.
Proof.
  intros Hm Hk HB Hlo Hhi. unfold binary_round_aux, shr_fexp.
  destruct (Zdigits_pos m Hm) as [Z1 Z2].
  assert (Ed : Zdigits2 m = prec + k). { rewrite Z1. apply digits_unique. rewrite Z2. replace (prec + k - 1) with (prec - 1 + k) by lia. exact HB. }
  rewrite Ed. assert (Ef : fexp (prec + k + e) = e + k) by (unfold SpecFloat.fexp; lia). rewrite Ef. replace (e + k - e) with k by lia.
  destruct (shr_spec m l e k ltac:(lia) Hk) as (r1 & E1 & M1). rewrite E1.
  assert (P2 : 0 < 2 ^ k) by (apply Z.pow_pos_nonneg; lia).
  assert (B1 : 2 ^ (prec - 1) <= shr_m r1 < 2 ^ prec).
  { rewrite M1. rewrite !Z.pow_add_r in HB by lia. split; [apply Z.div_le_lower_bound; lia|apply Z.div_lt_upper_bound; lia]. }
  assert (P3 : 0 < 2 ^ (prec - 1)) by (apply Z.pow_pos_nonneg; lia).
  pose proof (rne_range (shr_m r1) (loc_of_shr_record r1) ltac:(lia)) as R. set (m2 := round_nearest_even (shr_m r1) (loc_of_shr_record r1)) in *. clearbody m2.
  rewrite M1 in R, B1. clear E1 M1. set (e1 := e + k) in *. clearbody e1.
  destruct (Zdigits_pos m2 ltac:(lia)) as [Y1 Y2].
  assert (F1 : forall x, fexp (x + e1) = Z.max (x + e1 - prec) emin) by reflexivity.
  destruct (Z.eq_dec m2 (2 ^ prec)) as [E2|N3].
  - assert (E4 : 2 ^ prec = 2 ^ (prec - 1) * 2) by (replace prec with (prec - 1 + 1) at 1 by lia; rewrite Z.pow_add_r by lia; reflexivity).
    assert (Ed2 : Zdigits2 m2 = prec + 1). { rewrite Y1. apply digits_unique. rewrite Y2, E2. replace (prec + 1 - 1) with prec by lia. split; [lia|apply Z.pow_lt_mono_r; lia]. }
    rewrite Ed2, F1. replace (Z.max (prec + 1 + e1 - prec) emin - e1) with 1 by lia.
    destruct (shr_spec m2 loc_Exact e1 1 ltac:(lia) ltac:(lia)) as (r2 & E3 & M3). rewrite E3, M3. change (2 ^ 1) with 2.
    rewrite E2, E4, Z.div_mul by lia. destruct (2 ^ (prec - 1)) as [|p|p] eqn:EP; try lia.
    replace (e1 + 1 <=? emax - prec) with true by lia. exists p, (e1 + 1), m2. split; [reflexivity|]. split; [lia|]. split; [lia|].
    replace (e1 + 1 - e1) with 1 by lia. change (2 ^ 1) with 2. split; lia.
  - assert (Ed2 : Zdigits2 m2 = prec). { rewrite Y1. apply digits_unique. rewrite Y2. lia. }
    rewrite Ed2, F1. replace (Z.max (prec + e1 - prec) emin - e1) with 0 by lia. cbn [shr shr_record_of_loc shr_m]. rewrite <- Y2.
    replace (e1 <=? emax - prec) with true by lia. exists (Z.to_pos m2), e1, m2. split; [reflexivity|]. split; [lia|]. split; [lia|].
    rewrite Z.sub_diag. change (2 ^ 0) with 1. rewrite Y2. lia.
Qed.
End Near.

(** A product of normal doubles is within one unit of the last place. *)
Lemma dmul_near m1 e1 m2 e2 : 2 ^ 52 <= Zpos m1 < 2 ^ 53 -> 2 ^ 52 <= Zpos m2 < 2 ^ 53 -> -1074 <= e1 + e2 + 52 -> e1 + e2 + 54 < 971 ->
  exists m e k, dmul (S754_finite false m1 e1) (S754_finite false m2 e2) = S754_finite false m e /\ 52 <= k <= 53 /\ e1 + e2 + k <= e <= e1 + e2 + k + 1 /\
    2 ^ 52 <= Zpos m < 2 ^ 53 /\ Z.abs (Zpos m * 2 ^ (e - (e1 + e2)) - Zpos m1 * Zpos m2) <= 2 ^ k.
Proof.
  intros H1 H2 Lo Hi. unfold dmul, SFmul. cbn [xorb].
  assert (B : exists k, 52 <= k <= 53 /\ 2 ^ (52 + k) <= Zpos (m1 * m2) < 2 ^ (53 + k)).
  { rewrite Pos2Z.inj_mul. assert (2 ^ 104 <= Zpos m1 * Zpos m2 < 2 ^ 106) by (clear -H1 H2; change (2 ^ 104) with (2 ^ 52 * 2 ^ 52); change (2 ^ 106) with (2 ^ 53 * 2 ^ 53); nia).
    destruct (Z.lt_ge_cases (Zpos m1 * Zpos m2) (2 ^ 105)); [exists 52|exists 53]; (split; [lia|]).
    - change (52 + 52) with 104. change (53 + 52) with 105. lia.
    - change (52 + 53) with 105. change (53 + 53) with 106. lia. }
  destruct B as (k & K & B).
  destruct (raux_near 53 1024 ltac:(lia) false (Zpos (m1 * m2)) (e1 + e2) loc_Exact k ltac:(lia) ltac:(lia) B) as (m & e & z & E & Re & Rz & Ez & Rm).
  { change (emin 53 1024) with (-1074). lia. } { lia. }
  exists m, e, k. split; [exact E|]. split; [exact K|]. split; [exact Re|]. split; [exact Rm|].
  replace (e - (e1 + e2)) with (e - (e1 + e2 + k) + k) by lia. rewrite Z.pow_add_r by lia. rewrite Z.mul_assoc, Ez. rewrite Pos2Z.inj_mul in Rz.
  assert (P : 0 < 2 ^ k) by (apply Z.pow_pos_nonneg; lia). pose proof (Z.div_mod (Zpos m1 * Zpos m2) (2 ^ k) ltac:(lia)) as DM. pose proof (Z.mod_pos_bound (Zpos m1 * Zpos m2) (2 ^ k) P) as MB.
  clear - P DM MB Rz. set (x := Zpos m1 * Zpos m2) in *. set (q := x / 2 ^ k) in *. set (r := x mod 2 ^ k) in *. set (t := 2 ^ k) in *. clearbody x q r t. nia.
Qed.
(** A quotient. *)
Lemma ddiv_near m1 e1 m2 e2 : 2 ^ 52 <= Zpos m1 < 2 ^ 53 -> 2 ^ 52 <= Zpos m2 < 2 ^ 53 -> -1021 <= e1 - e2 -> e1 - e2 < 900 ->
  exists m e, ddiv (S754_finite false m1 e1) (S754_finite false m2 e2) = S754_finite false m e /\ e1 - e2 - 53 <= e <= e1 - e2 - 51 /\
    2 ^ 52 <= Zpos m < 2 ^ 53 /\ Z.abs (Zpos m * 2 ^ (e - (e1 - e2 - 53)) - Zpos m1 * 2 ^ 53 / Zpos m2) <= 2.
Proof.
  intros H1 H2 Lo Hi. unfold ddiv, SFdiv, SFdiv_core_binary. cbn [xorb].
  assert (D1 : Zdigits2 (Zpos m1) = 53) by (cbn [Zdigits2]; apply digits_unique; exact H1).
  assert (D2 : Zdigits2 (Zpos m2) = 53) by (cbn [Zdigits2]; apply digits_unique; exact H2).
  rewrite D1, D2. replace (Z.min (fexp 53 1024 (53 + e1 - (53 + e2))) (e1 - e2)) with (e1 - e2 - 53).
  2:{ unfold SpecFloat.fexp, SpecFloat.emin. lia. }
  replace (e1 - e2 - (e1 - e2 - 53)) with 53 by lia. rewrite Z.shiftl_mul_pow2 by lia.
  pose proof (Z_div_mod (Zpos m1 * 2 ^ 53) (Zpos m2) ltac:(lia)) as DM. unfold Z.div. destruct (Z.div_eucl (Zpos m1 * 2 ^ 53) (Zpos m2)) as [q r]. destruct DM as [DM Hr].
  assert (B : exists k, 0 <= k <= 1 /\ 2 ^ (52 + k) <= q < 2 ^ (53 + k)).
  { assert (2 ^ 52 <= q < 2 ^ 54). { clear -H1 H2 DM Hr. change (2 ^ 54) with (2 * 2 ^ 53) in *. change (2 ^ 53) with (2 * 2 ^ 52) in *. set (t := 2 ^ 52) in *. assert (T : 0 < t) by reflexivity. clearbody t. nia. }
    destruct (Z.lt_ge_cases q (2 ^ 53)); [exists 0|exists 1]; (split; [lia|]).
    - change (52 + 0) with 52. change (53 + 0) with 53. lia.
    - change (52 + 1) with 53. change (53 + 1) with 54. lia. }
  destruct B as (k & K & B). assert (Hq : 0 < q) by (assert (0 < 2 ^ (52 + k)) by (apply Z.pow_pos_nonneg; lia); lia).
  destruct (raux_near 53 1024 ltac:(lia) false q (e1 - e2 - 53) (new_location (Zpos m2) r) k Hq ltac:(lia) B) as (m & e & z & E & Re & Rz & Ez & Rm).
  { change (emin 53 1024) with (-1074). lia. } { lia. }
  exists m, e. split; [exact E|]. split; [lia|]. split; [exact Rm|].
  replace (e - (e1 - e2 - 53)) with (e - (e1 - e2 - 53 + k) + k) by lia. rewrite Z.pow_add_r by lia. rewrite Z.mul_assoc, Ez.
  assert (C : k = 0 \/ k = 1) by lia. destruct C as [-> | ->]; change (2 ^ 0) with 1 in *; change (2 ^ 1) with 2 in *.
  - rewrite Z.div_1_r in Rz. lia.
  - pose proof (Z.div_mod q 2 ltac:(lia)). pose proof (Z.mod_pos_bound q 2 ltac:(lia)). lia.
Qed.

(** Integers up to 2^48 as doubles. *)
Lemma dOfZ_normal n : 0 < n < 2 ^ 48 -> exists m e, dOfZ n = S754_finite false m e /\ 2 ^ 52 <= Zpos m < 2 ^ 53 /\ -52 <= e <= -5 /\ Zpos m = n * 2 ^ (- e).
Proof.
  intros H. destruct (Zdigits_pos n ltac:(lia)) as [Z1 Z2]. pose proof (digits_bounds (Z.to_pos n)) as B. rewrite Z2 in B. set (d := Zpos (digits2_pos (Z.to_pos n))) in *.
  assert (Hd : 0 < d) by (unfold d; lia). clearbody d. assert (d <= 48). { destruct (Z.le_gt_cases d 48); auto. assert (2 ^ 48 <= 2 ^ (d - 1)) by (apply Z.pow_le_mono_r; lia). lia. }
  assert (P : 0 < 2 ^ (53 - d)) by (apply Z.pow_pos_nonneg; lia).
  assert (R : 2 ^ 52 <= n * 2 ^ (53 - d) < 2 ^ 53).
  { replace (2 ^ 52) with (2 ^ (d - 1) * 2 ^ (53 - d)) by (rewrite <- Z.pow_add_r by lia; f_equal; lia). replace (2 ^ 53) with (2 ^ d * 2 ^ (53 - d)) by (rewrite <- Z.pow_add_r by lia; f_equal; lia). nia. }
  exists (Z.to_pos (n * 2 ^ (53 - d))), (d - 53). rewrite Z2Pos.id by lia. split; [|split; [exact R|split; [lia|f_equal; f_equal; lia]]].
  assert (Bd : bounded 53 1024 (Z.to_pos (n * 2 ^ (53 - d))) (d - 53) = true).
  { apply bounded_spec. split; [|lia]. rewrite (digits_unique _ 53) by (rewrite Z2Pos.id by lia; exact R). unfold SpecFloat.fexp, SpecFloat.emin. lia. }
  pose proof (isV_finite 53 1024 false _ _ Bd) as I. cbn [cond_Zopp] in I. rewrite Z2Pos.id in I by lia.
  assert (I2 : isV 53 1024 (S754_finite false (Z.to_pos (n * 2 ^ (53 - d))) (d - 53)) n (d - 53 + (53 - d))) by (apply isV_up; [lia|exact I]).
  replace (d - 53 + (53 - d)) with 0 in I2 by lia. apply (isV_fun 53 1024 ltac:(lia) _ _ n 0); [apply isD_ofZ; lia|exact I2].
Qed.

(** Rounding a double within half of an integer gives the integer. *)
Lemma rintZ_near m e n : e < 0 -> 2 * Z.abs (Zpos m - n * 2 ^ (- e)) < 2 ^ (- e) -> rintZ (S754_finite false m e) = Some n.
Proof.
  intros He H. cbn [rintZ cond_Zopp]. replace (0 <=? e) with false by lia. set (t := 2 ^ (- e)) in *. cbv zeta. assert (T : 0 < t) by (apply Z.pow_pos_nonneg; lia).
  pose proof (Z.div_mod (Zpos m) t ltac:(lia)) as DM. pose proof (Z.mod_pos_bound (Zpos m) t T) as MB. set (q := Zpos m / t) in *. set (r := Zpos m mod t) in *. clearbody t q r.
  f_equal. destruct (Z.compare_spec (2 * r) t) as [C|C|C].
  - exfalso. assert (n = q \/ n = q + 1 \/ n < q \/ q + 1 < n) by lia. destruct H0 as [->|[->|[?|?]]]; nia.
  - assert (n = q \/ n < q \/ q < n) by lia. destruct H0 as [->|[?|?]]; [reflexivity|nia|nia].
  - assert (n = q + 1 \/ n < q + 1 \/ q + 1 < n) by lia. destruct H0 as [->|[?|?]]; [reflexivity|nia|nia].
Qed.

(** The position does not move when the rates are equal. *)
Theorem scaleFrame_same n r : 0 <= n < 2 ^ 48 -> usualRate r -> scaleFrame n r r = Ok n.
Proof.
  intros Hn Hr. destruct r as [| | |[] mr er]; try contradiction. destruct Hr as [Hm Hexp]. unfold scaleFrame, llrint.
  assert (Rn : rintZ (ddiv (dmul (dOfZ n) (S754_finite false mr er)) (S754_finite false mr er)) = Some n).
  2:{ rewrite Rn. replace (inS 64 n) with true; [reflexivity|]. symmetry. rewrite inS_spec by lia. change (2 ^ (64 - 1)) with 9223372036854775808. change (2 ^ 48) with 281474976710656 in Hn. lia. }
  destruct (Z.eq_dec n 0) as [->|Nz]; [reflexivity|].
  destruct (dOfZ_normal n ltac:(lia)) as (mn & en & -> & Hmn & Hen & En).
  destruct (dmul_near mn en mr er Hmn Hm ltac:(lia) ltac:(lia)) as (mp & ep & k & -> & K & Hep & Hmp & NP).
  destruct (ddiv_near mp ep mr er Hmp Hm ltac:(lia) ltac:(lia)) as (mq & eq & -> & Heq & Hmq & NQ).
  apply rintZ_near; [lia|].
  (* in units of 2^(en + ...): both quantities times 2^(-en) *)
  set (a := ep - (en + er)) in *. set (b := eq - (ep - er - 53)) in *.
  assert (Ha : 52 <= a <= 54) by lia. assert (Hb : 0 <= b <= 2) by lia.
  assert (Ee : eq = en + a + b - 53) by lia.
  set (q := Zpos mp * 2 ^ 53 / Zpos mr) in *. pose proof (Z.div_mod (Zpos mp * 2 ^ 53) (Zpos mr) ltac:(lia)) as DM. fold q in DM. pose proof (Z.mod_pos_bound (Zpos mp * 2 ^ 53) (Zpos mr) ltac:(lia)) as MB. set (rm := (Zpos mp * 2 ^ 53) mod Zpos mr) in *.
  (* | mq 2^b * 2^a - mn 2^53 | small *)
  assert (Core : Z.abs (Zpos mq * 2 ^ b * 2 ^ a - Zpos mn * 2 ^ 53) <= 5 * 2 ^ 54).
  { assert (A1 : Z.abs (Zpos mq * 2 ^ b * Zpos mr - Zpos mp * 2 ^ 53) <= 3 * Zpos mr) by (clear -NQ DM MB; set (x := Zpos mq * 2 ^ b) in *; clearbody x rm q; nia).
    assert (A2 : Z.abs (Zpos mq * 2 ^ b * 2 ^ a * Zpos mr - Zpos mp * 2 ^ a * 2 ^ 53) <= 3 * Zpos mr * 2 ^ a).
    { assert (Pa : 0 < 2 ^ a) by (apply Z.pow_pos_nonneg; lia). replace (Zpos mq * 2 ^ b * 2 ^ a * Zpos mr - Zpos mp * 2 ^ a * 2 ^ 53) with ((Zpos mq * 2 ^ b * Zpos mr - Zpos mp * 2 ^ 53) * 2 ^ a) by ring. rewrite Z.abs_mul. rewrite (Z.abs_eq (2 ^ a)) by lia. apply Z.mul_le_mono_nonneg_r; [lia|exact A1]. }
    assert (A3 : Z.abs (Zpos mp * 2 ^ a * 2 ^ 53 - Zpos mn * Zpos mr * 2 ^ 53) <= 2 ^ 53 * 2 ^ 53).
    { assert (2 ^ k <= 2 ^ 53) by (apply Z.pow_le_mono_r; lia). replace (Zpos mp * 2 ^ a * 2 ^ 53 - Zpos mn * Zpos mr * 2 ^ 53) with ((Zpos mp * 2 ^ a - Zpos mn * Zpos mr) * 2 ^ 53) by ring. rewrite Z.abs_mul. rewrite (Z.abs_eq (2 ^ 53)) by lia. apply Z.mul_le_mono_nonneg_r; [lia|]. eapply Z.le_trans; [exact NP|assumption]. }
    assert (A4 : 2 ^ a <= 2 ^ 54) by (apply Z.pow_le_mono_r; lia).
    clear -A2 A3 A4 Hm. set (x := Zpos mq * 2 ^ b * 2 ^ a) in *. set (y := Zpos mp * 2 ^ a * 2 ^ 53) in *. set (mr' := Zpos mr) in *. set (mn' := Zpos mn) in *.
    replace (mn' * mr' * 2 ^ 53) with (mn' * 2 ^ 53 * mr') in A3 by ring. change (2 ^ 54) with (4 * 2 ^ 52) in *. change (2 ^ 53) with (2 * 2 ^ 52) in *. set (t := 2 ^ 52) in *. assert (T : 0 < t) by reflexivity.
    set (w := mn' * (2 * t)) in *. clearbody x y mr' w t. set (pa := 2 ^ a) in *. clearbody pa.
    assert (S : Z.abs ((x - w) * mr') <= 3 * mr' * (4 * t) + 2 * t * (2 * t)) by nia.
    rewrite Z.abs_mul, (Z.abs_eq mr') in S by lia. nia. }
  clear NP NQ DM MB.
  (* rescale *)
  set (f := - eq). assert (Hf : 0 < f) by lia.
  assert (Eq1 : Zpos mq * 2 ^ b * 2 ^ a = Zpos mq * 2 ^ (a + b)) by (rewrite (Z.add_comm a b), Z.pow_add_r by lia; ring).
  rewrite Eq1, En in Core. clear Eq1.
  (* n * 2^(-en) * 2^53 = n * 2^f * 2^(a+b) *)
  assert (Eq2 : n * 2 ^ (- en) * 2 ^ 53 = n * 2 ^ f * 2 ^ (a + b)).
  { rewrite <- !Z.mul_assoc, <- !Z.pow_add_r by lia. do 2 f_equal. lia. }
  rewrite Eq2, <- Z.mul_sub_distr_r, Z.abs_mul in Core. rewrite (Z.abs_eq (2 ^ (a + b))) in Core by (apply Z.pow_nonneg; lia).
  (* 2^f * 2^(a+b) = 2^(53-en) >= 2^58 *)
  assert (Eq3 : 2 ^ f * 2 ^ (a + b) = 2 ^ (53 - en)) by (rewrite <- Z.pow_add_r by lia; f_equal; lia).
  assert (G : 2 ^ 58 <= 2 ^ (53 - en)) by (apply Z.pow_le_mono_r; lia).
  assert (Pab : 0 < 2 ^ (a + b)) by (apply Z.pow_pos_nonneg; lia).
  clear -Core Eq3 G Pab. set (d := Z.abs (Zpos mq - n * 2 ^ f)) in *. set (t := 2 ^ (a + b)) in *. set (u := 2 ^ f) in *. set (w := 2 ^ (53 - en)) in *. clearbody d t u w.
  change (2 ^ 58) with (16 * 2 ^ 54) in G. set (v := 2 ^ 54) in *. assert (0 < v) by reflexivity. clearbody v. nia.
Qed.

Lemma ddiv_self r : usualRate r -> ddiv r r = dOfZ 1.
Proof.
  intros Hr. destruct r as [| | |[] mr er]; try contradiction. destruct Hr as [Hm Hexp]. unfold ddiv, SFdiv, SFdiv_core_binary. cbn [xorb].
  assert (D1 : Zdigits2 (Zpos mr) = 53) by (cbn [Zdigits2]; apply digits_unique; exact Hm). rewrite D1.
  replace (Z.min (fexp 53 1024 (53 + er - (53 + er))) (er - er)) with (-53) by (unfold SpecFloat.fexp, SpecFloat.emin; lia).
  replace (er - er - -53) with 53 by lia. rewrite Z.shiftl_mul_pow2 by lia.
  pose proof (Z_div_mod (Zpos mr * 2 ^ 53) (Zpos mr) ltac:(lia)) as DM. destruct (Z.div_eucl (Zpos mr * 2 ^ 53) (Zpos mr)) as [q r]. destruct DM as [DM Hq].
  assert (q = 2 ^ 53 /\ r = 0) as [-> ->]. { clear -DM Hq. set (t := 2 ^ 53) in *. clearbody t. assert (q = t \/ q < t \/ t < q) by lia. destruct H as [->|[?|?]]; [split; lia|nia|nia]. }
  unfold new_location. destruct (Z.even (Zpos mr)); vm_compute; reflexivity.
Qed.
Theorem scaleTotal_same n r : 0 <= n < 2 ^ 48 -> usualRate r -> scaleTotal n r r = Ok n.
Proof.
  intros Hn Hr. unfold scaleTotal. rewrite (ddiv_self r Hr).
  assert (E : dmul (dOfZ n) (dOfZ 1) = dOfZ n).
  { apply (SFmul_val 53 1024 ltac:(lia) ltac:(lia) _ _ _ n 1 0 0); [apply isD_ofZ; lia|apply isD_ofZ; lia|lia|]. rewrite Z.mul_1_r. apply isD_ofZ. lia. }
  rewrite E. unfold llrint. destruct (Z.eq_dec n 0) as [->|Nz]; [reflexivity|].
  destruct (dOfZ_normal n ltac:(lia)) as (mn & en & -> & Hmn & Hen & En). rewrite (rintZ_near mn en n); [|lia|].
  - replace (inS 64 n) with true; [reflexivity|]. symmetry. rewrite inS_spec by lia. change (2 ^ (64 - 1)) with 9223372036854775808. change (2 ^ 48) with 281474976710656 in Hn. lia.
  - rewrite En, Z.sub_diag. change (2 * Z.abs 0) with 0. apply Z.pow_pos_nonneg; lia.
Qed.

(** ** Whole rates: the product is exact, and so is the quotient, so that even truncation returns the frame *)
Lemma dOfZ_normal53 n : 0 < n < 2 ^ 53 -> exists m e, dOfZ n = S754_finite false m e /\ 2 ^ 52 <= Zpos m < 2 ^ 53 /\ -52 <= e <= 0 /\ Zpos m = n * 2 ^ (- e).
Proof.
  intros H. destruct (Zdigits_pos n ltac:(lia)) as [Z1 Z2]. pose proof (digits_bounds (Z.to_pos n)) as B. rewrite Z2 in B. set (d := Zpos (digits2_pos (Z.to_pos n))) in *.
  assert (Hd : 0 < d) by (unfold d; lia). clearbody d. assert (d <= 53). { destruct (Z.le_gt_cases d 53); auto. assert (2 ^ 53 <= 2 ^ (d - 1)) by (apply Z.pow_le_mono_r; lia). lia. }
  assert (P : 0 < 2 ^ (53 - d)) by (apply Z.pow_pos_nonneg; lia).
  assert (R : 2 ^ 52 <= n * 2 ^ (53 - d) < 2 ^ 53).
  { replace (2 ^ 52) with (2 ^ (d - 1) * 2 ^ (53 - d)) by (rewrite <- Z.pow_add_r by lia; f_equal; lia). replace (2 ^ 53) with (2 ^ d * 2 ^ (53 - d)) by (rewrite <- Z.pow_add_r by lia; f_equal; lia). nia. }
  exists (Z.to_pos (n * 2 ^ (53 - d))), (d - 53). rewrite Z2Pos.id by lia. split; [|split; [exact R|split; [lia|f_equal; f_equal; lia]]].
  assert (Bd : bounded 53 1024 (Z.to_pos (n * 2 ^ (53 - d))) (d - 53) = true).
  { apply bounded_spec. split; [|lia]. rewrite (digits_unique _ 53) by (rewrite Z2Pos.id by lia; exact R). unfold SpecFloat.fexp, SpecFloat.emin. lia. }
  pose proof (isV_finite 53 1024 false _ _ Bd) as I. cbn [cond_Zopp] in I. rewrite Z2Pos.id in I by lia.
  assert (I2 : isV 53 1024 (S754_finite false (Z.to_pos (n * 2 ^ (53 - d))) (d - 53)) n (d - 53 + (53 - d))) by (apply isV_up; [lia|exact I]).
  replace (d - 53 + (53 - d)) with 0 in I2 by lia. apply (isV_fun 53 1024 ltac:(lia) _ _ n 0); [apply isD_ofZ; lia|exact I2].
Qed.
Lemma ddiv_exact n z : 0 < n -> 0 < z -> n * z < 2 ^ 53 -> ddiv (dOfZ (n * z)) (dOfZ z) = dOfZ n.
Proof.
  intros Hn Hz Hp. assert (Hn' : n < 2 ^ 53) by nia. assert (Hz' : z < 2 ^ 53) by nia. assert (Hp0 : 0 < n * z) by nia.
  destruct (dOfZ_normal53 (n * z) (conj Hp0 Hp)) as (mp & ep & -> & Bp & Rp & Ep).
  destruct (dOfZ_normal53 z (conj Hz Hz')) as (mz & ez & -> & Bz & Rz & Ez).
  destruct (dOfZ_normal53 n (conj Hn Hn')) as (mn & en & -> & Bn & Rn & En).
  unfold ddiv, SFdiv, SFdiv_core_binary. cbn [xorb].
  assert (D1 : Zdigits2 (Zpos mp) = 53) by (cbn [Zdigits2]; apply digits_unique; exact Bp).
  assert (D2 : Zdigits2 (Zpos mz) = 53) by (cbn [Zdigits2]; apply digits_unique; exact Bz).
  rewrite D1, D2. replace (Z.min (fexp 53 1024 (53 + ep - (53 + ez))) (ep - ez)) with (ep - ez - 53) by (unfold SpecFloat.fexp, SpecFloat.emin; lia).
  replace (ep - ez - (ep - ez - 53)) with 53 by lia. rewrite Z.shiftl_mul_pow2 by lia.
  (* mp * 2^53 = mz * n * 2^k *)
  set (k := 53 + ez - ep).
  assert (Mid : Zpos mp * 2 ^ 53 = Zpos mz * (n * 2 ^ k)).
  { rewrite Ep, Ez. replace (n * z * 2 ^ (- ep) * 2 ^ 53) with (n * z * (2 ^ (- ep) * 2 ^ 53)) by ring. replace (z * 2 ^ (- ez) * (n * 2 ^ k)) with (n * z * (2 ^ (- ez) * 2 ^ k)) by ring.
    rewrite <- !Z.pow_add_r by lia. do 2 f_equal. lia. }
  assert (K : 1 <= k <= 105) by lia.
  pose proof (Z_div_mod (Zpos mp * 2 ^ 53) (Zpos mz) ltac:(lia)) as DM. destruct (Z.div_eucl (Zpos mp * 2 ^ 53) (Zpos mz)) as [q r]. destruct DM as [DM Hr].
  assert (q = n * 2 ^ k /\ r = 0) as [-> ->]. { rewrite Mid in DM. clear -DM Hr. set (t := n * 2 ^ k) in *. clearbody t. assert (q = t \/ q < t \/ t < q) by lia. destruct H as [->|[?|?]]; [split; lia|nia|nia]. }
  (* the quotient has 53 or 54 bits *)
  assert (Qb : 2 ^ 52 <= n * 2 ^ k < 2 ^ 54).
  { clear -Mid Bp Bz. set (t := n * 2 ^ k) in *. clearbody t. change (2 ^ 54) with (2 * 2 ^ 53). change (2 ^ 53) with (2 * 2 ^ 52) in *. set (u := 2 ^ 52) in *. assert (0 < u) by reflexivity. clearbody u. nia. }
  assert (Hj : 0 <= k + en).
  { destruct (Z.le_gt_cases 0 (k + en)) as [H|H]; [exact H|]. exfalso.
    assert (T : n * 2 ^ k * 2 ^ (- en - k) = Zpos mn) by (rewrite En, <- Z.mul_assoc, <- Z.pow_add_r by lia; do 2 f_equal; lia).
    assert (2 ^ 1 <= 2 ^ (- en - k)) by (apply Z.pow_le_mono_r; lia). change (2 ^ 1) with 2 in *. change (2 ^ 53) with (2 * 2 ^ 52) in Bn. set (u := 2 ^ 52) in *. assert (0 < u) by reflexivity. clearbody u.
    set (x := n * 2 ^ k) in *. set (y := 2 ^ (- en - k)) in *. clearbody x y. nia. }
  assert (Lc : new_location (Zpos mz) 0 = loc_Exact) by (unfold new_location; destruct (Z.even (Zpos mz)); reflexivity). rewrite Lc.
  assert (Pq : 0 < n * 2 ^ k) by lia. destruct (n * 2 ^ k) as [|pq|pq] eqn:Eq; try lia.
  apply (raux_exact 53 1024 false pq _ (k + en)); [exact Hj| | |lia].
  - apply bounded_spec. split; [|lia]. rewrite (digits_unique _ 53) by exact Bn. unfold SpecFloat.fexp, SpecFloat.emin. lia.
  - rewrite <- Eq, En, <- Z.mul_assoc, <- Z.pow_add_r by lia. do 2 f_equal. lia.
Qed.
(** A sample rate of [z] frames per second and up to [n] frames. *)
Definition wholeRate (r : spec_float) (n : Z) : Prop := exists z, r = dOfZ z /\ 0 < z /\ n * z < 2 ^ 53 /\ z < 2 ^ 53.
Lemma wholeRate_less r n n' : 0 <= n' <= n -> wholeRate r n -> wholeRate r n'.
Proof. intros H (z & A & B & C & D). exists z. split; [exact A|]. split; [exact B|]. split; [nia|exact D]. Qed.
Lemma scaled_exact n r : 0 <= n -> wholeRate r n -> ddiv (dmul (dOfZ n) r) r = dOfZ n /\ n < 2 ^ 53.
Proof.
  intros Hn (z & -> & Hz & Hp & Hz').
  assert (Em : dmul (dOfZ n) (dOfZ z) = dOfZ (n * z)).
  { assert (n < 2 ^ 53) by nia. apply (SFmul_val 53 1024 ltac:(lia) ltac:(lia) _ _ _ n z 0 0); [apply isD_ofZ; lia|apply isD_ofZ; lia|lia|]. apply isD_ofZ. rewrite Z.abs_eq by nia. exact Hp. }
  rewrite Em. split; [|nia]. destruct (Z.eq_dec n 0) as [->|N].
  - rewrite Z.mul_0_l. destruct (dOfZ_normal53 z ltac:(lia)) as (m & e & -> & _). reflexivity.
  - apply ddiv_exact; lia.
Qed.
Lemma inS64_small n : 0 <= n < 2 ^ 53 -> inS 64 n = true.
Proof. intros H. rewrite inS_spec by lia. change (2 ^ (64 - 1)) with 9223372036854775808. change (2 ^ 53) with 9007199254740992 in H. lia. Qed.
Theorem scaleTrunc_whole n r : 0 <= n -> wholeRate r n -> scaleTrunc n r r = Ok n.
Proof.
  intros Hn Hr. destruct (scaled_exact n r Hn Hr) as [E L]. unfold scaleTrunc, toInt. rewrite E. rewrite (truncZ_val 53 1024 _ n 0) by (try lia; apply isD_ofZ; lia).
  change (2 ^ 0) with 1. rewrite Z.quot_1_r, inS64_small by lia. reflexivity.
Qed.
Theorem scaleFrame_whole n r : 0 <= n -> wholeRate r n -> scaleFrame n r r = Ok n.
Proof.
  intros Hn Hr. destruct (scaled_exact n r Hn Hr) as [E L]. unfold scaleFrame, llrint. rewrite E.
  assert (R : rintZ (dOfZ n) = Some n).
  { destruct (Z.eq_dec n 0) as [->|N]; [reflexivity|]. destruct (dOfZ_normal53 n ltac:(lia)) as (m & e & -> & B & Re & Em).
    destruct (Z.eq_dec e 0) as [->|Ne].
    - cbn [rintZ cond_Zopp]. change (0 <=? 0) with true. cbv iota. rewrite Em. change (2 ^ 0) with 1. change (2 ^ (- 0)) with 1. f_equal. lia.
    - apply rintZ_near; [lia|]. rewrite Em, Z.sub_diag. change (2 * Z.abs 0) with 0. apply Z.pow_pos_nonneg; lia. }
  rewrite R, inS64_small by lia. reflexivity.
Qed.
