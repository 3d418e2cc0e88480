(** * Exactness of the standard library's IEEE 754 operations (Coq.Floats.SpecFloat)

    [V f K]: the value of the finite float [f] as a multiple of 2^K.  An operation whose exact result is
    representable returns it. *)
From Coq Require Import Floats.SpecFloat.
From Verif Require Import Prelude PreludeFacts Float.

Section Facts.
Context (prec emax : Z) (Hp : 1 < prec) (He : prec < emax).
Notation emin := (emin prec emax).
Notation fexp := (fexp prec emax).
Notation valid := (valid_binary prec emax).
Notation norm := (binary_normalize prec emax).
Notation bround := (binary_round prec emax).

Definition V (f : spec_float) (K : Z) : Z :=
  match f with S754_finite s m e => cond_Zopp s (Zpos m * 2 ^ (e - K)) | _ => 0 end.
Definition expGe (K : Z) (f : spec_float) : Prop := match f with S754_finite _ _ e => K <= e | _ => True end.
Definition finite (f : spec_float) : Prop := match f with S754_finite _ _ _ | S754_zero _ => True | _ => False end.

Lemma digits_bounds m : 2 ^ (Zpos (digits2_pos m) - 1) <= Zpos m < 2 ^ Zpos (digits2_pos m).
Proof.
  induction m as [m IH|m IH|]; cbn [digits2_pos]; [| |cbn; lia];
    rewrite Pos2Z.inj_succ; replace (Z.succ _ - 1) with (Z.succ (Zpos (digits2_pos m) - 1)) by lia; rewrite !Z.pow_succ_r by lia;
    set (a := 2 ^ _) in *; set (b := 2 ^ Zpos _) in *; clearbody a b; lia.
Qed.
Lemma digits_unique m d : 2 ^ (d - 1) <= Zpos m < 2 ^ d -> Zpos (digits2_pos m) = d.
Proof.
  intros H. pose proof (digits_bounds m) as D. set (k := Zpos (digits2_pos m)) in *.
  assert (d <= 0 -> False). { intros Hd. assert (2 ^ d <= 1) by (destruct (Z.eq_dec d 0); [subst; cbn; lia|rewrite Z.pow_neg_r by lia; lia]). lia. }
  destruct (Z.lt_trichotomy k d) as [L|[E|L]]; auto.
  - assert (2 ^ k <= 2 ^ (d - 1)) by (apply Z.pow_le_mono_r; lia). lia.
  - assert (2 ^ d <= 2 ^ (k - 1)) by (apply Z.pow_le_mono_r; lia). lia.
Qed.

Lemma digits_mul m j : 0 <= j -> forall p, Zpos p = Zpos m * 2 ^ j -> Zpos (digits2_pos p) = Zpos (digits2_pos m) + j.
Proof.
  intros Hj p E. pose proof (digits_bounds m) as D. apply digits_unique. rewrite E.
  replace (Zpos (digits2_pos m) + j - 1) with (Zpos (digits2_pos m) - 1 + j) by lia. rewrite !Z.pow_add_r by lia.
  assert (0 < 2 ^ j) by (apply Z.pow_pos_nonneg; lia). nia.
Qed.

Lemma shift_pos_mul d m : Zpos (shift_pos d m) = Zpos m * 2 ^ Zpos d.
Proof. rewrite Zpower.shift_pos_correct. change (Z.pow_pos 2 d) with (2 ^ Zpos d). lia. Qed.

Lemma shr_1_even q : shr_1 (Build_shr_record (2 * Zpos q) false false) = Build_shr_record (Zpos q) false false.
Proof. reflexivity. Qed.
Lemma shr_iter n : forall m, SpecFloat.iter_pos shr_1 n (Build_shr_record (Zpos m * 2 ^ Zpos n) false false) = Build_shr_record (Zpos m) false false.
Proof.
  induction n as [n IH|n IH|]; intros m; cbn [SpecFloat.iter_pos].
  - assert (P : exists q, Zpos q = Zpos m * 2 ^ Zpos n) by (exists (Z.to_pos (Zpos m * 2 ^ Zpos n)); rewrite Z2Pos.id; [reflexivity|apply Z.mul_pos_pos; [lia|apply Z.pow_pos_nonneg; lia]]).
    destruct P as (q & Eq).
    assert (P : exists r, Zpos r = Zpos q * 2 ^ Zpos n) by (exists (Z.to_pos (Zpos q * 2 ^ Zpos n)); rewrite Z2Pos.id; [reflexivity|apply Z.mul_pos_pos; [lia|apply Z.pow_pos_nonneg; lia]]).
    destruct P as (r & Er).
    replace (Zpos m * 2 ^ Zpos n~1) with (2 * Zpos r).
    2:{ rewrite Er, Eq. replace (Zpos n~1) with (1 + (Zpos n + Zpos n)) by lia. rewrite !Z.pow_add_r by lia. change (2 ^ 1) with 2. ring. }
    rewrite shr_1_even, Er, IH, Eq. apply IH.
  - assert (P : exists q, Zpos q = Zpos m * 2 ^ Zpos n) by (exists (Z.to_pos (Zpos m * 2 ^ Zpos n)); rewrite Z2Pos.id; [reflexivity|apply Z.mul_pos_pos; [lia|apply Z.pow_pos_nonneg; lia]]).
    destruct P as (q & Eq).
    replace (Zpos m * 2 ^ Zpos n~0) with (Zpos q * 2 ^ Zpos n).
    2:{ rewrite Eq. replace (Zpos n~0) with (Zpos n + Zpos n) by lia. rewrite !Z.pow_add_r by lia. ring. }
    rewrite IH, Eq. apply IH.
  - change (2 ^ 1) with 2. rewrite Z.mul_comm. apply shr_1_even.
Qed.

(** ** Rounding a representable value *)
Lemma bounded_spec m e : bounded prec emax m e = true <-> (fexp (Zpos (digits2_pos m) + e) = e /\ e <= emax - prec).
Proof.
  unfold bounded, canonical_mantissa. rewrite andb_true_iff, Z.leb_le, <- Zeq_is_eq_bool. reflexivity.
Qed.

Lemma raux_exact s m e j m0 e0 : 0 <= j -> bounded prec emax m0 e0 = true -> Zpos m = Zpos m0 * 2 ^ j -> e + j = e0 ->
  binary_round_aux prec emax s (Zpos m) e loc_Exact = S754_finite s m0 e0.
Proof.
  intros Hj Hb Em Ee. apply bounded_spec in Hb as [Hc Hx]. unfold binary_round_aux, shr_fexp. cbn [Zdigits2].
  rewrite (digits_mul m0 j Hj m Em). replace (Zpos (digits2_pos m0) + j + e) with (Zpos (digits2_pos m0) + e0) by lia. rewrite Hc.
  replace (e0 - e) with j by lia.
  assert (E1 : shr (shr_record_of_loc (Zpos m) loc_Exact) e j = (Build_shr_record (Zpos m0) false false, e0)).
  { unfold shr. destruct j as [|j|j]; [| |lia].
    - change (2 ^ 0) with 1 in Em. rewrite Z.mul_1_r in Em. rewrite Em. cbn [shr_record_of_loc]. f_equal. lia.
    - cbn [shr_record_of_loc]. rewrite Em, shr_iter. f_equal. lia. }
  rewrite E1. cbn [shr_m loc_of_shr_record round_nearest_even Zdigits2]. rewrite Hc, Z.sub_diag. cbn [shr shr_record_of_loc shr_m].
  replace (e0 <=? emax - prec) with true by lia. reflexivity.
Qed.

Lemma round_exact s m e m0 e0 K : bounded prec emax m0 e0 = true -> K <= e -> K <= e0 -> Zpos m * 2 ^ (e - K) = Zpos m0 * 2 ^ (e0 - K) ->
  bround s m e = S754_finite s m0 e0.
Proof.
  intros Hb Ke K0 EV. pose proof Hb as Hb'. apply bounded_spec in Hb' as [Hc Hx]. unfold binary_round.
  assert (ED : Zpos (digits2_pos m) + e = Zpos (digits2_pos m0) + e0).
  { assert (P : exists q, Zpos q = Zpos m * 2 ^ (e - K)) by (exists (Z.to_pos (Zpos m * 2 ^ (e - K))); rewrite Z2Pos.id; [reflexivity|apply Z.mul_pos_pos; [lia|apply Z.pow_pos_nonneg; lia]]).
    destruct P as (q & Eq). pose proof (digits_mul m (e - K) ltac:(lia) q Eq). rewrite EV in Eq. pose proof (digits_mul m0 (e0 - K) ltac:(lia) q Eq). lia. }
  rewrite ED, Hc. unfold shl_align. destruct (e0 - e) as [|d|d] eqn:Ed.
  - apply raux_exact with (j := 0); auto; [lia| |lia]. assert (e = e0) by lia. subst e. rewrite Z.mul_1_r.
    assert (0 < 2 ^ (e0 - K)) by (apply Z.pow_pos_nonneg; lia). nia.
  - apply raux_exact with (j := Zpos d); auto; [lia| |lia].
    assert (0 < 2 ^ (e - K)) by (apply Z.pow_pos_nonneg; lia). replace (e0 - K) with (Zpos d + (e - K)) in EV by lia. rewrite Z.pow_add_r in EV by lia. nia.
  - apply raux_exact with (j := 0); auto; [lia| |lia]. rewrite shift_pos_mul, Z.mul_1_r. 
    assert (0 < 2 ^ (e0 - K)) by (apply Z.pow_pos_nonneg; lia). replace (e - K) with (Zpos d + (e0 - K)) in EV by lia. rewrite Z.pow_add_r in EV by lia. nia.
Qed.

(** [norm z k] is the float of value z * 2^k when there is one. *)
Lemma norm_exact z k f K : valid f = true -> finite f -> K <= k -> expGe K f -> f <> S754_zero true -> V f K = z * 2 ^ (k - K) -> norm z k false = f.
Proof.
  intros Hv Hf Kk Ke Hz E. assert (P : 0 < 2 ^ (k - K)) by (apply Z.pow_pos_nonneg; lia).
  destruct f as [s| | |s m e]; try contradiction.
  - cbn [V] in E. assert (z = 0) by nia. subst z. destruct s; [congruence|reflexivity].
  - cbn [V expGe] in *. assert (Q : 0 < 2 ^ (e - K)) by (apply Z.pow_pos_nonneg; lia).
    destruct s; cbn [cond_Zopp] in E.
    + destruct z as [|z|z]; [nia|nia|]. cbn [binary_normalize]. apply round_exact with (K := K); auto. rewrite <- Pos2Z.opp_pos in E. lia.
    + destruct z as [|z|z]; [nia| |nia]. cbn [binary_normalize]. apply round_exact with (K := K); auto.
Qed.

(** Which integers times a power of two are representable. *)
Lemma norm_small z k : Z.abs z < 2 ^ prec -> emin <= k -> k <= emax - prec -> 
  let f := norm z k false in valid f = true /\ finite f /\ f <> S754_zero true /\ expGe emin f /\ V f emin = z * 2 ^ (k - emin).
Proof.
  intros Hz Hk Hx f. destruct (Z.eq_dec z 0) as [->|Nz]. { unfold f. cbn [binary_normalize]. split; [reflexivity|]. split; [exact I|]. split; [discriminate|]. split; [exact I|]. reflexivity. }
  assert (P : exists m0 e0, bounded prec emax m0 e0 = true /\ emin <= e0 /\ Zpos m0 * 2 ^ (e0 - emin) = Z.abs z * 2 ^ (k - emin)).
  { set (p := Z.to_pos (Z.abs z)). assert (Ep : Zpos p = Z.abs z) by (unfold p; rewrite Z2Pos.id; lia). rewrite <- Ep in *.
    pose proof (digits_bounds p) as D. set (d := Zpos (digits2_pos p)) in *.
    assert (Hd : d <= prec). { destruct (Z.le_gt_cases d prec); auto. assert (2 ^ prec <= 2 ^ (d - 1)) by (apply Z.pow_le_mono_r; lia). lia. }
    set (e0 := fexp (d + k)). assert (E0 : emin <= e0 <= k) by (unfold e0, SpecFloat.fexp; lia).
    exists (Z.to_pos (Zpos p * 2 ^ (k - e0))), e0.
    assert (Q : Zpos (Z.to_pos (Zpos p * 2 ^ (k - e0))) = Zpos p * 2 ^ (k - e0)) by (rewrite Z2Pos.id; [reflexivity|apply Z.mul_pos_pos; [lia|apply Z.pow_pos_nonneg; lia]]).
    split; [|split; [lia|]].
    - apply bounded_spec. rewrite (digits_mul p (k - e0) ltac:(lia) _ Q). fold d. split; [|lia]. replace (d + (k - e0) + e0) with (d + k) by lia. reflexivity.
    - rewrite Q, <- Z.mul_assoc, <- Z.pow_add_r by lia. do 2 f_equal. lia. }
  destruct P as (m0 & e0 & Hb & He0 & E).
  assert (G : f = S754_finite (z <? 0) m0 e0).
  { apply norm_exact with (K := emin); [exact Hb|exact I|exact Hk|exact He0|discriminate|]. cbn [V]. rewrite E. destruct (z <? 0) eqn:S; cbn [cond_Zopp]; [|f_equal; lia]. rewrite <- Z.mul_opp_l. f_equal. lia. }
  rewrite G. split; [exact Hb|]. split; [exact I|]. split; [discriminate|]. split; [exact He0|]. cbn [V]. rewrite E. destruct (z <? 0) eqn:S; cbn [cond_Zopp]; [|f_equal; lia]. rewrite <- Z.mul_opp_l. f_equal. lia.
Qed.

(** ** Floats with a given value: [f] is z * 2^k (and not a negative zero). *)
Definition isV (f : spec_float) (z k : Z) : Prop :=
  valid f = true /\ finite f /\ f <> S754_zero true /\ exists K, K <= k /\ expGe K f /\ V f K = z * 2 ^ (k - K).

Lemma expGe_le K K' f : K' <= K -> expGe K f -> expGe K' f.
Proof. destruct f; cbn; auto. lia. Qed.
Lemma V_lower K j f : 0 <= j -> expGe K f -> V f (K - j) = V f K * 2 ^ j.
Proof.
  intros Hj Hk. destruct f as [s| | |s m e]; cbn [V]; auto. cbn in Hk. replace (e - (K - j)) with (e - K + j) by lia. rewrite Z.pow_add_r by lia. destruct s; cbn [cond_Zopp]; ring.
Qed.
Lemma isV_low f z k : isV f z k -> exists K0, forall K, K <= K0 -> K <= k /\ expGe K f /\ V f K = z * 2 ^ (k - K).
Proof.
  intros (_ & _ & _ & K0 & H1 & H2 & H3). exists K0. intros K HK. split; [lia|]. split; [eapply expGe_le; eauto|].
  replace K with (K0 - (K0 - K)) at 1 by lia. rewrite V_lower, H3 by (auto; lia). rewrite <- Z.mul_assoc, <- Z.pow_add_r by lia. do 2 f_equal. lia.
Qed.
Lemma isV_unique f z k : isV f z k -> norm z k false = f.
Proof. intros (H1 & H2 & H3 & K & H4 & H5 & H6). now apply norm_exact with (K := K). Qed.
Lemma isV_fun f g z k : isV f z k -> isV g z k -> f = g.
Proof. intros A C. apply isV_unique in A, C. congruence. Qed.
Lemma isV_small z k : Z.abs z < 2 ^ prec -> emin <= k -> k <= emax - prec -> isV (norm z k false) z k.
Proof. intros H1 H2 H3. destruct (norm_small z k H1 H2 H3) as (A & C & D & E & F). repeat split; auto. exists emin. auto. Qed.
Lemma isV_finite s m e : bounded prec emax m e = true -> isV (S754_finite s m e) (cond_Zopp s (Zpos m)) e.
Proof. intros H. repeat split; auto; [discriminate|]. exists e. split; [lia|]. split; [cbn; lia|]. cbn [V]. rewrite Z.sub_diag. change (2 ^ 0) with 1. now rewrite !Z.mul_1_r. Qed.
Lemma isV_zero k : isV (S754_zero false) 0 k.
Proof. repeat split; auto; [discriminate|]. exists k. repeat split; auto. lia. Qed.
Lemma isV_down f z k j : 0 <= j -> isV f z k -> isV f (z * 2 ^ j) (k - j).
Proof.
  intros Hj HV. pose proof HV as (H1 & H2 & H3 & _). destruct (isV_low _ _ _ HV) as (K0 & HK). repeat split; auto.
  destruct (HK (Z.min K0 (k - j)) ltac:(lia)) as (A & C & D). exists (Z.min K0 (k - j)). split; [lia|]. split; [exact C|]. rewrite D, <- Z.mul_assoc, <- Z.pow_add_r by lia. do 2 f_equal. lia.
Qed.
Lemma isV_up f z k j : 0 <= j -> isV f (z * 2 ^ j) k -> isV f z (k + j).
Proof.
  intros Hj (H1 & H2 & H3 & K & H4 & H5 & H6). repeat split; auto. exists K. split; [lia|]. split; [auto|]. rewrite H6, <- Z.mul_assoc, <- Z.pow_add_r by lia. do 2 f_equal. lia.
Qed.

Lemma shl_align_val m e e' : e' <= e -> Zpos (fst (shl_align m e e')) = Zpos m * 2 ^ (e - e').
Proof.
  intros H. unfold shl_align. destruct (e' - e) as [|d|d] eqn:E; [|lia|]; cbn [fst].
  - replace (e - e') with 0 by lia. now rewrite Z.mul_1_r.
  - rewrite shift_pos_mul. do 2 f_equal. lia.
Qed.

Lemma norm_by_value z ez h a k K : isV h a k -> K <= ez -> K <= k -> expGe K h -> z * 2 ^ (ez - K) = a * 2 ^ (k - K) -> norm z ez false = h.
Proof.
  intros HV Kz Kk Kh E. pose proof HV as (H1 & H2 & H3 & _). apply norm_exact with (K := K); auto. rewrite E.
  destruct (isV_low _ _ _ HV) as (K0 & HK). destruct (HK (Z.min K0 K) ltac:(lia)) as (A & C & D).
  replace (Z.min K0 K) with (K - (K - Z.min K0 K)) in D at 1 by lia. rewrite V_lower in D by (auto; lia).
  replace (k - Z.min K0 K) with (k - K + (K - Z.min K0 K)) in D by lia. rewrite Z.pow_add_r, Z.mul_assoc in D by lia.
  apply Z.mul_reg_r in D; [exact D|]. apply Z.pow_nonzero; lia.
Qed.

Lemma V_at f z k K : isV f z k -> K <= k -> expGe K f -> V f K = z * 2 ^ (k - K).
Proof.
  intros HV Kk Kh. destruct (isV_low _ _ _ HV) as (K0 & HK). destruct (HK (Z.min K0 K) ltac:(lia)) as (A & C & D).
  replace (Z.min K0 K) with (K - (K - Z.min K0 K)) in D at 1 by lia. rewrite V_lower in D by (auto; lia).
  replace (k - Z.min K0 K) with (k - K + (K - Z.min K0 K)) in D by lia. rewrite Z.pow_add_r, Z.mul_assoc in D by lia.
  apply Z.mul_reg_r in D; [exact D|]. apply Z.pow_nonzero; lia.
Qed.

Lemma isV_nonzero s m e a k : isV (S754_finite s m e) a k -> a <> 0.
Proof.
  intros (_ & _ & _ & K & H1 & H2 & H3) ->. cbn [V expGe] in *. assert (0 < 2 ^ (e - K)) by (apply Z.pow_pos_nonneg; lia). destruct s; cbn [cond_Zopp] in H3; nia.
Qed.
Lemma isV_is_zero s a k : isV (S754_zero s) a k -> s = false /\ a = 0.
Proof.
  intros (_ & _ & H & K & H1 & _ & H3). split; [destruct s; congruence|]. cbn [V] in H3. assert (0 < 2 ^ (k - K)) by (apply Z.pow_pos_nonneg; lia). nia.
Qed.

Lemma addsub_val (sg : Z) f g h a b k s1 m1 e1 s2 m2 e2 : f = S754_finite s1 m1 e1 -> g = S754_finite s2 m2 e2 ->
  isV f a k -> isV g b k -> isV h (a + sg * b) k ->
  norm (cond_Zopp s1 (Zpos (fst (shl_align m1 e1 (Z.min e1 e2)))) + sg * cond_Zopp s2 (Zpos (fst (shl_align m2 e2 (Z.min e1 e2))))) (Z.min e1 e2) false = h.
Proof.
  intros -> -> Ha Hb Hh.
  destruct (isV_low _ _ _ Ha) as (K1 & HK1). destruct (isV_low _ _ _ Hb) as (K2 & HK2). destruct (isV_low _ _ _ Hh) as (K3 & HK3).
  set (K := Z.min K1 (Z.min K2 (Z.min K3 (Z.min k (Z.min e1 e2))))).
  destruct (HK1 K ltac:(lia)) as (A1 & A2 & A3). destruct (HK2 K ltac:(lia)) as (B1 & B2 & B3). destruct (HK3 K ltac:(lia)) as (C1 & C2 & C3).
  apply norm_by_value with (a := a + sg * b) (k := k) (K := K); auto; [lia|].
  rewrite !shl_align_val by lia. cbn [V] in A3, B3.
  assert (E1 : cond_Zopp s1 (Zpos m1 * 2 ^ (e1 - Z.min e1 e2)) * 2 ^ (Z.min e1 e2 - K) = a * 2 ^ (k - K)).
  { rewrite <- A3. replace (e1 - K) with (e1 - Z.min e1 e2 + (Z.min e1 e2 - K)) by lia. rewrite (Z.pow_add_r 2 (e1 - Z.min e1 e2)) by lia. destruct s1; cbn [cond_Zopp]; ring. }
  assert (E2 : cond_Zopp s2 (Zpos m2 * 2 ^ (e2 - Z.min e1 e2)) * 2 ^ (Z.min e1 e2 - K) = b * 2 ^ (k - K)).
  { rewrite <- B3. replace (e2 - K) with (e2 - Z.min e1 e2 + (Z.min e1 e2 - K)) by lia. rewrite (Z.pow_add_r 2 (e2 - Z.min e1 e2)) by lia. destruct s2; cbn [cond_Zopp]; ring. }
  rewrite Z.mul_add_distr_r, E1, <- Z.mul_assoc, E2. ring.
Qed.

Lemma SFadd_val f g h a b k : isV f a k -> isV g b k -> isV h (a + b) k -> SFadd prec emax f g = h.
Proof.
  intros Ha Hb Hh. pose proof Ha as (_ & Fa & _). pose proof Hb as (_ & Fb & _).
  destruct f as [s1| | |s1 m1 e1]; try contradiction; destruct g as [s2| | |s2 m2 e2]; try contradiction; cbn [SFadd].
  - apply isV_is_zero in Ha as [-> ->], Hb as [-> ->]. cbn. eapply isV_fun; [apply (isV_zero k)|exact Hh].
  - apply isV_is_zero in Ha as [-> ->]. eapply isV_fun; eauto.
  - apply isV_is_zero in Hb as [-> ->]. rewrite Z.add_0_r in Hh. eapply isV_fun; eauto.
  - rewrite <- (Z.mul_1_l b) in Hh. rewrite <- (addsub_val 1 _ _ _ _ _ _ _ _ _ _ _ _ eq_refl eq_refl Ha Hb Hh). f_equal; ring.
Qed.
Lemma SFsub_val f g h a b k : isV f a k -> isV g b k -> isV h (a - b) k -> SFsub prec emax f g = h.
Proof.
  intros Ha Hb Hh. pose proof Ha as (_ & Fa & _). pose proof Hb as (Vb & Fb & _).
  destruct f as [s1| | |s1 m1 e1]; try contradiction; destruct g as [s2| | |s2 m2 e2]; try contradiction; cbn [SFsub].
  - apply isV_is_zero in Ha as [-> ->], Hb as [-> ->]. cbn. eapply isV_fun; [apply (isV_zero k)|exact Hh].
  - apply isV_is_zero in Ha as [-> ->]. eapply isV_fun; [|exact Hh]. cbn in Vb. 
    destruct (isV_low _ _ _ Hb) as (K & HK). specialize (HK K ltac:(lia)). destruct HK as (H1 & H2 & H3).
    split; [exact Vb|]. split; [exact I|]. split; [discriminate|]. exists K. split; [exact H1|]. split; [exact H2|]. cbn [V] in *. 
    replace (0 - b) with (- b) by lia. rewrite Z.mul_opp_l, <- H3. destruct s2; cbn [negb cond_Zopp]; lia.
  - apply isV_is_zero in Hb as [-> ->]. rewrite Z.sub_0_r in Hh. eapply isV_fun; eauto.
  - replace (a - b) with (a + (-1) * b) in Hh by lia. rewrite <- (addsub_val (-1) _ _ _ _ _ _ _ _ _ _ _ _ eq_refl eq_refl Ha Hb Hh). f_equal; ring.
Qed.

Lemma SFldexp_val f h a k n : isV f a k -> isV h a (k + n) -> SFldexp prec emax f n = h.
Proof.
  intros Ha Hh. pose proof Ha as (_ & Fa & _). destruct f as [s| | |s m e]; try contradiction; cbn [SFldexp].
  - apply isV_is_zero in Ha as [-> ->]. eapply isV_fun; [apply (isV_zero (k + n))|exact Hh].
  - destruct (isV_low _ _ _ Ha) as (K1 & HK1). destruct (isV_low _ _ _ Hh) as (K2 & HK2).
    set (K := Z.min (K1 + n) (Z.min K2 K1)). destruct (HK1 (K - n) ltac:(lia)) as (A1 & A2 & A3). destruct (HK2 K ltac:(lia)) as (B1 & B2 & B3).
    cbn [expGe V] in *. replace (k - (K - n)) with (k + n - K) in A3 by lia. replace (e - (K - n)) with (e + n - K) in A3 by lia.
    assert (G : norm (cond_Zopp s (Zpos m)) (e + n) false = h).
    { apply norm_by_value with (a := a) (k := k + n) (K := K); auto; [lia|]. rewrite <- A3. destruct s; cbn [cond_Zopp]; ring. }
    destruct s; exact G.
Qed.

Lemma bounded_exp m e : bounded prec emax m e = true -> emin <= e /\ (e = emin \/ Zpos (digits2_pos m) = prec) /\ Zpos (digits2_pos m) <= prec.
Proof. intros H. apply bounded_spec in H as [H _]. unfold SpecFloat.fexp in H. lia. Qed.

Lemma digits_prod m1 m2 : Zpos (digits2_pos m1) <= Zpos (digits2_pos (m1 * m2)).
Proof.
  pose proof (digits_bounds m1) as B1. pose proof (digits_bounds (m1 * m2)) as B2. rewrite Pos2Z.inj_mul in B2.
  destruct (Z.le_gt_cases (Zpos (digits2_pos m1)) (Zpos (digits2_pos (m1 * m2)))) as [|L2]; auto.
  assert (2 ^ Zpos (digits2_pos (m1 * m2)) <= 2 ^ (Zpos (digits2_pos m1) - 1)) by (apply Z.pow_le_mono_r; lia).
  set (a := 2 ^ _) in *. set (b := 2 ^ Zpos (digits2_pos (m1 * m2))) in *. clearbody a b. nia.
Qed.
Lemma same_value_digits m1 m2 a b : 0 <= a -> 0 <= b -> Zpos m1 * 2 ^ a = Zpos m2 * 2 ^ b -> Zpos (digits2_pos m1) + a = Zpos (digits2_pos m2) + b.
Proof.
  intros Ha Hb E. set (q := Z.to_pos (Zpos m1 * 2 ^ a)).
  assert (Eq : Zpos q = Zpos m1 * 2 ^ a) by (unfold q; rewrite Z2Pos.id; [reflexivity|apply Z.mul_pos_pos; [lia|apply Z.pow_pos_nonneg; lia]]).
  rewrite <- (digits_mul m1 _ Ha q Eq). rewrite E in Eq. now rewrite <- (digits_mul m2 _ Hb q Eq).
Qed.
Lemma sign_eq s1 s2 x y : 0 < x -> 0 < y -> cond_Zopp s1 x = cond_Zopp s2 y -> s1 = s2 /\ x = y.
Proof. destruct s1, s2; cbn [cond_Zopp]; intros; split; auto; lia. Qed.

Lemma SFmul_val f g h a b k l : isV f a k -> isV g b l -> 0 < b -> isV h (a * b) (k + l) -> SFmul prec emax f g = h.
Proof.
  intros Ha Hb Pb Hh. pose proof Ha as (Va & Fa & _). pose proof Hb as (Vb & Fb & _). pose proof Hh as (Vh & Fh & _).
  destruct g as [s2| | |s2 m2 e2]; try contradiction. { apply isV_is_zero in Hb as [_ ->]. lia. }
  assert (S2 : s2 = false).
  { destruct Hb as (_ & _ & _ & K & H1 & H2 & H3). cbn [V expGe] in *. assert (0 < 2 ^ (l - K)) by (apply Z.pow_pos_nonneg; lia). assert (0 < 2 ^ (e2 - K)) by (apply Z.pow_pos_nonneg; lia). destruct s2; cbn [cond_Zopp] in H3; [nia|reflexivity]. }
  subst s2. destruct f as [s1| | |s1 m1 e1]; try contradiction; cbn [SFmul].
  - apply isV_is_zero in Ha as [-> ->]. cbn. eapply isV_fun; [apply (isV_zero (k + l))|exact Hh].
  - rewrite xorb_false_r.
    destruct (isV_low _ _ _ Ha) as (K1 & HK1). destruct (isV_low _ _ _ Hb) as (K2 & HK2). destruct (isV_low _ _ _ Hh) as (K3 & HK3).
    set (L := Z.min K1 (Z.min K2 (Z.min 0 K3))).
    destruct (HK1 L ltac:(lia)) as (A1 & A2 & A3). destruct (HK2 L ltac:(lia)) as (B1 & B2 & B3). destruct (HK3 (L + L) ltac:(lia)) as (C1 & C2 & C3).
    destruct h as [s3| | |s3 m3 e3]; try contradiction.
    { apply isV_is_zero in Hh as [_ Z0]. pose proof (isV_nonzero _ _ _ _ _ Ha). nia. }
    cbn [V expGe valid_binary cond_Zopp] in *.
    assert (EV : cond_Zopp s3 (Zpos m3 * 2 ^ (e3 - (L + L))) = cond_Zopp s1 (Zpos m1 * Zpos m2 * 2 ^ (e1 + e2 - (L + L)))).
    { rewrite C3. replace (k + l - (L + L)) with (k - L + (l - L)) by lia. rewrite Z.pow_add_r by lia.
      replace (a * b * (2 ^ (k - L) * 2 ^ (l - L))) with (a * 2 ^ (k - L) * (b * 2 ^ (l - L))) by ring. rewrite <- A3, <- B3.
      replace (e1 + e2 - (L + L)) with (e1 - L + (e2 - L)) by lia. rewrite Z.pow_add_r by lia. destruct s1; cbn [cond_Zopp]; ring. }
    assert (P3 : 0 < 2 ^ (e3 - (L + L))) by (apply Z.pow_pos_nonneg; lia).
    assert (P12 : 0 < 2 ^ (e1 + e2 - (L + L))) by (apply Z.pow_pos_nonneg; lia).
    rewrite <- Pos2Z.inj_mul in EV.
    apply sign_eq in EV as [-> EM]; [|apply Z.mul_pos_pos; [lia|exact P3]|apply Z.mul_pos_pos; [lia|exact P12]].
    assert (LE : e1 + e2 <= e3).
    { pose proof (same_value_digits m3 (m1 * m2) (e3 - (L + L)) (e1 + e2 - (L + L)) ltac:(lia) ltac:(lia) EM) as ED. clear - ED Va Vb Vh Hp He.
      destruct (bounded_exp _ _ Va) as (U1 & U2 & U3). destruct (bounded_exp _ _ Vb) as (W1 & W2 & W3). apply bounded_spec in Vh as [Hc _].
      unfold SpecFloat.fexp in Hc. pose proof (digits_prod m1 m2). pose proof (digits_prod m2 m1) as Q. rewrite Pos.mul_comm in Q.
      unfold SpecFloat.emin in *. lia. }
    clear - EM LE P12 Vh C1. clearbody L.
    apply raux_exact with (j := e3 - (e1 + e2)); auto; [lia| |lia].
    replace (e3 - (L + L)) with (e3 - (e1 + e2) + (e1 + e2 - (L + L))) in EM by lia.
    assert (D : L + L <= e1 + e2 \/ e1 + e2 < L + L) by lia. destruct D as [D|D]; [|rewrite (Z.pow_neg_r 2 (e1 + e2 - (L + L))) in P12 by lia; lia].
    rewrite Z.pow_add_r, Z.mul_assoc in EM by lia. apply Z.mul_reg_r in EM; [lia|lia].
Qed.

(** ** Comparison *)
Lemma pos_compare m1 m2 e1 e2 K : bounded prec emax m1 e1 = true -> bounded prec emax m2 e2 = true -> K <= e1 -> e1 < e2 ->
  Zpos m1 * 2 ^ (e1 - K) < Zpos m2 * 2 ^ (e2 - K).
Proof.
  intros B1 B2 HK HE. destruct (bounded_exp _ _ B1) as (U1 & U2 & U3). destruct (bounded_exp _ _ B2) as (W1 & W2 & W3).
  assert (D2 : Zpos (digits2_pos m2) = prec) by lia.
  pose proof (digits_bounds m1) as X1. pose proof (digits_bounds m2) as X2. rewrite D2 in X2.
  assert (2 ^ Zpos (digits2_pos m1) <= 2 ^ prec) by (apply Z.pow_le_mono_r; lia).
  replace (e2 - K) with (1 + (e2 - e1 - 1) + (e1 - K)) by lia. rewrite !Z.pow_add_r by lia. change (2 ^ 1) with 2.
  assert (1 <= 2 ^ (e2 - e1 - 1)) by (assert (0 < 2 ^ (e2 - e1 - 1)) by (apply Z.pow_pos_nonneg; lia); lia).
  assert (0 < 2 ^ (e1 - K)) by (apply Z.pow_pos_nonneg; lia).
  assert (E : 2 ^ prec = 2 * 2 ^ (prec - 1)) by (replace prec with (1 + (prec - 1)) at 1 by lia; rewrite Z.pow_add_r by lia; reflexivity).
  assert (Zpos m1 < Zpos m2 * (2 * 2 ^ (e2 - e1 - 1))) by nia. nia.
Qed.

Lemma SFcompare_val f g a b k : isV f a k -> isV g b k -> SFcompare f g = Some (a ?= b).
Proof.
  intros Ha Hb. pose proof Ha as (Va & Fa & _). pose proof Hb as (Vb & Fb & _).
  destruct (isV_low _ _ _ Ha) as (K1 & HK1). destruct (isV_low _ _ _ Hb) as (K2 & HK2). set (K := Z.min K1 K2).
  destruct (HK1 K ltac:(lia)) as (A1 & A2 & A3). destruct (HK2 K ltac:(lia)) as (B1 & B2 & B3).
  assert (P : 0 < 2 ^ (k - K)) by (apply Z.pow_pos_nonneg; lia).
  assert (EC : (a ?= b) = (V f K ?= V g K)).
  { rewrite A3, B3. destruct (Z.compare_spec a b); symmetry; [apply Z.compare_eq_iff|apply Z.compare_lt_iff|apply Z.compare_gt_iff]; nia. }
  rewrite EC. clear EC A3 B3.
  destruct f as [s1| | |s1 m1 e1]; try contradiction; destruct g as [s2| | |s2 m2 e2]; try contradiction; cbn [V expGe valid_binary] in *; cbn [SFcompare].
  - reflexivity.
  - assert (0 < 2 ^ (e2 - K)) by (apply Z.pow_pos_nonneg; lia). destruct s2; cbn [cond_Zopp]; f_equal; symmetry; [apply Z.compare_gt_iff|apply Z.compare_lt_iff]; nia.
  - assert (0 < 2 ^ (e1 - K)) by (apply Z.pow_pos_nonneg; lia). destruct s1; cbn [cond_Zopp]; f_equal; symmetry; [apply Z.compare_lt_iff|apply Z.compare_gt_iff]; nia.
  - assert (Q1 : 0 < 2 ^ (e1 - K)) by (apply Z.pow_pos_nonneg; lia). assert (Q2 : 0 < 2 ^ (e2 - K)) by (apply Z.pow_pos_nonneg; lia).
    destruct s1, s2; cbn [cond_Zopp]; f_equal.
    + destruct (Z.compare_spec e1 e2) as [E|E|E]; symmetry.
      * subst e2. change (Pos.compare_cont Eq m1 m2) with (m1 ?= m2)%positive. rewrite <- Pos.compare_antisym.
        destruct (Pos.compare_spec m2 m1); [apply Z.compare_eq_iff|apply Z.compare_lt_iff|apply Z.compare_gt_iff]; nia.
      * apply Z.compare_gt_iff. pose proof (pos_compare m1 m2 e1 e2 K Va Vb A2 E). lia.
      * apply Z.compare_lt_iff. pose proof (pos_compare m2 m1 e2 e1 K Vb Va B2 E). lia.
    + symmetry. apply Z.compare_lt_iff. nia.
    + symmetry. apply Z.compare_gt_iff. nia.
    + destruct (Z.compare_spec e1 e2) as [E|E|E]; symmetry.
      * subst e2. change (Pos.compare_cont Eq m1 m2) with (m1 ?= m2)%positive.
        destruct (Pos.compare_spec m1 m2); [apply Z.compare_eq_iff|apply Z.compare_lt_iff|apply Z.compare_gt_iff]; nia.
      * apply Z.compare_lt_iff. exact (pos_compare m1 m2 e1 e2 K Va Vb A2 E).
      * apply Z.compare_gt_iff. exact (pos_compare m2 m1 e2 e1 K Vb Va B2 E).
Qed.

(** ** Conversions to integers *)
Lemma truncZ_val f a k : 0 <= k -> isV f a (- k) -> truncZ f = Some (Z.quot a (2 ^ k)).
Proof.
  intros Hk Ha. pose proof Ha as (_ & Fa & _). destruct f as [s| | |s m e]; try contradiction; cbn [truncZ].
  - apply isV_is_zero in Ha as [_ ->]. rewrite Z.quot_0_l; [reflexivity|]. apply Z.pow_nonzero; lia.
  - f_equal. destruct (isV_low _ _ _ Ha) as (K0 & HK). set (K := Z.min K0 (Z.min 0 (Z.min e (- k)))). destruct (HK K ltac:(lia)) as (H1 & H2 & H3). clear HK. cbn [V expGe] in H2, H3. clearbody K.
    assert (P : forall n, 0 <= n -> 0 < 2 ^ n) by (intros; apply Z.pow_pos_nonneg; lia).
    assert (QA : Z.quot a (2 ^ k) = Z.quot (a * 2 ^ (- k - K)) (2 ^ (- K))).
    { assert (EK : 2 ^ (- K) = 2 ^ k * 2 ^ (- k - K)) by (rewrite <- Z.pow_add_r by lia; f_equal; lia). rewrite EK. rewrite Z.quot_mul_cancel_r; auto; apply Z.pow_nonzero; lia. }
    rewrite QA, <- H3. destruct (0 <=? e) eqn:E.
    + replace (e - K) with (e + - K) by lia. rewrite Z.pow_add_r by lia. replace (cond_Zopp s (Zpos m * (2 ^ e * 2 ^ (- K)))) with (cond_Zopp s (Zpos m * 2 ^ e) * 2 ^ (- K)) by (destruct s; cbn [cond_Zopp]; ring).
      rewrite Z.quot_mul; [reflexivity|]. specialize (P (- K)). lia.
    + replace (cond_Zopp s (Zpos m * 2 ^ (e - K))) with (cond_Zopp s (Zpos m) * 2 ^ (e - K)) by (destruct s; cbn [cond_Zopp]; ring).
      assert (EK : 2 ^ (- K) = 2 ^ (- e) * 2 ^ (e - K)) by (rewrite <- Z.pow_add_r by lia; f_equal; lia). rewrite EK. rewrite Z.quot_mul_cancel_r; [|apply Z.pow_nonzero; lia|apply Z.pow_nonzero; lia].
      destruct s; cbn [cond_Zopp]; rewrite ?Z.quot_opp_l by (apply Z.pow_nonzero; lia); rewrite Z.quot_div_nonneg by (try apply P; lia); reflexivity.
Qed.

Lemma SFfloor_val f h a k : 0 <= k -> isV f a (- k) -> isV h (a / 2 ^ k) 0 -> SFfloor prec emax f = h.
Proof.
  intros Hk Ha Hh. pose proof Ha as (_ & Fa & _). destruct f as [s| | |s m e]; try contradiction; cbn [SFfloor].
  - apply isV_is_zero in Ha as [-> ->]. rewrite Z.div_0_l in Hh by (apply Z.pow_nonzero; lia). eapply isV_fun; [apply (isV_zero 0)|exact Hh].
  - destruct (isV_low _ _ _ Ha) as (K0 & HK). set (K := Z.min K0 (Z.min 0 (Z.min e (- k)))). destruct (HK K ltac:(lia)) as (H1 & H2 & H3). clear HK. cbn [V expGe] in H2, H3. clearbody K.
    assert (P : forall n, 0 <= n -> 0 < 2 ^ n) by (intros; apply Z.pow_pos_nonneg; lia).
    assert (QA : a / 2 ^ k = (a * 2 ^ (- k - K)) / 2 ^ (- K)).
    { assert (EK : 2 ^ (- K) = 2 ^ k * 2 ^ (- k - K)) by (rewrite <- Z.pow_add_r by lia; f_equal; lia). rewrite EK. rewrite Z.div_mul_cancel_r; auto; apply Z.pow_nonzero; lia. }
    rewrite QA, <- H3 in Hh. destruct (0 <=? e) eqn:E.
    + replace (e - K) with (e + - K) in Hh by lia. rewrite Z.pow_add_r in Hh by lia. replace (cond_Zopp s (Zpos m * (2 ^ e * 2 ^ (- K)))) with (cond_Zopp s (Zpos m * 2 ^ e) * 2 ^ (- K)) in Hh by (destruct s; cbn [cond_Zopp]; ring).
      rewrite Z.div_mul in Hh by (apply Z.pow_nonzero; lia). eapply isV_fun; [|exact Hh]. pose proof Ha as (Hv & _). pose proof (isV_finite s m e Hv) as G.
      apply (isV_down _ _ _ e) in G; [|lia]. rewrite Z.sub_diag in G. replace (cond_Zopp s (Zpos m * 2 ^ e)) with (cond_Zopp s (Zpos m) * 2 ^ e) by (destruct s; cbn [cond_Zopp]; ring). exact G.
    + apply isV_unique. replace (cond_Zopp s (Zpos m * 2 ^ (e - K))) with (cond_Zopp s (Zpos m) * 2 ^ (e - K)) in Hh by (destruct s; cbn [cond_Zopp]; ring).
      assert (EK : 2 ^ (- K) = 2 ^ (- e) * 2 ^ (e - K)) by (rewrite <- Z.pow_add_r by lia; f_equal; lia). rewrite EK in Hh. rewrite Z.div_mul_cancel_r in Hh; [exact Hh|apply Z.pow_nonzero; lia|apply Z.pow_nonzero; lia].
Qed.
End Facts.
