(** * The results of IEEE 754 operations are floats: [valid_binary] is preserved *)
From Coq Require Import Floats.SpecFloat.
From Verif Require Import Prelude PreludeFacts Float FloatFacts.
From Coq Require Import Lia.

Section Valid.
Context (prec emax : Z) (Hp : 1 < prec) (He : prec < emax).
Notation emin := (emin prec emax).
Notation fexp := (fexp prec emax).
Notation valid := (valid_binary prec emax).

Lemma shr_1_m r : 0 <= shr_m r -> shr_m (shr_1 r) = shr_m r / 2.
Proof.
  destruct r as [m r s]. cbn [shr_m]. intros H. destruct m as [|p|p]; [reflexivity| |lia]. destruct p as [p|p|]; cbn [shr_1 shr_m]; [|  |reflexivity].
  - replace (Zpos p~1) with (1 + Zpos p * 2) by lia. rewrite Z.div_add by lia. reflexivity.
  - replace (Zpos p~0) with (Zpos p * 2) by lia. rewrite Z.div_mul by lia. reflexivity.
Qed.
Lemma shr_iter_m n : forall r, 0 <= shr_m r -> shr_m (SpecFloat.iter_pos shr_1 n r) = shr_m r / 2 ^ Zpos n.
Proof.
  induction n as [n IH|n IH|]; intros r H; cbn [SpecFloat.iter_pos].
  - assert (H1 : 0 <= shr_m (shr_1 r)) by (rewrite shr_1_m by auto; apply Z.div_pos; lia).
    assert (P : 0 < 2 ^ Zpos n) by (apply Z.pow_pos_nonneg; lia).
    rewrite IH. 2:{ rewrite IH by auto. apply Z.div_pos; lia. } rewrite IH by auto. rewrite shr_1_m by auto.
    rewrite !Z.div_div by lia. f_equal. replace (Zpos n~1) with (1 + (Zpos n + Zpos n)) by lia. rewrite !Z.pow_add_r by lia. ring.
  - assert (P : 0 < 2 ^ Zpos n) by (apply Z.pow_pos_nonneg; lia).
    rewrite IH. 2:{ rewrite IH by auto. apply Z.div_pos; lia. } rewrite IH by auto. rewrite !Z.div_div by lia. f_equal.
    replace (Zpos n~0) with (Zpos n + Zpos n) by lia. rewrite Z.pow_add_r by lia. reflexivity.
  - change (2 ^ 1) with 2. apply shr_1_m. auto.
Qed.
Lemma srl_m m l : shr_m (shr_record_of_loc m l) = m.
Proof. destruct l as [|[]]; reflexivity. Qed.
(** [shr] by [k >= 0] bits *)
Lemma shr_spec m l e k : 0 <= m -> 0 <= k -> exists r, shr (shr_record_of_loc m l) e k = (r, e + k) /\ shr_m r = m / 2 ^ k.
Proof.
  intros Hm Hk. unfold shr. destruct k as [|k|k]; [| |lia].
  - eexists. split; [f_equal; lia|]. rewrite srl_m. change (2 ^ 0) with 1. rewrite Z.div_1_r. reflexivity.
  - eexists. split; [reflexivity|]. rewrite shr_iter_m by (rewrite srl_m; lia). rewrite srl_m. reflexivity.
Qed.
Lemma rne_range m l : 0 <= m -> m <= round_nearest_even m l <= m + 1.
Proof. intros H. destruct l as [|[]]; cbn; try lia. destruct (Z.even m); lia. Qed.
Lemma Zdigits_pos m : 0 < m -> Zdigits2 m = Zpos (digits2_pos (Z.to_pos m)) /\ Zpos (Z.to_pos m) = m.
Proof. intros H. destruct m; try lia. split; reflexivity. Qed.

Lemma raux_valid s m e l : 0 <= m -> e <= fexp (Zdigits2 m + e) -> valid (binary_round_aux prec emax s m e l) = true.
Proof.
  intros Hm Hk. unfold binary_round_aux, shr_fexp. set (D := Zdigits2 m) in *.
  destruct (shr_spec m l e (fexp (D + e) - e) Hm ltac:(lia)) as (r1 & E1 & M1). rewrite E1. replace (e + (fexp (D + e) - e)) with (fexp (D + e)) by lia.
  set (e1 := fexp (D + e)) in *. set (k := e1 - e) in *.
  assert (D0 : 0 <= D /\ (m = 0 /\ D = 0 \/ 0 < m /\ 2 ^ (D - 1) <= m < 2 ^ D /\ 0 < D)).
  { destruct (Z.eq_dec m 0) as [->|Nz]; [cbn in D; subst D; lia|]. destruct (Zdigits_pos m ltac:(lia)) as [Z1 Z2]. pose proof (digits_bounds (Z.to_pos m)) as B. rewrite Z2, <- Z1 in B. fold D in B, Z1. lia. }
  assert (Em : emin <= e1 /\ D + e - prec <= e1 /\ (e1 = emin \/ e1 = D + e - prec)) by (unfold e1, SpecFloat.fexp; lia).
  assert (P2 : 0 < 2 ^ k) by (apply Z.pow_pos_nonneg; lia).
  assert (B1 : 0 <= shr_m r1 < 2 ^ prec).
  { rewrite M1. split; [apply Z.div_pos; lia|]. destruct D0 as [DD [[-> _]|(Pm & B & _)]]; [rewrite Zdiv_0_l; apply Z.pow_pos_nonneg; lia|].
    apply Z.div_lt_upper_bound; [lia|]. rewrite <- Z.pow_add_r by lia. apply Z.lt_le_trans with (2 ^ D); [lia|]. apply Z.pow_le_mono_r; lia. }
  assert (B2 : e1 <> emin -> 2 ^ (prec - 1) <= shr_m r1).
  { intros N. rewrite M1. destruct D0 as [DD [[-> E]|(Pm & B & PD)]]; [lia|]. apply Z.div_le_lower_bound; [lia|]. rewrite <- Z.pow_add_r by lia. replace (k + (prec - 1)) with (D - 1) by lia. lia. }
  pose proof (rne_range (shr_m r1) (loc_of_shr_record r1) ltac:(lia)) as R. set (m2 := round_nearest_even (shr_m r1) (loc_of_shr_record r1)) in *. clearbody m2.
  clearbody k e1. clear E1 M1 Hk.
  assert (F1 : forall x, fexp (x + e1) = Z.max (x + e1 - prec) emin) by reflexivity.
  destruct (Z.eq_dec m2 0) as [->|N2].
  { change (Zdigits2 0) with 0. rewrite F1. replace (Z.max (0 + e1 - prec) emin - e1) with (- (e1 - Z.max (0 + e1 - prec) emin)) by lia.
    destruct (e1 - Z.max (0 + e1 - prec) emin) as [|p|p] eqn:Q; cbn [Z.opp shr shr_record_of_loc shr_m]; try reflexivity. lia. }
  destruct (Zdigits_pos m2 ltac:(lia)) as [Z1 Z2]. pose proof (digits_bounds (Z.to_pos m2)) as DB. rewrite Z2 in DB. rewrite Z1. set (d2 := Zpos (digits2_pos (Z.to_pos m2))) in *.
  destruct (Z.eq_dec m2 (2 ^ prec)) as [E2|N3].
  - assert (d2 = prec + 1). { apply digits_unique. rewrite Z2, E2. replace (prec + 1 - 1) with prec by lia. split; [lia|apply Z.pow_lt_mono_r; lia]. }
    rewrite F1. replace (Z.max (d2 + e1 - prec) emin - e1) with 1 by lia.
    destruct (shr_spec m2 loc_Exact e1 1 ltac:(lia) ltac:(lia)) as (r2 & E3 & M3). rewrite E3, M3. change (2 ^ 1) with 2.
    assert (E4 : 2 ^ prec = 2 ^ (prec - 1) * 2) by (replace prec with (prec - 1 + 1) at 1 by lia; rewrite Z.pow_add_r by lia; reflexivity).
    rewrite E2, E4, Z.div_mul by lia.
    assert (P3 : 0 < 2 ^ (prec - 1)) by (apply Z.pow_pos_nonneg; lia). destruct (2 ^ (prec - 1)) as [|p|p] eqn:EP; try lia.
    destruct (e1 + 1 <=? emax - prec) eqn:LE; [|reflexivity]. cbn [valid_binary]. apply bounded_spec. split; [|lia].
    rewrite (digits_unique p prec). 2:{ rewrite <- EP. split; [lia|]. apply Z.pow_lt_mono_r; lia. }
    unfold SpecFloat.fexp. lia.
  - assert (LT : d2 <= prec). { destruct (Z.le_gt_cases d2 prec); auto. assert (2 ^ prec <= 2 ^ (d2 - 1)) by (apply Z.pow_le_mono_r; lia). lia. }
    assert (EQ : fexp (d2 + e1) = e1).
    { rewrite F1. destruct (Z.eq_dec e1 emin); [lia|]. specialize (B2 n). assert (d2 = prec); [|lia]. apply digits_unique. rewrite Z2. lia. }
    rewrite EQ, Z.sub_diag. cbn [shr shr_record_of_loc shr_m]. rewrite <- Z2. destruct (e1 <=? emax - prec) eqn:LE; [|reflexivity]. cbn [valid_binary]. apply bounded_spec. split; [exact EQ|lia].
Qed.

Lemma round_valid s m e : valid (binary_round prec emax s m e) = true.
Proof.
  unfold binary_round. set (d := Zpos (digits2_pos m)). unfold shl_align. destruct (fexp (d + e) - e) as [|p|p] eqn:E.
  - apply raux_valid; [lia|]. cbn [Zdigits2]. fold d. lia.
  - apply raux_valid; [lia|]. cbn [Zdigits2]. fold d. lia.
  - apply raux_valid; [lia|]. cbn [Zdigits2]. rewrite (digits_mul m (Zpos p) ltac:(lia) _ (shift_pos_mul p m)). fold d.
    replace (d + Zpos p + fexp (d + e)) with (d + e) by lia. lia.
Qed.
Lemma norm_valid z e b : valid (binary_normalize prec emax z e b) = true.
Proof. destruct z; cbn; [reflexivity| |]; apply round_valid. Qed.

Lemma SFadd_valid f g : valid f = true -> valid g = true -> valid (SFadd prec emax f g) = true.
Proof. intros Hf Hg. destruct f as [[]|[]| |], g as [[]|[]| |]; cbn [SFadd Bool.eqb valid_binary]; auto; apply norm_valid. Qed.
Lemma SFsub_valid f g : valid f = true -> valid g = true -> valid (SFsub prec emax f g) = true.
Proof. intros Hf Hg. destruct f as [[]|[]| |], g as [[]|[]| |]; cbn [SFsub Bool.eqb negb valid_binary]; auto; apply norm_valid. Qed.
Lemma SFmul_valid f g : valid f = true -> valid g = true -> valid (SFmul prec emax f g) = true.
Proof.
  intros Hf Hg. destruct f as [s1|s1| |s1 m1 e1], g as [s2|s2| |s2 m2 e2]; try reflexivity. cbn [SFmul]. cbn [valid_binary] in Hf, Hg.
  destruct (bounded_exp prec emax m1 e1 Hf) as (A1 & A2 & A3). destruct (bounded_exp prec emax m2 e2 Hg) as (B1 & B2 & B3).
  apply raux_valid; [lia|]. cbn [Zdigits2]. pose proof (digits_prod m1 m2) as P1. pose proof (digits_prod m2 m1) as P2. rewrite Pos.mul_comm in P2.
  unfold SpecFloat.fexp, SpecFloat.emin in *. lia.
Qed.
Lemma SFdiv_valid f g : valid f = true -> valid g = true -> valid (SFdiv prec emax f g) = true.
Proof.
  intros Hf Hg. destruct f as [s1|s1| |s1 m1 e1], g as [s2|s2| |s2 m2 e2]; try reflexivity. cbn [SFdiv].
  unfold SFdiv_core_binary. cbn [Zdigits2]. set (d1 := Zpos (digits2_pos m1)). set (d2 := Zpos (digits2_pos m2)).
  set (e' := Z.min (fexp (d1 + e1 - (d2 + e2))) (e1 - e2)). set (s := e1 - e2 - e'). assert (Hs : 0 <= s) by lia.
  assert (M : (match s with Z0 => Zpos m1 | Zpos _ => Z.shiftl (Zpos m1) s | Zneg _ => 0 end) = Zpos m1 * 2 ^ s).
  { clearbody s. destruct s as [|p|p]; [change (2 ^ 0) with 1; lia| |lia]. apply Z.shiftl_mul_pow2. lia. }
  rewrite M. pose proof (Z_div_mod (Zpos m1 * 2 ^ s) (Zpos m2) ltac:(lia)) as DM. destruct (Z.div_eucl (Zpos m1 * 2 ^ s) (Zpos m2)) as [q r]. destruct DM as [DM Hr].
  assert (P2 : 0 < 2 ^ s) by (apply Z.pow_pos_nonneg; lia). assert (Hq : 0 <= q) by nia.
  apply raux_valid; [exact Hq|].
  pose proof (digits_bounds m1) as D1. fold d1 in D1. pose proof (digits_bounds m2) as D2. fold d2 in D2.
  destruct (Z.eq_dec q 0) as [->|Nq].
  - change (Zdigits2 0) with 0.
    (* the quotient is too small: its exponent is the least *)
    assert (L : Zpos m1 * 2 ^ s < Zpos m2) by lia. assert (Hd1 : 0 < d1) by (unfold d1; lia). assert (Hd2 : 0 < d2) by (unfold d2; lia).
    assert (2 ^ (d1 - 1 + s) < 2 ^ d2) by (rewrite Z.pow_add_r by lia; nia). apply Z.pow_lt_mono_r_iff in H; [|lia|lia].
    unfold e', s in *. unfold SpecFloat.fexp in *. lia.
  - destruct (Zdigits_pos q ltac:(lia)) as [Z1 Z2]. pose proof (digits_bounds (Z.to_pos q)) as Bq. rewrite Z2 in Bq. rewrite Z1. set (dq := Zpos (digits2_pos (Z.to_pos q))) in *.
    assert (Hd1 : 0 < d1) by (unfold d1; lia). assert (Hd2 : 0 < d2) by (unfold d2; lia). assert (Hdq : 0 < dq) by (unfold dq; lia).
    assert (L : d1 - 1 + s < dq + d2).
    { apply (Z.pow_lt_mono_r_iff 2); [lia|lia|]. rewrite !Z.pow_add_r by lia. clear -DM Hr D1 D2 Bq P2.
      assert (q + 1 <= 2 ^ dq) by lia. assert (Zpos m1 * 2 ^ s < Zpos m2 * (q + 1)) by lia. nia. }
    unfold e', s in *. unfold SpecFloat.fexp in *. lia.
Qed.
End Valid.

Lemma dadd_valid f g : validD f = true -> validD g = true -> validD (dadd f g) = true.
Proof. apply SFadd_valid; lia. Qed.
Lemma dsub_valid f g : validD f = true -> validD g = true -> validD (dsub f g) = true.
Proof. apply SFsub_valid; lia. Qed.
Lemma dmul_valid f g : validD f = true -> validD g = true -> validD (dmul f g) = true.
Proof. apply SFmul_valid; lia. Qed.
Lemma ddiv_valid f g : validD f = true -> validD g = true -> validD (ddiv f g) = true.
Proof. apply SFdiv_valid; lia. Qed.
Lemma dOfZ_valid z : validD (dOfZ z) = true.
Proof. apply norm_valid; lia. Qed.
Lemma fOfZ_valid z : validF (fOfZ z) = true.
Proof. apply norm_valid; lia. Qed.
Lemma toFloat_valid f : validF (toFloat f) = true.
Proof. destruct f; try reflexivity. apply (round_valid 24 128); lia. Qed.
Lemma toDouble_valid f : validD (toDouble f) = true.
Proof. destruct f; try reflexivity. apply (round_valid 53 1024); lia. Qed.
Lemma dldexp_valid f n : validD f = true -> validD (dldexp f n) = true.
Proof. unfold dldexp, SFldexp. destruct f; intros H; try exact H. apply (round_valid 53 1024); lia. Qed.
