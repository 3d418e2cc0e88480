(** * The IEEE 754 interchange formats: floats and doubles as they are stored in files *)
From Verif Require Import Prelude PreludeFacts Float FloatFacts FloatConv.
From Coq Require Import Lia.

(** Bits of a binary floating-point number of precision [prec] and exponent range [emax] (IEEE 754-2008, 3.4): sign, biased exponent, fraction.
    Simplification: NaN is one value. *)
Definition fbits (prec emax : Z) (f : spec_float) : Z :=
  let frac := 2 ^ (prec - 1) in
  let sg (s : bool) := if s then 2 * emax * frac else 0 in
  match f with
  | S754_zero s => sg s
  | S754_infinity s => sg s + (2 * emax - 1) * frac
  | S754_nan => (2 * emax - 1) * frac + frac / 2
  | S754_finite s m e => sg s + (if Zpos m <? frac then Zpos m else (e - emin prec emax + 1) * frac + (Zpos m - frac))
  end.
Definition ofBits (prec emax : Z) (n : Z) : spec_float :=
  let frac := 2 ^ (prec - 1) in
  let s := 2 * emax * frac <=? n in
  let n := if s then n - 2 * emax * frac else n in
  let ex := n / frac in let fr := n mod frac in
  if ex =? 0 then (if fr =? 0 then S754_zero s else S754_finite s (Z.to_pos fr) (emin prec emax))
  else if ex =? 2 * emax - 1 then (if fr =? 0 then S754_infinity s else S754_nan)
  else S754_finite s (Z.to_pos (fr + frac)) (ex - 1 + emin prec emax).
(** float and double *)
Definition bits32 := fbits 24 128.
Definition bits64 := fbits 53 1024.
Definition of32 := ofBits 24 128.
Definition of64 := ofBits 53 1024.

Lemma fbits_round prec emax f : 2 <= prec -> prec < emax -> valid_binary prec emax f = true ->
  0 <= fbits prec emax f < 4 * emax * 2 ^ (prec - 1) /\ ofBits prec emax (fbits prec emax f) = f.
Proof.
  intros Hp He Hv.
  assert (P2 : 2 ^ (prec - 1) = 2 * 2 ^ (prec - 2)) by (replace (prec - 1) with (Z.succ (prec - 2)) by lia; apply Z.pow_succ_r; lia).
  assert (P0 : 0 < 2 ^ (prec - 2)) by (apply Z.pow_pos_nonneg; lia).
  destruct f as [s|s| |s m e]; unfold fbits, ofBits.
  - set (F := 2 ^ (prec - 1)) in *. set (G := 2 ^ (prec - 2)) in *. clearbody F G. destruct s.
    + split; [nia|]. rewrite Z.leb_refl, Z.sub_diag, Zdiv_0_l, Zmod_0_l. reflexivity.
    + split; [nia|]. replace (2 * emax * F <=? 0) with false by nia. rewrite Zdiv_0_l, Zmod_0_l. reflexivity.
  - set (F := 2 ^ (prec - 1)) in *. set (G := 2 ^ (prec - 2)) in *. clearbody F G.
    assert (E : (2 * emax - 1) * F / F = 2 * emax - 1) by (apply Z.div_mul; lia). assert (M : ((2 * emax - 1) * F) mod F = 0) by (apply Z.mod_mul; lia).
    destruct s.
    + split; [nia|]. replace (2 * emax * F <=? 2 * emax * F + (2 * emax - 1) * F) with true by nia. replace (2 * emax * F + (2 * emax - 1) * F - 2 * emax * F) with ((2 * emax - 1) * F) by lia.
      rewrite E, M, !Z.eqb_refl. replace (2 * emax - 1 =? 0) with false by lia. reflexivity.
    + rewrite Z.add_0_l. split; [nia|]. replace (2 * emax * F <=? (2 * emax - 1) * F) with false by nia. rewrite E, M, !Z.eqb_refl. replace (2 * emax - 1 =? 0) with false by lia. reflexivity.
  - set (F := 2 ^ (prec - 1)) in *. set (G := 2 ^ (prec - 2)) in *. clearbody F G. replace (F / 2) with G by lia. split; [nia|].
    replace (2 * emax * F <=? (2 * emax - 1) * F + G) with false by nia. rewrite (Z.add_comm _ G), Z.div_add, Z.mod_add, Z.div_small, Z.mod_small by lia. cbn [Z.add].
    rewrite !Z.eqb_refl. replace (2 * emax - 1 =? 0) with false by lia. replace (G =? 0) with false by lia. reflexivity.
  - cbn [valid_binary] in Hv. pose proof (proj2 (proj1 (bounded_spec prec emax m e) Hv)) as He2. destruct (bounded_exp prec emax m e Hv) as (He1 & Hd & Hd2).
    pose proof (digits_bounds m) as DB.
    assert (Hm : Zpos m < 2 * 2 ^ (prec - 1)).
    { replace (2 * 2 ^ (prec - 1)) with (2 ^ prec) by (replace prec with (Z.succ (prec - 1)) at 1 by lia; apply Z.pow_succ_r; lia).
      apply Z.lt_le_trans with (1 := proj2 DB). apply Z.pow_le_mono_r; lia. }
    assert (Hsm : Zpos m < 2 ^ (prec - 1) -> e = emin prec emax).
    { intros Hlt. destruct Hd as [Hd|Hd]; [exact Hd|]. rewrite Hd in DB. lia. }
    clear Hd Hd2 DB Hv. unfold emin in *. set (F := 2 ^ (prec - 1)) in *. set (G := 2 ^ (prec - 2)) in *. clearbody F G.
    destruct (Zpos m <? F) eqn:E1.
    + assert (e = 3 - emax - prec) as -> by (apply Hsm; lia). clear Hsm.
      assert (Q : Zpos m / F = 0) by (apply Z.div_small; lia). assert (Q2 : Zpos m mod F = Zpos m) by (apply Z.mod_small; lia).
      destruct s.
      * split; [nia|]. replace (2 * emax * F <=? 2 * emax * F + Zpos m) with true by nia. replace (2 * emax * F + Zpos m - 2 * emax * F) with (Zpos m) by lia.
        rewrite Q, Q2. reflexivity.
      * rewrite Z.add_0_l. split; [nia|]. replace (2 * emax * F <=? Zpos m) with false by nia. rewrite Q, Q2. reflexivity.
    + clear Hsm. set (k := e - (3 - emax - prec) + 1). assert (Hk : 1 <= k <= 2 * emax - 2) by lia.
      assert (Q : (k * F + (Zpos m - F)) / F = k). { rewrite Z.add_comm, Z.div_add, Z.div_small by lia. lia. }
      assert (Q2 : (k * F + (Zpos m - F)) mod F = Zpos m - F). { rewrite Z.add_comm, Z.mod_add, Z.mod_small by lia. lia. }
      assert (R : S754_finite s (Z.to_pos (Zpos m - F + F)) (k - 1 + (3 - emax - prec)) = S754_finite s m e).
      { replace (Zpos m - F + F) with (Zpos m) by lia. replace (k - 1 + (3 - emax - prec)) with e by lia. reflexivity. }
      destruct s.
      * split; [nia|]. replace (2 * emax * F <=? 2 * emax * F + (k * F + (Zpos m - F))) with true by nia.
        replace (2 * emax * F + (k * F + (Zpos m - F)) - 2 * emax * F) with (k * F + (Zpos m - F)) by lia. rewrite Q, Q2.
        replace (k =? 0) with false by lia. replace (k =? 2 * emax - 1) with false by lia. exact R.
      * rewrite Z.add_0_l. split; [nia|]. replace (2 * emax * F <=? k * F + (Zpos m - F)) with false by nia. rewrite Q, Q2.
        replace (k =? 0) with false by lia. replace (k =? 2 * emax - 1) with false by lia. exact R.
Qed.
Lemma bits32_round f : validF f = true -> 0 <= bits32 f < 2 ^ 32 /\ of32 (bits32 f) = f.
Proof. intros H. apply (fbits_round 24 128 f); [lia|lia|exact H]. Qed.
Lemma bits64_round f : validD f = true -> 0 <= bits64 f < 2 ^ 64 /\ of64 (bits64 f) = f.
Proof. intros H. apply (fbits_round 53 1024 f); [lia|lia|exact H]. Qed.

(** A float converted to double and back is the same float. *)
Lemma toFloat_toDouble f : validF f = true -> toFloat (toDouble f) = f.
Proof.
  destruct f as [s|s| |s m e]; try reflexivity. intros H. unfold validF in H. cbn [valid_binary] in H.
  pose proof (isV_finite 24 128 s m e H) as I. pose proof (toDouble_val _ _ _ I) as D.
  destruct (bounded_exp 24 128 m e H) as (He1 & Hd & Hd2). pose proof (proj2 (proj1 (bounded_spec 24 128 m e) H)) as He2. pose proof (digits_bounds m) as DB.
  assert (Hm : Zpos m < 2 ^ 24) by (apply Z.lt_le_trans with (1 := proj2 DB); apply Z.pow_le_mono_r; lia).
  assert (A : Z.abs (cond_Zopp s (Zpos m)) < 2 ^ 24) by (destruct s; cbn; lia).
  pose proof (toFloat_val _ _ _ D A) as Fv. unfold emin in *. specialize (Fv ltac:(lia) ltac:(lia)). exact (isV_fun 24 128 ltac:(lia) _ _ _ _ Fv I).
Qed.
