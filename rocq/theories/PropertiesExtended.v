(** * C41: 80-bit floating-point numbers *)
From Verif Require Import Prelude PreludeFacts ByteOrder ByteOrderProofs Float FloatFacts Extended.

Notation isV := (isV 53 1024).
Lemma isVs z k : Z.abs z < 2 ^ 53 -> -1074 <= k -> k <= 971 -> isV (binary_normalize 53 1024 z k false) z k.
Proof. intros. apply isV_small; unfold emin; lia. Qed.

(** ** The 32-bit halves *)
Lemma f2u u : 0 <= u < 2 ^ 32 -> forall f, isV f u 0 -> floatToUnsigned f = Ok u.
Proof.
  intros Hu f Hf. change (2 ^ 32) with 4294967296 in Hu. unfold floatToUnsigned.
  assert (E : dsub f (dOfZ 2147483648) = binary_normalize 53 1024 (u - 2147483648) 0 false).
  { unfold dsub. eapply SFsub_val; [lia|exact Hf| |]; [apply isVs|apply isVs]; change (2 ^ 53) with 9007199254740992; lia. }
  rewrite E. unfold toInt. rewrite (truncZ_val 53 1024 _ (u - 2147483648) 0) by (try lia; apply isVs; change (2 ^ 53) with 9007199254740992; lia).
  change (2 ^ 0) with 1. rewrite Z.quot_1_r.
  replace (inS 64 (u - 2147483648)) with true by (symmetry; apply inS_spec; change (2 ^ (64 - 1)) with 9223372036854775808; lia). cbn [rbind].
  replace (inS 64 (u - 2147483648 + 2147483647)) with true by (symmetry; apply inS_spec; change (2 ^ (64 - 1)) with 9223372036854775808; lia).
  f_equal. unfold u64, uN. change (2 ^ 64) with 18446744073709551616. lia.
Qed.
Lemma u2f u : 0 <= u < 2 ^ 32 -> isV (unsignedToFloat u) u 0.
Proof.
  intros Hu. change (2 ^ 32) with 4294967296 in Hu. unfold unsignedToFloat.
  replace (s64 (u64 (u64 (u - 2147483647) - 1))) with (u - 2147483648) by (unfold s64, u64, sN, uN; change (2 ^ (64 - 1)) with 9223372036854775808; change (2 ^ 64) with 18446744073709551616; lia).
  assert (E : dadd (dOfZ (u - 2147483648)) (dOfZ 2147483648) = binary_normalize 53 1024 u 0 false).
  { unfold dadd. eapply SFadd_val; [lia| | |]; [apply isVs|apply isVs|]; try (change (2 ^ 53) with 9007199254740992; lia).
    replace (u - 2147483648 + 2147483648) with u by lia. apply isVs; change (2 ^ 53) with 9007199254740992; lia. }
  rewrite E. apply isVs; change (2 ^ 53) with 9007199254740992; lia.
Qed.

(** ** Writing *)
Lemma to_mantissa m' E sign : 2 ^ 52 <= m' < 2 ^ 53 -> -1073 <= E <= 1024 -> forall fm, isV fm m' (-53) ->
  (let expon := E + 16382 in
   let '(fMant, expon) := if expon <? 0 then (dldexp fm expon, 0) else (fm, expon) in
   let expon := Z.lor expon sign in
   let fMant := dldexp fMant 32 in
   let fsMant := dfloor fMant in
   do hi <- floatToUnsigned fsMant;
   let fMant := dldexp (dsub fMant fsMant) 32 in
   let fsMant := dfloor fMant in
   do lo <- floatToUnsigned fsMant;
   Ok (expon, hi, lo)) = Ok (Z.lor (E + 16382) sign, m' / 2 ^ 21, m' mod 2 ^ 21 * 2 ^ 11).
Proof.
  intros Hm HE fm Hf. cbv zeta. replace (E + 16382 <? 0) with false by lia.
  change (2 ^ 52) with 4503599627370496 in *. change (2 ^ 53) with 9007199254740992 in *. change (2 ^ 21) with 2097152. change (2 ^ 11) with 2048.
  assert (I1 : isV (binary_normalize 53 1024 m' (-21) false) m' (-21)) by (apply isVs; change (2 ^ 53) with 9007199254740992; lia).
  assert (E1 : dldexp fm 32 = binary_normalize 53 1024 m' (-21) false).
  { unfold dldexp. eapply SFldexp_val; [lia|exact Hf|exact I1]. }
  rewrite E1. set (hi := m' / 2097152).
  assert (I2 : isV (binary_normalize 53 1024 hi 0 false) hi 0) by (apply isVs; change (2 ^ 53) with 9007199254740992; lia).
  assert (E2 : dfloor (binary_normalize 53 1024 m' (-21) false) = binary_normalize 53 1024 hi 0 false).
  { unfold dfloor. eapply (SFfloor_val 53 1024) with (k := 21); [lia|lia|exact I1|exact I2]. }
  rewrite E2. rewrite (f2u hi) by (auto; change (2 ^ 32) with 4294967296; lia). cbn [rbind].
  set (r := m' mod 2097152).
  assert (I3 : isV (binary_normalize 53 1024 r (-21) false) r (-21)) by (apply isVs; change (2 ^ 53) with 9007199254740992; lia).
  assert (E3 : dsub (binary_normalize 53 1024 m' (-21) false) (binary_normalize 53 1024 hi 0 false) = binary_normalize 53 1024 r (-21) false).
  { unfold dsub. eapply SFsub_val with (b := hi * 2097152); [lia|exact I1|apply (isV_down _ _ _ _ 0 21) in I2; [exact I2|lia]|].
    replace (m' - hi * 2097152) with r by lia. exact I3. }
  rewrite E3.
  assert (I4 : isV (binary_normalize 53 1024 r 11 false) r 11) by (apply isVs; change (2 ^ 53) with 9007199254740992; lia).
  assert (E4 : dldexp (binary_normalize 53 1024 r (-21) false) 32 = binary_normalize 53 1024 r 11 false).
  { unfold dldexp. eapply SFldexp_val; [lia|exact I3|exact I4]. }
  rewrite E4. apply (isV_down _ _ _ _ 11 11) in I4; [|lia]. change (11 - 11) with 0 in I4. change (2 ^ 11) with 2048 in I4.
  assert (E5 : dfloor (binary_normalize 53 1024 r 11 false) = binary_normalize 53 1024 r 11 false).
  { unfold dfloor. eapply (SFfloor_val 53 1024) with (k := 0); [lia|lia|exact I4|]. change (2 ^ 0) with 1. rewrite Z.div_1_r. exact I4. }
  rewrite E5. rewrite (f2u (r * 2048)) by (auto; change (2 ^ 32) with 4294967296; lia). reflexivity.
Qed.

Lemma frexp_finite s m e : bounded 53 1024 m e = true ->
  exists m' E, let d := Zpos (digits2_pos m) in dfrexp (S754_finite s m e) = (S754_finite s m' (-53), E) /\ Zpos m' = Zpos m * 2 ^ (53 - d) /\ E = e + d /\ d <= 53 /\ 2 ^ 52 <= Zpos m' < 2 ^ 53 /\ bounded 53 1024 m' (-53) = true.
Proof.
  intros Hb. pose proof (bounded_exp 53 1024 _ _ Hb) as (B1 & B2 & B3). pose proof (digits_bounds m) as D.
  set (d := Zpos (digits2_pos m)) in *. unfold dfrexp, SFfrexp.
  assert (G : forall m', Zpos m' = Zpos m * 2 ^ (53 - d) -> 2 ^ 52 <= Zpos m' < 2 ^ 53 /\ bounded 53 1024 m' (-53) = true).
  { intros m' Em. assert (R : 2 ^ 52 <= Zpos m' < 2 ^ 53).
    { rewrite Em. replace (2 ^ 52) with (2 ^ (d - 1) * 2 ^ (53 - d)) by (rewrite <- Z.pow_add_r by lia; f_equal; lia).
      replace (2 ^ 53) with (2 ^ d * 2 ^ (53 - d)) by (rewrite <- Z.pow_add_r by lia; f_equal; lia).
      assert (0 < 2 ^ (53 - d)) by (apply Z.pow_pos_nonneg; lia). nia. }
    split; [exact R|]. apply bounded_spec. rewrite (digits_unique m' 53) by exact R. unfold fexp, emin. lia. }
  destruct (Z.to_pos 53 <=? digits2_pos m)%positive eqn:C.
  - apply Pos.leb_le in C. assert (Ed : d = 53) by (change (Z.to_pos 53) with 53%positive in C; unfold d; lia).
    assert (Em : Zpos m = Zpos m * 2 ^ (53 - d)) by (rewrite Ed; change (2 ^ (53 - 53)) with 1; lia).
    destruct (G m Em). exists m, (e + 53). cbv zeta. repeat split; auto; lia.
  - apply Pos.leb_gt in C. assert (Ed : d < 53) by (change (Z.to_pos 53) with 53%positive in C; unfold d; lia).
    eexists _, _. cbv zeta. split; [reflexivity|].
    assert (Em : Zpos (shift_pos (Z.to_pos (53 - d)) m) = Zpos m * 2 ^ (53 - d)) by (rewrite shift_pos_mul, Z2Pos.id by lia; reflexivity).
    destruct (G _ Em). fold d. repeat split; auto; lia.
Qed.

(** The ten bytes of sign and exponent (16 bits) and mantissa (64 bits). *)
Definition extBytes (neg : bool) (E mant : Z) : list Z := be_bytes 2 ((if neg then 32768 else 0) + E) ++ be_bytes 8 mant.

Lemma bytes_of_word x : 0 <= x -> [u8 (Z.shiftr x 24); u8 (Z.shiftr x 16); u8 (Z.shiftr x 8); u8 x] = be_bytes 4 x.
Proof.
  intros Hx. rewrite !Z.shiftr_div_pow2 by lia. change (2 ^ 24) with 16777216. change (2 ^ 16) with 65536. change (2 ^ 8) with 256.
  unfold be_bytes. cbn [le_bytes rev app]. unfold u8, uN. rewrite ?Z.div_div by lia. reflexivity.
Qed.
Lemma bytes_of_half x : 0 <= x -> [u8 (Z.shiftr x 8); u8 x] = be_bytes 2 x.
Proof.
  intros Hx. rewrite !Z.shiftr_div_pow2 by lia. change (2 ^ 8) with 256.
  unfold be_bytes. cbn [le_bytes rev app]. unfold u8, uN. rewrite ?Z.div_div by lia. reflexivity.
Qed.
Lemma be_8_split hi lo : 0 <= lo < 2 ^ 32 -> be_bytes 8 (hi * 2 ^ 32 + lo) = be_bytes 4 hi ++ be_bytes 4 lo.
Proof.
  intros H. change (2 ^ 32) with 4294967296 in *. unfold be_bytes. cbn [le_bytes rev app]. rewrite ?Z.div_div by lia.
  repeat match goal with |- ?a :: ?l = ?b :: ?m => let E := fresh in assert (E : a = b) by lia; rewrite E; clear E; apply (f_equal (cons b)) end. reflexivity.
Qed.

Definition ext10 (expon hi lo : Z) : list Z :=
  [u8 (Z.shiftr expon 8); u8 expon;
   u8 (Z.shiftr hi 24); u8 (Z.shiftr hi 16); u8 (Z.shiftr hi 8); u8 hi;
   u8 (Z.shiftr lo 24); u8 (Z.shiftr lo 16); u8 (Z.shiftr lo 8); u8 lo].

Lemma toExtended_finite s m e : bounded 53 1024 m e = true ->
  exists m', let d := Zpos (digits2_pos m) in
    toExtended (S754_finite s m e) = Ok (ext10 ((if s then 32768 else 0) + (e + d + 16382)) (m' / 2 ^ 21) (m' mod 2 ^ 21 * 2 ^ 11)) /\
    m' = Zpos m * 2 ^ (53 - d) /\ 1 <= d <= 53 /\ 2 ^ 52 <= m' < 2 ^ 53 /\ -1074 <= e <= 971.
Proof.
  intros Hv. pose proof (bounded_exp 53 1024 _ _ Hv) as (B1 & B2 & B3).
  assert (Hv' := Hv). apply bounded_spec in Hv' as [_ B4]. change (emin 53 1024) with (-1074) in *. change (1024 - 53) with 971 in B4.
  destruct (frexp_finite false m e Hv) as (m' & E & FE & Em & EE & Hd & Rm & Hb'). set (d := Zpos (digits2_pos m)) in *.
  assert (Hd1 : 1 <= d) by (unfold d; lia).
  exists (Zpos m'). cbv zeta. split; [|repeat split; try assumption; lia].
  assert (TM := to_mantissa (Zpos m') E (if s then 0x8000 else 0) Rm ltac:(lia) (S754_finite false m' (-53)) (isV_finite 53 1024 false m' (-53) Hb')).
  unfold toExtended.
  replace (if SFltb (S754_finite s m e) dzero then (32768, SFopp (S754_finite s m e)) else (0, S754_finite s m e)) with ((if s then 0x8000 else 0), S754_finite false m e) by (destruct s; reflexivity).
  change (SFeqb (S754_finite false m e) dzero) with false. cbv iota beta. rewrite FE. cbv iota beta.
  assert (LT : SFltb (S754_finite false m' (-53)) done = true).
  { unfold SFltb. rewrite (SFcompare_val 53 1024 ltac:(lia) _ _ (Zpos m') (1 * 2 ^ 53) (-53)).
    - assert (Zpos m' ?= 1 * 2 ^ 53 = Lt) as -> by (apply Z.compare_lt_iff; lia). reflexivity.
    - apply (isV_finite 53 1024 false m' (-53) Hb').
    - apply (isV_down _ _ _ 1 0 53); [lia|]. apply isVs; [reflexivity|lia|lia]. }
  rewrite LT. replace (16384 <? E) with false by lia. cbn [negb orb]. cbv zeta in TM. rewrite TM. cbn [rbind].
  assert (EX : Z.lor (E + 16382) (if s then 32768 else 0) = (if s then 32768 else 0) + (e + d + 16382)).
  { rewrite <- EE. destruct s; [|rewrite Z.lor_0_r; lia]. change 32768 with (1 * 2 ^ 15). rewrite lor_disjoint by (change (2 ^ 15) with 32768; lia). lia. }
  rewrite EX. reflexivity.
Qed.

(** The value [f] is (-1)^neg * mant * 2^(E - 16383 - 63), the definition of the 80-bit format, with the
    leading bit of the mantissa set; both sides are scaled by 2^2000 to make the exponents positive. *)
Theorem C41_extended_value :
  forall s m e, validD (S754_finite s m e) = true ->
    exists E mant, toExtended (S754_finite s m e) = Ok (extBytes s E mant) /\
      0 < E < 32767 /\ 2 ^ 63 <= mant < 2 ^ 64 /\
      0 <= E - 16383 - 63 + 2000 /\ 0 <= e + 2000 /\
      mant * 2 ^ (E - 16383 - 63 + 2000) = Zpos m * 2 ^ (e + 2000).
Proof.
  intros s m e Hv. cbn in Hv. destruct (toExtended_finite s m e Hv) as (m' & TE & Em & Hd & Rm & He). set (d := Zpos (digits2_pos m)) in *.
  exists (e + d + 16382), (m' * 2 ^ 11).
  split.
  - rewrite TE. unfold extBytes.
    assert (P0 : 0 <= (if s then 32768 else 0) + (e + d + 16382)) by (destruct s; lia).
    rewrite <- (bytes_of_half _ P0).
    replace (m' * 2 ^ 11) with (m' / 2 ^ 21 * 2 ^ 32 + m' mod 2 ^ 21 * 2 ^ 11).
    2:{ pose proof (Z.div_mod m' (2 ^ 21) ltac:(discriminate)). change (2 ^ 32) with (2 ^ 21 * 2 ^ 11). nia. }
    assert (0 <= m' mod 2 ^ 21 < 2 ^ 21) by (apply Z.mod_pos_bound; reflexivity). assert (0 <= m' / 2 ^ 21) by (apply Z.div_pos; [lia|reflexivity]).
    rewrite be_8_split by (change (2 ^ 32) with (2 ^ 21 * 2 ^ 11); nia). rewrite <- !bytes_of_word by (try assumption; nia). reflexivity.
  - split; [lia|]. split; [change (2 ^ 63) with (2 ^ 52 * 2 ^ 11); change (2 ^ 64) with (2 ^ 53 * 2 ^ 11); nia|]. split; [lia|]. split; [lia|].
    rewrite Em. replace (e + 2000) with (53 - d + (11 + (e + d + 16382 - 16383 - 63 + 2000))) by lia.
    assert (K0 : 0 <= e + d + 16382 - 16383 - 63 + 2000) by lia. set (k := e + d + 16382 - 16383 - 63 + 2000) in *. clearbody k.
    rewrite !(Z.pow_add_r 2) by lia. ring.
Qed.
Print Assumptions C41_extended_value.


(** ** Reading *)
Lemma lor_byte a b n : 0 <= n -> 0 <= b < 256 -> Z.lor (a * 2 ^ (8 + n)) (b * 2 ^ n) = (a * 256 + b) * 2 ^ n.
Proof.
  intros Hn Hb. rewrite Z.pow_add_r by lia. rewrite Z.mul_assoc. rewrite <- !(Z.shiftl_mul_pow2 _ n) by lia. rewrite <- Z.shiftl_lor. f_equal.
  rewrite Z.lor_comm, lor_disjoint by (change (2 ^ 8) with 256; lia). change (2 ^ 8) with 256. lia.
Qed.
Lemma land_ff x : Z.land x 0xff = x mod 256.
Proof. change 0xff with (Z.ones 8). rewrite Z.land_ones by lia. reflexivity. Qed.
Lemma lor4 a b c d : 0 <= b < 256 -> 0 <= c < 256 -> 0 <= d < 256 ->
  Z.lor (Z.lor (Z.lor (a * 2 ^ 24) (b * 2 ^ 16)) (c * 2 ^ 8)) d = ((a * 256 + b) * 256 + c) * 256 + d.
Proof.
  intros Hb Hc Hd. pose proof (lor_byte a b 16 ltac:(lia) Hb) as E1. change (8 + 16) with 24 in E1. rewrite E1.
  pose proof (lor_byte (a * 256 + b) c 8 ltac:(lia) Hc) as E2. change (8 + 8) with 16 in E2. rewrite E2.
  pose proof (lor_byte ((a * 256 + b) * 256 + c) d 0 ltac:(lia) Hd) as E3. change (8 + 0) with 8 in E3. change (2 ^ 0) with 1 in E3. rewrite !Z.mul_1_r in E3. exact E3.
Qed.
Lemma word_of_bytes x : 0 <= x < 2 ^ 32 ->
  Z.lor (Z.lor (Z.lor (Z.shiftl (Z.land (u8 (Z.shiftr x 24)) 0xff) 24) (Z.shiftl (Z.land (u8 (Z.shiftr x 16)) 0xff) 16)) (Z.shiftl (Z.land (u8 (Z.shiftr x 8)) 0xff) 8)) (Z.land (u8 x) 0xff) = x.
Proof.
  intros Hx. rewrite !land_ff. rewrite !Z.shiftl_mul_pow2, !Z.shiftr_div_pow2 by lia. rewrite lor4 by lia.
  unfold u8, uN. change (2 ^ 24) with 16777216. change (2 ^ 16) with 65536. change (2 ^ 8) with 256. change (2 ^ 32) with 4294967296 in Hx. lia.
Qed.

Lemma expon_of_bytes (s : bool) x : 0 <= x < 32768 ->
  let y := (if s then 32768 else 0) + x in
  Z.lor (Z.shiftl (Z.land (u8 (Z.shiftr y 8)) 0x7f) 8) (Z.land (u8 y) 0xff) = x /\ (Z.land (u8 (Z.shiftr y 8)) 0x80 =? 0) = negb s.
Proof.
  intros Hx y.
  assert (H7 : Z.land (u8 (Z.shiftr y 8)) 0x7f = x / 256).
  { change 0x7f with (Z.ones 7). rewrite Z.land_ones, Z.shiftr_div_pow2 by lia. unfold u8, uN, y. change (2 ^ 7) with 128. change (2 ^ 8) with 256. destruct s; lia. }
  rewrite H7. split.
  - rewrite land_ff, Z.shiftl_mul_pow2 by lia.
    replace (u8 y mod 256) with (x mod 256) by (unfold u8, uN, y; change (2 ^ 8) with 256; destruct s; lia).
    rewrite lor_disjoint' by (change (2 ^ 8) with 256; lia). change (2 ^ 8) with 256. lia.
  - change 0x80 with (2 ^ 7). rewrite <- (Z.shiftl_1_l 7).
    assert (E : u8 (Z.shiftr y 8) = x / 256 + (if s then 1 else 0) * 2 ^ 7) by (rewrite Z.shiftr_div_pow2 by lia; unfold u8, uN, y; change (2 ^ 7) with 128; change (2 ^ 8) with 256; destruct s; lia).
    rewrite E. rewrite <- lor_disjoint by (change (2 ^ 7) with 128; lia). rewrite Z.shiftl_1_l, Z.land_lor_distr_l.
    assert (L0 : Z.land (x / 256) (2 ^ 7) = 0).
    { rewrite Z.land_comm, <- (Z.mul_1_l (2 ^ 7)), Z.land_comm. apply Z.bits_inj'. intros i Hi. rewrite Z.land_spec, Z.bits_0, Z.mul_1_l, Z.pow2_bits_eqb by lia.
      destruct (Z.eqb_spec 7 i) as [<-|]; [|apply andb_false_r]. replace (Z.testbit (x / 256) 7) with false; [reflexivity|]. symmetry. apply Z.testbit_false; [lia|]. change (2 ^ 7) with 128. rewrite Z.div_small by lia. reflexivity. }
    rewrite L0, Z.lor_0_l. destruct s; reflexivity.
Qed.

(** Reading back what was written gives the number back, whatever the sign and also for denormal numbers. *)
Theorem C41_extended_roundtrip :
  forall s m e, validD (S754_finite s m e) = true ->
    exists b, toExtended (S754_finite s m e) = Ok b /\ zlen b = 10 /\ fromExtended b = Ok (S754_finite s m e).
Proof.
  intros s m e Hv. cbn in Hv. destruct (toExtended_finite s m e Hv) as (m' & TE & Em & Hd & Rm & He). set (d := Zpos (digits2_pos m)) in *.
  eexists. split; [exact TE|]. split; [reflexivity|]. unfold fromExtended, ext10.
  destruct (expon_of_bytes s (e + d + 16382) ltac:(lia)) as [EX ES]. cbv zeta in EX, ES. rewrite EX, ES.
  set (a := 2 ^ (53 - d)) in *. assert (Ha : 0 < a) by (apply Z.pow_pos_nonneg; lia).
  assert (R0 : 0 <= m' mod 2 ^ 21 < 2 ^ 21) by (apply Z.mod_pos_bound; reflexivity).
  assert (R1 : 0 <= m' / 2 ^ 21 < 2 ^ 32) by (split; [apply Z.div_pos; [lia|reflexivity]|apply Z.div_lt_upper_bound; [reflexivity|]; change (2 ^ 21 * 2 ^ 32) with (2 ^ 53); lia]).
  rewrite !word_of_bytes by (try assumption; change (2 ^ 32) with (2 ^ 21 * 2 ^ 11); nia).
  replace (e + d + 16382 =? 0) with false by lia. replace (e + d + 16382 =? 32767) with false by lia. cbn [andb].
  replace (e + d + 16382 - 16383 - 31) with (e + d - 32) by lia. replace (e + d - 32 - 32) with (e + d - 64) by lia.
  set (hi := m' / 2 ^ 21) in *. set (r := m' mod 2 ^ 21) in *.
  assert (DM : m' = hi * 2 ^ 21 + r) by (pose proof (Z.div_mod m' (2 ^ 21) ltac:(discriminate)); unfold hi, r; lia).
  (* both halves are multiples of 2^e *)
  assert (Q : exists q t, hi * 2 ^ 21 = q * a /\ r = t * a /\ q + t = Zpos m /\ 0 <= q /\ 0 <= t).
  { destruct (Z.le_ge_cases (53 - d) 21) as [C|C].
    - assert (EA : 2 ^ 21 = 2 ^ (21 - (53 - d)) * a) by (unfold a; rewrite <- Z.pow_add_r by lia; f_equal; lia).
      set (c := 2 ^ (21 - (53 - d))) in *. assert (0 < c) by (apply Z.pow_pos_nonneg; lia).
      exists (hi * c), (Zpos m - hi * c). repeat split.
      + rewrite EA. ring.
      + rewrite Z.mul_sub_distr_r, <- Em. rewrite DM, EA. ring.
      + lia.
      + apply Z.mul_nonneg_nonneg; lia.
      + assert (0 <= (Zpos m - hi * c) * a) by (replace ((Zpos m - hi * c) * a) with r by (rewrite Z.mul_sub_distr_r, <- Em, DM, EA; ring); lia). nia.
    - assert (R00 : r = 0). { unfold r. rewrite Em. apply Z.mod_divide; [discriminate|]. exists (Zpos m * 2 ^ (53 - d - 21)). unfold a. rewrite <- Z.mul_assoc, <- Z.pow_add_r by lia. f_equal. f_equal. lia. }
      exists (Zpos m), 0. repeat split; lia. }
  destruct Q as (q & t & Q1 & Q2 & Q3 & Q4 & Q5). 
  assert (Bm : Zpos m < 2 ^ 53). { pose proof (digits_bounds m) as D. fold d in D. pose proof (Z.pow_le_mono_r 2 d 53 ltac:(lia) ltac:(lia)). lia. }
  assert (Ih : isV (binary_normalize 53 1024 q e false) q e) by (apply isVs; lia).
  assert (Il : isV (binary_normalize 53 1024 t e false) t e) by (apply isVs; lia).
  assert (Eh : dldexp (unsignedToFloat hi) (e + d - 32) = binary_normalize 53 1024 q e false).
  { unfold dldexp. eapply SFldexp_val; [lia|apply u2f; exact R1|]. change (isV (binary_normalize 53 1024 q e false) hi (e + d - 32)).
    replace (e + d - 32) with (e + d - 53 + 21) by lia. apply isV_up; [lia|]. rewrite Q1. replace (e + d - 53) with (e - (53 - d)) by lia. apply isV_down; [lia|exact Ih]. }
  assert (El : dldexp (unsignedToFloat (r * 2 ^ 11)) (e + d - 64) = binary_normalize 53 1024 t e false).
  { unfold dldexp. eapply SFldexp_val; [lia|apply u2f; change (2 ^ 32) with (2 ^ 21 * 2 ^ 11); nia|]. change (isV (binary_normalize 53 1024 t e false) (r * 2 ^ 11) (e + d - 64)).
    replace (e + d - 64) with (e + d - 53 - 11) by lia. apply isV_down; [lia|]. rewrite Q2. replace (e + d - 53) with (e - (53 - d)) by lia. apply isV_down; [lia|exact Il]. }
  rewrite Eh, El.
  assert (ES' : dadd (binary_normalize 53 1024 q e false) (binary_normalize 53 1024 t e false) = S754_finite false m e).
  { unfold dadd. eapply SFadd_val; [lia|exact Ih|exact Il|]. rewrite Q3. apply (isV_finite 53 1024 false m e Hv). }
  rewrite ES'. destruct s; reflexivity.
Qed.
Print Assumptions C41_extended_roundtrip.

(** The other values: both zeros are written as zero, both infinities and any NaN as infinities. *)
Theorem C41_extended_specials :
  (forall s, exists b, toExtended (S754_zero s) = Ok b /\ fromExtended b = Ok (S754_zero false)) /\
  (forall s, exists b, toExtended (S754_infinity s) = Ok b /\ fromExtended b = Ok (S754_infinity s)) /\
  (exists b, toExtended S754_nan = Ok b /\ fromExtended b = Ok (S754_infinity false)).
Proof.
  split; [intros []; (eexists; split; [vm_compute; reflexivity|vm_compute; reflexivity])|].
  split; [intros []; (eexists; split; [vm_compute; reflexivity|vm_compute; reflexivity])|].
  eexists; split; [vm_compute; reflexivity|vm_compute; reflexivity].
Qed.
Print Assumptions C41_extended_specials.

(** The 44100 Hz of an AIFF file, and the smallest denormal number. *)
Example C41_nonvacuous :
  dOfZ 44100 = S754_finite false 6061057848115200 (-37) /\ validD (S754_finite false 6061057848115200 (-37)) = true /\
  toExtended (dOfZ 44100) = Ok [64; 14; 172; 68; 0; 0; 0; 0; 0; 0] /\
  validD (S754_finite true 1 (-1074)) = true.
Proof. vm_compute. repeat split. Qed.
