(** * The bit buffer of the Apple Lossless codec

    /repo/libaudiofile/alac/ALACBitUtilities.c.  A [BitBuffer] (ALACBitUtilities.h:71-77) is a byte buffer and a
    cursor [cur]/[bitIndex]; the model keeps the bytes as a list and the cursor as one number, the bit position
    [8 * (cur - begin) + bitIndex].  Reading or writing a byte outside the buffer is undefined behaviour.
    Simplification: bit positions are unbounded integers where the code has uint32_t. *)
From Verif Require Import Prelude PreludeFacts MetadataProofs.

(** Storing to [l[i]]; outside the array it is undefined behaviour. *)
Definition aset {A} (l : list A) (i : Z) (x : A) : res (list A) :=
  if (0 <=? i) && (i <? zlen l) then Ok (zfirstn i l ++ x :: zskipn (i + 1) l) else UB.

(** ALACBitUtilities.c:42-63, BitBufferRead: at most 16 bits out of a window of three bytes. *)
Definition bbRead (b : list Z) (p n : Z) : res Z :=
  do x0 <- aget b (p / 8);
  do x1 <- aget b (p / 8 + 1);
  do x2 <- aget b (p / 8 + 2);
  Ok (Z.shiftr (Z.land (Z.shiftl (Z.lor (Z.lor (Z.shiftl x0 16) (Z.shiftl x1 8)) x2) (p mod 8)) 0xFFFFFF) (24 - n)).

(** ALACBitUtilities.c:68-86, BitBufferReadSmall: at most 8 bits out of a 16-bit window. *)
Definition bbReadSmall (b : list Z) (p n : Z) : res Z :=
  do x0 <- aget b (p / 8);
  do x1 <- aget b (p / 8 + 1);
  Ok (u8 (Z.shiftr (u16 (Z.shiftl (u16 (Z.lor (Z.shiftl x0 8) x1)) (p mod 8))) (16 - n))).

(** ALACBitUtilities.c:203-240, BitBufferWrite: one byte per turn of the loop.  The loop runs at most [numBits]
    times, which is the fuel.  [numBits = 0] writes nothing (line 208). *)
Fixpoint bbWriteLoop (fuel : nat) (b : list Z) (p v n : Z) : res (list Z) :=
  if n <=? 0 then Ok b else
  match fuel with
  | O => OutOfFuel
  | S fuel' =>
      let inv := 8 - p mod 8 in
      let cur := Z.min inv n in
      let tmp := Z.shiftr v (n - cur) in
      let shift := inv - cur in
      let mask := u8 (Z.shiftl (Z.shiftr 0xff (8 - cur)) shift) in
      do c <- aget b (p / 8);
      let c' := u8 (Z.lor (Z.land c (Z.lnot mask)) (Z.land (Z.shiftl (u8 tmp) shift) mask)) in
      do b' <- aset b (p / 8) c';
      bbWriteLoop fuel' b' (p + cur) v (n - cur)
  end.
Definition bbWrite (b : list Z) (p v n : Z) : res (list Z) := bbWriteLoop (Z.to_nat n) b p (u32 v) n.

(** ALACBitUtilities.c:142-153, BitBufferByteAlign with [addZeros]; without, only the position moves. *)
Definition alignUp (p : Z) : Z := if p mod 8 =? 0 then p else p + (8 - p mod 8).
Definition bbByteAlign (b : list Z) (p : Z) : res (list Z) :=
  if p mod 8 =? 0 then Ok b else bbWrite b p 0 (8 - p mod 8).

(** ag_enc.c:90-99 and ag_dec.c:107-116: four bytes, most significant first. *)
Definition read32be (b : list Z) (i : Z) : res Z :=
  do x0 <- aget b i;
  do x1 <- aget b (i + 1);
  do x2 <- aget b (i + 2);
  do x3 <- aget b (i + 3);
  Ok (Z.lor (Z.lor (Z.lor (Z.shiftl x0 24) (Z.shiftl x1 16)) (Z.shiftl x2 8)) x3).
(** ag_enc.c:101-107 *)
Definition write32be (b : list Z) (i v : Z) : res (list Z) :=
  do b <- aset b i (u8 (Z.shiftr v 24));
  do b <- aset b (i + 1) (u8 (Z.land (Z.shiftr v 16) 0xff));
  do b <- aset b (i + 2) (u8 (Z.land (Z.shiftr v 8) 0xff));
  aset b (i + 3) (u8 (Z.land v 0xff)).

(** ** The bits of a buffer (specification) *)

(** Bit [i] of the buffer, most significant bit of the first byte first. *)
Definition bitAt (b : list Z) (i : Z) : bool := Z.testbit (nth (Z.to_nat (i / 8)) b 0) (7 - i mod 8).
(** The number written in the [n] bits from position [p]. *)
Fixpoint bitsN (b : list Z) (p : Z) (n : nat) : Z :=
  match n with
  | O => 0
  | S n' => 2 * bitsN b p n' + Z.b2z (bitAt b (p + Z.of_nat n'))
  end.
Definition bitsAt (b : list Z) (p n : Z) : Z := bitsN b p (Z.to_nat n).

(** A bit string is described by its fields: how many bits, and the number in them. *)
Definition fields := list (Z * Z).
Definition fbits (l : fields) : Z := fold_right (fun f s => fst f + s) 0 l.
Fixpoint holds (b : list Z) (p : Z) (l : fields) : Prop :=
  match l with
  | [] => True
  | (n, v) :: l' => bitsAt b p n = v mod 2 ^ n /\ holds b (p + n) l'
  end.
(** [b'] is [b] with the fields [l] written at [p]: the bits before [p] are kept; nothing is said about those
    after the fields. *)
Definition wrote (b : list Z) (p : Z) (l : fields) (b' : list Z) : Prop :=
  zlen b' = zlen b /\ bytes_ok b' = true /\ (forall i, 0 <= i < p -> bitAt b' i = bitAt b i) /\ holds b' p l.
Definition fieldsOk (l : fields) : Prop := Forall (fun f => 0 <= fst f) l.

(** ** Facts about bits *)

Lemma bitsN_testbit b p n t : 0 <= t -> Z.testbit (bitsN b p n) t = (t <? Z.of_nat n) && bitAt b (p + Z.of_nat n - 1 - t).
Proof.
  revert t. induction n as [|n IH]; intros t Ht.
  - cbn [bitsN]. rewrite Z.bits_0. replace (t <? Z.of_nat 0) with false by lia. reflexivity.
  - cbn [bitsN]. destruct (Z.eq_dec t 0) as [->|N].
    + rewrite Z.testbit_0_r. replace (0 <? Z.of_nat (S n)) with true by lia. cbn [andb]. f_equal. lia.
    + replace t with (Z.succ (t - 1)) at 1 by lia. rewrite Z.testbit_succ_r by lia. rewrite IH by lia.
      replace (t - 1 <? Z.of_nat n) with (t <? Z.of_nat (S n)) by lia. f_equal. f_equal. lia.
Qed.
Lemma bitsAt_testbit b p n t : 0 <= n -> 0 <= t -> Z.testbit (bitsAt b p n) t = (t <? n) && bitAt b (p + n - 1 - t).
Proof. intros Hn Ht. unfold bitsAt. rewrite bitsN_testbit by exact Ht. rewrite Z2Nat.id by exact Hn. reflexivity. Qed.

Lemma bitsN_range b p n : 0 <= bitsN b p n < 2 ^ Z.of_nat n.
Proof.
  induction n as [|n IH]; [cbn; lia|]. cbn [bitsN]. rewrite Nat2Z.inj_succ, Z.pow_succ_r by lia.
  destruct (bitAt b (p + Z.of_nat n)); cbn [Z.b2z]; lia.
Qed.
Lemma bitsAt_range b p n : 0 <= n -> 0 <= bitsAt b p n < 2 ^ n.
Proof. intros Hn. unfold bitsAt. pose proof (bitsN_range b p (Z.to_nat n)). rewrite Z2Nat.id in H by exact Hn. exact H. Qed.

Lemma bitsAt_0 b p : bitsAt b p 0 = 0. Proof. reflexivity. Qed.

Lemma bitsN_ext b b' p n : (forall i, p <= i < p + Z.of_nat n -> bitAt b i = bitAt b' i) -> bitsN b p n = bitsN b' p n.
Proof.
  induction n as [|n IH]; intros H; [reflexivity|]. cbn [bitsN]. rewrite IH by (intros; apply H; lia).
  rewrite (H (p + Z.of_nat n)) by lia. reflexivity.
Qed.
Lemma bitsAt_ext b b' p n : 0 <= n -> (forall i, p <= i < p + n -> bitAt b i = bitAt b' i) -> bitsAt b p n = bitsAt b' p n.
Proof. intros Hn H. apply bitsN_ext. rewrite Z2Nat.id by exact Hn. exact H. Qed.

Lemma bitsN_add b p n m : bitsN b p (n + m) = bitsN b p n * 2 ^ Z.of_nat m + bitsN b (p + Z.of_nat n) m.
Proof.
  induction m as [|m IH].
  - rewrite Nat.add_0_r. cbn [bitsN]. change (2 ^ Z.of_nat 0) with 1. lia.
  - rewrite Nat.add_succ_r. cbn [bitsN]. rewrite IH. rewrite Nat2Z.inj_succ, Z.pow_succ_r by lia.
    replace (p + Z.of_nat (n + m)) with (p + Z.of_nat n + Z.of_nat m) by lia. ring.
Qed.
Lemma bitsAt_split b p n m : 0 <= n -> 0 <= m -> bitsAt b p (n + m) = bitsAt b p n * 2 ^ m + bitsAt b (p + n) m.
Proof.
  intros Hn Hm. unfold bitsAt. rewrite Z2Nat.inj_add by assumption. rewrite bitsN_add. rewrite !Z2Nat.id by assumption. reflexivity.
Qed.

(** A number is the bits at [p] when its binary digits are. *)
Lemma bitsAt_is b p n x : 0 <= n -> 0 <= x < 2 ^ n ->
  (forall t, 0 <= t < n -> Z.testbit x t = bitAt b (p + n - 1 - t)) -> bitsAt b p n = x.
Proof.
  intros Hn Hx H. apply Z.bits_inj'. intros t Ht. rewrite bitsAt_testbit by lia.
  destruct (Z.ltb_spec t n) as [L|L].
  - cbn [andb]. symmetry. apply H. lia.
  - cbn [andb]. symmetry. destruct (Z.eq_dec x 0) as [->|Nz]; [apply Z.bits_0|].
    apply Z.bits_above_log2; [lia|]. apply Z.log2_lt_pow2; [lia|].
    eapply Z.lt_le_trans; [apply Hx|]. apply Z.pow_le_mono_r; lia.
Qed.

Lemma byte_bits b j : bytes_ok b = true -> 0 <= j < zlen b -> bitsAt b (8 * j) 8 = nth (Z.to_nat j) b 0.
Proof.
  intros Hb Hj. apply bitsAt_is; [lia| |].
  - rewrite bytes_ok_spec in Hb. rewrite Forall_forall in Hb. change (2 ^ 8) with 256. apply Hb. apply nth_In. unfold zlen in Hj. lia.
  - intros t Ht. unfold bitAt. replace ((8 * j + 8 - 1 - t) / 8) with j by lia. f_equal. lia.
Qed.

(** Taking [n] bits, [s] bits into a window of [m]: what the shifts compute. *)
Lemma window b q m s n : 0 <= s -> 0 <= n -> s + n <= m ->
  Z.shiftr ((Z.shiftl (bitsAt b q m) s) mod 2 ^ m) (m - n) = bitsAt b (q + s) n.
Proof.
  intros Hs Hn Hm. rewrite Z.shiftr_div_pow2, Z.shiftl_mul_pow2 by lia.
  set (r := m - s - n).
  replace m with (s + (n + r)) at 1 by lia. rewrite bitsAt_split by lia. rewrite bitsAt_split by lia.
  pose proof (bitsAt_range b q s Hs) as R1. pose proof (bitsAt_range b (q + s) n Hn) as R2.
  assert (Hr : 0 <= r) by lia. pose proof (bitsAt_range b (q + s + n) r Hr) as R3.
  set (A := bitsAt b q s) in *. set (B := bitsAt b (q + s) n) in *. set (C := bitsAt b (q + s + n) r) in *.
  replace ((A * 2 ^ (n + r) + (B * 2 ^ r + C)) * 2 ^ s) with ((B * 2 ^ r + C) * 2 ^ s + A * 2 ^ m).
  2:{ replace m with (n + r + s) by lia. rewrite !Z.pow_add_r by lia. ring. }
  rewrite Z.mod_add by (apply Z.pow_nonzero; lia).
  assert (P1 : 0 < 2 ^ r) by (apply Z.pow_pos_nonneg; lia).
  assert (P2 : 0 < 2 ^ s) by (apply Z.pow_pos_nonneg; lia).
  assert (Bnd : 0 <= (B * 2 ^ r + C) * 2 ^ s < 2 ^ m).
  { split; [nia|]. replace m with (n + r + s) by lia. rewrite !Z.pow_add_r by lia.
    apply Z.mul_lt_mono_pos_r; [exact P2|]. nia. }
  rewrite Z.mod_small by exact Bnd. replace (m - n) with (r + s) by lia. rewrite Z.pow_add_r by lia.
  rewrite Z.div_mul_cancel_r by lia. rewrite Z.div_add_l by lia. rewrite Z.div_small by lia. lia.
Qed.

(** ** Reads *)

Lemma byte_range b j : bytes_ok b = true -> 0 <= nth j b 0 < 256.
Proof.
  intros Hb. destruct (Nat.lt_ge_cases j (length b)) as [L|L].
  - rewrite bytes_ok_spec in Hb. rewrite Forall_forall in Hb. apply Hb. apply nth_In. exact L.
  - rewrite nth_overflow by exact L. lia.
Qed.

Lemma lor_cat x y k : 0 <= k -> 0 <= y < 2 ^ k -> Z.lor (Z.shiftl x k) y = x * 2 ^ k + y.
Proof.
  intros Hk Hy. rewrite Z.shiftl_mul_pow2 by exact Hk. symmetry.
  rewrite <- Z.shiftl_mul_pow2 by exact Hk.
  assert (D : Z.land (Z.shiftl x k) y = 0).
  { apply Z.bits_inj'. intros t Ht. rewrite Z.land_spec, Z.bits_0. destruct (Z.ltb_spec t k) as [L|L].
    - rewrite Z.shiftl_spec_low by exact L. reflexivity.
    - destruct (Z.eq_dec y 0) as [->|N]; [rewrite Z.bits_0; apply andb_false_r|].
      rewrite (Z.bits_above_log2 y t); [apply andb_false_r|lia|]. apply Z.log2_lt_pow2; [lia|].
      eapply Z.lt_le_trans; [apply Hy|]. apply Z.pow_le_mono_r; lia. }
  rewrite Z.add_nocarry_lxor by exact D. rewrite <- Z.lxor_lor by exact D. reflexivity.
Qed.

Lemma win2 b j : bytes_ok b = true -> 0 <= j -> j + 1 < zlen b ->
  Z.lor (Z.shiftl (nth (Z.to_nat j) b 0) 8) (nth (Z.to_nat (j + 1)) b 0) = bitsAt b (8 * j) 16.
Proof.
  intros Hb Hj Hl. change 16 with (8 + 8). rewrite bitsAt_split by lia.
  replace (8 * j + 8) with (8 * (j + 1)) by lia. rewrite !byte_bits by (auto; lia).
  apply lor_cat; [lia|]. apply byte_range. exact Hb.
Qed.
Lemma win3 b j : bytes_ok b = true -> 0 <= j -> j + 2 < zlen b ->
  Z.lor (Z.lor (Z.shiftl (nth (Z.to_nat j) b 0) 16) (Z.shiftl (nth (Z.to_nat (j + 1)) b 0) 8)) (nth (Z.to_nat (j + 2)) b 0) = bitsAt b (8 * j) 24.
Proof.
  intros Hb Hj Hl. change 24 with (16 + 8). rewrite bitsAt_split by lia.
  replace (8 * j + 16) with (8 * (j + 2)) by lia. rewrite (byte_bits b (j + 2)) by (auto; lia).
  rewrite <- (win2 b j) by (auto; lia). change 16 with (8 + 8). rewrite <- Z.shiftl_shiftl by lia. rewrite <- Z.shiftl_lor.
  apply lor_cat; [lia|]. apply byte_range. exact Hb.
Qed.
Lemma win4 b j : bytes_ok b = true -> 0 <= j -> j + 3 < zlen b ->
  Z.lor (Z.lor (Z.lor (Z.shiftl (nth (Z.to_nat j) b 0) 24) (Z.shiftl (nth (Z.to_nat (j + 1)) b 0) 16)) (Z.shiftl (nth (Z.to_nat (j + 2)) b 0) 8)) (nth (Z.to_nat (j + 3)) b 0) = bitsAt b (8 * j) 32.
Proof.
  intros Hb Hj Hl. change 32 with (24 + 8). rewrite bitsAt_split by lia.
  replace (8 * j + 24) with (8 * (j + 3)) by lia. rewrite (byte_bits b (j + 3)) by (auto; lia).
  rewrite <- (win3 b j) by (auto; lia). rewrite <- lor_cat by (lia || (apply byte_range; exact Hb)).
  rewrite !Z.shiftl_lor, !Z.shiftl_shiftl by lia. reflexivity.
Qed.

Lemma bbRead_ok b p n : bytes_ok b = true -> 0 <= p -> p / 8 + 2 < zlen b -> 0 <= n <= 16 -> bbRead b p n = Ok (bitsAt b p n).
Proof.
  intros Hb Hp Hl Hn. unfold bbRead. assert (0 <= p / 8) by lia.
  rewrite !(aget_in b _ 0) by lia. cbn [rbind]. rewrite win3 by (auto; lia).
  f_equal. change 0xFFFFFF with (Z.ones 24). rewrite Z.land_ones by lia.
  rewrite window by lia. f_equal. lia.
Qed.
Lemma bbReadSmall_ok b p n : bytes_ok b = true -> 0 <= p -> p / 8 + 1 < zlen b -> 0 <= n <= 8 -> bbReadSmall b p n = Ok (bitsAt b p n).
Proof.
  intros Hb Hp Hl Hn. unfold bbReadSmall. assert (0 <= p / 8) by lia.
  rewrite !(aget_in b _ 0) by lia. cbn [rbind]. rewrite win2 by (auto; lia).
  unfold u16 at 2. rewrite uN_small by (apply bitsAt_range; lia).
  unfold u16, uN. rewrite window by lia. replace (8 * (p / 8) + p mod 8) with p by lia.
  unfold u8. rewrite uN_small; [reflexivity|]. pose proof (bitsAt_range b p n). assert (2 ^ n <= 2 ^ 8) by (apply Z.pow_le_mono_r; lia). lia.
Qed.
Lemma read32be_ok b i : bytes_ok b = true -> 0 <= i -> i + 3 < zlen b -> read32be b i = Ok (bitsAt b (8 * i) 32).
Proof.
  intros Hb Hi Hl. unfold read32be. rewrite !(aget_in b _ 0) by lia. cbn [rbind]. rewrite win4 by (auto; lia). reflexivity.
Qed.

(** ** Fields *)

Lemma fbits_cons f l : fbits (f :: l) = fst f + fbits l. Proof. reflexivity. Qed.
Lemma fbits_app l1 l2 : fbits (l1 ++ l2) = fbits l1 + fbits l2.
Proof. induction l1 as [|f l IH]; [reflexivity|]. cbn [app]. rewrite !fbits_cons, IH. lia. Qed.
Lemma fbits_nonneg l : fieldsOk l -> 0 <= fbits l.
Proof. induction 1; [cbn; lia|]. rewrite fbits_cons. lia. Qed.
Lemma fieldsOk_app l1 l2 : fieldsOk (l1 ++ l2) <-> fieldsOk l1 /\ fieldsOk l2.
Proof. apply Forall_app. Qed.

Lemma holds_app b p l1 l2 : holds b p (l1 ++ l2) <-> holds b p l1 /\ holds b (p + fbits l1) l2.
Proof.
  revert p. induction l1 as [|[n v] l IH]; intros p.
  - cbn [app holds fbits fold_right]. rewrite Z.add_0_r. tauto.
  - cbn [app holds]. rewrite IH. rewrite fbits_cons. cbn [fst]. rewrite Z.add_assoc. tauto.
Qed.
Lemma holds_ext b b' p l : fieldsOk l -> (forall i, p <= i < p + fbits l -> bitAt b i = bitAt b' i) -> holds b p l -> holds b' p l.
Proof.
  intros Hl. revert p. induction Hl as [|[n v] l Hn Hl IH]; intros p H; [trivial|].
  cbn [holds fst] in *. rewrite fbits_cons in H. cbn [fst] in H. pose proof (fbits_nonneg l Hl). intros [A B]. split.
  - rewrite <- A. symmetry. apply bitsAt_ext; [exact Hn|]. intros i Hi. apply H. lia.
  - apply IH; [|exact B]. intros i Hi. apply H. lia.
Qed.

Lemma wrote_nil b p : bytes_ok b = true -> wrote b p [] b.
Proof. intros H. repeat split; auto. Qed.
Lemma wrote_app b p l1 b1 l2 b2 : fieldsOk l1 -> 0 <= p ->
  wrote b p l1 b1 -> wrote b1 (p + fbits l1) l2 b2 -> wrote b p (l1 ++ l2) b2.
Proof.
  intros F Hp (L1 & O1 & K1 & H1) (L2 & O2 & K2 & H2). pose proof (fbits_nonneg l1 F).
  split; [lia|]. split; [exact O2|]. split.
  - intros i Hi. rewrite K2 by lia. apply K1. exact Hi.
  - apply holds_app. split; [|exact H2]. apply (holds_ext b1); [exact F| |exact H1].
    intros i Hi. symmetry. apply K2. lia.
Qed.

(** ** Writes *)

Lemma aset_inv {A} (l : list A) i x l' : aset l i x = Ok l' -> 0 <= i < zlen l /\ l' = zfirstn i l ++ x :: zskipn (i + 1) l.
Proof. unfold aset. destruct ((0 <=? i) && (i <? zlen l)) eqn:Eb; [|discriminate]. intros H. split; [lia|congruence]. Qed.
Lemma aset_in {A} (l : list A) i x : 0 <= i < zlen l -> aset l i x = Ok (zfirstn i l ++ x :: zskipn (i + 1) l).
Proof. intros H. unfold aset. replace ((0 <=? i) && (i <? zlen l)) with true by lia. reflexivity. Qed.
Lemma zlen_upd {A} (l : list A) i x : 0 <= i < zlen l -> zlen (zfirstn i l ++ x :: zskipn (i + 1) l) = zlen l.
Proof. intros H. rewrite zlen_app, zlen_cons, zlen_firstn, zlen_skipn by lia. lia. Qed.
Lemma ok_upd l i x : bytes_ok l = true -> 0 <= x < 256 -> bytes_ok (zfirstn i l ++ x :: zskipn (i + 1) l) = true.
Proof.
  intros H Hx. rewrite bytes_ok_spec in *. apply Forall_app. split; [apply Forall_firstn; exact H|].
  constructor; [exact Hx|apply Forall_skipn; exact H].
Qed.
Lemma bitAt_upd b j x i : 0 <= j < zlen b -> 0 <= i ->
  bitAt (zfirstn j b ++ x :: zskipn (j + 1) b) i = if i / 8 =? j then Z.testbit x (7 - i mod 8) else bitAt b i.
Proof.
  intros Hj Hi. unfold bitAt. rewrite nth_upd by lia. destruct (i / 8 =? j); reflexivity.
Qed.

Lemma u8_testbit x t : 0 <= t < 8 -> Z.testbit (u8 x) t = Z.testbit x t.
Proof. intros H. unfold u8, uN. apply Z.mod_pow2_bits_low. lia. Qed.
Lemma u32_testbit x t : 0 <= t < 32 -> Z.testbit (u32 x) t = Z.testbit x t.
Proof. intros H. unfold u32, uN. apply Z.mod_pow2_bits_low. lia. Qed.
Lemma u8_range x : 0 <= u8 x < 256. Proof. exact (uN_range 8 x ltac:(lia)). Qed.

Lemma shr_ff k : 0 <= k <= 8 -> Z.shiftr 0xff (8 - k) = Z.ones k.
Proof.
  intros H. assert (C : k = 0 \/ k = 1 \/ k = 2 \/ k = 3 \/ k = 4 \/ k = 5 \/ k = 6 \/ k = 7 \/ k = 8) by lia.
  repeat (destruct C as [->|C]; [reflexivity|]). subst k. reflexivity.
Qed.
Lemma ones_testbit k t : 0 <= k -> 0 <= t -> Z.testbit (Z.ones k) t = (t <? k).
Proof.
  intros Hk Ht. destruct (Z.ltb_spec t k).
  - apply Z.ones_spec_low. lia.
  - apply Z.ones_spec_high. lia.
Qed.

(** One turn of the loop, bit by bit. *)
Lemma writeByte_bits c v n s cur t : 1 <= cur -> cur <= s -> s <= 8 -> cur <= n -> 0 <= t < 8 ->
  let mask := u8 (Z.shiftl (Z.shiftr 0xff (8 - cur)) (s - cur)) in
  Z.testbit (u8 (Z.lor (Z.land c (Z.lnot mask)) (Z.land (Z.shiftl (u8 (Z.shiftr v (n - cur))) (s - cur)) mask))) t
  = if (s - cur <=? t) && (t <? s) then Z.testbit v (n - cur + (t - (s - cur))) else Z.testbit c t.
Proof.
  intros H1 H2 H3 H4 Ht. cbv zeta. rewrite u8_testbit by exact Ht.
  rewrite Z.lor_spec, !Z.land_spec, Z.lnot_spec by lia. rewrite u8_testbit by exact Ht. rewrite shr_ff by lia.
  rewrite (Z.shiftl_spec (Z.ones cur)) by lia.
  destruct (Z.leb_spec (s - cur) t) as [L|L]; cbn [andb].
  - rewrite ones_testbit by lia. replace (t - (s - cur) <? cur) with (t <? s) by lia.
    rewrite Z.shiftl_spec by lia. destruct (Z.ltb_spec t s) as [L2|L2]; cbn [negb].
    + rewrite andb_false_r, orb_false_l, andb_true_r. rewrite u8_testbit by lia. rewrite Z.shiftr_spec by lia. f_equal. lia.
    + rewrite andb_true_r, andb_false_r, orb_false_r. reflexivity.
  - rewrite (Z.testbit_neg_r (Z.ones cur)) by lia. cbn [negb]. rewrite andb_true_r, andb_false_r, orb_false_r. reflexivity.
Qed.

Lemma bbWriteLoop_inv fuel : forall b p v n b', bytes_ok b = true -> 0 <= p -> 0 <= n <= Z.of_nat fuel -> 
  bbWriteLoop fuel b p v n = Ok b' ->
  zlen b' = zlen b /\ bytes_ok b' = true /\
  forall i, 0 <= i -> bitAt b' i = if (p <=? i) && (i <? p + n) then Z.testbit v (p + n - 1 - i) else bitAt b i.
Proof.
  induction fuel as [|fuel IH]; intros b p v n b' Hb Hp Hn.
  - cbn [bbWriteLoop]. replace (n <=? 0) with true by lia. intros H. injection H as <-. repeat split; auto.
    intros i Hi. replace ((p <=? i) && (i <? p + n)) with false by lia. reflexivity.
  - cbn [bbWriteLoop]. destruct (Z.leb_spec n 0) as [L|L].
    + intros H. injection H as <-. repeat split; auto.
      intros i Hi. replace ((p <=? i) && (i <? p + n)) with false by lia. reflexivity.
    + set (cur := Z.min (8 - p mod 8) n). assert (Hm : 0 <= p mod 8 < 8) by lia.
      assert (Hc : 1 <= cur <= n /\ cur <= 8 - p mod 8) by lia.
      intros H. apply rbind_Ok in H. destruct H as (c & Hg & H). cbv zeta in H.
      apply rbind_Ok in H. destruct H as (b1 & Hs & H).
      apply (aget_nth _ _ _ 0) in Hg. destruct Hg as [Hj Hc0]. apply aset_inv in Hs. destruct Hs as [_ Hs].
      apply IH in H; [|subst b1; apply ok_upd; [exact Hb|apply u8_range]|lia|lia].
      destruct H as (HL & HO & HB). split; [rewrite HL, Hs; apply zlen_upd; exact Hj|]. split; [exact HO|].
      intros i Hi. rewrite HB by exact Hi. rewrite Hs. rewrite bitAt_upd by lia. 
      rewrite writeByte_bits by lia. 
      destruct (Z.leb_spec (p + cur) i) as [A|A]; cbn [andb].
      * replace (p + cur + (n - cur)) with (p + n) by lia. 
        replace (p <=? i) with true by lia. cbn [andb].
        destruct (Z.ltb_spec i (p + n)) as [B|B]; [reflexivity|].
        destruct (Z.eqb_spec (i / 8) (p / 8)) as [Q|Q]; [|reflexivity].
        replace ((8 - p mod 8 - cur <=? 7 - i mod 8) && (7 - i mod 8 <? 8 - p mod 8)) with false by lia.
        unfold bitAt. rewrite Q, Hc0. reflexivity.
      * destruct (Z.eqb_spec (i / 8) (p / 8)) as [Q|Q].
        -- destruct (Z.leb_spec p i) as [B|B]; cbn [andb].
           ++ replace ((8 - p mod 8 - cur <=? 7 - i mod 8) && (7 - i mod 8 <? 8 - p mod 8)) with true by lia.
              replace (i <? p + n) with true by lia. f_equal. lia.
           ++ replace ((8 - p mod 8 - cur <=? 7 - i mod 8) && (7 - i mod 8 <? 8 - p mod 8)) with false by lia.
              unfold bitAt. rewrite Q, Hc0. reflexivity.
        -- replace (p <=? i) with false by lia. reflexivity.
Qed.

Lemma bbWrite_inv b p v n b' : bytes_ok b = true -> 0 <= p -> 0 <= n <= 32 -> bbWrite b p v n = Ok b' -> wrote b p [(n, v)] b'.
Proof.
  intros Hb Hp Hn H. unfold bbWrite in H. apply bbWriteLoop_inv in H; [|assumption|assumption|lia].
  destruct H as (L & O & B). split; [exact L|]. split; [exact O|]. split.
  - intros i Hi. rewrite B by lia. replace ((p <=? i) && (i <? p + n)) with false by lia. reflexivity.
  - cbn [holds]. split; [|trivial]. apply bitsAt_is; [lia|apply Z.mod_pos_bound; apply Z.pow_pos_nonneg; lia|].
    intros t Ht. rewrite B by lia. replace ((p <=? p + n - 1 - t) && (p + n - 1 - t <? p + n)) with true by lia.
    rewrite u32_testbit by lia. rewrite Z.mod_pow2_bits_low by lia. f_equal. lia.
Qed.

Lemma bbWriteLoop_total fuel : forall b p v n, 0 <= p -> 0 <= n <= Z.of_nat fuel -> p + n <= 8 * zlen b ->
  exists b', bbWriteLoop fuel b p v n = Ok b'.
Proof.
  induction fuel as [|fuel IH]; intros b p v n Hp Hn Hl; cbn [bbWriteLoop].
  - replace (n <=? 0) with true by lia. eauto.
  - destruct (Z.leb_spec n 0) as [L|L]; [eauto|]. cbv zeta.
    assert (Hm : 0 <= p mod 8 < 8) by lia.
    rewrite (aget_in b _ 0) by lia. cbn [rbind]. rewrite aset_in by lia. cbn [rbind].
    apply IH; [lia|lia|]. rewrite zlen_upd by lia. lia.
Qed.
Lemma bbWrite_total b p v n : 0 <= p -> 0 <= n -> p + n <= 8 * zlen b -> exists b', bbWrite b p v n = Ok b'.
Proof. intros. unfold bbWrite. apply bbWriteLoop_total; lia. Qed.

(** Storing 32 bits at a byte boundary. *)
Lemma write32be_inv b i v b' : bytes_ok b = true -> write32be b i v = Ok b' ->
  0 <= i /\ i + 3 < zlen b /\ zlen b' = zlen b /\ bytes_ok b' = true /\
  forall q, 0 <= q -> bitAt b' q = if (8 * i <=? q) && (q <? 8 * i + 32) then Z.testbit v (8 * i + 31 - q) else bitAt b q.
Proof.
  intros Hb H. unfold write32be in H.
  apply rbind_Ok in H. destruct H as (b1 & H1 & H). apply rbind_Ok in H. destruct H as (b2 & H2 & H).
  apply rbind_Ok in H. destruct H as (b3 & H3 & H).
  apply aset_inv in H1, H2, H3, H. destruct H1 as [A1 E1], H2 as [A2 E2], H3 as [A3 E3], H as [A4 E4].
  assert (L1 : zlen b1 = zlen b) by (rewrite E1; apply zlen_upd; exact A1).
  assert (L2 : zlen b2 = zlen b) by (rewrite E2, zlen_upd by exact A2; exact L1).
  assert (L3 : zlen b3 = zlen b) by (rewrite E3, zlen_upd by exact A3; exact L2).
  split; [lia|]. split; [lia|]. split; [rewrite E4, zlen_upd by exact A4; exact L3|].
  split. { subst b1 b2 b3 b'. repeat (apply ok_upd; [|apply u8_range]). exact Hb. }
  intros q Hq. rewrite E4, bitAt_upd by lia. rewrite E3, bitAt_upd by lia. rewrite E2, bitAt_upd by lia. rewrite E1, bitAt_upd by lia.
  assert (R : 0 <= 7 - q mod 8 < 8) by lia. rewrite !u8_testbit by exact R.
  change 0xff with (Z.ones 8). rewrite !Z.land_spec, !ones_testbit, !Z.shiftr_spec by lia.
  replace (7 - q mod 8 <? 8) with true by lia. rewrite !andb_true_r.
  destruct (Z.eqb_spec (q / 8) (i + 3)); [replace ((8 * i <=? q) && (q <? 8 * i + 32)) with true by lia; f_equal; lia|].
  destruct (Z.eqb_spec (q / 8) (i + 2)); [replace ((8 * i <=? q) && (q <? 8 * i + 32)) with true by lia; f_equal; lia|].
  destruct (Z.eqb_spec (q / 8) (i + 1)); [replace ((8 * i <=? q) && (q <? 8 * i + 32)) with true by lia; f_equal; lia|].
  destruct (Z.eqb_spec (q / 8) i); [replace ((8 * i <=? q) && (q <? 8 * i + 32)) with true by lia; f_equal; lia|].
  replace ((8 * i <=? q) && (q <? 8 * i + 32)) with false by lia. reflexivity.
Qed.
Lemma write32be_total b i v : 0 <= i -> i + 3 < zlen b -> exists b', write32be b i v = Ok b'.
Proof.
  intros Hi Hl. unfold write32be. rewrite aset_in by lia. cbn [rbind]. rewrite aset_in by (rewrite zlen_upd; lia). cbn [rbind].
  rewrite aset_in by (rewrite !zlen_upd; rewrite ?zlen_upd; lia). cbn [rbind].
  rewrite aset_in by (rewrite !zlen_upd; rewrite ?zlen_upd; rewrite ?zlen_upd; lia). eauto.
Qed.

Example bits_example : bitsAt [0xA5; 0x3C; 0xFF] 4 8 = 0x53. Proof. reflexivity. Qed.
Example write_example : bbWrite [0xFF; 0xFF; 0] 6 0x155 9 = Ok [0xFE; 0xAB; 0]. Proof. vm_compute. reflexivity. Qed.
