(** Proofs about [ByteOrder]. *)
From Verif Require Import Prelude PreludeFacts ByteOrder.

Lemma lor_disjoint a c k : 0 <= k -> 0 <= a < 2 ^ k -> Z.lor a (c * 2 ^ k) = a + c * 2 ^ k.
Proof.
  intros Hk Ha.
  assert (E : Z.land a (c * 2 ^ k) = 0).
  { apply Z.bits_inj'. intros n Hn. rewrite Z.land_spec, Z.bits_0.
    destruct (Z_lt_le_dec n k).
    - rewrite Z.mul_pow2_bits_low by lia. apply andb_false_r.
    - destruct (Z.eq_dec a 0) as [->|Hz]; [now rewrite Z.bits_0|].
      rewrite Z.bits_above_log2; [reflexivity|lia|].
      apply Z.log2_lt_pow2; [lia|]. apply Z.lt_le_trans with (2 ^ k); [lia|].
      apply Z.pow_le_mono_r; lia. }
  rewrite <- Z.lxor_lor by exact E. symmetry. apply Z.add_nocarry_lxor. exact E.
Qed.

Lemma lor_disjoint' a c k : 0 <= k -> 0 <= a < 2 ^ k -> Z.lor (c * 2 ^ k) a = a + c * 2 ^ k.
Proof. intros; rewrite Z.lor_comm; now apply lor_disjoint. Qed.

Lemma land_byte x k m : 0 <= k -> m = 255 * 2 ^ k -> Z.land x m = (x / 2 ^ k) mod 256 * 2 ^ k.
Proof.
  intros Hk ->. change 256 with (2 ^ 8). rewrite <- Z.land_ones by lia.
  rewrite <- Z.shiftr_div_pow2 by lia. rewrite <- !Z.shiftl_mul_pow2 by lia.
  change 255 with (Z.ones 8).
  apply Z.bits_inj'. intros n Hn.
  rewrite Z.land_spec.
  destruct (Z_lt_le_dec n k).
  - rewrite !Z.shiftl_spec_low by lia. apply andb_false_r.
  - rewrite !Z.shiftl_spec, Z.land_spec, Z.shiftr_spec by lia.
    f_equal. f_equal. lia.
Qed.

(** The bytes of an integer, as variables. *)
Lemma byteswap16_val b0 b1 : 0 <= b0 < 256 -> 0 <= b1 < 256 ->
  byteswap16 (b0 + 256 * b1) = b1 + 256 * b0.
Proof.
  intros H0 H1. unfold byteswap16.
  rewrite Z.shiftr_div_pow2, Z.shiftl_mul_pow2 by lia.
  change (2 ^ 8) with 256.
  replace ((b0 + 256 * b1) / 256) with b1 by lia.
  change 256 with (2 ^ 8) at 2.
  rewrite lor_disjoint by (zpow; lia).
  unfold u16, uN. zpow. lia.
Qed.

Ltac shl := rewrite Z.shiftl_mul_pow2 by lia.
Ltac shr := rewrite Z.shiftr_div_pow2 by lia.

Lemma byteswap32_val b0 b1 b2 b3 :
  0 <= b0 < 256 -> 0 <= b1 < 256 -> 0 <= b2 < 256 -> 0 <= b3 < 256 ->
  byteswap32 (b0 + 256 * (b1 + 256 * (b2 + 256 * b3))) =
  b3 + 256 * (b2 + 256 * (b1 + 256 * b0)).
Proof.
  intros H0 H1 H2 H3. set (x := b0 + _). unfold byteswap32.
  rewrite (land_byte x 0 0xff), (land_byte x 8 0xff00), (land_byte x 16 0xff0000),
    (land_byte x 24 0xff000000) by (lia || reflexivity).
  rewrite !Z.shiftl_mul_pow2, !Z.shiftr_div_pow2 by lia.
  assert (E0 : (x / 2 ^ 0) mod 256 = b0) by (subst x; zpow; lia).
  assert (E1 : (x / 2 ^ 8) mod 256 = b1) by (subst x; zpow; lia).
  assert (E2 : (x / 2 ^ 16) mod 256 = b2) by (subst x; zpow; lia).
  assert (E3 : (x / 2 ^ 24) mod 256 = b3) by (subst x; zpow; lia).
  rewrite E0, E1, E2, E3. clearbody x. clear E0 E1 E2 E3.
  replace (u32 (b0 * 2 ^ 0 * 2 ^ 24)) with (b0 * 2 ^ 24) by (unfold u32, uN; zpow; lia).
  replace (u32 (b1 * 2 ^ 8 * 2 ^ 8)) with (b1 * 2 ^ 16) by (unfold u32, uN; zpow; lia).
  replace (b2 * 2 ^ 16 / 2 ^ 8) with (b2 * 2 ^ 8) by (zpow; lia).
  replace (b3 * 2 ^ 24 / 2 ^ 24) with b3 by (zpow; lia).
  rewrite (lor_disjoint' (b1 * 2 ^ 16) b0 24) by (zpow; lia).
  replace (b1 * 2 ^ 16 + b0 * 2 ^ 24) with ((b1 + b0 * 2 ^ 8) * 2 ^ 16) by (zpow; lia).
  rewrite lor_disjoint' by (zpow; lia).
  replace (b2 * 2 ^ 8 + (b1 + b0 * 2 ^ 8) * 2 ^ 16)
    with ((b2 + (b1 + b0 * 2 ^ 8) * 2 ^ 8) * 2 ^ 8) by (zpow; lia).
  rewrite lor_disjoint' by (zpow; lia). zpow. lia.
Qed.

Lemma byteswap64_val b0 b1 b2 b3 b4 b5 b6 b7 :
  0 <= b0 < 256 -> 0 <= b1 < 256 -> 0 <= b2 < 256 -> 0 <= b3 < 256 ->
  0 <= b4 < 256 -> 0 <= b5 < 256 -> 0 <= b6 < 256 -> 0 <= b7 < 256 ->
  byteswap64 (b0 + 256 * (b1 + 256 * (b2 + 256 * (b3 + 256 * (b4 + 256 * (b5 + 256 * (b6 + 256 * b7))))))) =
  b7 + 256 * (b6 + 256 * (b5 + 256 * (b4 + 256 * (b3 + 256 * (b2 + 256 * (b1 + 256 * b0)))))).
Proof.
  intros H0 H1 H2 H3 H4 H5 H6 H7. set (x := b0 + _). unfold byteswap64.
  rewrite (land_byte x 0 0xff), (land_byte x 8 0xff00), (land_byte x 16 0xff0000),
    (land_byte x 24 0xff000000), (land_byte x 32 0xff00000000), (land_byte x 40 0xff0000000000),
    (land_byte x 48 0xff000000000000), (land_byte x 56 0xff00000000000000) by (lia || reflexivity).
  rewrite !Z.shiftl_mul_pow2, !Z.shiftr_div_pow2 by lia.
  assert (E0 : (x / 2 ^ 0) mod 256 = b0) by (subst x; zpow; lia).
  assert (E1 : (x / 2 ^ 8) mod 256 = b1) by (subst x; zpow; lia).
  assert (E2 : (x / 2 ^ 16) mod 256 = b2) by (subst x; zpow; lia).
  assert (E3 : (x / 2 ^ 24) mod 256 = b3) by (subst x; zpow; lia).
  assert (E4 : (x / 2 ^ 32) mod 256 = b4) by (subst x; zpow; lia).
  assert (E5 : (x / 2 ^ 40) mod 256 = b5) by (subst x; zpow; lia).
  assert (E6 : (x / 2 ^ 48) mod 256 = b6) by (subst x; zpow; lia).
  assert (E7 : (x / 2 ^ 56) mod 256 = b7) by (subst x; zpow; lia).
  rewrite E0, E1, E2, E3, E4, E5, E6, E7. clearbody x. clear E0 E1 E2 E3 E4 E5 E6 E7.
  replace (u64 (b0 * 2 ^ 0 * 2 ^ 56)) with (b0 * 2 ^ 56) by (unfold u64, uN; zpow; lia).
  replace (u64 (b1 * 2 ^ 8 * 2 ^ 40)) with (b1 * 2 ^ 48) by (unfold u64, uN; zpow; lia).
  replace (u64 (b2 * 2 ^ 16 * 2 ^ 24)) with (b2 * 2 ^ 40) by (unfold u64, uN; zpow; lia).
  replace (u64 (b3 * 2 ^ 24 * 2 ^ 8)) with (b3 * 2 ^ 32) by (unfold u64, uN; zpow; lia).
  replace (b4 * 2 ^ 32 / 2 ^ 8) with (b4 * 2 ^ 24) by (zpow; lia).
  replace (b5 * 2 ^ 40 / 2 ^ 24) with (b5 * 2 ^ 16) by (zpow; lia).
  replace (b6 * 2 ^ 48 / 2 ^ 40) with (b6 * 2 ^ 8) by (zpow; lia).
  replace (b7 * 2 ^ 56 / 2 ^ 56) with b7 by (zpow; lia).
  rewrite (lor_disjoint' (b1 * 2 ^ 48) b0 56) by (zpow; lia).
  replace (b1 * 2 ^ 48 + b0 * 2 ^ 56) with ((b1 + b0 * 2 ^ 8) * 2 ^ 48) by (zpow; lia).
  set (c1 := b1 + b0 * 2 ^ 8).
  rewrite (lor_disjoint' (b2 * 2 ^ 40) c1 48) by (zpow; lia).
  replace (b2 * 2 ^ 40 + c1 * 2 ^ 48) with ((b2 + c1 * 2 ^ 8) * 2 ^ 40) by (zpow; lia).
  set (c2 := b2 + c1 * 2 ^ 8).
  rewrite (lor_disjoint' (b3 * 2 ^ 32) c2 40) by (zpow; lia).
  replace (b3 * 2 ^ 32 + c2 * 2 ^ 40) with ((b3 + c2 * 2 ^ 8) * 2 ^ 32) by (zpow; lia).
  set (c3 := b3 + c2 * 2 ^ 8).
  rewrite (lor_disjoint' (b4 * 2 ^ 24) c3 32) by (zpow; lia).
  replace (b4 * 2 ^ 24 + c3 * 2 ^ 32) with ((b4 + c3 * 2 ^ 8) * 2 ^ 24) by (zpow; lia).
  set (c4 := b4 + c3 * 2 ^ 8).
  rewrite (lor_disjoint' (b5 * 2 ^ 16) c4 24) by (zpow; lia).
  replace (b5 * 2 ^ 16 + c4 * 2 ^ 24) with ((b5 + c4 * 2 ^ 8) * 2 ^ 16) by (zpow; lia).
  set (c5 := b5 + c4 * 2 ^ 8).
  rewrite (lor_disjoint' (b6 * 2 ^ 8) c5 16) by (zpow; lia).
  replace (b6 * 2 ^ 8 + c5 * 2 ^ 16) with ((b6 + c5 * 2 ^ 8) * 2 ^ 8) by (zpow; lia).
  set (c6 := b6 + c5 * 2 ^ 8).
  rewrite (lor_disjoint' b7 c6 8) by (zpow; lia).
  subst c1 c2 c3 c4 c5 c6. zpow. lia.
Qed.

(** [byteswap] on an [n]-byte value reverses its bytes. *)
Lemma byteswap_le n l : (n = 2 \/ n = 4 \/ n = 8)%nat -> length l = n -> bytes_ok l = true ->
  byteswap n (le_val l) = be_val l.
Proof.
  intros Hn Hl Hb. apply bytes_ok_spec in Hb.
  destruct Hn as [->|[->| ->]].
  - destruct l as [|b0 [|b1 [|]]]; try discriminate.
    repeat match goal with H : Forall _ (_ :: _) |- _ => inversion H; clear H; subst end.
    cbn [le_val byteswap be_val rev app]. unfold be_val; cbn [rev app le_val].
    rewrite !Z.mul_0_r, !Z.add_0_r. now rewrite byteswap16_val.
  - destruct l as [|b0 [|b1 [|b2 [|b3 [|]]]]]; try discriminate.
    repeat match goal with H : Forall _ (_ :: _) |- _ => inversion H; clear H; subst end.
    unfold be_val; cbn [rev app le_val byteswap].
    rewrite !Z.mul_0_r, !Z.add_0_r. now rewrite byteswap32_val.
  - destruct l as [|b0 [|b1 [|b2 [|b3 [|b4 [|b5 [|b6 [|b7 [|]]]]]]]]]; try discriminate.
    repeat match goal with H : Forall _ (_ :: _) |- _ => inversion H; clear H; subst end.
    unfold be_val; cbn [rev app le_val byteswap].
    rewrite !Z.mul_0_r, !Z.add_0_r. now rewrite byteswap64_val.
Qed.

Lemma byteswap_be n l : (n = 2 \/ n = 4 \/ n = 8)%nat -> length l = n -> bytes_ok l = true ->
  byteswap n (be_val l) = le_val l.
Proof.
  intros Hn Hl Hb. unfold be_val at 1.
  rewrite byteswap_le by (auto; try (now rewrite rev_length); now rewrite bytes_ok_rev).
  unfold be_val. now rewrite rev_involutive.
Qed.

Lemma pow8 n : 2 ^ (8 * Z.of_nat n) = 256 ^ Z.of_nat n.
Proof. rewrite Z.pow_mul_r by lia. reflexivity. Qed.

Lemma byteswap_involutive n x : (n = 2 \/ n = 4 \/ n = 8)%nat -> 0 <= x < 2 ^ (8 * Z.of_nat n) ->
  byteswap n (byteswap n x) = x.
Proof.
  intros Hn Hx.
  assert (E : x = le_val (le_bytes n x)) by (rewrite le_val_bytes, Z.mod_small; lia).
  rewrite E at 1.
  rewrite (byteswap_le n _ Hn) by (rewrite ?le_bytes_length, ?le_bytes_ok; auto).
  rewrite (byteswap_be n _ Hn) by (rewrite ?le_bytes_length, ?le_bytes_ok; auto).
  auto.
Qed.

Lemma byteswap_le_bytes n x : (n = 2 \/ n = 4 \/ n = 8)%nat -> 0 <= x < 2 ^ (8 * Z.of_nat n) ->
  byteswap n x = be_val (le_bytes n x).
Proof.
  intros Hn Hx.
  assert (E : x = le_val (le_bytes n x)) by (rewrite le_val_bytes, Z.mod_small; lia).
  rewrite E at 1. apply byteswap_le; auto using le_bytes_length, le_bytes_ok.
Qed.

Lemma byteswap_range n x : (n = 2 \/ n = 4 \/ n = 8)%nat -> 0 <= x < 2 ^ (8 * Z.of_nat n) ->
  0 <= byteswap n x < 2 ^ (8 * Z.of_nat n).
Proof.
  intros Hn Hx. rewrite byteswap_le_bytes by auto.
  pose proof (be_val_range (le_bytes n x) (le_bytes_ok n x)) as H.
  unfold zlen in H. now rewrite le_bytes_length in H.
Qed.

(** The bytes written are the value in the file's byte order, whatever the host. *)
Lemma writeSwap_spec host fmt n x : (n = 2 \/ n = 4 \/ n = 8)%nat -> 0 <= x < 2 ^ (8 * Z.of_nat n) ->
  writeSwap host fmt n x =
  match fmt with BigEndian => be_bytes n x | LittleEndian => le_bytes n x end.
Proof.
  intros Hn Hx. unfold writeSwap, swapValue, store.
  destruct host, fmt; cbn [order_eqb]; auto.
  - rewrite byteswap_le_bytes by auto.
    unfold be_bytes, be_val. 
    rewrite <- (le_bytes_length n x) at 1. rewrite <- (rev_length (le_bytes n x)).
    rewrite le_bytes_val by (rewrite bytes_ok_rev; apply le_bytes_ok). apply rev_involutive.
  - rewrite byteswap_le_bytes by auto. unfold be_val, be_bytes.
    rewrite <- (le_bytes_length n x) at 1. rewrite <- (rev_length (le_bytes n x)).
    apply le_bytes_val. rewrite bytes_ok_rev; apply le_bytes_ok.
Qed.

Lemma readSwap_spec host fmt n l rest : (n = 2 \/ n = 4 \/ n = 8)%nat -> length l = n ->
  bytes_ok l = true ->
  readSwap host fmt n (l ++ rest) =
  Some (match fmt with BigEndian => be_val l | LittleEndian => le_val l end, rest).
Proof.
  intros Hn Hl Hb. unfold readSwap.
  assert (Hle : (n <=? length (l ++ rest))%nat = true)
    by (apply Nat.leb_le; rewrite app_length; lia).
  rewrite Hle. rewrite firstn_app, skipn_app, Hl, Nat.sub_diag. cbn [firstn skipn].
  rewrite firstn_all2, skipn_all2, app_nil_r by lia. cbn [app].
  do 2 f_equal. unfold swapValue, load.
  destruct host, fmt; cbn [order_eqb]; auto using byteswap_le, byteswap_be.
Qed.

Lemma field_roundtrip host_w host_r fmt n x rest : (n = 2 \/ n = 4 \/ n = 8)%nat ->
  0 <= x < 2 ^ (8 * Z.of_nat n) ->
  readSwap host_r fmt n (writeSwap host_w fmt n x ++ rest) = Some (x, rest).
Proof.
  intros Hn Hx. rewrite writeSwap_spec by auto.
  destruct fmt.
  - rewrite (readSwap_spec host_r BigEndian n) by auto using be_bytes_length, be_bytes_ok.
    rewrite be_val_bytes, Z.mod_small by lia. reflexivity.
  - rewrite (readSwap_spec host_r LittleEndian n) by auto using le_bytes_length, le_bytes_ok.
    rewrite le_val_bytes, Z.mod_small by lia. reflexivity.
Qed.

Lemma swap_sample_rev host l : (length l = 2 \/ length l = 3 \/ length l = 4 \/ length l = 8)%nat ->
  bytes_ok l = true -> swap_sample host l = rev l.
Proof.
  intros Hl Hb.
  assert (G : (length l = 2 \/ length l = 4 \/ length l = 8)%nat ->
    store host (length l) (byteswap (length l) (load host l)) = rev l).
  { intros Hn. unfold store, load. destruct host.
    - rewrite byteswap_be by auto. unfold be_bytes. now rewrite le_bytes_val.
    - rewrite byteswap_le by auto. unfold be_val. rewrite <- (rev_length l) at 1.
      apply le_bytes_val. now rewrite bytes_ok_rev. }
  destruct Hl as [H|[H|[H|H]]].
  - destruct l as [|b0 [|b1 [|]]]; try discriminate. apply G; auto.
  - destruct l as [|b0 [|b1 [|b2 [|]]]]; try discriminate. reflexivity.
  - destruct l as [|b0 [|b1 [|b2 [|b3 [|]]]]]; try discriminate. apply G; auto.
  - destruct l as [|b0 [|b1 [|b2 [|b3 [|b4 l]]]]]; try discriminate. apply G; auto.
Qed.
