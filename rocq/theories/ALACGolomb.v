(** * The adaptive Golomb coder of the Apple Lossless codec

    /repo/libaudiofile/alac/ag_enc.c, ag_dec.c, aglib.h. *)
From Verif Require Import Prelude PreludeFacts MetadataProofs ALACBits.

(** aglib.h:37-58 *)
Definition PB0 := 40.
Definition MB0 := 10.
Definition KB0 := 14.
Definition MAX_PREFIX := 9.
Definition CLAMP := 0xffff.

(** aglib.h:60-69: what of AGParamRec the coder looks at.  [wb] is [(1u << kb) - 1] (ag_dec.c:66).  [fw = sw] in
    every call, so [rowJump] is 0 and rows play no role. *)
Record agp := { ag_mb : Z; ag_pb : Z; ag_kb : Z }.
Definition stdAg : agp := {| ag_mb := MB0; ag_pb := PB0; ag_kb := KB0 |}.
Definition ag_wb (a : agp) : Z := u32 (2 ^ ag_kb a - 1).

(** ag_enc.c:57-69 and ag_dec.c:79-91: the number of leading zeros of a 32-bit word. *)
Fixpoint leadLoop (k : nat) (m : Z) : Z :=
  match k with
  | O => 0
  | S k' => if Z.testbit m (Z.of_nat k') then 0 else 1 + leadLoop k' m
  end.
Definition lead (m : Z) : Z := leadLoop 32 m.

(** ag_enc.c:73-81 and ag_dec.c:95-103 *)
Definition lg3a (x : Z) : Z := 31 - lead (u32 (x + 3)).

(** ag_enc.c:278-284 and ag_dec.c:295-299: the Golomb parameter from the running mean. *)
Definition meanK (a : agp) (mb : Z) : Z := Z.min (lg3a (Z.shiftr mb 9)) (ag_kb a).
(** ag_enc.c:315-319 and ag_dec.c:316-320: the mean after coding [n]. *)
Definition meanNext (a : agp) (mb n zmode : Z) : Z :=
  if CLAMP <? n then CLAMP
  else u32 (ag_pb a * (n + zmode) + mb - Z.shiftr (u32 (ag_pb a * mb)) 9).
(** ag_enc.c:325 and ag_dec.c:324: is a run of zeros coded next? *)
Definition runNext (mb : Z) : bool := u32 (Z.shiftl mb 2) <? 512.
(** ag_enc.c:351 and ag_dec.c:327 *)
Definition runK (mb : Z) : Z := u32 (lead mb - 24 + Z.shiftr (u32 (mb + 16)) 6).
Definition runM (a : agp) (k : Z) : Z := Z.land (2 ^ k - 1) (ag_wb a).

(** ** Encoder *)

(** ag_enc.c:115-149, dyn_code: the code of a run length, as number of bits and value. *)
Definition dynCode (m k n : Z) : res (Z * Z) :=
  if m =? 0 then UB else
  let div := n / m in
  let esc := (9 + 16, Z.shiftl (2 ^ 9 - 1) 16 + n) in
  if 9 <=? div then Ok esc else
  let md := n mod m in
  let de := if md =? 0 then 1 else 0 in
  let numBits := div + k + 1 - de in
  let value := Z.shiftl (2 ^ div - 1) (numBits - div) + md + 1 - de in
  if 9 + 16 <? numBits then Ok esc else Ok (numBits, value).

(** ag_enc.c:152-186, dyn_code_32bit: the code of a residual; the second component is what is written after an
    escape. *)
Definition dynCode32 (maxbits m k n : Z) : res ((Z * Z) * option (Z * Z)) :=
  if m =? 0 then UB else
  let div := n / m in
  let esc := ((9, 2 ^ 9 - 1), Some (maxbits, n)) in
  if div <? 9 then
    let md := n - m * div in
    let de := if md =? 0 then 1 else 0 in
    let numBits := div + k + 1 - de in
    let value := Z.shiftl (2 ^ div - 1) (numBits - div) + md + 1 - de in
    if 25 <? numBits then Ok esc else Ok ((numBits, value), None)
  else Ok esc.

(** ag_enc.c:189-210, dyn_jam_noDeref: four bytes are read, changed and written back. *)
Definition jam (b : list Z) (p n v : Z) : res (list Z) :=
  do curr <- read32be b (p / 8);
  let shift := 32 - p mod 8 - n in
  if (shift <? 0) || (n <=? 0) then UB else
  let mask := u32 (Z.shiftl (Z.shiftr 0xffffffff (32 - n)) shift) in
  write32be b (p / 8) (Z.lor (Z.land (u32 (Z.shiftl v shift)) mask) (Z.land curr (Z.lnot mask))).

(** ag_enc.c:213-249, dyn_jam_noDeref_large: the same for fields that may reach into a fifth byte. *)
Definition jamLarge (b : list Z) (p n v : Z) : res (list Z) :=
  do curr <- read32be b (p / 8);
  let sv := 32 - p mod 8 - n in
  if sv <? 0 then
    let mask := Z.shiftr 0xffffffff (- sv) in
    let w := Z.lor (Z.shiftr v (- sv)) (Z.land curr (Z.lnot mask)) in
    do b' <- aset b (p / 8 + 4) (u8 (Z.shiftl v (8 + sv)));
    write32be b' (p / 8) w
  else if n <=? 0 then UB
  else
    let mask := u32 (Z.shiftl (Z.shiftr 0xffffffff (32 - n)) sv) in
    write32be b (p / 8) (Z.lor (Z.land (u32 (Z.shiftl v sv)) mask) (Z.land curr (Z.lnot mask))).

(** ag_enc.c:330-349: the length of the run of zeros in front of [xs], at most 65535. *)
Fixpoint zeroRun (fuel : nat) (xs : list Z) : Z :=
  match fuel, xs with
  | S fuel', x :: xs' => if x =? 0 then 1 + zeroRun fuel' xs' else 0
  | _, _ => 0
  end.
Definition runLength (xs : list Z) : Z := zeroRun (Z.to_nat 65535) xs.

(** ag_enc.c:292: the sign goes into the lowest bit.  abs_func (82-90) and the shift wrap at 32 bits. *)
Definition zig (del zmode : Z) : Z := u32 (2 * Z.abs del - (if del <? 0 then 1 else 0) - zmode).

(** ag_enc.c:274-362, the loop of dyn_comp, over the residuals still to be coded; each turn takes at least one. *)
Fixpoint dynComp (fuel : nat) (a : agp) (bitSize : Z) (b : list Z) (p : Z) (xs : list Z) (mb zmode : Z)
  : res (list Z * Z) :=
  match xs with
  | [] => Ok (b, p)
  | del :: xs1 =>
      match fuel with
      | O => OutOfFuel
      | S fuel' =>
          let k := meanK a mb in
          let m := 2 ^ k - 1 in
          let n := zig del zmode in
          do c <- dynCode32 bitSize m k n;
          let '((nb, v), o) := c in
          do b1 <- jam b p nb v;
          do bp <- match o with
                   | None => Ok (b1, p + nb)
                   | Some (nb2, v2) => do b2 <- jamLarge b1 (p + nb) nb2 v2; Ok (b2, p + nb + nb2)
                   end;
          let '(b2, p2) := bp in
          let mb1 := meanNext a mb n zmode in
          if runNext mb1 && (0 <? zlen xs1) then
            let nz := runLength xs1 in
            let zm := if 65535 <=? nz then 0 else 1 in
            let k := runK mb1 in
            if 31 <=? k then UB else
            do c <- dynCode (runM a k) k nz;
            do b3 <- jam b2 p2 (fst c) (snd c);
            dynComp fuel' a bitSize b3 (p2 + fst c) (zskipn nz xs1) 0 zm
          else dynComp fuel' a bitSize b2 p2 xs1 mb1 0
      end
  end.
(** ag_enc.c:252-368, dyn_comp: it fails only for a [bitSize] outside 1..32, which no caller passes. *)
Definition dyn_comp (a : agp) (bitSize : Z) (b : list Z) (p : Z) (xs : list Z) : res (list Z * Z) :=
  dynComp (length xs) a bitSize b p xs (ag_mb a) 0.

(** ** Decoder *)

(** ag_dec.c:125-158, getstreambits *)
Definition getstreambits (b : list Z) (p n : Z) : res Z :=
  if (n <=? 0) || (32 <? n) then UB else
  do load1 <- read32be b (p / 8);
  let off := p mod 8 in
  do r <- (if 32 <? n + off then
             do load2 <- aget b (p / 8 + 4);
             Ok (Z.lor (Z.shiftr (u32 (Z.shiftl load1 off)) (32 - n)) (Z.shiftr load2 (8 - (n + off - 32))))
           else Ok (Z.shiftr load1 (32 - n - off)));
  Ok (if n =? 32 then r else Z.land r (Z.lnot (Z.shiftl 0xffffffff n))).

(** ag_dec.c:161-206, dyn_get: a run length and the position after it. *)
Definition dynGet (b : list Z) (p m k : Z) : res (Z * Z) :=
  do w <- read32be b (p / 8);
  let s := u32 (Z.shiftl w (p mod 8)) in
  let pre := lead (u32 (Z.lnot s)) in
  if 9 <=? pre then
    Ok (Z.shiftr (u32 (Z.shiftl s 9)) (32 - 16), p + 9 + 16)
  else if k <=? 0 then UB
  else
    let v := Z.shiftr (u32 (Z.shiftl s (pre + 1))) (32 - k) in
    if v <? 2 then Ok (u32 (pre * m + v - 1 - (v - 1)), p + pre + 1 + k - 1)
    else Ok (u32 (pre * m + v - 1), p + pre + 1 + k).

(** ag_dec.c:209-259, dyn_get_32bit: a residual and the position after it. *)
Definition dynGet32 (b : list Z) (p m k maxbits : Z) : res (Z * Z) :=
  do w <- read32be b (p / 8);
  let s := u32 (Z.shiftl w (p mod 8)) in
  let pre := lead (u32 (Z.lnot s)) in
  if 9 <=? pre then
    do r <- getstreambits b (p + 9) maxbits;
    Ok (r, p + 9 + maxbits)
  else if k =? 1 then Ok (pre, p + pre + 1)
  else if k <=? 0 then UB
  else
    let v := Z.shiftr (u32 (Z.shiftl s (pre + 1))) (32 - k) in
    if 2 <=? v then Ok (u32 (pre * m + (v - 1)), p + pre + 1 + k - 1 + 1)
    else Ok (u32 (pre * m), p + pre + 1 + k - 1).

(** ag_dec.c:303-311: the residual coded by [n]. *)
Definition unzig (n zmode : Z) : Z :=
  let nd := u32 (n + zmode) in
  s32 (Z.shiftr (u32 (nd + 1)) 1 * (if Z.odd nd then -1 else 1)).

(** ag_dec.c:287-345, the loop of dyn_decomp.  [rem] residuals are still wanted, [room] still fit into the array
    that receives them, [lim] is the position (in bits from the start of the buffer) at which it gives up.
    [None]: the status is kALAC_ParamError. *)
Fixpoint dynDecomp (fuel : nat) (a : agp) (maxSize : Z) (b : list Z) (p lim rem room mb zmode : Z)
  : res (option (list Z * Z)) :=
  if rem <=? 0 then Ok (Some ([], p)) else
  match fuel with
  | O => OutOfFuel
  | S fuel' =>
      if lim <=? p then Ok None else
      let k := meanK a mb in
      let m := 2 ^ k - 1 in
      do np <- dynGet32 b p m k maxSize;
      let '(n, p1) := np in
      if room <=? 0 then UB else
      let del := unzig n zmode in
      let mb1 := meanNext a mb n zmode in
      if runNext mb1 && (1 <? rem) then
        let k := runK mb1 in
        if 31 <=? k then UB else
        do np <- dynGet b p1 (runM a k) k;
        let '(nz, p2) := np in
        if rem - 1 <? nz then Ok None else
        if room - 1 <? nz then UB else
        do r <- dynDecomp fuel' a maxSize b p2 lim (rem - 1 - nz) (room - 1 - nz) 0 (if 65535 <=? nz then 0 else 1);
        Ok (match r with Some (l, q) => Some (del :: zrepeat 0 nz ++ l, q) | None => None end)
      else
        do r <- dynDecomp fuel' a maxSize b p1 lim (rem - 1) (room - 1) mb1 0;
        Ok (match r with Some (l, q) => Some (del :: l, q) | None => None end)
  end.
(** ag_dec.c:262-354, dyn_decomp.  The give-up position counts from [cur] (270-271), and the position after the
    last code must not be past the end of the packet (351). *)
Definition dyn_decomp (a : agp) (maxSize : Z) (b : list Z) (size p n room : Z) : res (option (list Z * Z)) :=
  do r <- dynDecomp (Z.to_nat n) a maxSize b p (8 * (p / 8) + 8 * size) n room (ag_mb a) 0;
  Ok (match r with Some (l, q) => if q / 8 <=? size then Some (l, q) else None | None => None end).

(** ** What is written: the fields of the code *)

(** The code of a residual [n] with parameter [k] (and [m = 2^k - 1]): the quotient in unary, then the remainder;
    or nine ones and the number itself. *)
Definition code32 (bits k n : Z) : fields :=
  let m := 2 ^ k - 1 in
  if n / m <? 9 then
    if n mod m =? 0 then [(n / m + k, (2 ^ (n / m) - 1) * 2 ^ k)]
    else [(n / m + k + 1, (2 ^ (n / m) - 1) * 2 ^ (k + 1) + n mod m + 1)]
  else [(9, 511); (bits, n)].
Definition code16 (k n : Z) : fields :=
  let m := 2 ^ k - 1 in
  if n / m <? 9 then
    if n mod m =? 0 then [(n / m + k, (2 ^ (n / m) - 1) * 2 ^ k)]
    else [(n / m + k + 1, (2 ^ (n / m) - 1) * 2 ^ (k + 1) + n mod m + 1)]
  else [(25, 511 * 2 ^ 16 + n)].

Fixpoint gfields (fuel : nat) (bits : Z) (xs : list Z) (mb zmode : Z) : fields :=
  match fuel, xs with
  | S fuel', del :: xs1 =>
      let n := zig del zmode in
      let mb1 := meanNext stdAg mb n zmode in
      code32 bits (meanK stdAg mb) n ++
      (if runNext mb1 && (0 <? zlen xs1) then
         let nz := runLength xs1 in
         code16 (runK mb1) nz ++ gfields fuel' bits (zskipn nz xs1) 0 (if 65535 <=? nz then 0 else 1)
       else gfields fuel' bits xs1 mb1 0)
  | _, _ => []
  end.
Definition golombFields (bits : Z) (xs : list Z) : fields := gfields (length xs) bits xs MB0 0.

(** ** Leading zeros *)

Lemma leadLoop_skip k e m : (forall t, e <= t -> Z.testbit m t = false) -> (Z.to_nat e <= k)%nat -> 0 <= e ->
  leadLoop k m = Z.of_nat k - e + leadLoop (Z.to_nat e) m.
Proof.
  intros H. induction k as [|k IH]; intros Hk He.
  - assert (Z.to_nat e = O) as -> by lia. cbn. lia.
  - destruct (Nat.eq_dec (Z.to_nat e) (S k)) as [Q|Q]; [rewrite Q; lia|].
    cbn [leadLoop]. rewrite H by lia. rewrite IH by lia. lia.
Qed.
Lemma bit_high u e t : 0 <= u < 2 ^ e -> 0 <= e -> e <= t -> Z.testbit u t = false.
Proof.
  intros Hu He Ht. destruct (Z.eq_dec u 0) as [->|N]; [apply Z.bits_0|].
  apply Z.bits_above_log2; [lia|]. apply Z.log2_lt_pow2; [lia|]. eapply Z.lt_le_trans; [apply Hu|]. apply Z.pow_le_mono_r; lia.
Qed.
Lemma lead_is u e : 0 <= e <= 31 -> 2 ^ e <= u < 2 ^ (e + 1) -> lead u = 31 - e.
Proof.
  intros He Hu. unfold lead. assert (P : 0 < 2 ^ e) by (apply Z.pow_pos_nonneg; lia).
  rewrite (leadLoop_skip 32 (e + 1)) by (lia || (intros t Ht; apply (bit_high u (e + 1)); lia)).
  replace (Z.to_nat (e + 1)) with (S (Z.to_nat e)) by lia. cbn [leadLoop]. rewrite Z2Nat.id by lia.
  assert (T : Z.testbit u e = true).
  { replace e with (Z.log2 u); [apply Z.bit_log2; lia|]. apply Z.log2_unique; [lia|]. split; [apply Hu|]. rewrite <- Z.add_1_r. apply Hu. }
  rewrite T. lia.
Qed.
Lemma leadLoop_nonneg k m : 0 <= leadLoop k m <= Z.of_nat k.
Proof. induction k as [|k IH]; [cbn; lia|]. cbn [leadLoop]. destruct (Z.testbit m (Z.of_nat k)); lia. Qed.
Lemma lead_ge u e : 0 <= e <= 32 -> 0 <= u < 2 ^ e -> 32 - e <= lead u <= 32.
Proof.
  intros He Hu. unfold lead. rewrite (leadLoop_skip 32 e) by (lia || (intros t Ht; apply (bit_high u e); lia)).
  pose proof (leadLoop_nonneg (Z.to_nat e) u). lia.
Qed.

Lemma log2_floor u : 0 < u < 2 ^ 32 -> exists e, 0 <= e <= 31 /\ 2 ^ e <= u < 2 ^ (e + 1).
Proof.
  intros H. exists (Z.log2 u). pose proof (Z.log2_spec u ltac:(lia)). rewrite <- Z.add_1_r in H0.
  pose proof (Z.log2_nonneg u). split; [|exact H0]. split; [exact H1|].
  enough (Z.log2 u < 32) by lia. apply Z.log2_lt_pow2; lia.
Qed.

Lemma meanK_range mb : 0 <= mb < 2 ^ 32 -> 1 <= meanK stdAg mb <= 14.
Proof.
  intros H. unfold meanK. cbn [ag_kb stdAg]. unfold KB0, lg3a. rewrite Z.shiftr_div_pow2 by lia. change (2 ^ 9) with 512.
  change (2 ^ 32) with 4294967296 in H.
  assert (R : 3 <= mb / 512 + 3 < 2 ^ 32) by (change (2 ^ 32) with 4294967296; lia).
  unfold u32. rewrite uN_small by lia. destruct (log2_floor (mb / 512 + 3)) as (e & He & Hb); [lia|].
  rewrite (lead_is _ e) by assumption. enough (1 <= e) by lia. destruct (Z.eq_dec e 0) as [->|]; [|lia]. cbn in Hb. lia.
Qed.

Lemma runNext_spec mb : 0 <= mb < 2 ^ 30 -> runNext mb = (mb <? 128).
Proof.
  intros H. unfold runNext. rewrite Z.shiftl_mul_pow2 by lia. change (2 ^ 2) with 4. change (2 ^ 30) with 1073741824 in H.
  unfold u32. rewrite uN_small by (change (2 ^ 32) with 4294967296; lia). lia.
Qed.
Lemma runK_range mb : 0 <= mb < 128 -> 2 <= runK mb <= 8.
Proof.
  intros H. unfold runK, u32. rewrite (uN_small 32 (mb + 16)) by (change (2 ^ 32) with 4294967296; lia).
  rewrite Z.shiftr_div_pow2 by lia. change (2 ^ 6) with 64.
  assert (L : 0 <= lead mb - 24 + (mb + 16) / 64 <= 8 /\ 2 <= lead mb - 24 + (mb + 16) / 64).
  { destruct (Z.eq_dec mb 0) as [->|N]; [vm_compute; intuition congruence|].
    destruct (log2_floor mb) as (e & He & Hb); [lia|]. rewrite (lead_is mb e) by assumption.
    assert (C : e <= 6). { destruct (Z_le_gt_dec e 6); [lia|]. assert (2 ^ 7 <= 2 ^ e) by (apply Z.pow_le_mono_r; lia). change (2 ^ 7) with 128 in H0. lia. }
    assert (D : e = 0 \/ e = 1 \/ e = 2 \/ e = 3 \/ e = 4 \/ e = 5 \/ e = 6) by lia.
    repeat (destruct D as [->|D]; [cbn in Hb; lia|]). subst e. cbn in Hb. lia. }
  rewrite uN_small by (change (2 ^ 32) with 4294967296; lia). lia.
Qed.
Lemma runM_std k : 2 <= k <= 8 -> runM stdAg k = 2 ^ k - 1.
Proof.
  intros H. assert (D : k = 2 \/ k = 3 \/ k = 4 \/ k = 5 \/ k = 6 \/ k = 7 \/ k = 8) by lia.
  repeat (destruct D as [->|D]; [reflexivity|]). subst k. reflexivity.
Qed.

(** ** Reading back one code *)

(** A word that starts with [d] ones, a zero and then [e] bits of value [y]. *)
Lemma stream_prefix S d e y : 0 <= d -> 0 <= e -> d + 1 + e <= 32 -> 0 <= y < 2 ^ e -> 0 <= S < 2 ^ 32 ->
  Z.shiftr S (32 - (d + 1 + e)) = (2 ^ d - 1) * 2 ^ (1 + e) + y ->
  lead (u32 (Z.lnot S)) = d /\
  exists x, 0 <= x < 2 ^ (31 - d) /\ Z.shiftr x (31 - d - e) = y /\ u32 (Z.shiftl S (d + 1)) = x * 2 ^ (d + 1).
Proof.
  intros Hd He Hde Hy HS H. set (r := 31 - d - e). replace (32 - (d + 1 + e)) with r in H by lia.
  assert (Hr : 0 <= r) by lia. rewrite Z.shiftr_div_pow2 in H by exact Hr.
  assert (Pr : 0 < 2 ^ r) by (apply Z.pow_pos_nonneg; lia).
  assert (Pd : 0 < 2 ^ d) by (apply Z.pow_pos_nonneg; lia).
  assert (Pe : 0 < 2 ^ e) by (apply Z.pow_pos_nonneg; lia).
  pose proof (Z.div_mod S (2 ^ r) ltac:(lia)) as E. pose proof (Z.mod_pos_bound S (2 ^ r) Pr) as M. rewrite H in E.
  set (z := S mod 2 ^ r) in *. set (x := y * 2 ^ r + z).
  assert (X : 0 <= x < 2 ^ (31 - d)).
  { replace (31 - d) with (e + r) by lia. rewrite Z.pow_add_r by lia. subst x. nia. }
  assert (ES : S = 2 ^ 32 - 2 ^ (32 - d) + x).
  { rewrite E. subst x. replace (2 ^ 32) with (2 ^ d * 2 ^ (1 + e) * 2 ^ r) by (rewrite <- !Z.pow_add_r by lia; f_equal; lia).
    replace (2 ^ (32 - d)) with (2 ^ (1 + e) * 2 ^ r) by (rewrite <- !Z.pow_add_r by lia; f_equal; lia). ring. }
  assert (E31 : 2 ^ (32 - d) = 2 * 2 ^ (31 - d)) by (rewrite <- Z.pow_succ_r by lia; f_equal; lia).
  split.
  - replace (u32 (Z.lnot S)) with (2 ^ (32 - d) - 1 - x).
    + rewrite (lead_is _ (31 - d)); [lia|lia|]. replace (31 - d + 1) with (32 - d) by lia. lia.
    + unfold Z.lnot, u32, uN. replace (Z.pred (- S)) with (2 ^ (32 - d) - 1 - x + (-1) * 2 ^ 32) by lia.
      rewrite Z.mod_add by lia. symmetry. apply Z.mod_small.
      assert (2 ^ (32 - d) <= 2 ^ 32) by (apply Z.pow_le_mono_r; lia). lia.
  - exists x. split; [exact X|]. split.
    + fold r. rewrite Z.shiftr_div_pow2 by exact Hr. subst x. rewrite Z.div_add_l by lia. rewrite Z.div_small by exact M. lia.
    + unfold u32, uN. rewrite Z.shiftl_mul_pow2 by lia. rewrite ES.
      replace ((2 ^ 32 - 2 ^ (32 - d) + x) * 2 ^ (d + 1)) with (x * 2 ^ (d + 1) + (2 ^ (d + 1) - 2) * 2 ^ 32).
      2:{ replace (2 ^ 32) with (2 ^ (32 - d) * 2 ^ d) by (rewrite <- Z.pow_add_r by lia; f_equal; lia).
          rewrite (Z.pow_add_r 2 d 1) by lia. change (2 ^ 1) with 2. ring. }
      rewrite Z.mod_add by lia. apply Z.mod_small. 
      replace (2 ^ 32) with (2 ^ (31 - d) * 2 ^ (d + 1)) by (rewrite <- Z.pow_add_r by lia; f_equal; lia).
      assert (0 < 2 ^ (d + 1)) by (apply Z.pow_pos_nonneg; lia). nia.
Qed.

(** Nine ones. *)
Lemma stream_escape S : 0 <= S < 2 ^ 32 -> Z.shiftr S 23 = 511 -> 9 <= lead (u32 (Z.lnot S)).
Proof.
  intros HS H. rewrite Z.shiftr_div_pow2 in H by lia. change (2 ^ 23) with 8388608 in H. change (2 ^ 32) with 4294967296 in HS.
  unfold u32, uN, Z.lnot. replace (Z.pred (- S)) with (4294967295 - S + (-1) * 2 ^ 32) by (change (2 ^ 32) with 4294967296; lia).
  rewrite Z.mod_add by lia. rewrite Z.mod_small by (change (2 ^ 32) with 4294967296; lia).
  pose proof (lead_ge (4294967295 - S) 23 ltac:(lia)). change (2 ^ 23) with 8388608 in H0. lia.
Qed.

(** The word the readers look at. *)
Definition streamAt (b : list Z) (p : Z) : Z := u32 (Z.shiftl (bitsAt b (8 * (p / 8)) 32) (p mod 8)).
Lemma streamAt_range b p : 0 <= streamAt b p < 2 ^ 32. Proof. apply uN_range. lia. Qed.
Lemma streamAt_top b p n : 0 <= p -> 0 <= n <= 25 -> Z.shiftr (streamAt b p) (32 - n) = bitsAt b p n.
Proof. intros Hp Hn. unfold streamAt, u32, uN. rewrite window by lia. f_equal. lia. Qed.

Lemma unary_value d j w : 0 <= d -> 0 <= j -> 0 <= w < 2 ^ j -> 0 <= (2 ^ d - 1) * 2 ^ j + w < 2 ^ (d + j).
Proof.
  intros Hd Hj Hw. assert (0 < 2 ^ d) by (apply Z.pow_pos_nonneg; lia). rewrite Z.pow_add_r by lia. nia.
Qed.

Lemma v_full x d k y : 0 <= d -> 1 <= k -> d + 1 + k <= 32 -> Z.shiftr x (31 - d - k) = y -> Z.shiftr (x * 2 ^ (d + 1)) (32 - k) = y.
Proof.
  intros Hd Hk Hs <-. rewrite !Z.shiftr_div_pow2 by lia. replace (32 - k) with (31 - d - k + (d + 1)) by lia.
  rewrite (Z.pow_add_r 2 (31 - d - k)) by lia. assert (0 < 2 ^ (31 - d - k)) by (apply Z.pow_pos_nonneg; lia). rewrite Z.div_mul_cancel_r; [reflexivity|lia|].
  apply Z.pow_nonzero; lia.
Qed.
Lemma v_short x d k : 0 <= x -> 0 <= d -> 1 <= k -> d + 1 + k <= 32 -> Z.shiftr x (31 - d - (k - 1)) = 0 ->
  0 <= Z.shiftr (x * 2 ^ (d + 1)) (32 - k) < 2.
Proof.
  intros Hx Hd Hk Hs H. rewrite (v_full x d k _ Hd Hk Hs eq_refl). rewrite Z.shiftr_div_pow2 in * by lia.
  assert (P : 0 < 2 ^ (31 - d - k)) by (apply Z.pow_pos_nonneg; lia).
  replace (31 - d - (k - 1)) with (31 - d - k + 1) in H by lia. rewrite Z.pow_add_r in H by lia. change (2 ^ 1) with 2 in H.
  split; [apply Z.div_pos; lia|]. apply Z.div_lt_upper_bound; [exact P|].
  apply Z.div_small_iff in H; [|nia]. lia.
Qed.

Lemma m_pos k : 1 <= k <= 14 -> 1 <= 2 ^ k - 1.
Proof. intros Hk. assert (2 ^ 1 <= 2 ^ k) by (apply Z.pow_le_mono_r; lia). change (2 ^ 1) with 2 in *. lia. Qed.
Lemma d_pos k n : 1 <= k <= 14 -> 0 <= n -> 0 <= n / (2 ^ k - 1).
Proof. intros Hk Hn. apply Z.div_pos; [exact Hn|pose proof (m_pos k Hk); lia]. Qed.

Section OneCode.
  Context (b : list Z) (p k n : Z).
  Hypotheses (Hp : 0 <= p) (Hk : 1 <= k <= 14) (Hn : 0 <= n).
  Let m := 2 ^ k - 1.
  (** The unary part and what follows it, for a code without escape. *)
  Lemma code_short : n / m < 9 -> n mod m = 0 -> bitsAt b p (n / m + k) = (2 ^ (n / m) - 1) * 2 ^ k ->
    lead (u32 (Z.lnot (streamAt b p))) = n / m /\
    0 <= Z.shiftr (u32 (Z.shiftl (streamAt b p) (n / m + 1))) (32 - k) < 2.
  Proof.
    intros D M F. pose proof (d_pos k n Hk Hn) as D0. fold m in D0. set (d := n / m) in *.
    assert (Pk : 0 < 2 ^ (k - 1)) by (apply Z.pow_pos_nonneg; lia).
    destruct (stream_prefix (streamAt b p) d (k - 1) 0) as (L & x & X1 & X2 & X3); [lia|lia|lia|lia|apply streamAt_range| |].
    { rewrite streamAt_top by lia. replace (d + 1 + (k - 1)) with (d + k) by lia. rewrite F. replace (1 + (k - 1)) with k by lia. ring. }
    split; [exact L|]. rewrite X3. apply v_short; try lia; try exact X2.
  Qed.
  Lemma code_long : n / m < 9 -> n mod m <> 0 -> bitsAt b p (n / m + k + 1) = (2 ^ (n / m) - 1) * 2 ^ (k + 1) + n mod m + 1 ->
    lead (u32 (Z.lnot (streamAt b p))) = n / m /\
    Z.shiftr (u32 (Z.shiftl (streamAt b p) (n / m + 1))) (32 - k) = n mod m + 1.
  Proof.
    intros D M F. pose proof (d_pos k n Hk Hn) as D0. fold m in D0. set (d := n / m) in *. pose proof (m_pos k Hk) as Mp. fold m in Mp.
    pose proof (Z.mod_pos_bound n m ltac:(lia)) as R.
    destruct (stream_prefix (streamAt b p) d k (n mod m + 1)) as (L & x & X1 & X2 & X3); [lia|lia|lia|subst m; lia|apply streamAt_range| |].
    { rewrite streamAt_top by lia. replace (d + 1 + k) with (d + k + 1) by lia. rewrite F. replace (1 + k) with (k + 1) by lia. ring. }
    split; [exact L|]. rewrite X3. apply v_full; try lia; try exact X2.
  Qed.
End OneCode.

Lemma code_bounds k n : 1 <= k <= 14 -> 0 <= n -> n / (2 ^ k - 1) < 9 ->
  let m := 2 ^ k - 1 in
  (n mod m = 0 -> ((2 ^ (n / m) - 1) * 2 ^ k) mod 2 ^ (n / m + k) = (2 ^ (n / m) - 1) * 2 ^ k) /\
  (n mod m <> 0 -> ((2 ^ (n / m) - 1) * 2 ^ (k + 1) + n mod m + 1) mod 2 ^ (n / m + k + 1) = (2 ^ (n / m) - 1) * 2 ^ (k + 1) + n mod m + 1).
Proof.
  intros Hk Hn D m. pose proof (m_pos k Hk) as Mp. fold m in Mp. pose proof (d_pos k n Hk Hn) as D0. fold m in D0.
  pose proof (Z.mod_pos_bound n m ltac:(lia)) as R.
  assert (2 ^ (k + 1) = 2 * 2 ^ k) by (rewrite Z.pow_add_r by lia; change (2 ^ 1) with 2; ring).
  split; intros Z0.
  - apply Z.mod_small. pose proof (unary_value (n / m) k 0 D0 ltac:(lia)). assert (0 < 2 ^ k) by (apply Z.pow_pos_nonneg; lia). lia.
  - apply Z.mod_small. pose proof (unary_value (n / m) (k + 1) (n mod m + 1) D0 ltac:(lia)). replace (n / m + k + 1) with (n / m + (k + 1)) by lia. subst m. lia.
Qed.

Lemma getstreambits_ok b p n : bytes_ok b = true -> 0 <= p -> p / 8 + 3 < zlen b -> 1 <= n <= 25 -> getstreambits b p n = Ok (bitsAt b p n).
Proof.
  intros Hb Hp Hl Hn. unfold getstreambits. replace ((n <=? 0) || (32 <? n)) with false by lia.
  rewrite read32be_ok by (auto; lia). cbn [rbind]. replace (32 <? n + p mod 8) with false by lia. cbn [rbind].
  replace (n =? 32) with false by lia. f_equal.
  pose proof (streamAt_top b p n Hp ltac:(lia)) as W.
  apply Z.bits_inj'. intros t Ht. rewrite <- W. unfold streamAt, u32, uN.
  rewrite Z.land_spec, Z.lnot_spec, !Z.shiftr_spec by lia. 
  destruct (Z.ltb_spec t n) as [L|L].
  - rewrite (Z.shiftl_spec_low _ n t) by lia. cbn [negb]. rewrite andb_true_r. rewrite Z.mod_pow2_bits_low by lia.
    rewrite Z.shiftl_spec by lia. f_equal. lia.
  - rewrite Z.mod_pow2_bits_high by lia. change 0xffffffff with (Z.ones 32). rewrite Z.shiftl_spec by lia.
    destruct (Z.ltb_spec (t - n) 32).
    + rewrite Z.ones_spec_low by lia. apply andb_false_r.
    + rewrite Z.ones_spec_high by lia. rewrite andb_true_r. apply (bit_high _ 32); [apply bitsAt_range|..]; lia.
Qed.

(** dyn_get_32bit undoes dyn_code_32bit. *)
Lemma dynGet32_code b p k n bits : bytes_ok b = true -> 0 <= p -> (p + fbits (code32 bits k n) - 1) / 8 + 3 < zlen b ->
  1 <= k <= 14 -> 1 <= bits <= 25 -> 0 <= n < 2 ^ bits ->
  holds b p (code32 bits k n) -> dynGet32 b p (2 ^ k - 1) k bits = Ok (n, p + fbits (code32 bits k n)).
Proof.
  intros Hb Hp Hl Hk Hbits Hn H. set (m := 2 ^ k - 1). pose proof (m_pos k Hk) as Mp. fold m in Mp.
  pose proof (d_pos k n Hk ltac:(lia)) as D0. fold m in D0.
  assert (Hn32 : 0 <= n < 2 ^ 32). { assert (2 ^ bits <= 2 ^ 32) by (apply Z.pow_le_mono_r; lia). lia. }
  pose proof (Z.div_mod n m ltac:(lia)) as DM. pose proof (Z.mod_pos_bound n m ltac:(lia)) as R.
  assert (Hlb : p / 8 + 3 < zlen b).
  { enough (0 <= fbits (code32 bits k n) - 1) by lia. unfold code32. fold m.
    destruct (n / m <? 9); [destruct (n mod m =? 0)|]; cbn [fbits fold_right fst]; lia. }
  unfold dynGet32. rewrite read32be_ok by (auto; lia). cbn [rbind]. fold (streamAt b p).
  unfold code32 in *. fold m in H, Hl |- *. destruct (Z.ltb_spec (n / m) 9) as [L|L].
  - destruct (code_bounds k n Hk ltac:(lia) L) as [CB1 CB2]. fold m in CB1, CB2.
    destruct (Z.eqb_spec (n mod m) 0) as [Q|Q].
    + cbn [holds] in H. destruct H as [H _]. rewrite CB1 in H by exact Q.
      destruct (code_short b p k n Hp Hk ltac:(lia) L Q H) as [E V]. fold m in E, V. rewrite E.
      replace (9 <=? n / m) with false by lia. cbn [fbits fold_right fst].
      destruct (Z.eqb_spec k 1) as [K1|K1].
      { assert (m = 1) by (subst m k; reflexivity). rewrite H0, Z.div_1_r. do 2 f_equal. lia. }
      replace (k <=? 0) with false by lia. cbv zeta.
      replace (2 <=? Z.shiftr (u32 (Z.shiftl (streamAt b p) (n / m + 1))) (32 - k)) with false by lia.
      replace (n / m * m) with n by lia. unfold u32. rewrite uN_small by exact Hn32. do 2 f_equal. lia.
    + cbn [holds] in H. destruct H as [H _]. rewrite CB2 in H by exact Q.
      destruct (code_long b p k n Hp Hk ltac:(lia) L Q H) as [E V]. fold m in E, V. rewrite E.
      replace (9 <=? n / m) with false by lia. cbn [fbits fold_right fst].
      destruct (Z.eqb_spec k 1) as [K1|K1].
      { assert (m = 1) by (subst m k; reflexivity). rewrite H0, Z.mod_1_r in Q. lia. }
      replace (k <=? 0) with false by lia. cbv zeta. rewrite V. replace (2 <=? n mod m + 1) with true by lia.
      replace (n / m * m + (n mod m + 1 - 1)) with n by lia. unfold u32. rewrite uN_small by exact Hn32. do 2 f_equal. lia.
  - cbn [holds] in H. destruct H as (H1 & H2 & _). cbn [fbits fold_right fst] in *.
    assert (E : 9 <= lead (u32 (Z.lnot (streamAt b p)))).
    { apply stream_escape; [apply streamAt_range|]. change 23 with (32 - 9). rewrite streamAt_top by lia. exact H1. }
    replace (9 <=? lead (u32 (Z.lnot (streamAt b p)))) with true by lia.
    rewrite getstreambits_ok by (auto; lia). cbn [rbind]. rewrite H2. rewrite Z.mod_small by exact Hn. do 2 f_equal. lia.
Qed.

(** dyn_get undoes dyn_code. *)
Lemma dynGet_code b p k n : bytes_ok b = true -> 0 <= p -> (p + fbits (code16 k n) - 1) / 8 + 3 < zlen b ->
  2 <= k <= 8 -> 0 <= n < 2 ^ 16 ->
  holds b p (code16 k n) -> dynGet b p (2 ^ k - 1) k = Ok (n, p + fbits (code16 k n)).
Proof.
  intros Hb Hp Hl Hk Hn H. set (m := 2 ^ k - 1). pose proof (m_pos k ltac:(lia)) as Mp. fold m in Mp.
  pose proof (d_pos k n ltac:(lia) ltac:(lia)) as D0. fold m in D0. change (2 ^ 16) with 65536 in Hn.
  assert (Hn32 : 0 <= n < 2 ^ 32) by (change (2 ^ 32) with 4294967296; lia).
  pose proof (Z.div_mod n m ltac:(lia)) as DM. pose proof (Z.mod_pos_bound n m ltac:(lia)) as R.
  assert (Hlb : p / 8 + 3 < zlen b).
  { enough (0 <= fbits (code16 k n) - 1) by lia. unfold code16. fold m.
    destruct (n / m <? 9); [destruct (n mod m =? 0)|]; cbn [fbits fold_right fst]; lia. }
  unfold dynGet. rewrite read32be_ok by (auto; lia). cbn [rbind]. fold (streamAt b p).
  unfold code16 in *. fold m in H, Hl |- *. destruct (Z.ltb_spec (n / m) 9) as [L|L].
  - destruct (code_bounds k n ltac:(lia) ltac:(lia) L) as [CB1 CB2]. fold m in CB1, CB2.
    destruct (Z.eqb_spec (n mod m) 0) as [Q|Q].
    + cbn [holds] in H. destruct H as [H _]. rewrite CB1 in H by exact Q.
      destruct (code_short b p k n Hp ltac:(lia) ltac:(lia) L Q H) as [E V]. fold m in E, V. rewrite E.
      replace (9 <=? n / m) with false by lia. cbn [fbits fold_right fst].
      replace (k <=? 0) with false by lia. cbv zeta.
      set (v := Z.shiftr (u32 (Z.shiftl (streamAt b p) (n / m + 1))) (32 - k)) in *. replace (v <? 2) with true by lia.
      replace (n / m * m + v - 1 - (v - 1)) with n by lia. unfold u32. rewrite uN_small by exact Hn32. do 2 f_equal. lia.
    + cbn [holds] in H. destruct H as [H _]. rewrite CB2 in H by exact Q.
      destruct (code_long b p k n Hp ltac:(lia) ltac:(lia) L Q H) as [E V]. fold m in E, V. rewrite E.
      replace (9 <=? n / m) with false by lia. cbn [fbits fold_right fst].
      replace (k <=? 0) with false by lia. cbv zeta. rewrite V. replace (n mod m + 1 <? 2) with false by lia.
      replace (n / m * m + (n mod m + 1) - 1) with n by lia. unfold u32. rewrite uN_small by exact Hn32. do 2 f_equal. lia.
  - cbn [holds] in H. destruct H as (H1 & _). cbn [fbits fold_right fst] in *.
    rewrite Z.mod_small in H1 by (change (2 ^ 16) with 65536; change (2 ^ 25) with 33554432; lia).
    assert (S25 : Z.shiftr (streamAt b p) 7 = 511 * 2 ^ 16 + n) by (change 7 with (32 - 25); rewrite streamAt_top by lia; exact H1).
    pose proof (streamAt_range b p) as SR.
    assert (E : 9 <= lead (u32 (Z.lnot (streamAt b p)))).
    { apply stream_escape; [exact SR|]. change 23 with (7 + 16). rewrite <- Z.shiftr_shiftr by lia. rewrite S25.
      rewrite Z.shiftr_div_pow2 by lia. change (2 ^ 16) with 65536. lia. }
    replace (9 <=? lead (u32 (Z.lnot (streamAt b p)))) with true by lia.
    do 2 f_equal; [|lia]. unfold u32, uN. rewrite Z.shiftl_mul_pow2 by lia. rewrite Z.shiftr_div_pow2 in * by lia.
    change (2 ^ 9) with 512. change (2 ^ (32 - 16)) with 65536. change (2 ^ 32) with 4294967296 in *. change (2 ^ 7) with 128 in S25. change (2 ^ 16) with 65536 in S25. lia.
Qed.
