(** * The adaptive predictor of the Apple Lossless codec

    /repo/libaudiofile/alac/dp_enc.c (pc_block) and dp_dec.c (unpc_block). *)
From Verif Require Import Prelude PreludeFacts MetadataProofs ALACBits ALACGolomb ALACGolombProofs.

(** The predictor multiplies and adds in [int] without regard to overflow.  The C standard leaves that undefined
    ([Strict]); what the compilers in use generate wraps around ([Wrapping]).  Theorems that do not name one hold of
    both.  Left shifts and narrowing conversions of signed numbers are two's complement in either. *)
Class Arith := wraps : bool.
Definition Wrapping : Arith := true.
Definition Strict : Arith := false.
Definition i32 {W : Arith} (x : Z) : res Z := if inS 32 x then Ok x else if wraps then Ok (s32 x) else UB.

(** [(x << chanshift) >> chanshift] with [chanshift = 32 - chanbits], dp_enc.c:97, 105 and elsewhere *)
Definition signExtend (chanbits x : Z) : Z := Z.shiftr (s32 (Z.shiftl x (32 - chanbits))) (32 - chanbits).

(** dp_enc.c:66-72 and dp_dec.c:46-52, sign_of_int *)
Definition signOfInt (i : Z) : Z := Z.lor (Z.shiftr (u32 (- i)) 31) (Z.shiftr i 31).

(** The samples before position [j], the latest first; [top = in[j - lim]] is number [numactive], [pin[-k]] is
    number [k] (dp_enc.c:122-128, 194-206).  The differences [b_k = top - pin[-k]]. *)
Fixpoint diffs {W : Arith} (n : nat) (top : Z) (hist : list Z) : res (list Z) :=
  match n, hist with
  | O, _ => Ok []
  | S n', x :: h => do d <- i32 (top - x); do l <- diffs n' top h; Ok (d :: l)
  | S _, [] => UB
  end.

(** dp_enc.c:130, 208-209, dp_dec.c:128, 200-201: [acc - a0 * b0 - a1 * b1 - ...] *)
Fixpoint dotSub {W : Arith} (acc : Z) (cs bs : list Z) : res Z :=
  match cs, bs with
  | a :: cs', b :: bs' => do m <- i32 (a * b); do acc' <- i32 (acc - m); dotSub acc' cs' bs'
  | _, _ => Ok acc
  end.
(** dp_dec.c:346-347: [sum1 += coefs[k] * (pout[-k] - top)] *)
Fixpoint dotAdd {W : Arith} (acc : Z) (cs bs : list Z) : res Z :=
  match cs, bs with
  | a :: cs', b :: bs' => do d <- i32 (- b); do m <- i32 (a * d); do acc' <- i32 (acc + m); dotAdd acc' cs' bs'
  | _, _ => Ok acc
  end.

(** dp_enc.c:137-177, 216-300, 345-368 and dp_dec.c:136-176, 208-300, 354-377: the coefficients move by the signs of
    the differences until the residual is used up; [l] holds coefficient and difference from index
    [numactive - 1] down to 0, [w = numactive - k].  The unrolled chains for 4 and 8 coefficients are the loop
    written out, except that they leave out the last, unused update of [del0], as does the model. *)
Fixpoint adapt {W : Arith} (pos : bool) (denshift w del0 : Z) (l : list (Z * Z)) : res (list Z) :=
  match l with
  | [] => Ok []
  | (a, b) :: l' =>
      let sgn := if pos then signOfInt b else - signOfInt b in
      let a' := s16 (a - sgn) in
      match l' with
      | [] => Ok [a']
      | _ =>
          do pr <- i32 (sgn * b);
          do t <- i32 (w * Z.shiftr pr denshift);
          do del0 <- i32 (del0 - t);
          if (if pos then del0 <=? 0 else 0 <=? del0) then Ok (a' :: map fst l')
          else do r <- adapt pos denshift (w + 1) del0 l'; Ok (a' :: r)
      end
  end.
Definition adaptAll {W : Arith} (denshift del : Z) (cs bs : list Z) : res (list Z) :=
  let sg := signOfInt del in
  if sg =? 0 then Ok cs
  else do r <- adapt (0 <? sg) denshift 1 del (rev (combine cs bs)); Ok (rev r).

(** dp_enc.c:113-178, 190-301 and 333-342: one residual.  4 and 8 coefficients start the sum from [denhalf], the
    general loop adds it last. *)
Definition pcSum {W : Arith} (numactive denshift : Z) (cs bs : list Z) : res Z :=
  let denhalf := 2 ^ (denshift - 1) in
  if (numactive =? 4) || (numactive =? 8) then dotSub denhalf cs bs
  else do s <- dotSub 0 cs bs; i32 (s + denhalf).
Definition unpcSum {W : Arith} (numactive denshift : Z) (cs bs : list Z) : res Z :=
  let denhalf := 2 ^ (denshift - 1) in
  if (numactive =? 4) || (numactive =? 8) then dotSub denhalf cs bs
  else do s <- dotAdd 0 cs bs; i32 (s + denhalf).

(** dp_enc.c:103-107 (warm-up: first differences) and 113-370 *)
Fixpoint pcLoop {W : Arith} (chanbits denshift numactive : Z) (cs hist xs : list Z) : res (list Z) :=
  match xs with
  | [] => Ok []
  | x :: xs' =>
      if zlen hist <=? numactive then
        do prev <- aget hist 0;
        do d <- i32 (x - prev);
        do r <- pcLoop chanbits denshift numactive cs (x :: hist) xs';
        Ok (signExtend chanbits d :: r)
      else
        do top <- aget hist numactive;
        do bs <- diffs (Z.to_nat numactive) top hist;
        do s <- pcSum numactive denshift cs bs;
        do d1 <- i32 (x - top);
        do d2 <- i32 (d1 - Z.shiftr s denshift);
        let del := signExtend chanbits d2 in
        do cs' <- adaptAll denshift del cs bs;
        do r <- pcLoop chanbits denshift numactive cs' (x :: hist) xs';
        Ok (del :: r)
  end.

(** dp_dec.c:97-101 and 105-380 *)
Fixpoint unpcLoop {W : Arith} (chanbits denshift numactive : Z) (cs hist ds : list Z) : res (list Z) :=
  match ds with
  | [] => Ok []
  | del :: ds' =>
      if zlen hist <=? numactive then
        do prev <- aget hist 0;
        do d <- i32 (del + prev);
        let x := signExtend chanbits d in
        do r <- unpcLoop chanbits denshift numactive cs (x :: hist) ds';
        Ok (x :: r)
      else
        do top <- aget hist numactive;
        do bs <- diffs (Z.to_nat numactive) top hist;
        do s <- unpcSum numactive denshift cs bs;
        do t <- i32 (top + Z.shiftr s denshift);
        do d <- i32 (del + t);
        let x := signExtend chanbits d in
        do cs' <- adaptAll denshift del cs bs;
        do r <- unpcLoop chanbits denshift numactive cs' (x :: hist) ds';
        Ok (x :: r)
  end.

(** dp_enc.c:89-101: [numactive = 31] is plain first differences *)
Fixpoint deltas {W : Arith} (chanbits prev : Z) (xs : list Z) : res (list Z) :=
  match xs with
  | [] => Ok []
  | x :: xs' => do d <- i32 (x - prev); do r <- deltas chanbits x xs'; Ok (signExtend chanbits d :: r)
  end.
(** dp_dec.c:74-95 *)
Fixpoint undeltas {W : Arith} (chanbits prev : Z) (ds : list Z) : res (list Z) :=
  match ds with
  | [] => Ok []
  | d :: ds' =>
      do s <- i32 (d + prev);
      let x := signExtend chanbits s in
      do r <- undeltas chanbits x ds'; Ok (x :: r)
  end.

(** The arrays have [room] elements.  [in[0]] is read even when there is no sample, and the warm-up loop runs over
    [numactive] elements even when there are fewer samples (dp_enc.c:85, 103; dp_dec.c:66, 97); what it computes
    beyond the samples is never used and is left out, but it must stay inside the arrays. *)
Definition pcRoom (room num numactive : Z) : bool :=
  (1 <=? room) && (num <=? room) && ((numactive =? 31) || (numactive <? room)).

(** dp_enc.c:74-386, pc_block.  The coefficients it leaves behind are not kept: the theorems let the encoder
    start each block with any. *)
Definition pc_block {W : Arith} (room numactive chanbits denshift : Z) (cs xs : list Z) : res (list Z) :=
  if negb (pcRoom room (zlen xs) numactive) then UB else
  match xs with
  | [] => Ok []
  | x :: xs' =>
      if numactive =? 0 then Ok xs
      else if numactive =? 31 then do r <- deltas chanbits x xs'; Ok (x :: r)
      else do r <- pcLoop chanbits denshift numactive cs [x] xs'; Ok (x :: r)
  end.
(** dp_dec.c:55-381, unpc_block; [1 << (denshift - 1)] is undefined for [denshift = 0], which only matters where
    predictions are made. *)
Definition unpc_block {W : Arith} (room numactive chanbits denshift : Z) (cs ds : list Z) : res (list Z) :=
  if negb (pcRoom room (zlen ds) numactive) then UB else
  match ds with
  | [] => Ok []
  | x :: ds' =>
      if numactive =? 0 then Ok ds
      else if numactive =? 31 then do r <- undeltas chanbits x ds'; Ok (x :: r)
      else if denshift <? 1 then UB
      else do r <- unpcLoop chanbits denshift numactive cs [x] ds'; Ok (x :: r)
  end.

(** ** The predictor can be undone *)

Lemma sN_cong n x : 0 < n -> exists q, sN n x = x + q * 2 ^ n.
Proof.
  intros H. unfold sN. exists (- ((x + 2 ^ (n - 1)) / 2 ^ n)).
  pose proof (Z.div_mod (x + 2 ^ (n - 1)) (2 ^ n)). assert (2 ^ n <> 0) by (apply Z.pow_nonzero; lia). lia.
Qed.
Lemma i32_cong {W : Arith} x y : i32 x = Ok y -> exists q, y = x + q * 2 ^ 32.
Proof.
  unfold i32. destruct (inS 32 x); [intros H; injection H as <-; exists 0; lia|]. destruct wraps; [|discriminate].
  intros H. injection H as <-. apply sN_cong. lia.
Qed.
Lemma i32_range {W : Arith} x y : i32 x = Ok y -> - 2 ^ 31 <= y < 2 ^ 31.
Proof.
  unfold i32. destruct (inS 32 x) eqn:E; [intros H; injection H as <-; apply inS_spec in E; exact E|]. destruct wraps; [|discriminate].
  intros H. injection H as <-. apply (sN_range 32). lia.
Qed.
Lemma i32_small {W : Arith} x : - 2 ^ 31 <= x < 2 ^ 31 -> i32 x = Ok x.
Proof. intros H. unfold i32. rewrite (proj2 (inS_spec 32 x)) by exact H. reflexivity. Qed.
Lemma i32_wraps x : exists y, i32 (W := Wrapping) x = Ok y.
Proof. unfold i32. destruct (inS 32 x); eauto. unfold wraps, Wrapping. eauto. Qed.

Lemma signExtend_is cb x : 1 <= cb <= 32 -> signExtend cb x = sN cb x.
Proof.
  intros H. unfold signExtend, s32, sN. rewrite Z.shiftr_div_pow2, Z.shiftl_mul_pow2 by lia. set (s := 32 - cb).
  replace 32 with (cb + s) at 2 by lia. replace (32 - 1) with (cb - 1 + s) by lia. rewrite !Z.pow_add_r by lia.
  rewrite <- Z.mul_add_distr_r. assert (0 < 2 ^ s) by (apply Z.pow_pos_nonneg; lia). assert (0 < 2 ^ cb) by (apply Z.pow_pos_nonneg; lia).
  rewrite Z.mul_mod_distr_r by lia. rewrite <- Z.mul_sub_distr_r. apply Z.div_mul. lia.
Qed.
Lemma signExtend_range cb x : 1 <= cb <= 32 -> inRange cb (signExtend cb x).
Proof. intros H. rewrite signExtend_is by exact H. apply sN_range. lia. Qed.
Lemma signExtend_undo cb x y q : 1 <= cb <= 32 -> inRange cb x -> y = x + q * 2 ^ cb -> signExtend cb y = x.
Proof.
  intros H R E. rewrite signExtend_is by exact H. unfold sN. rewrite E. unfold inRange in R.
  assert (P : 2 ^ cb = 2 * 2 ^ (cb - 1)) by (rewrite <- Z.pow_succ_r by lia; f_equal; lia).
  replace (x + q * 2 ^ cb + 2 ^ (cb - 1)) with (x + 2 ^ (cb - 1) + q * 2 ^ cb) by lia.
  rewrite Z.mod_add by lia. rewrite Z.mod_small by lia. lia.
Qed.
Lemma signExtend_cong cb x : 1 <= cb <= 32 -> exists q, signExtend cb x = x + q * 2 ^ cb.
Proof. intros H. rewrite signExtend_is by exact H. apply sN_cong. lia. Qed.

Lemma pow32_multiple cb : 0 <= cb <= 32 -> exists c, 2 ^ 32 = c * 2 ^ cb.
Proof. intros H. exists (2 ^ (32 - cb)). rewrite <- Z.pow_add_r by lia. f_equal. lia. Qed.

Lemma inRange_bound cb x : 1 <= cb <= 25 -> inRange cb x -> - 2 ^ 24 <= x < 2 ^ 24.
Proof.
  intros H R. unfold inRange in R. assert (2 ^ (cb - 1) <= 2 ^ 24) by (apply Z.pow_le_mono_r; lia). lia.
Qed.

Lemma aget_Forall {A} (P : A -> Prop) l i a : Forall P l -> aget l i = Ok a -> P a.
Proof.
  intros F H. unfold aget in H. destruct (i <? 0); [discriminate|]. destruct (nth_error l (Z.to_nat i)) eqn:E; [|discriminate].
  injection H as <-. rewrite Forall_forall in F. apply F. eapply nth_error_In. exact E.
Qed.

Lemma dotSub_range {W : Arith} : forall cs bs acc s, - 2 ^ 31 <= acc < 2 ^ 31 -> dotSub acc cs bs = Ok s -> - 2 ^ 31 <= s < 2 ^ 31.
Proof.
  induction cs as [|a cs IH]; intros [|b bs] acc s Ha H; cbn [dotSub] in H; try (injection H as <-; exact Ha).
  apply rbind_Ok in H. destruct H as (m & _ & H). apply rbind_Ok in H. destruct H as (acc' & E & H).
  apply (IH _ _ _ (i32_range _ _ E) H).
Qed.

Lemma pcLoop_undo {W : Arith} cb ds n : 1 <= cb <= 25 -> 9 <= ds <= 31 -> n = 4 \/ n = 8 -> forall xs cs hist r,
  Forall (inRange cb) hist -> Forall (inRange cb) xs ->
  pcLoop cb ds n cs hist xs = Ok r -> unpcLoop cb ds n cs hist r = Ok xs /\ Forall (inRange cb) r /\ zlen r = zlen xs.
Proof.
  intros Hc Hd Hn. destruct (pow32_multiple cb) as [c Ec]; [lia|].
  induction xs as [|x xs IH]; intros cs hist r Fh Fx H; cbn [pcLoop] in H.
  - injection H as <-. cbn [unpcLoop]. split; [reflexivity|]. split; [constructor|reflexivity].
  - inversion Fx as [|x0 xs0 Hx Fx']; subst. pose proof (inRange_bound cb x Hc Hx) as Bx. change (2 ^ 24) with 16777216 in Bx.
    destruct (zlen hist <=? n) eqn:Ew.
    + apply rbind_Ok in H. destruct H as (prev & Hp & H). apply rbind_Ok in H. destruct H as (d & Ed & H).
      apply rbind_Ok in H. destruct H as (r' & Hr & H). injection H as <-.
      apply IH in Hr; [|constructor; assumption|assumption]. destruct Hr as (Hu & Fr & Lr).
      pose proof (inRange_bound cb prev Hc (aget_Forall _ _ _ _ Fh Hp)) as Bp. change (2 ^ 24) with 16777216 in Bp.
      pose proof (signExtend_range cb d ltac:(lia)) as Rd. pose proof (inRange_bound cb _ Hc Rd) as Bd. change (2 ^ 24) with 16777216 in Bd.
      cbn [unpcLoop]. rewrite Ew, Hp. cbn [rbind]. rewrite i32_small by (change (2 ^ 31) with 2147483648; lia). cbn [rbind].
      assert (U : signExtend cb (signExtend cb d + prev) = x).
      { destruct (signExtend_cong cb d ltac:(lia)) as [q Eq]. apply i32_cong in Ed. destruct Ed as [q2 Ed]. rewrite Eq, Ed.
        apply (signExtend_undo cb x _ (q + q2 * c)); [lia|exact Hx|]. rewrite Ec. ring. }
      rewrite U, Hu. cbn [rbind]. split; [reflexivity|]. split; [constructor; assumption|]. rewrite !zlen_cons. lia.
    + apply rbind_Ok in H. destruct H as (top & Ht & H). apply rbind_Ok in H. destruct H as (bs & Hb & H).
      apply rbind_Ok in H. destruct H as (s & Hs & H). apply rbind_Ok in H. destruct H as (d1 & E1 & H).
      apply rbind_Ok in H. destruct H as (d2 & E2 & H). apply rbind_Ok in H. destruct H as (cs' & Ha & H).
      apply rbind_Ok in H. destruct H as (r' & Hr & H). injection H as <-.
      apply IH in Hr; [|constructor; assumption|assumption]. destruct Hr as (Hu & Fr & Lr).
      pose proof (inRange_bound cb top Hc (aget_Forall _ _ _ _ Fh Ht)) as Bt. change (2 ^ 24) with 16777216 in Bt.
      pose proof (signExtend_range cb d2 ltac:(lia)) as Rd. pose proof (inRange_bound cb _ Hc Rd) as Bd. change (2 ^ 24) with 16777216 in Bd.
      cbn [unpcLoop]. rewrite Ew, Ht. cbn [rbind]. rewrite Hb. cbn [rbind].
      assert (Hs' : unpcSum n ds cs bs = Ok s).
      { unfold pcSum in Hs. unfold unpcSum. destruct Hn as [-> | ->]; exact Hs. }
      rewrite Hs'. cbn [rbind].
      assert (Rs : - 2 ^ 31 <= s < 2 ^ 31).
      { assert (Hs2 : dotSub (2 ^ (ds - 1)) cs bs = Ok s) by (unfold pcSum in Hs; destruct Hn as [-> | ->]; exact Hs).
        apply dotSub_range in Hs2; [exact Hs2|]. assert (0 < 2 ^ (ds - 1)) by (apply Z.pow_pos_nonneg; lia).
        assert (2 ^ (ds - 1) < 2 ^ 31) by (apply Z.pow_lt_mono_r; lia). lia. }
      assert (Bs : - 4194304 <= Z.shiftr s ds < 4194304).
      { rewrite Z.shiftr_div_pow2 by lia. assert (P9 : 2 ^ ds = 512 * 2 ^ (ds - 9)) by (change 512 with (2 ^ 9); rewrite <- Z.pow_add_r by lia; f_equal; lia).
        assert (1 <= 2 ^ (ds - 9)) by (pose proof (Z.pow_pos_nonneg 2 (ds - 9)); lia). change (2 ^ 31) with 2147483648 in Rs.
        split; [apply Z.div_le_lower_bound; nia | apply Z.div_lt_upper_bound; nia]. }
      set (sh := Z.shiftr s ds) in *. clearbody sh.
      rewrite (i32_small (top + sh)) by (change (2 ^ 31) with 2147483648; lia). cbn [rbind].
      rewrite (i32_small (signExtend cb d2 + (top + sh))) by (change (2 ^ 31) with 2147483648; lia). cbn [rbind].
      assert (U : signExtend cb (signExtend cb d2 + (top + sh)) = x).
      { destruct (signExtend_cong cb d2 ltac:(lia)) as [q Eq]. apply i32_cong in E1. destruct E1 as [q1 E1]. apply i32_cong in E2. destruct E2 as [q2 E2].
        rewrite Eq, E2, E1. apply (signExtend_undo cb x _ (q + q1 * c + q2 * c)); [lia|exact Hx|]. rewrite Ec. ring. }
      rewrite U, Ha. cbn [rbind]. rewrite Hu. cbn [rbind]. split; [reflexivity|]. split; [constructor; assumption|]. rewrite !zlen_cons. lia.
Qed.

(** A block the encoder predicted is the block the decoder restores, whatever the coefficients and in either
    arithmetic.  [9 <= denshift] covers the encoder, which always uses 9. *)
Lemma pc_block_undo {W : Arith} room room' n cb ds cs xs r : 1 <= cb <= 25 -> 9 <= ds <= 31 -> n = 4 \/ n = 8 ->
  Forall (inRange cb) xs -> zlen xs <= room' -> n < room' ->
  pc_block room n cb ds cs xs = Ok r -> unpc_block room' n cb ds cs r = Ok xs /\ Forall (inRange cb) r /\ zlen r = zlen xs.
Proof.
  intros Hc Hd Hn Fx Hl Hr H. unfold pc_block in H. destruct (negb (pcRoom room (zlen xs) n)); [discriminate|].
  assert (R : forall d : list Z, zlen d = zlen xs -> pcRoom room' (zlen d) n = true) by (intros d ->; unfold pcRoom; lia).
  destruct xs as [|x xs].
  - injection H as <-. unfold unpc_block. rewrite R by reflexivity. cbn [negb]. split; [reflexivity|]. split; [constructor|reflexivity].
  - replace (n =? 0) with false in H by lia. replace (n =? 31) with false in H by lia.
    apply rbind_Ok in H. destruct H as (r' & Hp & H). injection H as <-. inversion Fx as [|x0 xs0 Hx Fx']; subst.
    apply pcLoop_undo in Hp; [|assumption|assumption|assumption|constructor; [assumption|constructor]|assumption].
    destruct Hp as (Hu & Fr & Lr). unfold unpc_block. rewrite R by (rewrite !zlen_cons; lia). cbn [negb].
    replace (n =? 0) with false by lia. replace (n =? 31) with false by lia. replace (ds <? 1) with false by lia.
    rewrite Hu. cbn [rbind]. split; [reflexivity|]. split; [constructor; assumption|]. rewrite !zlen_cons. lia.
Qed.

(** ** With wrapping arithmetic the encoder's predictor is total *)

Lemma aget_some {A} (l : list A) i : 0 <= i < zlen l -> exists a, aget l i = Ok a.
Proof.
  intros H. unfold aget. replace (i <? 0) with false by lia. destruct (nth_error l (Z.to_nat i)) eqn:E; [eauto|].
  apply nth_error_None in E. unfold zlen in H. lia.
Qed.

Lemma diffs_total : forall n top hist, (n <= length hist)%nat -> exists bs, diffs (W := Wrapping) n top hist = Ok bs /\ length bs = n.
Proof.
  induction n as [|n IH]; intros top [|x h] H; cbn [length] in H; try lia; cbn [diffs].
  - eexists. split; reflexivity.
  - eexists. split; reflexivity.
  - destruct (i32_wraps (top - x)) as [d ->]. destruct (IH top h ltac:(lia)) as (l & -> & L). cbn [rbind].
    eexists. split; [reflexivity|]. cbn [length]. lia.
Qed.
Lemma dotSub_total : forall cs bs acc, exists s, dotSub (W := Wrapping) acc cs bs = Ok s.
Proof.
  induction cs as [|a cs IH]; intros [|b bs] acc; cbn [dotSub]; try (eexists; reflexivity).
  destruct (i32_wraps (a * b)) as [m ->]. cbn [rbind]. destruct (i32_wraps (acc - m)) as [acc' ->]. cbn [rbind]. apply IH.
Qed.
Lemma adapt_total pos ds : forall l w del, exists r, adapt (W := Wrapping) pos ds w del l = Ok r /\ length r = length l.
Proof.
  induction l as [|[a b] l IH]; intros w del; cbn [adapt]; [eexists; split; reflexivity|].
  set (sgn := if pos then signOfInt b else - signOfInt b). destruct l as [|q l]; [eexists; split; reflexivity|].
  destruct (i32_wraps (sgn * b)) as [pr ->]. cbn [rbind]. destruct (i32_wraps (w * Z.shiftr pr ds)) as [t ->]. cbn [rbind].
  destruct (i32_wraps (del - t)) as [del' ->]. cbn [rbind].
  destruct (if pos then del' <=? 0 else 0 <=? del').
  - eexists. split; [reflexivity|]. cbn [length map]. now rewrite map_length.
  - destruct (IH (w + 1) del') as (r & -> & L). cbn [rbind]. eexists. split; [reflexivity|]. cbn [length] in *. lia.
Qed.
Lemma adaptAll_total ds del cs bs : length bs = length cs -> exists r, adaptAll (W := Wrapping) ds del cs bs = Ok r /\ length r = length cs.
Proof.
  intros H. unfold adaptAll. destruct (signOfInt del =? 0); [eexists; split; reflexivity|].
  destruct (adapt_total (0 <? signOfInt del) ds (rev (combine cs bs)) 1 del) as (r & -> & L). cbn [rbind]. eexists. split; [reflexivity|].
  rewrite rev_length, L, rev_length, combine_length. lia.
Qed.
Lemma pcSum_total n ds cs bs : exists s, pcSum (W := Wrapping) n ds cs bs = Ok s.
Proof.
  unfold pcSum. destruct ((n =? 4) || (n =? 8)); [apply dotSub_total|]. destruct (dotSub_total cs bs 0) as [s ->]. cbn [rbind]. apply i32_wraps.
Qed.

Lemma pcLoop_total cb ds n : 0 <= n -> forall xs cs hist, zlen cs = n -> hist <> [] -> exists r, pcLoop (W := Wrapping) cb ds n cs hist xs = Ok r.
Proof.
  intros Hn. induction xs as [|x xs IH]; intros cs hist Lc Nh; cbn [pcLoop]; [eauto|].
  destruct (zlen hist <=? n) eqn:Ew.
  - destruct hist as [|h hist]; [contradiction|]. cbn [aget]. change (aget (h :: hist) 0) with (Ok h). cbn [rbind].
    destruct (i32_wraps (x - h)) as [d ->]. cbn [rbind]. destruct (IH cs (x :: h :: hist) Lc) as [r ->]; [discriminate|]. cbn [rbind]. eauto.
  - destruct (aget_some hist n ltac:(lia)) as [top ->]. cbn [rbind].
    destruct (diffs_total (Z.to_nat n) top hist) as (bs & -> & Lb); [unfold zlen in Ew; lia|]. cbn [rbind].
    destruct (pcSum_total n ds cs bs) as [s ->]. cbn [rbind]. destruct (i32_wraps (x - top)) as [d1 ->]. cbn [rbind].
    destruct (i32_wraps (d1 - Z.shiftr s ds)) as [d2 ->]. cbn [rbind].
    destruct (adaptAll_total ds (signExtend cb d2) cs bs) as (cs' & -> & L'); [unfold zlen in Lc; lia|]. cbn [rbind].
    destruct (IH cs' (x :: hist)) as [r ->]; [unfold zlen in *; lia|discriminate|]. cbn [rbind]. eauto.
Qed.

Lemma pc_block_total room n cb ds cs xs : 0 <= n -> zlen cs = n -> zlen xs <= room -> n < room ->
  exists r, pc_block (W := Wrapping) room n cb ds cs xs = Ok r.
Proof.
  intros Hn Lc Hl Hr. unfold pc_block. replace (pcRoom room (zlen xs) n) with true by (unfold pcRoom; lia). cbn [negb].
  destruct xs as [|x xs]; [eauto|]. destruct (n =? 0); [eauto|]. destruct (n =? 31).
  - assert (G : forall xs p, exists r, deltas (W := Wrapping) cb p xs = Ok r).
    { clear. induction xs as [|y xs IH]; intros p; cbn [deltas]; [eauto|]. destruct (i32_wraps (y - p)) as [d ->]. cbn [rbind].
      destruct (IH y) as [r ->]. cbn [rbind]. eauto. }
    destruct (G xs x) as [r ->]. cbn [rbind]. eauto.
  - destruct (pcLoop_total cb ds n Hn xs cs [x] Lc) as [r ->]; [discriminate|]. cbn [rbind]. eauto.
Qed.
