(** * The decoder reads back what the adaptive Golomb coder writes *)
From Verif Require Import Prelude PreludeFacts MetadataProofs ALACBits ALACGolomb.

(** ** Writing *)

Lemma shr_ffff n : 0 <= n <= 32 -> Z.shiftr 0xffffffff (32 - n) = Z.ones n.
Proof.
  intros H. apply Z.bits_inj'. intros t Ht. change 0xffffffff with (Z.ones 32). rewrite Z.shiftr_spec by lia.
  rewrite !ones_testbit by lia. lia.
Qed.

Lemma jam_bits b p n v b' : bytes_ok b = true -> 0 <= p -> jam b p n v = Ok b' ->
  1 <= n /\ p mod 8 + n <= 32 /\ p / 8 + 3 < zlen b /\ zlen b' = zlen b /\ bytes_ok b' = true /\
  forall q, 0 <= q -> bitAt b' q = if (p <=? q) && (q <? p + n) then Z.testbit v (p + n - 1 - q) else bitAt b q.
Proof.
  intros Hb Hp H. unfold jam in H. apply rbind_Ok in H. destruct H as (curr & Hc & H). cbv zeta in H.
  destruct ((32 - p mod 8 - n <? 0) || (n <=? 0)) eqn:G; [discriminate|].
  apply write32be_inv in H; [|exact Hb]. destruct H as (Hi & Hl & L & O & B).
  split; [lia|]. split; [lia|]. split; [lia|]. split; [exact L|]. split; [exact O|].
  rewrite read32be_ok in Hc by (auto; lia). assert (Ec : curr = bitsAt b (8 * (p / 8)) 32) by congruence. subst curr.
  intros q Hq. rewrite B by exact Hq. set (sh := 32 - p mod 8 - n) in *. assert (Hm : 0 <= p mod 8 < 8) by lia.
  destruct ((8 * (p / 8) <=? q) && (q <? 8 * (p / 8) + 32)) eqn:W.
  - assert (T : 0 <= 8 * (p / 8) + 31 - q < 32) by lia. set (t := 8 * (p / 8) + 31 - q) in *.
    rewrite Z.lor_spec, !Z.land_spec, Z.lnot_spec, !u32_testbit by lia. rewrite shr_ffff by lia.
    rewrite bitsAt_testbit by lia. replace (t <? 32) with true by lia. replace (8 * (p / 8) + 32 - 1 - t) with q by lia. cbn [andb].
    destruct (Z.leb_spec sh t) as [A|A].
    + rewrite !Z.shiftl_spec by lia. rewrite ones_testbit by lia.
      destruct (Z.ltb_spec (t - sh) n) as [C|C]; cbn [negb].
      * rewrite andb_true_r, andb_false_r, orb_false_r. replace ((p <=? q) && (q <? p + n)) with true by lia. f_equal. lia.
      * rewrite andb_true_r, andb_false_r, orb_false_l. replace ((p <=? q) && (q <? p + n)) with false by lia. reflexivity.
    + rewrite (Z.shiftl_spec_low (Z.ones n)) by lia. cbn [negb].
      rewrite andb_true_r, andb_false_r, orb_false_l. replace ((p <=? q) && (q <? p + n)) with false by lia. reflexivity.
  - replace ((p <=? q) && (q <? p + n)) with false by lia. reflexivity.
Qed.

Lemma jam_inv b p n v b' : bytes_ok b = true -> 0 <= p -> jam b p n v = Ok b' -> wrote b p [(n, v)] b'.
Proof.
  intros Hb Hp H. apply jam_bits in H; [|assumption|assumption]. destruct H as (Hn & Hm & Hl & L & O & B).
  split; [exact L|]. split; [exact O|]. split.
  - intros i Hi. rewrite B by lia. replace ((p <=? i) && (i <? p + n)) with false by lia. reflexivity.
  - cbn [holds]. split; [|trivial]. apply bitsAt_is; [lia|apply Z.mod_pos_bound; apply Z.pow_pos_nonneg; lia|].
    intros t Ht. rewrite B by lia. replace ((p <=? p + n - 1 - t) && (p + n - 1 - t <? p + n)) with true by lia.
    rewrite Z.mod_pow2_bits_low by lia. f_equal. lia.
Qed.
Lemma jam_total b p n v : bytes_ok b = true -> 0 <= p -> p / 8 + 3 < zlen b -> 1 <= n <= 25 -> exists b', jam b p n v = Ok b'.
Proof.
  intros Hb Hp Hl Hn. unfold jam. rewrite read32be_ok by (auto; lia). cbn [rbind]. cbv zeta.
  replace ((32 - p mod 8 - n <? 0) || (n <=? 0)) with false by lia. apply write32be_total; lia.
Qed.
Lemma jamLarge_small b p n v : 0 <= p -> 1 <= n <= 25 -> jamLarge b p n v = jam b p n v.
Proof.
  intros Hp Hn. unfold jamLarge, jam. destruct (read32be b (p / 8)); [|reflexivity|reflexivity|reflexivity]. cbn [rbind]. cbv zeta.
  replace (32 - p mod 8 - n <? 0) with false by lia. replace (n <=? 0) with false by lia. reflexivity.
Qed.

(** ** The numbers of the code *)

Lemma dynCode32_is bits k n : 1 <= k <= 14 -> 0 <= n ->
  (exists nb v, 1 <= nb <= 25 /\ dynCode32 bits (2 ^ k - 1) k n = Ok ((nb, v), None) /\ code32 bits k n = [(nb, v)]) \/
  (dynCode32 bits (2 ^ k - 1) k n = Ok ((9, 511), Some (bits, n)) /\ code32 bits k n = [(9, 511); (bits, n)]).
Proof.
  intros Hk Hn. pose proof (m_pos k Hk) as Mp. pose proof (d_pos k n Hk Hn) as D0. unfold dynCode32, code32. cbv zeta.
  set (m := 2 ^ k - 1) in *. replace (m =? 0) with false by lia.
  pose proof (Z.div_mod n m ltac:(lia)) as DM. pose proof (Z.mod_pos_bound n m ltac:(lia)) as R.
  destruct (Z.ltb_spec (n / m) 9) as [L|L].
  - replace (n - m * (n / m)) with (n mod m) by lia. destruct (Z.eqb_spec (n mod m) 0) as [Q|Q].
    + left. exists (n / m + k), ((2 ^ (n / m) - 1) * 2 ^ k). split; [lia|]. replace (25 <? n / m + k + 1 - 1) with false by lia.
      split; [|reflexivity]. rewrite Z.shiftl_mul_pow2 by lia. replace (n / m + k + 1 - 1 - n / m) with k by lia.
      do 3 f_equal; lia.
    + left. exists (n / m + k + 1), ((2 ^ (n / m) - 1) * 2 ^ (k + 1) + n mod m + 1). split; [lia|]. replace (25 <? n / m + k + 1 - 0) with false by lia.
      split; [|reflexivity]. rewrite Z.shiftl_mul_pow2 by lia. replace (n / m + k + 1 - 0 - n / m) with (k + 1) by lia.
      do 3 f_equal; lia.
  - right. split; reflexivity.
Qed.
Lemma dynCode_is k n : 2 <= k <= 8 -> 0 <= n ->
  exists nb v, 1 <= nb <= 25 /\ dynCode (2 ^ k - 1) k n = Ok (nb, v) /\ code16 k n = [(nb, v)].
Proof.
  intros Hk Hn. pose proof (m_pos k ltac:(lia)) as Mp. pose proof (d_pos k n ltac:(lia) Hn) as D0. unfold dynCode, code16. cbv zeta.
  set (m := 2 ^ k - 1) in *. replace (m =? 0) with false by lia.
  destruct (Z.leb_spec 9 (n / m)) as [L|L].
  - replace (n / m <? 9) with false by lia. exists 25, (511 * 2 ^ 16 + n). split; [lia|]. split; [|reflexivity].
    rewrite Z.shiftl_mul_pow2 by lia. reflexivity.
  - replace (n / m <? 9) with true by lia. destruct (Z.eqb_spec (n mod m) 0) as [Q|Q].
    + exists (n / m + k), ((2 ^ (n / m) - 1) * 2 ^ k). split; [lia|]. replace (9 + 16 <? n / m + k + 1 - 1) with false by lia.
      split; [|reflexivity]. rewrite Z.shiftl_mul_pow2 by lia. replace (n / m + k + 1 - 1 - n / m) with k by lia. do 2 f_equal; lia.
    + exists (n / m + k + 1), ((2 ^ (n / m) - 1) * 2 ^ (k + 1) + n mod m + 1). split; [lia|]. replace (9 + 16 <? n / m + k + 1 - 0) with false by lia.
      split; [|reflexivity]. rewrite Z.shiftl_mul_pow2 by lia. replace (n / m + k + 1 - 0 - n / m) with (k + 1) by lia. do 2 f_equal; lia.
Qed.

(** ** Zig-zag, means, runs *)

Definition inRange (bits x : Z) : Prop := - 2 ^ (bits - 1) <= x < 2 ^ (bits - 1).
(** What the coder may be given: residuals of [bits] bits, and no zero just after a run of zeros. *)
Definition codable (bits : Z) (xs : list Z) (zmode : Z) : Prop :=
  Forall (inRange bits) xs /\ (zmode = 0 \/ zmode = 1 /\ hd 1 xs <> 0).

Lemma zig_is bits del zmode : 1 <= bits <= 25 -> inRange bits del -> zmode = 0 \/ zmode = 1 /\ del <> 0 ->
  zig del zmode = 2 * Z.abs del - (if del <? 0 then 1 else 0) - zmode /\ 0 <= zig del zmode < 2 ^ bits.
Proof.
  intros Hb Hd Hz. unfold inRange in Hd. unfold zig, u32.
  assert (P : 2 ^ bits = 2 * 2 ^ (bits - 1)) by (rewrite <- Z.pow_succ_r by lia; f_equal; lia).
  assert (Q : 2 ^ bits <= 2 ^ 25) by (apply Z.pow_le_mono_r; lia). change (2 ^ 25) with 33554432 in Q.
  assert (R : 0 <= 2 * Z.abs del - (if del <? 0 then 1 else 0) - zmode < 2 ^ bits).
  { destruct (Z.ltb_spec del 0); lia. }
  rewrite uN_small by (change (2 ^ 32) with 4294967296; lia). split; [reflexivity|exact R].
Qed.
Lemma unzig_zig bits del zmode : 1 <= bits <= 25 -> inRange bits del -> zmode = 0 \/ zmode = 1 /\ del <> 0 -> unzig (zig del zmode) zmode = del.
Proof.
  intros Hb Hd Hz. destruct (zig_is bits del zmode Hb Hd Hz) as [E R]. unfold unzig. rewrite E. rewrite E in R.
  assert (Q : 2 ^ bits <= 2 ^ 25) by (apply Z.pow_le_mono_r; lia). change (2 ^ 25) with 33554432 in Q.
  cbv zeta. unfold u32. set (z := 2 * Z.abs del - (if del <? 0 then 1 else 0) - zmode + zmode).
  rewrite (uN_small 32 z) by (change (2 ^ 32) with 4294967296; lia).
  rewrite (uN_small 32 (z + 1)) by (change (2 ^ 32) with 4294967296; lia).
  rewrite Z.shiftr_div_pow2 by lia. change (2 ^ 1) with 2. 
  assert (O : Z.odd z = (del <? 0)).
  { subst z. destruct (Z.ltb_spec del 0).
    - replace (2 * Z.abs del - 1 - zmode + zmode) with (1 + 2 * (- del - 1)) by lia. rewrite Z.odd_add_mul_2. reflexivity.
    - replace (2 * Z.abs del - 0 - zmode + zmode) with (0 + 2 * del) by lia. rewrite Z.odd_add_mul_2. reflexivity. }
  rewrite O. unfold s32. rewrite sN_small; [|lia|]; subst z; change (2 ^ (32 - 1)) with 2147483648; destruct (Z.ltb_spec del 0); lia.
Qed.

Lemma meanNext_range mb n zmode : 0 <= mb <= 2 ^ 26 -> 0 <= n -> 0 <= zmode <= 1 -> 0 <= meanNext stdAg mb n zmode <= 2 ^ 26.
Proof.
  intros Hm Hn Hz. unfold meanNext. cbn [ag_pb stdAg]. unfold PB0, CLAMP. change (2 ^ 26) with 67108864 in *.
  destruct (Z.ltb_spec 65535 n); [lia|]. rewrite Z.shiftr_div_pow2 by lia. change (2 ^ 9) with 512. unfold u32.
  rewrite (uN_small 32 (40 * mb)) by (change (2 ^ 32) with 4294967296; lia).
  rewrite uN_small by (change (2 ^ 32) with 4294967296; lia). lia.
Qed.

Lemma zeroRun_spec fuel xs : let nz := zeroRun fuel xs in
  0 <= nz <= zlen xs /\ nz <= Z.of_nat fuel /\ zfirstn nz xs = zrepeat 0 nz /\ (nz < Z.of_nat fuel -> hd 1 (zskipn nz xs) <> 0).
Proof.
  revert xs. induction fuel as [|fuel IH]; intros xs; cbv zeta.
  - assert (zeroRun 0 xs = 0) as -> by (destruct xs; reflexivity). pose proof (zlen_nonneg xs). rewrite zfirstn_0 by lia.
    repeat split; try lia.
  - destruct xs as [|x xs].
    + cbn [zeroRun]. change (zskipn 0 (@nil Z)) with (@nil Z). change (zlen (@nil Z)) with 0. repeat split; try lia. cbn. lia.
    + cbn [zeroRun]. destruct (Z.eqb_spec x 0) as [->|N].
      * destruct (IH xs) as (A & B & C & D). set (nz := zeroRun fuel xs) in *. rewrite zlen_cons.
        assert (En : Z.to_nat (1 + nz) = S (Z.to_nat nz)) by lia.
        repeat split; try lia.
        -- unfold zfirstn, zrepeat in *. rewrite En. cbn [firstn repeat]. f_equal. exact C.
        -- unfold zskipn in *. rewrite En. cbn [skipn]. intros Hlt. apply D. lia.
      * rewrite zlen_cons. pose proof (zlen_nonneg xs). rewrite zskipn_0, zfirstn_0 by lia. repeat split; try lia. cbn [hd]. intros _. exact N.
Qed.
Lemma runLength_spec xs : let nz := runLength xs in
  0 <= nz <= zlen xs /\ nz <= 65535 /\ zfirstn nz xs = zrepeat 0 nz /\ (nz < 65535 -> hd 1 (zskipn nz xs) <> 0).
Proof.
  cbv zeta. unfold runLength. pose proof (zeroRun_spec (Z.to_nat 65535) xs) as H. cbv zeta in H. rewrite Z2Nat.id in H by lia. exact H.
Qed.

Lemma zskipn_length {A} n (l : list A) : 0 <= n <= zlen l -> length (zskipn n l) = (length l - Z.to_nat n)%nat.
Proof. intros H. unfold zskipn. apply skipn_length. Qed.

Lemma codable_next bits x xs zmode : codable bits (x :: xs) zmode -> inRange bits x /\ (zmode = 0 \/ zmode = 1 /\ x <> 0) /\ Forall (inRange bits) xs.
Proof. intros [F Z0]. inversion F; subst. auto. Qed.
Lemma codable_run bits xs : Forall (inRange bits) xs ->
  codable bits (zskipn (runLength xs) xs) (if 65535 <=? runLength xs then 0 else 1).
Proof.
  intros F. destruct (runLength_spec xs) as (_ & _ & _ & D). split; [apply Forall_skipn; exact F|].
  destruct (Z.leb_spec 65535 (runLength xs)); [left; reflexivity|right; split; [reflexivity|apply D; lia]].
Qed.
Lemma codable_0 bits xs : Forall (inRange bits) xs -> codable bits xs 0.
Proof. intros F. split; [exact F|left; reflexivity]. Qed.

Lemma code32_ok bits k n : 1 <= k <= 14 -> 0 <= n -> 1 <= bits -> fieldsOk (code32 bits k n) /\ 1 <= fbits (code32 bits k n) <= 25 + bits.
Proof.
  intros Hk Hn Hb. destruct (dynCode32_is bits k n Hk Hn) as [(nb & v & R & _ & ->)|[_ ->]]; cbn [fbits fold_right fst].
  - split; [repeat constructor; cbn; lia|lia].
  - split; [repeat constructor; cbn; lia|lia].
Qed.
Lemma code16_ok k n : 2 <= k <= 8 -> 0 <= n -> fieldsOk (code16 k n) /\ 1 <= fbits (code16 k n) <= 25.
Proof.
  intros Hk Hn. destruct (dynCode_is k n Hk Hn) as (nb & v & R & _ & ->). cbn [fbits fold_right fst].
  split; [repeat constructor; cbn; lia|lia].
Qed.

Lemma zmode_range bits xs zm : codable bits xs zm -> 0 <= zm <= 1.
Proof. intros [_ H]. lia. Qed.
Lemma codable_zmode bits xs zm : codable bits xs zm -> 0 <= zm <= 1. Proof. exact (zmode_range bits xs zm). Qed.

(** The lengths of the code: at least one bit and at most 50 + [bits] bits per residual. *)
Lemma gfields_ok bits fuel : forall xs mb zm, 1 <= bits <= 25 -> 0 <= mb <= 2 ^ 26 -> codable bits xs zm -> (length xs <= fuel)%nat ->
  fieldsOk (gfields fuel bits xs mb zm) /\ 0 <= fbits (gfields fuel bits xs mb zm) <= zlen xs * (bits + 50).
Proof.
  induction fuel as [|fuel IH]; intros xs mb zm Hb Hm C Hf.
  - destruct xs; [|cbn in Hf; lia]. cbn [gfields]. split; [constructor|]. cbn [fbits fold_right]. change (zlen (@nil Z)) with 0. lia.
  - destruct xs as [|x xs]; [cbn [gfields]; split; [constructor|]; cbn [fbits fold_right]; change (zlen (@nil Z)) with 0; lia|].
    pose proof (zmode_range _ _ _ C) as Zr. apply codable_next in C. destruct C as (Hx & Hz & F).
    destruct (zig_is bits x zm Hb Hx Hz) as [_ Rn]. cbn [gfields]. cbv zeta. set (n := zig x zm) in *.
    pose proof (meanNext_range mb n zm Hm ltac:(lia) Zr) as M1. set (mb1 := meanNext stdAg mb n zm) in *.
    assert (K : 1 <= meanK stdAg mb <= 14) by (apply meanK_range; change (2 ^ 26) with 67108864 in Hm; change (2 ^ 32) with 4294967296; lia).
    destruct (code32_ok bits (meanK stdAg mb) n K ltac:(lia) ltac:(lia)) as [O1 B1].
    rewrite fbits_app. cbn [length] in Hf. rewrite zlen_cons.
    destruct (runNext mb1 && (0 <? zlen xs)) eqn:R.
    + apply andb_true_iff in R. destruct R as [R R2]. rewrite runNext_spec in R by (change (2 ^ 26) with 67108864 in M1; change (2 ^ 30) with 1073741824; lia).
      pose proof (runK_range mb1 ltac:(lia)) as RK. destruct (runLength_spec xs) as (A1 & A2 & _ & _). set (nz := runLength xs) in *.
      destruct (code16_ok (runK mb1) nz RK ltac:(lia)) as [O2 B2].
      destruct (IH (zskipn nz xs) 0 (if 65535 <=? nz then 0 else 1) Hb ltac:(lia) (codable_run bits xs F)) as [O3 B3].
      { rewrite zskipn_length by lia. lia. }
      split; [apply fieldsOk_app; split; [exact O1|apply fieldsOk_app; split; assumption]|].
      rewrite fbits_app. rewrite zlen_skipn in B3 by lia. rewrite Z.max_r in B3 by lia. nia.
    + destruct (IH xs mb1 0 Hb M1 (codable_0 bits xs F) ltac:(lia)) as [O3 B3].
      split; [apply fieldsOk_app; split; assumption|]. lia.
Qed.

(** ** The coder writes the code *)
Lemma dynComp_wrote bits fuel : forall xs b p mb zm b' p', 1 <= bits <= 25 -> 0 <= mb <= 2 ^ 26 -> codable bits xs zm -> (length xs <= fuel)%nat ->
  bytes_ok b = true -> 0 <= p -> dynComp fuel stdAg bits b p xs mb zm = Ok (b', p') ->
  wrote b p (gfields fuel bits xs mb zm) b' /\ p' = p + fbits (gfields fuel bits xs mb zm).
Proof.
  induction fuel as [|fuel IH]; intros xs b p mb zm b' p' Hb Hm C Hf Ho Hp H.
  - destruct xs; [|cbn in Hf; lia]. cbn [dynComp] in H. injection H as <- <-. cbn [gfields fbits fold_right]. split; [apply wrote_nil; exact Ho|lia].
  - destruct xs as [|x xs]; [cbn [dynComp] in H; injection H as <- <-; cbn [gfields fbits fold_right]; split; [apply wrote_nil; exact Ho|lia]|].
    pose proof (zmode_range _ _ _ C) as Zr. apply codable_next in C. destruct C as (Hx & Hz & F).
    destruct (zig_is bits x zm Hb Hx Hz) as [_ Rn]. cbn [gfields dynComp] in *. cbv zeta in *. set (n := zig x zm) in *.
    pose proof (meanNext_range mb n zm Hm ltac:(lia) Zr) as M1. set (mb1 := meanNext stdAg mb n zm) in *.
    assert (K : 1 <= meanK stdAg mb <= 14) by (apply meanK_range; change (2 ^ 26) with 67108864 in Hm; change (2 ^ 32) with 4294967296; lia).
    destruct (code32_ok bits (meanK stdAg mb) n K ltac:(lia) ltac:(lia)) as [O1 B1].
    cbn [length] in Hf.
    assert (W : exists b2, wrote b p (code32 bits (meanK stdAg mb) n) b2 /\
      (if runNext mb1 && (0 <? zlen xs) then
            if 31 <=? runK mb1 then UB else
            do c <- dynCode (runM stdAg (runK mb1)) (runK mb1) (runLength xs);
            do b3 <- jam b2 (p + fbits (code32 bits (meanK stdAg mb) n)) (fst c) (snd c);
            dynComp fuel stdAg bits b3 (p + fbits (code32 bits (meanK stdAg mb) n) + fst c) (zskipn (runLength xs) xs) 0 (if 65535 <=? runLength xs then 0 else 1)
          else dynComp fuel stdAg bits b2 (p + fbits (code32 bits (meanK stdAg mb) n)) xs mb1 0) = Ok (b', p')).
    { destruct (dynCode32_is bits (meanK stdAg mb) n K ltac:(lia)) as [(nb & v & R & E1 & E2)|[E1 E2]]; rewrite E1 in H; rewrite E2; cbn [rbind] in H.
      - apply rbind_Ok in H. destruct H as (b1 & J & H). cbn [rbind] in H. exists b1.
        split; [apply jam_inv; assumption|]. cbn [fbits fold_right fst]. rewrite Z.add_0_r. exact H.
      - apply rbind_Ok in H. destruct H as (b1 & J & H). apply rbind_Ok in H. destruct H as ([b2 p2] & J2 & H).
        apply rbind_Ok in J2. destruct J2 as (b2' & J2 & Eq). injection Eq as -> <-. exists b2.
        apply jam_inv in J; [|assumption|assumption]. rewrite jamLarge_small in J2 by lia.
        assert (Ob : bytes_ok b1 = true) by apply J. apply jam_inv in J2; [|exact Ob|lia]. split.
        + change [(9, 511); (bits, n)] with ([(9, 511)] ++ [(bits, n)]). apply (wrote_app b p _ b1); [repeat constructor; cbn; lia|exact Hp|exact J|exact J2].
        + cbn [fbits fold_right fst]. replace (p + (9 + (bits + 0))) with (p + 9 + bits) by lia. exact H. }
    clear H. destruct W as (b2 & W & H). set (p2 := p + fbits (code32 bits (meanK stdAg mb) n)) in *.
    assert (Ob2 : bytes_ok b2 = true) by apply W. rewrite fbits_app.
    destruct (runNext mb1 && (0 <? zlen xs)) eqn:R.
    + apply andb_true_iff in R. destruct R as [R R2]. rewrite runNext_spec in R by (change (2 ^ 26) with 67108864 in M1; change (2 ^ 30) with 1073741824; lia).
      pose proof (runK_range mb1 ltac:(lia)) as RK. destruct (runLength_spec xs) as (A1 & A2 & _ & _). set (nz := runLength xs) in *.
      replace (31 <=? runK mb1) with false in H by lia. rewrite runM_std in H by exact RK.
      destruct (code16_ok (runK mb1) nz RK ltac:(lia)) as [O2 B2].
      destruct (dynCode_is (runK mb1) nz RK ltac:(lia)) as (nb & v & Rb & E1 & E2). rewrite E1 in H. cbn [rbind fst snd] in H.
      apply rbind_Ok in H. destruct H as (b3 & J & H). apply jam_inv in J; [|exact Ob2|lia]. rewrite <- E2 in J.
      assert (Ob3 : bytes_ok b3 = true) by apply J.
      replace nb with (fbits (code16 (runK mb1) nz)) in H by (rewrite E2; cbn [fbits fold_right fst]; lia).
      apply IH in H; [|exact Hb|lia|apply codable_run; exact F|rewrite zskipn_length by lia; lia|exact Ob3|lia].
      destruct H as [W3 E3]. rewrite fbits_app. split; [|lia].
      apply (wrote_app b p _ b2); [exact O1|exact Hp|exact W|]. apply (wrote_app b2 p2 _ b3); [exact O2|lia|exact J|exact W3].
    + apply IH in H; [|exact Hb|exact M1|apply codable_0; exact F|lia|exact Ob2|lia]. destruct H as [W3 E3].
      split; [|lia]. apply (wrote_app b p _ b2); [exact O1|exact Hp|exact W|exact W3].
Qed.

(** With enough room it does not fail. *)
Lemma dynComp_total bits fuel : forall xs b p mb zm, 1 <= bits <= 25 -> 0 <= mb <= 2 ^ 26 -> codable bits xs zm -> (length xs <= fuel)%nat ->
  bytes_ok b = true -> 0 <= p -> p + fbits (gfields fuel bits xs mb zm) + 24 <= 8 * zlen b ->
  exists b' p', dynComp fuel stdAg bits b p xs mb zm = Ok (b', p').
Proof.
  induction fuel as [|fuel IH]; intros xs b p mb zm Hb Hm C Hf Ho Hp Hl.
  - destruct xs; [|cbn in Hf; lia]. cbn [dynComp]. eauto.
  - destruct xs as [|x xs]; [cbn [dynComp]; eauto|].
    pose proof (zmode_range _ _ _ C) as Zr. apply codable_next in C. destruct C as (Hx & Hz & F).
    destruct (zig_is bits x zm Hb Hx Hz) as [_ Rn]. cbn [gfields dynComp] in *. cbv zeta in *. set (n := zig x zm) in *.
    pose proof (meanNext_range mb n zm Hm ltac:(lia) Zr) as M1. set (mb1 := meanNext stdAg mb n zm) in *.
    assert (K : 1 <= meanK stdAg mb <= 14) by (apply meanK_range; change (2 ^ 26) with 67108864 in Hm; change (2 ^ 32) with 4294967296; lia).
    destruct (code32_ok bits (meanK stdAg mb) n K ltac:(lia) ltac:(lia)) as [O1 B1].
    cbn [length] in Hf. rewrite fbits_app in Hl.
    assert (Tail : forall rest, rest = (if runNext mb1 && (0 <? zlen xs) then
         code16 (runK mb1) (runLength xs) ++ gfields fuel bits (zskipn (runLength xs) xs) 0 (if 65535 <=? runLength xs then 0 else 1)
         else gfields fuel bits xs mb1 0) -> 0 <= fbits rest).
    { intros rest ->. destruct (runNext mb1 && (0 <? zlen xs)) eqn:R.
      - apply andb_true_iff in R. destruct R as [R R2]. rewrite runNext_spec in R by (change (2 ^ 26) with 67108864 in M1; change (2 ^ 30) with 1073741824; lia).
        pose proof (runK_range mb1 ltac:(lia)) as RK. destruct (runLength_spec xs) as (A1 & A2 & _ & _).
        destruct (code16_ok (runK mb1) (runLength xs) RK ltac:(lia)) as [O2 B2].
        destruct (gfields_ok bits fuel (zskipn (runLength xs) xs) 0 _ Hb ltac:(lia) (codable_run bits xs F)); [rewrite zskipn_length by lia; lia|].
        rewrite fbits_app. lia.
      - apply (gfields_ok bits fuel xs mb1 0 Hb M1 (codable_0 _ _ F)). lia. }
    specialize (Tail _ eq_refl).
    assert (W : exists b2, zlen b2 = zlen b /\ bytes_ok b2 = true /\ forall A (g : list Z * Z -> res A),
        (do c <- dynCode32 bits (2 ^ meanK stdAg mb - 1) (meanK stdAg mb) n;
          let '((nb, v), o) := c in
          do b1 <- jam b p nb v;
          do bp <- match o with
                   | None => Ok (b1, p + nb)
                   | Some (nb2, v2) => do b2 <- jamLarge b1 (p + nb) nb2 v2; Ok (b2, p + nb + nb2)
                   end; g bp) = g (b2, p + fbits (code32 bits (meanK stdAg mb) n))).
    { destruct (dynCode32_is bits (meanK stdAg mb) n K ltac:(lia)) as [(nb & v & R & E1 & E2)|[E1 E2]]; rewrite E1, E2; cbn [rbind];
        rewrite E2 in B1, Hl; cbn [fbits fold_right fst] in B1, Hl |- *.
      - destruct (jam_total b p nb v Ho Hp ltac:(lia) ltac:(lia)) as [b1 J]. rewrite J. cbn [rbind]. exists b1.
        apply jam_inv in J; [|assumption|assumption]. split; [apply J|]. split; [apply J|]. intros A g. rewrite Z.add_0_r. reflexivity.
      - destruct (jam_total b p 9 511 Ho Hp ltac:(lia) ltac:(lia)) as [b1 J]. rewrite J. cbn [rbind].
        apply jam_inv in J; [|assumption|assumption]. assert (L1 : zlen b1 = zlen b) by apply J. assert (O' : bytes_ok b1 = true) by apply J.
        destruct (jam_total b1 (p + 9) bits n O' ltac:(lia) ltac:(lia) ltac:(lia)) as [b2 J2]. rewrite jamLarge_small by lia. rewrite J2. cbn [rbind].
        apply jam_inv in J2; [|assumption|lia]. exists b2. split; [rewrite <- L1; apply J2|]. split; [apply J2|]. intros A g.
        replace (p + (9 + (bits + 0))) with (p + 9 + bits) by lia. reflexivity. }
    destruct W as (b2 & L2 & Ob2 & W). rewrite W. clear W. cbv beta iota.
    set (p2 := p + fbits (code32 bits (meanK stdAg mb) n)) in *.
    destruct (runNext mb1 && (0 <? zlen xs)) eqn:R.
    + apply andb_true_iff in R. destruct R as [R R2]. rewrite runNext_spec in R by (change (2 ^ 26) with 67108864 in M1; change (2 ^ 30) with 1073741824; lia).
      pose proof (runK_range mb1 ltac:(lia)) as RK. destruct (runLength_spec xs) as (A1 & A2 & _ & _). set (nz := runLength xs) in *.
      replace (31 <=? runK mb1) with false by lia. rewrite runM_std by exact RK.
      destruct (code16_ok (runK mb1) nz RK ltac:(lia)) as [O2 B2]. rewrite fbits_app in Hl.
      destruct (gfields_ok bits fuel (zskipn nz xs) 0 _ Hb ltac:(lia) (codable_run bits xs F)) as [_ B3]; [fold nz; rewrite zskipn_length by lia; lia|]. fold nz in B3.
      destruct (dynCode_is (runK mb1) nz RK ltac:(lia)) as (nb & v & Rb & E1 & E2). rewrite E1. cbn [rbind fst snd].
      assert (En : nb = fbits (code16 (runK mb1) nz)) by (rewrite E2; cbn [fbits fold_right fst]; lia).
      destruct (jam_total b2 p2 nb v Ob2 ltac:(lia) ltac:(lia) ltac:(lia)) as [b3 J]. rewrite J. cbn [rbind]. apply jam_inv in J; [|exact Ob2|lia].
      assert (L3 : zlen b3 = zlen b2) by apply J.
      apply IH; [exact Hb|lia|apply codable_run; exact F|rewrite zskipn_length by lia; lia|apply J|lia|]. fold nz. lia.
    + apply IH; [exact Hb|exact M1|apply codable_0; exact F|lia|exact Ob2|lia|lia].
Qed.

(** ** The decoder reads the code *)
Lemma dynDecomp_reads bits b lim fuel : forall fuel' xs p mb zm room, 1 <= bits <= 25 -> 0 <= mb <= 2 ^ 26 -> codable bits xs zm ->
  (length xs <= fuel)%nat -> (length xs <= fuel')%nat -> bytes_ok b = true -> 0 <= p -> zlen xs <= room ->
  p + fbits (gfields fuel bits xs mb zm) <= lim -> p + fbits (gfields fuel bits xs mb zm) + 24 <= 8 * zlen b ->
  holds b p (gfields fuel bits xs mb zm) ->
  dynDecomp fuel' stdAg bits b p lim (zlen xs) room mb zm = Ok (Some (xs, p + fbits (gfields fuel bits xs mb zm))).
Proof.
  induction fuel as [|fuel IH]; intros fuel' xs p mb zm room Hb Hm C Hf Hf' Ho Hp Hroom Hlim Hl H.
  - destruct xs; [|cbn in Hf; lia]. destruct fuel'; cbn [dynDecomp]; change (zlen (@nil Z)) with 0; cbn [gfields fbits fold_right]; rewrite Z.add_0_r; reflexivity.
  - destruct xs as [|x xs]; [destruct fuel'; cbn [dynDecomp]; change (zlen (@nil Z)) with 0; cbn [gfields fbits fold_right]; rewrite Z.add_0_r; reflexivity|].
    destruct fuel' as [|fuel']; [cbn in Hf'; lia|].
    pose proof (zmode_range _ _ _ C) as Zr. apply codable_next in C. destruct C as (Hx & Hz & F).
    destruct (zig_is bits x zm Hb Hx Hz) as [_ Rn]. pose proof (unzig_zig bits x zm Hb Hx Hz) as U.
    cbn [gfields dynDecomp] in *. cbv zeta in *. set (n := zig x zm) in *.
    pose proof (meanNext_range mb n zm Hm ltac:(lia) Zr) as M1. set (mb1 := meanNext stdAg mb n zm) in *.
    assert (K : 1 <= meanK stdAg mb <= 14) by (apply meanK_range; change (2 ^ 26) with 67108864 in Hm; change (2 ^ 32) with 4294967296; lia).
    destruct (code32_ok bits (meanK stdAg mb) n K ltac:(lia) ltac:(lia)) as [O1 B1].
    cbn [length] in Hf, Hf'. rewrite zlen_cons in *. pose proof (zlen_nonneg xs) as Lx. rewrite fbits_app in *.
    apply holds_app in H. destruct H as [H1 H].
    replace (1 + zlen xs <=? 0) with false by lia. replace (room <=? 0) with false by lia.
    destruct (runNext mb1 && (0 <? zlen xs)) eqn:R.
    + pose proof R as R0. apply andb_true_iff in R. destruct R as [R R2]. rewrite runNext_spec in R by (change (2 ^ 26) with 67108864 in M1; change (2 ^ 30) with 1073741824; lia).
      pose proof (runK_range mb1 ltac:(lia)) as RK. destruct (runLength_spec xs) as (A1 & A2 & A3 & _). set (nz := runLength xs) in *.
      destruct (code16_ok (runK mb1) nz RK ltac:(lia)) as [O2 B2]. rewrite fbits_app in *. apply holds_app in H. destruct H as [H2 H3].
      destruct (gfields_ok bits fuel (zskipn nz xs) 0 _ Hb ltac:(lia) (codable_run bits xs F)) as [_ B3]; [fold nz; rewrite zskipn_length by lia; lia|]. fold nz in B3.
      replace (lim <=? p) with false by lia.
      rewrite (dynGet32_code b p (meanK stdAg mb) n bits Ho Hp) by (assumption || lia). cbn [rbind].
      fold mb1. replace (runNext mb1 && (1 <? 1 + zlen xs)) with true by (rewrite <- R0; f_equal; lia).
      replace (31 <=? runK mb1) with false by lia. rewrite runM_std by exact RK.
      rewrite (dynGet_code b _ (runK mb1) nz Ho) by (assumption || (change (2 ^ 16) with 65536; lia) || lia). cbn [rbind].
      replace (1 + zlen xs - 1 <? nz) with false by lia. replace (room - 1 <? nz) with false by lia.
      assert (Ls : zlen (zskipn nz xs) = zlen xs - nz) by (rewrite zlen_skipn by lia; lia).
      replace (1 + zlen xs - 1 - nz) with (zlen (zskipn nz xs)) by lia.
      rewrite IH; [|exact Hb|lia|apply codable_run; exact F|rewrite zskipn_length by lia; lia|rewrite zskipn_length by lia; lia|exact Ho|lia|lia|fold nz; lia|fold nz; lia|exact H3].
      cbn [rbind]. rewrite U. rewrite <- A3. rewrite zfirstn_skipn. do 3 f_equal. lia.
    + destruct (gfields_ok bits fuel xs mb1 0 Hb M1 (codable_0 _ _ F) ltac:(lia)) as [_ B3].
      replace (lim <=? p) with false by lia.
      rewrite (dynGet32_code b p (meanK stdAg mb) n bits Ho Hp) by (assumption || lia). cbn [rbind].
      fold mb1. replace (runNext mb1 && (1 <? 1 + zlen xs)) with false by (rewrite <- R; f_equal; lia).
      replace (1 + zlen xs - 1) with (zlen xs) by lia.
      rewrite IH; [|exact Hb|exact M1|apply codable_0; exact F|lia|lia|exact Ho|lia|lia|lia|lia|exact H].
      cbn [rbind]. rewrite U. do 3 f_equal. lia.
Qed.

(** ** Together *)
Lemma mb0_ok : 0 <= MB0 <= 2 ^ 26.
Proof. unfold MB0. change (2 ^ 26) with 67108864. lia. Qed.
Lemma dyn_comp_wrote bits b p xs b' p' : 1 <= bits <= 25 -> Forall (inRange bits) xs -> bytes_ok b = true -> 0 <= p ->
  dyn_comp stdAg bits b p xs = Ok (b', p') -> wrote b p (golombFields bits xs) b' /\ p' = p + fbits (golombFields bits xs).
Proof.
  intros Hb F Ho Hp H. unfold dyn_comp in H. apply dynComp_wrote in H; [exact H|exact Hb|exact mb0_ok|apply codable_0; exact F|lia|exact Ho|exact Hp].
Qed.
Lemma dyn_comp_total bits b p xs : 1 <= bits <= 25 -> Forall (inRange bits) xs -> bytes_ok b = true -> 0 <= p ->
  p + fbits (golombFields bits xs) + 24 <= 8 * zlen b -> exists b' p', dyn_comp stdAg bits b p xs = Ok (b', p').
Proof. intros Hb F Ho Hp Hl. apply dynComp_total; [exact Hb|exact mb0_ok|apply codable_0; exact F|lia|exact Ho|exact Hp|exact Hl]. Qed.
Lemma golombFields_ok bits xs : 1 <= bits <= 25 -> Forall (inRange bits) xs ->
  fieldsOk (golombFields bits xs) /\ 0 <= fbits (golombFields bits xs) <= zlen xs * (bits + 50).
Proof. intros Hb F. apply gfields_ok; [exact Hb|exact mb0_ok|apply codable_0; exact F|lia]. Qed.

Lemma dyn_decomp_reads bits b size p xs room : 1 <= bits <= 25 -> Forall (inRange bits) xs -> bytes_ok b = true -> 0 <= p -> zlen xs <= room ->
  p + fbits (golombFields bits xs) <= 8 * size -> size + 3 <= zlen b ->
  holds b p (golombFields bits xs) -> 
  dyn_decomp stdAg bits b size p (zlen xs) room = Ok (Some (xs, p + fbits (golombFields bits xs))).
Proof.
  intros Hb F Ho Hp Hr Hs Hl H. pose proof (golombFields_ok bits xs Hb F) as [_ B]. unfold dyn_decomp. unfold golombFields in *. cbn [ag_mb stdAg].
  rewrite (dynDecomp_reads bits b _ (length xs)); [|exact Hb|exact mb0_ok|apply codable_0; exact F|lia|unfold zlen; lia|exact Ho|exact Hp|exact Hr|lia|lia|exact H].
  cbn [rbind]. replace ((p + fbits (gfields (length xs) bits xs MB0 0)) / 8 <=? size) with true by lia. reflexivity.
Qed.

Example golomb_example :
  let xs := [0; 0; 0; 0; 0; 5; -3; 40000; -65536; 0; 1; -1; 0; 0; 0] in
  match dyn_comp stdAg 17 (repeat 0 100) 3 xs with
  | Ok (b, p) => dyn_decomp stdAg 17 b 90 3 (zlen xs) 15 = Ok (Some (xs, p))
  | _ => False
  end.
Proof. vm_compute. reflexivity. Qed.
