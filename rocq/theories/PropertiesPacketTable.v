(** * C39, C40: CAF packet tables *)
From Verif Require Import Prelude PreludeFacts ByteOrder ByteOrderProofs FileIO Codecs HeaderIO PacketTable.

(** ** Bytes of seven bits *)
Lemma sweep128 (P : Z -> bool) : forallb P (map Z.of_nat (seq 0 128)) = true -> forall x, 0 <= x < 128 -> P x = true.
Proof.
  intros H x Hx. rewrite forallb_forall in H. apply H. replace x with (Z.of_nat (Z.to_nat x)) by lia.
  apply in_map, in_seq. lia.
Qed.
Lemma hi_byte x : 0 <= x < 128 -> u8 (Z.lor x 0x80) = x + 128.
Proof. intros Hx. apply Z.eqb_eq. apply (sweep128 (fun x => u8 (Z.lor x 0x80) =? x + 128)); [vm_compute; reflexivity|exact Hx]. Qed.
Lemma hi_low x : 0 <= x < 128 -> Z.land (x + 128) 0x7f = x.
Proof. intros Hx. apply Z.eqb_eq. apply (sweep128 (fun x => Z.land (x + 128) 0x7f =? x)); [vm_compute; reflexivity|exact Hx]. Qed.
Lemma hi_more x : 0 <= x < 128 -> (Z.land (x + 128) 0x80 =? 0) = false.
Proof. intros Hx. apply negb_true_iff. apply (sweep128 (fun x => negb (Z.land (x + 128) 0x80 =? 0))); [vm_compute; reflexivity|exact Hx]. Qed.
Lemma lo_more x : 0 <= x < 128 -> (Z.land x 0x80 =? 0) = true.
Proof. intros Hx. apply (sweep128 (fun x => Z.land x 0x80 =? 0)); [vm_compute; reflexivity|exact Hx]. Qed.
Lemma lo_low x : 0 <= x < 128 -> Z.land x 0x7f = x.
Proof. intros Hx. apply Z.eqb_eq. apply (sweep128 (fun x => Z.land x 0x7f =? x)); [vm_compute; reflexivity|exact Hx]. Qed.

Lemma aget_mid (pre : list Z) d rest : aget (pre ++ d :: rest) (zlen pre) = Ok d.
Proof.
  unfold aget. pose proof (zlen_nonneg pre). replace (zlen pre <? 0) with false by lia.
  unfold zlen. rewrite Nat2Z.id, nth_error_app2, Nat.sub_diag by lia. reflexivity.
Qed.
Lemma ber_acc r d : 0 <= d < 128 -> u32 (Z.lor (u32 (Z.shiftl r 7)) d) = u32 (128 * r + d).
Proof.
  intros Hd. rewrite Z.shiftl_mul_pow2 by lia. unfold u32, uN. change (2 ^ 32) with (2 ^ 25 * 2 ^ 7).
  rewrite Z.mul_mod_distr_r by lia. rewrite (lor_disjoint' d _ 7) by (change (2 ^ 7) with 128; lia).
  rewrite <- Z.mul_mod_distr_r by lia. change (2 ^ 25 * 2 ^ 7) with 4294967296. change (2 ^ 7) with 128. lia.
Qed.

Definition berVal (ds : list Z) (r : Z) : Z := fold_left (fun r d => u32 (128 * r + d)) ds r.

Lemma ber_read ds : forall fuel pre d rest r, Forall (fun x => 0 <= x < 128) ds -> 0 <= d < 128 -> (length ds < fuel)%nat -> zlen pre + zlen ds < 5 ->
  berLoop fuel (pre ++ map (fun x => x + 128) ds ++ d :: rest) r (zlen pre) = Ok (berVal (ds ++ [d]) r, zlen pre + zlen ds + 1).
Proof.
  induction ds as [|a ds IH]; intros fuel pre d rest r Hds Hd Hf Hl.
  - destruct fuel as [|fuel]; [cbn in Hf; lia|]. cbn [berLoop map app]. rewrite aget_mid. cbn [rbind].
    rewrite (lo_low d Hd), (lo_more d Hd), (ber_acc r d Hd). cbn [negb andb].
    change (zlen (@nil Z)) with 0 in *. replace (5 <? zlen pre + 1) with false by lia. unfold berVal. cbn [fold_left app]. f_equal. f_equal. lia.
  - apply Forall_cons_iff in Hds as [Ha Hds]. rewrite zlen_cons in Hl. pose proof (zlen_nonneg ds).
    destruct fuel as [|fuel]; [cbn in Hf; lia|]. cbn [berLoop map app]. rewrite aget_mid. cbn [rbind].
    rewrite (hi_low a Ha), (hi_more a Ha), (ber_acc r a Ha). cbn [negb andb].
    replace (5 <? zlen pre + 1) with false by lia.
    assert (L : zlen (pre ++ a + 128 :: map (fun x => x + 128) ds ++ d :: rest) = zlen pre + 2 + zlen ds + zlen rest).
    { rewrite zlen_app, zlen_cons, zlen_app, zlen_cons, zlen_map. lia. }
    rewrite L. pose proof (zlen_nonneg rest). replace (zlen pre + 1 <? _) with true by lia.
    replace (pre ++ a + 128 :: map (fun x => x + 128) ds ++ d :: rest) with ((pre ++ [a + 128]) ++ map (fun x => x + 128) ds ++ d :: rest) by (rewrite <- app_assoc; reflexivity).
    replace (zlen pre + 1) with (zlen (pre ++ [a + 128])) by (rewrite zlen_app; reflexivity).
    rewrite IH; [|exact Hds|exact Hd|cbn in Hf; lia|rewrite zlen_app; change (zlen [a + 128]) with 1; lia].
    rewrite zlen_app, (zlen_cons a). change (zlen [a + 128]) with 1. change (berVal (a :: ds ++ [d]) r) with (berVal (ds ++ [d]) (u32 (128 * r + a))).
    replace (zlen pre + 1 + zlen ds + 1) with (zlen pre + (1 + zlen ds) + 1) by lia. reflexivity.
Qed.

(** The encoding of a number is its digits base 128, most significant first, all but the last with the high bit. *)
Lemma encode_digits x : 0 <= x < 2 ^ 32 ->
  exists ds d, encodeBER x = map (fun y => y + 128) ds ++ [d] /\ Forall (fun y => 0 <= y < 128) ds /\ 0 <= d < 128 /\ zlen ds <= 4 /\ berVal (ds ++ [d]) 0 = x.
Proof.
  intros Hx. change (2 ^ 32) with 4294967296 in Hx. unfold encodeBER.
  assert (L7 : forall y, Z.land y 0x7f = y mod 128) by (intros; change 0x7f with (Z.ones 7); rewrite Z.land_ones by lia; reflexivity).
  assert (L14 : Z.land x 0x3fff = x mod 16384) by (change 0x3fff with (Z.ones 14); rewrite Z.land_ones by lia; reflexivity).
  assert (L21 : Z.land x 0x1fffff = x mod 2097152) by (change 0x1fffff with (Z.ones 21); rewrite Z.land_ones by lia; reflexivity).
  assert (L28 : Z.land x 0x0fffffff = x mod 268435456) by (change 0x0fffffff with (Z.ones 28); rewrite Z.land_ones by lia; reflexivity).
  rewrite !L7, L14, L21, L28. rewrite !Z.shiftr_div_pow2 by lia.
  change (2 ^ 7) with 128. change (2 ^ 14) with 16384. change (2 ^ 21) with 2097152. change (2 ^ 28) with 268435456.
  assert (U8 : u8 (x mod 128) = x mod 128) by (unfold u8; apply uN_small; change (2 ^ 8) with 256; lia).
  assert (BV : forall a b, 0 <= 128 * a + b < 4294967296 -> u32 (128 * a + b) = 128 * a + b) by (intros; unfold u32; apply uN_small; change (2 ^ 32) with 4294967296; lia).
  destruct (x mod 128 =? x) eqn:E1; [|destruct (x mod 16384 =? x) eqn:E2; [|destruct (x mod 2097152 =? x) eqn:E3; [|destruct (x mod 268435456 =? x) eqn:E4]]].
  - exists [], x. rewrite Z.eqb_eq in E1. unfold u8. rewrite uN_small by (change (2 ^ 8) with 256; lia).
    split; [reflexivity|]. split; [constructor|]. split; [lia|]. split; [cbn; lia|]. unfold berVal. cbn [app fold_left]. rewrite BV; lia.
  - exists [x / 128], (x mod 128). rewrite hi_byte, U8 by lia.
    split; [reflexivity|]. split; [repeat constructor; lia|]. split; [lia|]. split; [cbn; lia|]. unfold berVal. cbn [app fold_left]. rewrite !BV; rewrite ?BV; lia.
  - exists [x / 16384; x / 128 mod 128], (x mod 128). rewrite !hi_byte, U8 by lia.
    split; [reflexivity|]. split; [repeat constructor; lia|]. split; [lia|]. split; [cbn; lia|]. unfold berVal. cbn [app fold_left].
    rewrite (BV 0) by lia. rewrite (BV (128 * 0 + _)) by lia. rewrite BV by lia. lia.
  - exists [x / 2097152; x / 16384 mod 128; x / 128 mod 128], (x mod 128). rewrite !hi_byte, U8 by lia.
    split; [reflexivity|]. split; [repeat constructor; lia|]. split; [lia|]. split; [cbn; lia|]. unfold berVal. cbn [app fold_left].
    rewrite (BV 0) by lia. rewrite (BV (128 * 0 + _)) by lia. rewrite (BV (128 * (128 * 0 + _) + _)) by lia. rewrite BV by lia. lia.
  - exists [x / 268435456; x / 2097152 mod 128; x / 16384 mod 128; x / 128 mod 128], (x mod 128). rewrite !hi_byte, U8 by lia.
    split; [reflexivity|]. split; [repeat constructor; lia|]. split; [lia|]. split; [cbn; lia|]. unfold berVal. cbn [app fold_left].
    rewrite (BV 0) by lia. rewrite (BV (128 * 0 + _)) by lia. rewrite (BV (128 * (128 * 0 + _) + _)) by lia. rewrite (BV (128 * (128 * (128 * 0 + _) + _) + _)) by lia. rewrite BV by lia. lia.
Qed.

Lemma ber_roundtrip x rest : 0 <= x < 2 ^ 32 -> readBER (encodeBER x ++ rest) = Ok (x, zlen (encodeBER x)).
Proof.
  intros Hx. destruct (encode_digits x Hx) as (ds & d & E & Hds & Hd & Hl & Hv). rewrite E, <- app_assoc. cbn [app]. unfold readBER.
  pose proof (ber_read ds 6 [] d rest 0 Hds Hd) as R. cbn [app] in R. change (zlen (@nil Z)) with 0 in R. rewrite R; [|unfold zlen in Hl; lia|lia].
  rewrite Hv, zlen_app, zlen_map. change (zlen [d]) with 1. reflexivity.
Qed.
Lemma encode_nonempty x : 1 <= zlen (encodeBER x).
Proof. unfold encodeBER. repeat (destruct (_ =? _)); cbn; lia. Qed.

Lemma table_loop : forall sizes pre acc fuel, Forall (fun x => 1 <= x < 2 ^ 32) sizes -> (length (pre ++ paktTable sizes) < fuel + length pre)%nat ->
  tableLoop fuel (pre ++ paktTable sizes) (zlen pre) acc = Ok (acc ++ sizes).
Proof.
  induction sizes as [|x sizes IH]; intros pre acc fuel Hs Hf.
  - change (paktTable []) with (@nil Z) in *. rewrite !app_nil_r in *. destruct fuel as [|fuel]; [lia|]. cbn [tableLoop]. rewrite Z.ltb_irrefl. reflexivity.
  - apply Forall_cons_iff in Hs as [Hx Hs]. pose proof (encode_nonempty (u32 x)) as Ne.
    destruct fuel as [|fuel]. { rewrite app_length in Hf. lia. }
    assert (Ex : u32 x = x) by (unfold u32; apply uN_small; lia).
    cbn [tableLoop]. change (paktTable (x :: sizes)) with (encodeBER (u32 x) ++ paktTable sizes) in *. rewrite Ex in *.
    rewrite !zlen_app. pose proof (zlen_nonneg (paktTable sizes)). replace (zlen pre <? _) with true by lia.
    rewrite zskipn_exact, ber_roundtrip by lia. cbn [rbind]. replace (x =? 0) with false by lia.
    rewrite app_assoc. rewrite <- zlen_app. rewrite IH; [rewrite <- app_assoc; reflexivity|exact Hs|].
    rewrite !app_length in *. unfold zlen in Ne. lia.
Qed.

(** ** C39 *)

(** A packet table written to a file is read back exactly, and nothing beyond it is consumed. *)
Theorem C39_packet_table_roundtrip :
  forall (B : Build) (t : ptable) (before after : list Z),
    Forall (fun x => 1 <= x < 2 ^ 32) (pt_sizes t) -> pt_sizes t <> [] ->
    - 2 ^ 63 <= pt_valid t < 2 ^ 63 -> - 2 ^ 31 <= pt_priming t < 2 ^ 31 -> - 2 ^ 31 <= pt_remainder t < 2 ^ 31 -> zlen (pt_sizes t) < 2 ^ 63 ->
    let bytes := before ++ paktBody t ++ after in
    paktParse (zlen (paktBody t)) (mkFile bytes (zlen before)) = Ok (Some (Some t, mkFile bytes (zlen before + zlen (paktBody t)))).
Proof.
  intros B t before after Hs Hne Hv Hp Hr Hn bytes. destruct t as [valid prim rem sizes]. cbn [pt_sizes pt_valid pt_priming pt_remainder] in *.
  set (table := paktTable sizes).
  assert (L : zlen (paktBody (mkPT valid prim rem sizes)) = 24 + zlen table).
  { unfold paktBody. cbn [pt_sizes]. rewrite !zlen_app, !sampleBytes_zlen. fold table. lia. }
  rewrite L. unfold paktParse. pose proof (zlen_nonneg table). pose proof (zlen_nonneg before). replace (24 + zlen table <? 24) with false by lia.
  assert (H1 : zskipn (zlen before) bytes = sampleBytes BigEndian 8 (zlen sizes) ++ sampleBytes BigEndian 8 valid ++ sampleBytes BigEndian 4 prim ++ sampleBytes BigEndian 4 rem ++ table ++ after).
  { unfold bytes. rewrite zskipn_exact. unfold paktBody. cbn [pt_sizes pt_valid pt_priming pt_remainder]. rewrite <- !app_assoc. reflexivity. }
  assert (Zn : 0 < zlen sizes). { destruct sizes; [congruence|rewrite zlen_cons; pose proof (zlen_nonneg sizes); lia]. }
  do 4 hstep H1.
  replace (zlen sizes mod 2 ^ (8 * Z.of_nat 8)) with (zlen sizes) by (symmetry; apply Z.mod_small; change (2 ^ (8 * Z.of_nat 8)) with (2 * 2 ^ 63); lia).
  replace (zlen sizes =? 0) with false by lia.
  replace (24 + zlen table - 24) with (zlen table) by lia. hstep H1. rewrite Z.eqb_refl. cbn [negb].
  pose proof (table_loop sizes [] [] (S (length table)) Hs) as TL. cbn [app] in TL. fold table in TL. change (zlen (@nil Z)) with 0 in TL. cbn [length] in TL.
  rewrite (st_lift _ sizes) by (apply TL; lia).
  rewrite st_assert by (apply Z.eqb_refl). unfold hret. f_equal. f_equal. f_equal.
  - f_equal. change (2 ^ (8 * Z.of_nat 8)) with (2 ^ 64). change (2 ^ (8 * Z.of_nat 4)) with (2 ^ 32). f_equal.
    + clear -Hv. unfold s64, sN. change (64 - 1) with 63. change (2 ^ 64) with 18446744073709551616. change (2 ^ 63) with 9223372036854775808 in *. lia.
    + clear -Hp. unfold s32, sN. change (32 - 1) with 31. change (2 ^ 32) with 4294967296. change (2 ^ 31) with 2147483648 in *. lia.
    + clear -Hr. unfold s32, sN. change (32 - 1) with 31. change (2 ^ 32) with 4294967296. change (2 ^ 31) with 2147483648 in *. lia.
  - f_equal. lia.
Qed.
Print Assumptions C39_packet_table_roundtrip.

Example C39_example :
  let t := mkPT 12345 0 (-7) [1; 127; 128; 16384; 70000; 268435456; 4294967295] in
  Forall (fun x => 1 <= x < 2 ^ 32) (pt_sizes t) /\ pt_sizes t <> [] /\
  paktTable (pt_sizes t) = [1; 127; 129; 0; 129; 128; 0; 132; 162; 112; 129; 128; 128; 128; 0; 143; 255; 255; 255; 127] /\
  forall B : Build, paktParse (24 + 20) (mkFile (paktBody t ++ [9; 9]) 0) = Ok (Some (Some t, mkFile (paktBody t ++ [9; 9]) 44)).
Proof. cbv zeta. split; [repeat constructor; vm_compute; congruence|]. split; [discriminate|]. split; [reflexivity|]. intros B. vm_compute. reflexivity. Qed.

(** A packet of size zero ends the table on reading: the assertion fails, or in a release build the rest of
    the table is dropped. *)
Theorem C39_zero_size_refuted :
  forall valid sizes, 1 <= zlen sizes < 2 ^ 63 ->
    let t := mkPT valid 0 0 (0 :: sizes) in
    @paktParse Debug (zlen (paktBody t)) (mkFile (paktBody t) 0) = Abort /\
    exists f, @paktParse Release (zlen (paktBody t)) (mkFile (paktBody t) 0) = Ok (Some (Some (mkPT (s64 (valid mod 2 ^ 64)) 0 0 []), f)).
Proof.
  intros valid sizes Hn t.
  assert (L : zlen (paktBody t) = 24 + zlen (paktTable (0 :: sizes))).
  { unfold paktBody. cbn [pt_sizes t]. rewrite !zlen_app, !sampleBytes_zlen. lia. }
  assert (G : forall B : Build, exists f, paktParse (zlen (paktBody t)) (mkFile (paktBody t) 0) =
      (let! _ := hassert false in hret (Some (mkPT (s64 (valid mod 2 ^ 64)) 0 0 []))) f).
  { intros B. rewrite L. unfold paktParse. pose proof (zlen_nonneg (paktTable (0 :: sizes))). replace (24 + _ <? 24) with false by lia.
    assert (H1 : zskipn 0 (paktBody t) = sampleBytes BigEndian 8 (zlen (0 :: sizes)) ++ sampleBytes BigEndian 8 valid ++ sampleBytes BigEndian 4 0 ++ sampleBytes BigEndian 4 0 ++ paktTable (0 :: sizes) ++ []).
    { rewrite zskipn_0 by lia. unfold paktBody. cbn [t pt_sizes pt_valid pt_priming pt_remainder]. rewrite app_nil_r. reflexivity. }
    do 4 hstep H1. rewrite zlen_cons. change (2 ^ (8 * Z.of_nat 8)) with (2 ^ 64).
    replace ((1 + zlen sizes) mod 2 ^ 64 =? 0) with false by (rewrite Z.mod_small; [lia|change (2 ^ 64) with (2 * 2 ^ 63); lia]).
    replace (24 + zlen (paktTable (0 :: sizes)) - 24) with (zlen (paktTable (0 :: sizes))) by lia. hstep H1. rewrite Z.eqb_refl. cbn [negb].
    eexists. rewrite (st_lift _ []).
    { change (zlen (@nil Z)) with 0. replace ((1 + zlen sizes) mod 2 ^ 64 =? 0) with false by (rewrite Z.mod_small; [lia|change (2 ^ 64) with (2 * 2 ^ 63); lia]). reflexivity. }
    change (paktTable (0 :: sizes)) with (encodeBER 0 ++ paktTable sizes). cbn [tableLoop]. rewrite zlen_app.
    pose proof (zlen_nonneg (paktTable sizes)). pose proof (encode_nonempty 0). replace (0 <? _) with true by lia.
    rewrite zskipn_0, ber_roundtrip by lia. reflexivity. }
  split.
  - destruct (G Debug) as (f & ->). reflexivity.
  - destruct (G Release) as (f & ->). eexists. reflexivity.
Qed.
Print Assumptions C39_zero_size_refuted.

(** Reading any table, well-formed or not, stays inside the buffer and terminates. *)
Lemma berLoop_safe : forall fuel input r size, 0 <= size < zlen input -> size <= 5 -> 6 <= Z.of_nat fuel + size ->
  exists v n, berLoop fuel input r size = Ok (v, n) /\ (v <> 0 -> 1 <= n).
Proof.
  induction fuel as [|fuel IH]; intros input r size Hs H5 Hf; [lia|]. cbn [berLoop].
  unfold aget. replace (size <? 0) with false by lia.
  destruct (nth_error input (Z.to_nat size)) as [d|] eqn:E; [|apply nth_error_None in E; unfold zlen in Hs; lia]. cbn [rbind].
  destruct (5 <? size + 1) eqn:E5; [exists 0, (zlen input); split; [reflexivity|congruence]|].
  destruct (negb (Z.land d 128 =? 0) && (size + 1 <? zlen input)) eqn:Em.
  - apply IH; lia.
  - eexists _, _. split; [reflexivity|lia].
Qed.
Theorem C39_table_reading_safe :
  forall data : list Z, exists sizes, tableLoop (S (length data)) data 0 [] = Ok sizes.
Proof.
  intros data. assert (G : forall fuel pos acc, 0 <= pos -> zlen data < Z.of_nat fuel + pos -> (1 <= fuel)%nat -> exists sizes, tableLoop fuel data pos acc = Ok sizes).
  { induction fuel as [|fuel IH]; intros pos acc Hp Hf H1; cbn [tableLoop]; [lia|].
    destruct (pos <? zlen data) eqn:E; [|eauto].
    destruct (berLoop_safe 6 (zskipn pos data) 0 0) as (v & n & R & Hn); [rewrite zlen_skipn by lia; lia|lia|lia|].
    unfold readBER. rewrite R. cbn [rbind]. destruct (v =? 0) eqn:Ev; [eauto|]. specialize (Hn ltac:(lia)). apply IH; lia. }
  apply G; [lia|unfold zlen; lia|lia].
Qed.
Print Assumptions C39_table_reading_safe.

(** ** C40 *)
Fixpoint sum (l : list Z) : Z := match l with [] => 0 | x :: l => x + sum l end.
Lemma sum_app a b : sum (a ++ b) = sum a + sum b.
Proof. induction a; cbn [sum app]; lia. Qed.
Lemma sum_nonneg l : Forall (fun x => 0 <= x) l -> 0 <= sum l.
Proof. induction 1; cbn [sum]; lia. Qed.

Lemma start_loop : forall n sizes pre, Forall (fun x => 0 <= x) (pre ++ sizes) -> sum (pre ++ sizes) < 2 ^ 63 -> (n <= length sizes)%nat ->
  startLoop n (pre ++ sizes) (zlen pre) (sum pre) = Ok (sum (pre ++ firstn n sizes)).
Proof.
  induction n as [|n IH]; intros sizes pre Hp Hs Hn; cbn [startLoop firstn]; [now rewrite app_nil_r|].
  destruct sizes as [|x sizes]; [cbn in Hn; lia|]. rewrite aget_mid. cbn [rbind firstn].
  assert (E : s64 (u64 (u64 (sum pre) + x)) = sum (pre ++ [x])).
  { change (2 ^ 63) with 9223372036854775808 in *. apply Forall_app in Hp as [Hp Hq]. apply Forall_cons_iff in Hq as [Hx Hq].
    rewrite sum_app in *. cbn [sum] in *. pose proof (sum_nonneg _ Hp). pose proof (sum_nonneg _ Hq).
    unfold u64. rewrite (uN_small 64 (sum pre)) by (change (2 ^ 64) with 18446744073709551616; lia).
    rewrite uN_small by (change (2 ^ 64) with 18446744073709551616; lia).
    unfold s64. rewrite sN_small by (try change (2 ^ (64 - 1)) with 9223372036854775808; lia). lia. }
  rewrite E. replace (pre ++ x :: sizes) with ((pre ++ [x]) ++ sizes) in * by (rewrite <- app_assoc; reflexivity).
  replace (zlen pre + 1) with (zlen (pre ++ [x])) by (rewrite zlen_app; reflexivity).
  rewrite IH; [|exact Hp|exact Hs|cbn in Hn; lia]. rewrite <- app_assoc. reflexivity.
Qed.

(** The start of packet i is the sum of the sizes before it; so packet i ends where packet i + 1 starts. *)
Theorem C40_packet_starts :
  forall t i, Forall (fun x => 0 <= x) (pt_sizes t) -> sum (pt_sizes t) < 2 ^ 63 -> 0 <= i <= zlen (pt_sizes t) ->
    startOfPacket t i = Ok (sum (zfirstn i (pt_sizes t))).
Proof.
  intros t i Hp Hs Hi. unfold startOfPacket.
  pose proof (start_loop (Z.to_nat i) (pt_sizes t) [] Hp Hs ltac:(unfold zlen in Hi; lia)) as E. exact E.
Qed.
Print Assumptions C40_packet_starts.

Theorem C40_packets_tile :
  forall t i n, Forall (fun x => 0 <= x) (pt_sizes t) -> sum (pt_sizes t) < 2 ^ 63 -> 0 <= i -> nth_error (pt_sizes t) (Z.to_nat i) = Some n ->
    exists s, startOfPacket t i = Ok s /\ startOfPacket t (i + 1) = Ok (s + n) /\ 0 <= s /\ s + n <= sum (pt_sizes t).
Proof.
  intros t i n Hp Hs Hi Hn. assert (L : i < zlen (pt_sizes t)). { assert (Z.to_nat i < length (pt_sizes t))%nat by (apply nth_error_Some; congruence). unfold zlen. lia. }
  exists (sum (zfirstn i (pt_sizes t))). rewrite !C40_packet_starts by (auto; lia).
  destruct (nth_error_split _ _ Hn) as (a & b & E & La). rewrite E in *.
  assert (E1 : zfirstn i (a ++ n :: b) = a) by (unfold zfirstn; rewrite <- La, firstn_app, firstn_all, Nat.sub_diag, app_nil_r; reflexivity).
  assert (E2 : zfirstn (i + 1) (a ++ n :: b) = a ++ [n]).
  { unfold zfirstn. replace (Z.to_nat (i + 1)) with (length a + 1)%nat by lia. rewrite firstn_app_2. reflexivity. }
  rewrite E1, E2, !sum_app. cbn [sum]. apply Forall_app in Hp as [Hp Hq]. apply Forall_cons_iff in Hq as [Hx Hq].
  pose proof (sum_nonneg _ Hp). pose proof (sum_nonneg _ Hq). split; [reflexivity|]. split; [f_equal; lia|]. lia.
Qed.
Print Assumptions C40_packets_tile.

Example C40_example :
  let t := mkPT 0 0 0 [10; 20; 30] in
  startOfPacket t 0 = Ok 0 /\ startOfPacket t 1 = Ok 10 /\ startOfPacket t 3 = Ok 60 /\ startOfPacket t 4 = UB.
Proof. repeat split. Qed.

(** ** C58 *)

(** Frame [next] is looked up in packet [next / fpp]. *)
Theorem C58_alac_seek_partial :
  forall t first fpp next, Forall (fun x => 0 <= x) (pt_sizes t) -> sum (pt_sizes t) < 2 ^ 63 -> 0 < fpp < 2 ^ 32 -> 0 <= next < 2 ^ 63 ->
    next / fpp <= zlen (pt_sizes t) -> next / fpp < 2 ^ 31 ->
    alacSeek t first fpp next = Ok (first + sum (zfirstn (next / fpp) (pt_sizes t)), next / fpp * fpp, next mod fpp).
Proof.
  intros t first fpp next Hp Hs Hf Hn Hq Hi. unfold alacSeek. replace (fpp =? 0) with false by lia.
  assert (N : 0 <= next / fpp) by (apply Z.div_pos; lia).
  assert (E1 : u64 next = next) by (unfold u64; apply uN_small; change (2 ^ 64) with (2 * 2 ^ 63); lia). rewrite E1.
  assert (E2 : s32 (next / fpp) = next / fpp) by (unfold s32; apply sN_small; [lia|change (2 ^ (32 - 1)) with (2 ^ 31); lia]). rewrite E2.
  replace (next / fpp <? 0) with false by lia.
  pose proof (Z.mul_div_le next fpp ltac:(lia)) as M. pose proof (Z.div_mod next fpp ltac:(lia)) as D.
  assert (E3 : u64 (next / fpp) = next / fpp) by (unfold u64; apply uN_small; change (2 ^ 64) with (2 * 2 ^ 63); lia). rewrite E3.
  assert (E4 : s64 (u64 (next / fpp * fpp)) = next / fpp * fpp).
  { unfold u64, s64. rewrite uN_small by (change (2 ^ 64) with (2 * 2 ^ 63); lia). apply sN_small; [lia|change (2 ^ (64 - 1)) with (2 ^ 63); lia]. }
  rewrite E4, C40_packet_starts by (auto; lia). cbn [rbind]. f_equal. f_equal. lia.
Qed.
Print Assumptions C58_alac_seek_partial.

(** The frame count comes from the packet table's header, the packets from its body and the frames per packet
    from the description chunk, and nothing compares them: seeking to a frame that the header promises but the
    table does not hold reads outside the table; a description with no frames per packet divides by zero. *)
Theorem C58_alac_seek_refuted :
  (forall valid sizes fpp first, 0 < fpp < 2 ^ 31 -> zlen sizes + 1 < 2 ^ 31 -> (zlen sizes + 1) * fpp < valid ->
    exists next, 0 <= next < valid /\ alacSeek (mkPT valid 0 0 sizes) first fpp next = UB) /\
  (forall t first next, alacSeek t first 0 next = UB).
Proof.
  split; [|reflexivity]. intros valid sizes fpp first Hf Hz Hv. pose proof (zlen_nonneg sizes) as Zn.
  exists ((zlen sizes + 1) * fpp). split; [nia|]. unfold alacSeek. replace (fpp =? 0) with false by lia.
  assert (E1 : u64 ((zlen sizes + 1) * fpp) = (zlen sizes + 1) * fpp).
  { unfold u64; apply uN_small. change (2 ^ 31) with 2147483648 in *. change (2 ^ 64) with 18446744073709551616. nia. }
  rewrite E1, Z.div_mul by lia.
  assert (E2 : s32 (zlen sizes + 1) = zlen sizes + 1) by (unfold s32; apply sN_small; [lia|change (2 ^ (32 - 1)) with (2 ^ 31); lia]). rewrite E2.
  replace (zlen sizes + 1 <? 0) with false by lia. unfold startOfPacket. cbn [pt_sizes].
  assert (G : forall n pre l off, (length l < n)%nat -> startLoop n (pre ++ l) (zlen pre) off = UB).
  { clear. induction n as [|n IH]; intros pre l off H; [lia|]. cbn [startLoop]. destruct l as [|x l].
    - rewrite app_nil_r. unfold aget. pose proof (zlen_nonneg pre). replace (zlen pre <? 0) with false by lia.
      unfold zlen. rewrite Nat2Z.id. replace (nth_error pre (length pre)) with (@None Z); [reflexivity|]. symmetry. now apply nth_error_None.
    - rewrite aget_mid. cbn [rbind]. replace (pre ++ x :: l) with ((pre ++ [x]) ++ l) by (rewrite <- app_assoc; reflexivity).
      replace (zlen pre + 1) with (zlen (pre ++ [x])) by (rewrite zlen_app; reflexivity). apply IH. cbn in H. lia. }
  specialize (G (Z.to_nat (zlen sizes + 1)) [] sizes 0 ltac:(unfold zlen; lia)). cbn [app] in G. change (zlen (@nil Z)) with 0 in G. rewrite G. reflexivity.
Qed.
Print Assumptions C58_alac_seek_refuted.

Example C58_example : alacSeek (mkPT 10000 0 0 [100; 200; 50]) 128 4096 9000 = Ok (428, 8192, 808).
Proof. reflexivity. Qed.
