(** * C30: IFF/8SVX files, written and read back *)
From Verif Require Import Prelude PreludeFacts ByteOrder FileIO Reader ReaderSpec PropertiesReader.
From Verif Require Import Writer WriterSpec WriterProofs WriterHistory Codecs CodecsProofs PropertiesWriter PropertiesRoundTrip HeaderIO FileRoundTrip Chunks AIFF IFF PropertiesAIFF.

Definition iffTypes (ms : list (Z * list Z)) : Prop := Forall (fun m => 201 <= fst m <= 204) ms.
Definition sameSizes (ms ns : list (Z * list Z)) : Prop := map (fun m => zlen (snd m)) ms = map (fun m => zlen (snd m)) ns.

Definition vhdrContent (rate total : Z) : list Z := be4 total ++ be4 0 ++ be4 0 ++ be2 rate ++ sampleBytes BigEndian 1 0 ++ sampleBytes BigEndian 1 0 ++ be4 65536.
Definition iffMiscs (ms : list (Z * list Z)) : list (list Z * Z * list Z) := map (fun m => (iffMiscTag (fst m), zlen (snd m), pad (snd m))) ms.
Definition iffChunks (rate : Z) (ms : list (Z * list Z)) (total : Z) : list (list Z * Z * list Z) := (T_VHDR, 20, vhdrContent rate total) :: iffMiscs ms.
Lemma iffMiscTag_len ty : zlen (iffMiscTag ty) = 4.
Proof. unfold iffMiscTag. repeat match goal with |- context [if ?b then _ else _] => destruct b end; reflexivity. Qed.
Lemma iffBody_chunks rate ms total : iffBody rate ms total = chunksBytes BigEndian (iffChunks rate ms total) ++ T_BODY ++ be4 total.
Proof.
  unfold iffBody, chunksBytes, iffChunks. cbn [map concat]. rewrite <- !app_assoc. unfold vhdrBytes, vhdrContent. rewrite <- !app_assoc. do 9 f_equal.
  unfold iffMiscBytes, iffMiscs. rewrite map_map. reflexivity.
Qed.
Lemma iffMisc_len ms : forall ns, sameSizes ms ns -> zlen (iffMiscBytes ms) = zlen (iffMiscBytes ns).
Proof.
  unfold sameSizes. induction ms as [|m ms IH]; intros [|n ns] H; try discriminate H; [reflexivity|]. cbn [map] in H. injection H as H1 H2.
  specialize (IH ns H2). unfold iffMiscBytes, chunk in *. cbn [map concat]. rewrite !zlen_app, !sampleBytes_zlen, !iffMiscTag_len, H1, IH. reflexivity.
Qed.
Lemma iffBody_len rate ms ns t1 t2 : sameSizes ms ns -> zlen (iffBody rate ms t1) = zlen (iffBody rate ns t2).
Proof. intros H. unfold iffBody, vhdrBytes, be2, be4. rewrite !zlen_app, !sampleBytes_zlen, (iffMisc_len _ _ H). reflexivity. Qed.

(** The layout of the file; [limit] bounds its length. *)
Definition iffFront (len limit : Z) (b : list Z) : Prop :=
  exists sz mid rest, zlen sz = 4 /\ zlen mid = len /\ b = T_FORM ++ sz ++ T_8SVX ++ mid ++ rest /\ zlen b <= limit.
(** What follows the header after an update: a zero byte after an odd number of bytes. *)
Definition padded (n : Z) (rest : list Z) : list Z := if n mod 2 =? 1 then overwrite rest n [0] else rest.

Lemma iffUpdate_front rate ms f t sz mid rest : zlen sz = 4 -> zlen mid = zlen (iffBody rate ms (w_totalf t)) -> fbytes f = T_FORM ++ sz ++ T_8SVX ++ mid ++ rest ->
  0 <= w_totalf t < 2 ^ 32 ->
  fbytes (iffUpdate rate ms f t) = T_FORM ++ be4 (12 + zlen mid + zlen (padded (w_totalf t) rest) - 8) ++ T_8SVX ++ iffBody rate ms (w_totalf t) ++ padded (w_totalf t) rest.
Proof.
  intros Ls Lm E Ht. unfold iffUpdate. unfold u32. rewrite uN_small by exact Ht. set (body := iffBody rate ms (w_totalf t)) in *. set (n := w_totalf t) in *.
  assert (E1 : fbytes (fwrite (fseek f 12) body) = T_FORM ++ sz ++ T_8SVX ++ body ++ rest).
  { unfold fwrite, fseek. cbn [fbytes fpos]. rewrite E. replace (T_FORM ++ sz ++ T_8SVX ++ mid ++ rest) with ((T_FORM ++ sz ++ T_8SVX) ++ mid ++ rest) by (rewrite <- !app_assoc; reflexivity).
    replace 12 with (zlen (T_FORM ++ sz ++ T_8SVX)) by (rewrite !zlen_app, Ls; reflexivity). rewrite ow_mid by exact Lm. rewrite <- !app_assoc. reflexivity. }
  set (f1 := fwrite (fseek f 12) body) in *.
  assert (E2 : fbytes (if n mod 2 =? 1 then fwrite (fseek f1 (12 + zlen body + n)) [0] else f1) = T_FORM ++ sz ++ T_8SVX ++ body ++ padded n rest).
  { unfold padded. destruct (n mod 2 =? 1); [|exact E1]. unfold fwrite, fseek. cbn [fbytes fpos]. rewrite E1.
    replace (T_FORM ++ sz ++ T_8SVX ++ body ++ rest) with ((T_FORM ++ sz ++ T_8SVX ++ body) ++ rest) by (rewrite <- !app_assoc; reflexivity).
    assert (L : zlen (T_FORM ++ sz ++ T_8SVX ++ body) = 12 + zlen body) by (rewrite !zlen_app, Ls; change (zlen T_FORM) with 4; change (zlen T_8SVX) with 4; lia).
    rewrite ow_past by lia. rewrite L. replace (12 + zlen body + n - (12 + zlen body)) with n by lia. rewrite <- !app_assoc. reflexivity. }
  set (f2 := if n mod 2 =? 1 then _ else f1) in *. cbv zeta. fold f2.
  assert (L2 : flength f2 = 12 + zlen mid + zlen (padded n rest)).
  { unfold flength. rewrite E2, !zlen_app, Ls. change (zlen T_FORM) with 4. change (zlen T_8SVX) with 4. lia. }
  unfold fwrite at 1, fseek at 1. cbn [fbytes fpos]. rewrite L2, E2. change 4 with (zlen T_FORM) at 1. apply ow_mid. rewrite Ls. reflexivity.
Qed.

Lemma padded_len n rest m : 0 <= n <= m -> zlen rest <= m + m mod 2 -> zlen (padded n rest) <= m + m mod 2.
Proof.
  intros Hn Hr. unfold padded. destruct (n mod 2 =? 1) eqn:E; [|exact Hr]. rewrite ow_len by (try discriminate; lia). change (zlen [0]) with 1. lia.
Qed.

Lemma iff_front rate ms0 (mss : wtrack -> list (Z * list Z)) total : (forall t, sameSizes ms0 (mss t)) -> 0 <= total -> iffFirst rate ms0 + total < 2 ^ 32 ->
  frontOK (iffFront (zlen (iffBody rate ms0 0)) (iffFirst rate ms0 + total + total mod 2)) (iffInit rate ms0) (iffFirst rate ms0) (iffFirst rate ms0 + 1 * total) 1
    (fun f t => iffUpdate rate (mss t) f t).
Proof.
  intros Hs Ht Hl. unfold iffFirst in *. pose proof (zlen_nonneg (iffBody rate ms0 0)) as Z0. set (len := zlen (iffBody rate ms0 0)) in *. change (2 ^ 32) with 4294967296 in *. split.
  - intros b p d Hp Hd (sz & mid & rest & Ls & Lm & E & Lb).
    exists sz, mid, (overwrite rest (p - (12 + zlen mid)) d). split; [exact Ls|]. split; [exact Lm|]. split.
    + rewrite E. replace (T_FORM ++ sz ++ T_8SVX ++ mid ++ rest) with ((T_FORM ++ sz ++ T_8SVX ++ mid) ++ rest) by (rewrite <- !app_assoc; reflexivity).
      assert (L : zlen (T_FORM ++ sz ++ T_8SVX ++ mid) = 12 + zlen mid) by (rewrite !zlen_app, Ls; change (zlen T_FORM) with 4; change (zlen T_8SVX) with 4; lia).
      rewrite ow_past by lia. rewrite L, <- !app_assoc. reflexivity.
    + destruct d as [|y d]; [exact Lb|]. rewrite ow_len by (try discriminate; lia). lia.
  - intros f t H1 H2 H3 H4 (sz & mid & rest & Ls & Lm & E & Lb).
    assert (Lm' : zlen mid = zlen (iffBody rate (mss t) (w_totalf t))) by (rewrite Lm; apply iffBody_len; auto).
    assert (Hn : 0 <= w_totalf t <= total) by lia.
    exists (be4 (12 + zlen mid + zlen (padded (w_totalf t) rest) - 8)), (iffBody rate (mss t) (w_totalf t)), (padded (w_totalf t) rest).
    rewrite (iffUpdate_front rate (mss t) f t sz mid rest Ls Lm' E ltac:(change (2 ^ 32) with 4294967296; lia)).
    split; [reflexivity|]. split; [lia|]. split; [reflexivity|].
    rewrite E in Lb. rewrite !zlen_app in Lb. rewrite !zlen_app. change (zlen (be4 _)) with 4. change (zlen T_FORM) with 4 in *. change (zlen T_8SVX) with 4 in *.
    pose proof (padded_len (w_totalf t) rest total Hn ltac:(lia)). lia.
  - exists (be4 0), (iffBody rate ms0 0), []. split; [reflexivity|]. split; [reflexivity|]. split; [unfold iffInit; now rewrite app_nil_r|].
    unfold iffInit. rewrite !zlen_app. change (zlen T_FORM) with 4. change (zlen (be4 0)) with 4. change (zlen T_8SVX) with 4. fold len. lia.
Qed.

Lemma iff_keeps rate ms0 (mss : wtrack -> list (Z * list Z)) total : (forall t, sameSizes ms0 (mss t)) -> 0 <= total -> iffFirst rate ms0 + total < 2 ^ 32 ->
  keepsFor (fun f t => iffUpdate rate (mss t) f t) (iffFirst rate ms0) (iffFirst rate ms0 + 1 * total) 1.
Proof.
  intros Hs Ht Hl f t H1 H2 H3 H4 H5. unfold iffFirst in *. pose proof (iffBody_len rate ms0 (mss t) 0 (w_totalf t) (Hs t)) as EL. change (2 ^ 32) with 4294967296 in *.
  pose proof (zlen_nonneg (iffBody rate ms0 0)). set (len := zlen (iffBody rate ms0 0)) in *.
  assert (Hn : 0 <= w_totalf t <= total) by lia. unfold iffUpdate. unfold u32. rewrite uN_small by (change (2 ^ 32) with 4294967296; lia). cbv zeta.
  assert (K : forall g v, region (fbytes (fwrite (fseek g 4) (be4 v))) (12 + len) (w_after t - (12 + len)) = region (fbytes g) (12 + len) (w_after t - (12 + len))).
  { intros g v. unfold fwrite, fseek. cbn [fbytes fpos]. apply ow_region_after'; [lia| |lia]. unfold be4. rewrite sampleBytes_zlen. change (Z.of_nat 4) with 4. lia. }
  rewrite K. clear K.
  assert (E1 : region (fbytes (fwrite (fseek f 12) (iffBody rate (mss t) (w_totalf t)))) (12 + len) (w_after t - (12 + len)) = region (fbytes f) (12 + len) (w_after t - (12 + len))).
  { unfold fwrite, fseek. cbn [fbytes fpos]. apply ow_region_after'; lia. }
  destruct (w_totalf t mod 2 =? 1) eqn:E; [|exact E1]. unfold fwrite at 1, fseek at 1. cbn [fbytes fpos].
  set (b1 := fbytes (fwrite (fseek f 12) (iffBody rate (mss t) (w_totalf t)))) in *.
  assert (L1 : zlen (fbytes f) <= zlen b1).
  { unfold b1, fwrite, fseek. cbn [fbytes fpos]. destruct (iffBody rate (mss t) (w_totalf t)) eqn:Eb; [cbn [overwrite]; lia|]. rewrite ow_len by (try discriminate; lia). lia. }
  rewrite ow_region_before.
  exact E1. lia. lia. cbn [fseek fpos]; lia. lia.
Qed.

(** *** Reading *)
Definition iffWithMisc (s : iffSt) m := IffSt (is_fmt s) (is_total s) (is_first s) (is_dsize s) m.
Lemma vhdr_handles rate total s : 0 <= rate < 2 ^ 16 ->
  handles iffChunk s T_VHDR 20 (vhdrContent rate total) (IffSt (Some (mkFmt rate TwosComp 8 1 BigEndian CNone 1 1)) (is_total s) (is_first s) (is_dsize s) (is_misc s)).
Proof.
  intros Hr b p rest Hp H. unfold iffChunk. change (teq T_VHDR T_VHDR) with true. cbv iota. unfold vhdrContent, be4, be2 in H. rewrite <- !app_assoc in H. unfold parseVHDR.
  do 7 hstep H. change (8 * Z.of_nat 2) with 16. rewrite (Z.mod_small rate) by exact Hr. eexists. split; reflexivity.
Qed.
Lemma iffMisc_handles s ty c : 201 <= ty <= 204 ->
  handles iffChunk s (iffMiscTag ty) (zlen c) (pad c) (iffWithMisc s (is_misc s ++ miscFound [(ty, c)])).
Proof.
  intros Hty b p rest Hp H.
  assert (E : iffChunk s (iffMiscTag ty) (zlen c) = iffMisc s ty (zlen c)).
  { assert (ty = 201 \/ ty = 202 \/ ty = 203 \/ ty = 204) as D by lia. generalize (zlen c). intros z. destruct D as [->|[->|[->| ->]]]; reflexivity. }
  rewrite E. clear E. unfold iffMisc, miscFound. cbn [filter fst snd map]. pose proof (zlen_nonneg c).
  destruct (zlen c =? 0) eqn:E0; cbn [negb].
  - cbn [map]. rewrite app_nil_r. eexists. unfold hret, iffWithMisc. split; [destruct s; reflexivity|reflexivity].
  - unfold pad in H. rewrite <- app_assoc in H. hfield H (zlen c); [reflexivity|]. eexists. split; reflexivity.
Qed.
Lemma iffMiscs_handle ms : forall s, iffTypes ms -> handlesAll iffChunk s (iffMiscs ms) (iffWithMisc s (is_misc s ++ miscFound ms)).
Proof.
  induction ms as [|[ty c] ms IH]; intros s Hv.
  - cbn. rewrite app_nil_r. destruct s. constructor.
  - apply Forall_cons_iff in Hv. destruct Hv as [H1 H2]. cbn [iffMiscs map fst snd].
    econstructor; [apply iffMiscTag_len|apply zlen_nonneg|apply pad_len|apply iffMisc_handles; exact H1|].
    replace (is_misc s ++ miscFound ((ty, c) :: ms)) with (is_misc (iffWithMisc s (is_misc s ++ miscFound [(ty, c)])) ++ miscFound ms).
    + exact (IH _ H2).
    + cbn [iffWithMisc is_misc]. rewrite <- app_assoc. f_equal. unfold miscFound. cbn [filter snd fst map]. destruct (zlen c =? 0); reflexivity.
Qed.

(** [z] is the length of the file when the header was written. *)
Lemma iff_read_header rate ms total z b rest fuel : 0 <= rate < 2 ^ 16 -> iffTypes ms ->
  b = T_FORM ++ be4 (z - 8) ++ T_8SVX ++ iffBody rate ms total ++ rest ->
  z = 12 + zlen (iffBody rate ms total) + total + total mod 2 -> z <= 2 ^ 32 - 24 -> 0 <= total ->
  (2 + length ms <= fuel)%nat ->
  exists f', iffRead fuel (mkFile b 0) = Ok (Some (IffSt (Some (mkFmt rate TwosComp 8 1 BigEndian CNone 1 1)) total (12 + zlen (iffBody rate ms total)) total (miscFound ms), f')).
Proof.
  intros Hr Hm Eb Lb Hl Ht Hfu. rewrite iffBody_chunks in *. set (cs := iffChunks rate ms total) in *.
  assert (Ls : zlen (T_BODY ++ be4 total) = 8) by (unfold be4; rewrite zlen_app, sampleBytes_zlen; reflexivity).
  rewrite zlen_app, Ls in Lb. rewrite zlen_app, Ls. pose proof (zlen_nonneg (chunksBytes BigEndian cs)) as Zc. change (2 ^ 32) with 4294967296 in *.
  assert (0 <= total mod 2 < 2) by (apply Z.mod_pos_bound; lia).
  assert (H0 : zskipn 0 b = T_FORM ++ be4 (z - 8) ++ T_8SVX ++ chunksBytes BigEndian cs ++ T_BODY ++ be4 total ++ rest).
  { rewrite zskipn_0 by lia. rewrite Eb. rewrite <- !app_assoc. reflexivity. }
  clear Eb. unfold iffRead. rewrite st_seek. cbn [fbytes]. hfield H0 4; [reflexivity|]. change (0 + 4) with 4 in *. unfold be4 in H0. hstep H0. change (4 + Z.of_nat 4) with 8 in *.
  hfield H0 4; [reflexivity|]. change (8 + 4) with (4 + 8) in *. change (negb (teq T_FORM T_FORM) || negb (teq T_8SVX T_8SVX)) with false. cbv iota.
  change (8 * Z.of_nat 4) with 32. change (2 ^ 32) with 4294967296. rewrite (Z.mod_small (z - 8)) by lia.
  assert (Lfu : exists k, fuel = (length cs + S k)%nat).
  { exists (fuel - length cs - 1)%nat. assert (length cs = (1 + length ms)%nat) by (unfold cs, iffChunks, iffMiscs; cbn [length]; rewrite map_length; reflexivity). lia. }
  destruct Lfu as [k ->].
  assert (HA : handlesAll iffChunk iffSt0 cs (IffSt (Some (mkFmt rate TwosComp 8 1 BigEndian CNone 1 1)) 0 0 0 (miscFound ms))).
  { unfold cs, iffChunks. econstructor; [reflexivity|lia|unfold vhdrContent, be4, be2; rewrite !zlen_app, !sampleBytes_zlen; reflexivity|apply vhdr_handles; exact Hr|].
    exact (iffMiscs_handle ms _ Hm). }
  assert (W : forall v, 0 <= v < 2 ^ 32 -> u64 v = v) by (intros v Hv; unfold u64; apply uN_small; change (2 ^ 32) with 4294967296 in Hv; change (2 ^ 64) with 18446744073709551616; lia).
  destruct (chunkLoop_chunks BigEndian u64 iffChunk (z - 8) b _ W cs _ _ (S k) 4 HA ltac:(lia) eq_refl ltac:(lia) ltac:(change (2 ^ 32) with 4294967296; lia) H0) as (E1 & E2 & E3).
  rewrite E1. clear E1 HA H0. set (i := 4 + zlen (chunksBytes BigEndian cs)) in *.
  (* the last chunk; a pad byte may follow *)
  cbn [chunkLoop]. replace (i <? z - 8) with true by lia. cbn [negb].
  rewrite (st_tag b (i + 8) T_BODY _ _ ltac:(lia) E2 eq_refl). apply skip_field in E2; [|lia]. change (zlen T_BODY) with 4 in E2.
  rewrite (st_readU0 b (i + 8 + 4) BigEndian 4 total _ _ ltac:(lia) E2). change (8 * Z.of_nat 4) with 32. change (2 ^ 32) with 4294967296. rewrite (Z.mod_small total) by lia.
  change (Z.of_nat 4) with 4. unfold iffChunk at 1. change (teq T_BODY T_VHDR) with false. change (teq T_BODY T_BODY) with true. cbv iota.

  assert (EB : forall (k0 : iffSt -> hP iffSt) f, hbind (parseBODY (IffSt (Some (mkFmt rate TwosComp 8 1 BigEndian CNone 1 1)) 0 0 0 (miscFound ms)) total) k0 f
     = k0 (IffSt (Some (mkFmt rate TwosComp 8 1 BigEndian CNone 1 1)) total (fpos f) total (miscFound ms)) f) by reflexivity.
  unfold parseBODY in EB. rewrite EB. clear EB. cbn [fpos]. rewrite st_seek.
  assert (En : nextIndex u64 i total = i + 8 + total + total mod 2).
  { unfold nextIndex, u32, uN. change (2 ^ 32) with 4294967296. rewrite (Z.mod_small (total + 8)) by lia. rewrite (W (i + (total + 8))) by (change (2 ^ 32) with 4294967296; lia).
    cbv zeta. destruct ((i + (total + 8)) mod 2 =? 0) eqn:E; [lia|]. rewrite W by (change (2 ^ 32) with 4294967296; lia). lia. }
  rewrite En. replace (12 + (zlen (chunksBytes BigEndian cs) + 8)) with (i + 8 + 4 + 4) by lia.
  destruct k; cbn [chunkLoop]; replace (i + 8 + total + total mod 2 <? z - 8) with false by lia; cbn [negb]; eexists; reflexivity.
Qed.

(** ** Opening what was written *)
(** The file reads back: header, miscellaneous data and frames. *)
Definition iffOpens {F W} (B : Build) (bytes : list Z) (r : codec F) (back : F -> W) (rate : Z) (ms : list (Z * list Z)) (first total : Z) (frames : list W) : Prop :=
  (forall fuel, (2 + length ms <= fuel)%nat -> exists f',
    iffRead fuel (mkFile bytes 0) = Ok (Some (IffSt (Some (mkFmt rate TwosComp 8 1 BigEndian CNone 1 1)) total first total (miscFound ms), f'))) /\
  readsAs B r back bytes first total frames.
(** The file reads back: header, miscellaneous data and frames; it ends on an even offset and its FORM chunk covers it. *)
Definition iffReopens {F W} (B : Build) (bytes : list Z) (r : codec F) (back : F -> W) (rate : Z) (ms : list (Z * list Z)) (first total : Z) (frames : list W) : Prop :=
  (forall fuel, (2 + length ms <= fuel)%nat -> exists f',
    iffRead fuel (mkFile bytes 0) = Ok (Some (IffSt (Some (mkFmt rate TwosComp 8 1 BigEndian CNone 1 1)) total first total (miscFound ms), f'))) /\
  region bytes 4 4 = be4 (zlen bytes - 8) /\ zlen bytes = first + total + total mod 2 /\
  readsAs B r back bytes first total frames.

Lemma iff_conclude_front {F W} (B : Build) rate ms0 (mss : wtrack -> list (Z * list Z)) (r : codec F) (back : F -> W) total frames f0 (st_file : file) t (X : list Z) :
  0 <= rate < 2 ^ 16 -> (forall t, iffTypes (mss t) /\ sameSizes ms0 (mss t)) ->
  let first := iffFirst rate ms0 in
  0 <= total -> first + total + total mod 2 <= 2 ^ 32 - 24 ->
  st_file = iffUpdate rate (mss t) f0 t -> w_totalf t = total ->
  iffFront (zlen (iffBody rate ms0 0)) (first + total + total mod 2) (fbytes f0) ->
  first + total <= zlen (fbytes st_file) ->
  zfirstn (first + total) X = zfirstn (first + total) (fbytes st_file) -> first + total <= zlen X ->
  readsAs B r back X first total frames ->
  iffOpens B X r back rate (mss t) first total frames /\ region (fbytes st_file) 4 4 = be4 (zlen (fbytes st_file) - 8) /\ zlen (fbytes st_file) = first + total + total mod 2.
Proof.
  intros Hr Vx first Ht Hs -> T1 (sz & mid & rest & Ls & Lm & E & Lb) Fit EX LX RD. destruct (Vx t) as [Vt Lt].
  pose proof (iffBody_len rate ms0 (mss t) 0 (w_totalf t) Lt) as EL. unfold first, iffFirst in *. clear first. pose proof (zlen_nonneg (iffBody rate ms0 0)) as Z0.
  change (2 ^ 32) with 4294967296 in *. assert (M : 0 <= total mod 2 < 2) by (apply Z.mod_pos_bound; lia).
  pose proof (iffUpdate_front rate (mss t) f0 t sz mid rest Ls ltac:(lia) E ltac:(change (2 ^ 32) with 4294967296; lia)) as Eb.
  rewrite T1 in *. set (b := fbytes (iffUpdate rate (mss t) f0 t)) in *.
  assert (Lz : zlen b = 12 + zlen mid + zlen (padded total rest)).
  { rewrite Eb. rewrite !zlen_app. change (zlen (be4 _)) with 4. change (zlen T_FORM) with 4. change (zlen T_8SVX) with 4. lia. }
  assert (Lr : zlen rest <= total + total mod 2).
  { rewrite E in Lb. rewrite !zlen_app in Lb. change (zlen T_FORM) with 4 in Lb. change (zlen T_8SVX) with 4 in Lb. lia. }
  assert (Lz2 : zlen b = 12 + zlen mid + total + total mod 2).
  { rewrite Lz. pose proof (zlen_nonneg rest). unfold padded in *. destruct (total mod 2 =? 1) eqn:E2.
    - rewrite ow_len by (try discriminate; lia). change (zlen [0]) with 1. lia.
    - lia. }
  rewrite <- Lz in Eb. clear Lz. set (rest' := padded total rest) in *. clearbody rest' b. split; [split; [|exact RD]|split; [|lia]].
  - intros fuel Hfu. replace (12 + zlen (iffBody rate ms0 0)) with (12 + zlen (iffBody rate (mss t) total)) by lia.
    assert (Ex : X = T_FORM ++ be4 (zlen b - 8) ++ T_8SVX ++ iffBody rate (mss t) total ++ zskipn (12 + zlen (iffBody rate (mss t) total)) X).
    { set (z := zlen b) in *. clearbody z. pose proof (same_front (T_FORM ++ be4 (z - 8) ++ T_8SVX ++ iffBody rate (mss t) total) rest' EX LX) as Q.
      rewrite !zlen_app in Q. change (zlen (be4 _)) with 4 in Q. change (zlen T_FORM) with 4 in Q. change (zlen T_8SVX) with 4 in Q.
      rewrite <- !app_assoc in Q. replace (4 + (4 + (4 + zlen (iffBody rate (mss t) total)))) with (12 + zlen (iffBody rate (mss t) total)) in Q by lia.
      apply Q; [exact Eb|lia]. }
    apply (iff_read_header rate (mss t) total (zlen b) X (zskipn (12 + zlen (iffBody rate (mss t) total)) X) fuel); auto; change (2 ^ 32) with 4294967296; lia.
  - unfold region. rewrite Eb at 1. change 4 with (zlen T_FORM) at 2. rewrite zskipn_exact. change 4 with (zlen (be4 (zlen b - 8))) at 1. apply zfirstn_exact.
Qed.

Lemma iff_conclude {F W} (B : Build) rate ms0 (mss : wtrack -> list (Z * list Z)) (r : codec F) (back : F -> W) total frames f0 (st_file : file) t :
  0 <= rate < 2 ^ 16 -> (forall t, iffTypes (mss t) /\ sameSizes ms0 (mss t)) ->
  let first := iffFirst rate ms0 in
  0 <= total -> first + total + total mod 2 <= 2 ^ 32 - 24 ->
  st_file = iffUpdate rate (mss t) f0 t -> w_totalf t = total ->
  iffFront (zlen (iffBody rate ms0 0)) (first + total + total mod 2) (fbytes f0) ->
  first + total <= zlen (fbytes st_file) ->
  readsAs B r back (fbytes st_file) first total frames ->
  iffReopens B (fbytes st_file) r back rate (mss t) first total frames.
Proof. intros. edestruct (iff_conclude_front (W := W) B rate ms0 mss r back total frames f0 st_file t (fbytes st_file)) as ((A1 & A2) & A3 & A4); eauto. exact (conj A1 (conj A3 (conj A4 A2))). Qed.

(** *** C30 *)
(** Whole rates below 65536, any miscellaneous data of the four kinds (whose contents may be written after the file is opened), any interleaving of writes
    and syncs.  Missing: rates that are not whole or do not fit in 16 bits (the format cannot hold them), and empty miscellaneous chunks (see below). *)
Theorem C30_iff_roundtrip_partial :
  forall (B : Build) rate, 0 <= rate < 2 ^ 16 ->
  forall ms0 (mss : wtrack -> list (Z * list Z)), (forall t, iffTypes (mss t) /\ sameSizes ms0 (mss t)) ->
  forall (V W : Type) (conv : V -> list Z) (back : list Z -> W) junk cap (ops : list wop),
    let first := iffFirst rate ms0 in let total := zlen (written ops) in
    zlen junk = 1 -> spaced false (ops ++ [Sync]) ->
    Forall (fun v => frameOf 1 (fits true 1) (conv v)) (written ops) ->
    first + total < 2 ^ 31 ->
    exists st, wrun (pcmW BigEndian 1 1) conv junk true (fun f t => iffUpdate rate (mss t) f t)
        (openWrite (pcmW BigEndian 1 1) (iffInit rate ms0) first cap tt) (ops ++ [Sync]) = Ok st /\
      iffReopens B (fbytes (ws_file st)) (pcmR BigEndian true 1 1) back rate (mss (ws_track st)) first total (map (fun v => back (conv v)) (written ops)).
Proof.
  intros B rate Hr ms0 mss Vx V W conv back junk cap ops first total Hj Hsp Hok Hs. change (2 ^ 31) with 2147483648 in Hs.
  pose proof (zlen_nonneg (written ops) : 0 <= total) as Zt.
  assert (H0 : 0 <= first) by (unfold first, iffFirst; pose proof (zlen_nonneg (iffBody rate ms0 0)); lia).
  assert (Sx : forall t, sameSizes ms0 (mss t)) by (intros t; apply Vx).
  assert (M1 : Z.of_nat 1 * 1 = 1) by reflexivity.
  destruct (pcm_file (W := W) B BigEndian true 1 1 ltac:(lia) ltac:(lia) conv back junk (fun f t => iffUpdate rate (mss t) f t) (iffInit rate ms0) first cap ops Hj H0
      (iff_keeps rate ms0 mss total Sx Zt ltac:(fold first; change (2 ^ 32) with 4294967296; lia))
      _ (iff_front rate ms0 mss total Sx Zt ltac:(fold first; change (2 ^ 32) with 4294967296; lia)) Hsp Hok
      ltac:(rewrite M1, Z.mul_1_l; fold total; change (2 ^ 31) with 2147483648; lia))
      as (st & f0 & R & Ef & HF & T0 & T1 & T2 & T3 & Fit & RD).
  exists st. split; [exact R|]. fold total in T1, T2, T3, Fit, HF. rewrite M1, !Z.mul_1_l in *.
  assert (L0 : first <= zlen (fbytes (ws_file st))).
  { rewrite Ef. destruct HF as (sz & mid & rest & Ls & Lm & E & _). pose proof (iffBody_len rate ms0 (mss (ws_track st)) 0 (w_totalf (ws_track st)) (Sx _)) as EL.
    rewrite (iffUpdate_front rate (mss (ws_track st)) f0 (ws_track st) sz mid rest Ls ltac:(lia) E ltac:(change (2 ^ 32) with 4294967296; lia)).
    rewrite !zlen_app. change (zlen (be4 _)) with 4. change (zlen T_FORM) with 4. change (zlen T_8SVX) with 4. unfold first, iffFirst.
    pose proof (zlen_nonneg (padded (w_totalf (ws_track st)) rest)). lia. }
  specialize (RD (or_intror L0)).
  apply (iff_conclude B rate ms0 mss _ back total _ f0 (ws_file st) (ws_track st)); auto; try (change (2 ^ 32) with 4294967296; fold first; lia).
  fold first. destruct (written ops) eqn:E; [unfold total; change (zlen (@nil V)) with 0; lia|]. apply Fit. congruence.
Qed.
Print Assumptions C30_iff_roundtrip_partial.

Example C30_example :
  forall B : Build, exists st f',
    wrun (pcmW BigEndian 1 1) (fun x => x) [0] true (fun f t => iffUpdate 8000 [(203, [88; 89; 90]); (204, [1; 2])] f t)
      (openWrite (pcmW BigEndian 1 1) (iffInit 8000 [(203, [0; 0; 0]); (204, [0; 0])]) (iffFirst 8000 [(203, [0; 0; 0]); (204, [0; 0])]) 1024 tt) [Write [[1]; [-4]]; Sync; Write [[5]]; Sync] = Ok st /\
    zlen (fbytes (ws_file st)) = 74 /\
    iffRead 4 (mkFile (fbytes (ws_file st)) 0) =
      Ok (Some (IffSt (Some (mkFmt 8000 TwosComp 8 1 BigEndian CNone 1 1)) 3 70 3 [(203, 3, [88; 89; 90]); (204, 2, [1; 2])], f')).
Proof. intros B. do 2 eexists. split; [vm_compute; reflexivity|]. split; vm_compute; reflexivity. Qed.

(** Miscellaneous chunks of size 0 are written, but reading skips them. *)
Theorem C30_empty_misc_refuted : forall ms, miscFound ((203, []) :: ms) = miscFound ms.
Proof. reflexivity. Qed.
Print Assumptions C30_empty_misc_refuted.
(** A kind of miscellaneous data that IFF does not know, which completeSetup accepts, is written under a tag of four zeros and lost on reading. *)
Theorem C30_unknown_misc_refuted :
  forall ty, ~ 201 <= ty <= 204 ->
  iffMiscTag ty = [0; 0; 0; 0] /\ iffTagMisc (iffMiscTag ty) = None.
Proof.
  intros ty H. assert (E : iffMiscTag ty = [0; 0; 0; 0]).
  { unfold iffMiscTag. replace (ty =? 203) with false by lia. replace (ty =? 202) with false by lia. replace (ty =? 201) with false by lia. now replace (ty =? 204) with false by lia. }
  rewrite E. split; reflexivity.
Qed.
Print Assumptions C30_unknown_misc_refuted.

(** ** C57: opening *)
Theorem C57_iff_without_vhdr_refuted : iffOpen 3 (mkFile (T_FORM ++ be4 16 ++ T_8SVX ++ T_BODY ++ be4 4 ++ [0; 0; 0; 0]) 0) = UB.
Proof. vm_compute. reflexivity. Qed.
Print Assumptions C57_iff_without_vhdr_refuted.
(** A VHDR chunk cut short before the rate leaves the rate uninitialised. *)
Theorem C57_iff_short_vhdr_refuted : iffRead 3 (mkFile (T_FORM ++ be4 30 ++ T_8SVX ++ T_VHDR ++ be4 20 ++ zrepeat 0 12) 0) = UB.
Proof. vm_compute. reflexivity. Qed.
Print Assumptions C57_iff_short_vhdr_refuted.
