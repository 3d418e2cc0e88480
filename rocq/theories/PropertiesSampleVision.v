(** * C33, C57: Sample Vision files *)
From Verif Require Import Prelude PreludeFacts ByteOrder FileIO Reader ReaderSpec PropertiesReader.
From Verif Require Import Writer WriterSpec WriterProofs WriterHistory Codecs CodecsProofs PropertiesWriter PropertiesRoundTrip HeaderIO FileRoundTrip Chunks VOC SampleVision.

Lemma smpPre_len : zlen smpPre = 112. Proof. reflexivity. Qed.
Lemma smpTrailer_len rate : zlen (smpTrailer rate) = 215.
Proof. unfold smpTrailer, le4, le2. rewrite !zlen_app, !sampleBytes_zlen. reflexivity. Qed.
Lemma smpTrailer_some rate : smpTrailer rate <> [].
Proof. intros E. pose proof (smpTrailer_len rate) as L. rewrite E in L. discriminate L. Qed.

Definition smpFront (b : list Z) : Prop := exists mid rest, zlen mid = 4 /\ b = smpPre ++ mid ++ rest.

Lemma smp_updated rate f t mid rest : zlen mid = 4 -> fbytes f = smpPre ++ mid ++ rest -> smpFirst <= w_after t ->
  fbytes (smpUpdate rate f t) = smpPre ++ le4 (w_totalf t) ++ overwrite rest (w_after t - smpFirst) (smpTrailer rate).
Proof.
  intros Lm E Ha. unfold smpUpdate, fwrite, fseek. cbn [fbytes fpos]. rewrite E. change 112 with (zlen smpPre). rewrite ow_mid by (unfold le4; now rewrite sampleBytes_zlen).
  rewrite app_assoc. unfold smpFirst in *. assert (L : zlen (smpPre ++ le4 (w_totalf t)) = 116) by (unfold le4; rewrite zlen_app, sampleBytes_zlen; reflexivity).
  rewrite ow_past by lia. rewrite L, <- app_assoc. reflexivity.
Qed.

Lemma smp_front rate limit bpf : frontOK smpFront smpInit smpFirst limit bpf (smpUpdate rate).
Proof.
  split.
  - intros b p d Hp Hd (mid & rest & Lm & E). exists mid, (overwrite rest (p - 116) d). split; [exact Lm|].
    unfold smpFirst in Hp. rewrite E, app_assoc. assert (L : zlen (smpPre ++ mid) = 116) by (rewrite zlen_app, Lm; reflexivity). rewrite ow_past by lia. rewrite L, <- app_assoc. reflexivity.
  - intros f t H1 H2 _ H3 (mid & rest & Lm & E). exists (le4 (w_totalf t)), (overwrite rest (w_after t - smpFirst) (smpTrailer rate)). split; [unfold le4; now rewrite sampleBytes_zlen|].
    apply (smp_updated rate f t mid rest Lm E). lia.
  - exists (le4 0), []. split; reflexivity.
Qed.

Lemma smp_keeps rate limit bpf : keepsFor (smpUpdate rate) smpFirst limit bpf.
Proof.
  intros f t H1 H2 H3 H4 H5. unfold smpUpdate. cbv zeta. unfold smpFirst in *.
  assert (E1 : region (fbytes (fwrite (fseek f 112) (le4 (w_totalf t)))) 116 (w_after t - 116) = region (fbytes f) 116 (w_after t - 116)).
  { unfold fwrite, fseek. cbn [fbytes fpos]. apply ow_region_after'; [lia| |lia]. unfold le4. rewrite sampleBytes_zlen. change (Z.of_nat 4) with 4. lia. }
  assert (L1 : zlen (fbytes f) <= zlen (fbytes (fwrite (fseek f 112) (le4 (w_totalf t)))) /\ 116 <= zlen (fbytes (fwrite (fseek f 112) (le4 (w_totalf t))))).
  { unfold fwrite, fseek. cbn [fbytes fpos]. assert (L : zlen (le4 (w_totalf t)) = 4) by (unfold le4; now rewrite sampleBytes_zlen).
    destruct (le4 (w_totalf t)) as [|x l] eqn:E; [discriminate L|]. rewrite ow_len by (try discriminate; lia). lia. }
  set (g := fwrite (fseek f 112) (le4 (w_totalf t))) in *. unfold fwrite at 1, fseek at 1. cbn [fbytes fpos].
  rewrite ow_region_before. exact E1. lia. lia. cbn [fseek fpos]; lia. lia.
Qed.

(** *** Reading *)
Lemma smp_text {A} b p n ty d rest (k : list (Z * list Z) -> hP A) : 0 <= p -> zskipn p b = d ++ rest -> zlen d = n ->
  hbind (smpText n ty) k (mkFile b p) = k (match trimBlanks (cstr d) with [] => [] | s => [(ty, s)] end) (mkFile b (p + n)).
Proof.
  intros Hp H L. unfold smpText, hbind. rewrite (hread_field b p d rest n Hp H L). cbn [rbind]. replace (zlen d =? n) with true by lia. cbn [negb].
  unfold hret. cbn [rbind]. destruct (trimBlanks (cstr d)); reflexivity.
Qed.
Lemma smp_loop b p rest : 0 <= p -> zskipn p b = smpLoop ++ rest -> smpReadLoop (mkFile b p) = Ok (Some (tt, mkFile b (p + 11))) /\ zskipn (p + 11) b = rest.
Proof.
  intros Hp H. unfold smpLoop, le4, le2 in H. rewrite <- !app_assoc in H. unfold smpReadLoop. do 4 hstep H.
  replace (p + Z.of_nat 4 + Z.of_nat 4 + Z.of_nat 1 + Z.of_nat 2) with (p + 11) in * by lia. split; [reflexivity|exact H].
Qed.
Lemma smp_marker b p rest : 0 <= p -> zskipn p b = smpMarker ++ rest -> smpReadMarker (mkFile b p) = Ok (Some (tt, mkFile b (p + 14))) /\ zskipn (p + 14) b = rest.
Proof.
  intros Hp H. unfold smpMarker, le4, le2 in H. rewrite <- !app_assoc in H. unfold smpReadMarker. change (hread 10) with (hread (zlen (zrepeat 32 10))). hstep H. change (zlen (zrepeat 32 10)) with 10 in *. hstep H.
  replace (p + 10 + Z.of_nat 4) with (p + 14) in * by lia. split; [reflexivity|exact H].
Qed.
Lemma hrepeat_fields q x w b : zlen x = w -> (forall p rest, 0 <= p -> zskipn p b = x ++ rest -> q (mkFile b p) = Ok (Some (tt, mkFile b (p + w))) /\ zskipn (p + w) b = rest) ->
  forall n p rest, 0 <= p -> zskipn p b = concat (repeat x n) ++ rest -> hrepeat n q (mkFile b p) = Ok (Some (tt, mkFile b (p + w * Z.of_nat n))) /\ zskipn (p + w * Z.of_nat n) b = rest.
Proof.
  intros L Hq. assert (Hw : 0 <= w) by (rewrite <- L; apply zlen_nonneg). induction n as [|n IH]; intros p rest Hp H.
  - cbn in H. replace (p + w * Z.of_nat 0) with p by lia. split; [reflexivity|exact H].
  - cbn [repeat concat] in H. rewrite <- app_assoc in H. destruct (Hq p _ Hp H) as [E H']. cbn [hrepeat]. unfold hbind. rewrite E. cbn [rbind].
    destruct (IH (p + w) rest ltac:(lia) H') as [E2 H2]. replace (p + w * Z.of_nat (S n)) with (p + w + w * Z.of_nat n) by lia. auto.
Qed.

Lemma smp_read rate total b rest : b = smpPre ++ le4 total ++ rest -> 0 <= total < 2 ^ 31 -> 0 <= rate < 2 ^ 32 ->
  (exists post, zskipn (116 + 2 * total) b = smpTrailer rate ++ post) ->
  exists f', smpRead (mkFile b 0) = Ok (Some ((mkParsed (mkFmt rate TwosComp 16 1 LittleEndian CNone 1 2) 116 (2 * total) total, [(203, [32]); (210, [32])]), f')).
Proof.
  intros Eb Ht Hr (post & HT). change (2 ^ 31) with 2147483648 in *. change (2 ^ 32) with 4294967296 in *.
  assert (H : zskipn 0 b = smpMagic ++ smpVersion ++ zrepeat 32 30 ++ zrepeat 32 60 ++ le4 total ++ rest) by (rewrite zskipn_0 by lia; rewrite Eb; unfold smpPre; rewrite <- !app_assoc; reflexivity).
  clear Eb. unfold smpRead. rewrite st_seek. cbn [fbytes]. change (hread 18) with (hread (zlen smpMagic)). hstep H. change (zlen smpMagic) with 18 in *. rewrite teq_refl. change (negb (18 =? 18)) with false. cbn [negb].
  change (hread 4) with (hread (zlen smpVersion)). hstep H. change (zlen smpVersion) with 4 in *. rewrite teq_refl. change (negb (4 =? 4)) with false. cbn [negb]. change (0 + 18 + 4) with 22 in *.
  rewrite (smp_text b 22 30 203 _ _ _ ltac:(lia) H eq_refl). apply skip_field in H; [|lia]. change (22 + zlen (zrepeat 32 30)) with 52 in H. change (22 + 30) with 52.
  rewrite (smp_text b 52 60 210 _ _ _ ltac:(lia) H eq_refl). apply skip_field in H; [|lia]. change (52 + zlen (zrepeat 32 60)) with 112 in H. change (52 + 60) with 112.
  change (match trimBlanks (cstr (zrepeat 32 30)) with [] => [] | s => [(203, s)] end) with [(203, [32])].
  change (match trimBlanks (cstr (zrepeat 32 60)) with [] => [] | s => [(210, s)] end) with [(210, [32])].
  cut (exists f', smpTail (mkFile b 112) = Ok (Some (mkParsed (mkFmt rate TwosComp 16 1 LittleEndian CNone 1 2) 116 (2 * total) total, f'))).
  { intros (f' & E). exists f'. unfold hbind. rewrite E. reflexivity. }
  unfold le4 in H. unfold smpTail. hstep H. clear H. rewrite st_tell. cbn [fpos]. rewrite st_skip. cbn [fbytes fpos]. change (8 * Z.of_nat 4) with 32. change (2 ^ 32) with 4294967296.
  rewrite (Z.mod_small total) by lia. unfold u32. rewrite uN_small by (change (2 ^ 32) with 4294967296; lia). change (112 + Z.of_nat 4) with 116.
  unfold smpTrailer, le2 at 1 in HT. rewrite <- !app_assoc in HT. hstep HT.
  replace (times8 smpLoop) with (concat (repeat smpLoop 8)) in HT by reflexivity. replace (times8 smpMarker) with (concat (repeat smpMarker 8)) in HT by reflexivity.
  destruct (hrepeat_fields smpReadLoop smpLoop 11 b eq_refl (fun p r => smp_loop b p r) 8 (116 + 2 * total + Z.of_nat 2) _ ltac:(lia) HT) as [E1 H1].
  unfold hbind at 1. rewrite E1. cbn [rbind]. clear HT E1.
  destruct (hrepeat_fields smpReadMarker smpMarker 14 b eq_refl (fun p r => smp_marker b p r) 8 (116 + 2 * total + Z.of_nat 2 + 11 * Z.of_nat 8) _ ltac:(lia) H1) as [E1 H2].
  unfold hbind at 1. rewrite E1. cbn [rbind]. clear H1 E1. unfold le4 in H2. do 4 hstep H2. change (8 * Z.of_nat 4) with 32. change (2 ^ 32) with 4294967296. rewrite (Z.mod_small rate) by lia.
  eexists. reflexivity.
Qed.

(** *** C33: mono files below 2 GiB.  Missing: the library also accepts more channels, see below. *)
Theorem C33_samplevision_roundtrip_partial :
  forall (B : Build) rate, 0 <= rate < 2 ^ 32 ->
  forall (V W : Type) (conv : V -> list Z) (back : list Z -> W) junk cap (ops : list wop),
    let total := zlen (written ops) in
    zlen junk = 1 -> spaced false (ops ++ [Sync]) ->
    Forall (fun v => frameOf 1 (fits true 2) (conv v)) (written ops) ->
    116 + 2 * total < 2 ^ 31 ->
    exists st f', wrun (pcmW LittleEndian 2 1) conv junk true (smpUpdate rate) (openWrite (pcmW LittleEndian 2 1) smpInit smpFirst cap tt) (ops ++ [Sync]) = Ok st /\
      smpRead (mkFile (fbytes (ws_file st)) 0) = Ok (Some ((mkParsed (mkFmt rate TwosComp 16 1 LittleEndian CNone 1 2) 116 (2 * total) total, [(203, [32]); (210, [32])]), f')) /\
      readsAs B (pcmR LittleEndian true 2 1) back (fbytes (ws_file st)) 116 total (map (fun v => back (conv v)) (written ops)).
Proof.
  intros B rate Hr V W conv back junk cap ops total Hj Hsp Hok Hs. change (2 ^ 31) with 2147483648 in Hs. pose proof (zlen_nonneg (written ops) : 0 <= total) as Zt.
  destruct (pcm_file (W := W) B LittleEndian true 2 1 ltac:(lia) ltac:(lia) conv back junk (smpUpdate rate) smpInit smpFirst cap ops Hj ltac:(unfold smpFirst; lia)
      (smp_keeps rate _ _) _ (smp_front rate _ _) Hsp Hok ltac:(unfold smpFirst; fold total; change (2 ^ 31) with 2147483648; lia))
      as (st & f0 & R & Ef & (mid & rest & Lm & E) & T0 & T1 & T2 & T3 & Fit & RD).
  fold total in T1, T2, T3, RD. change (Z.of_nat 2 * 1) with 2 in *. unfold smpFirst in *.
  pose proof (smp_updated rate f0 (ws_track st) mid rest Lm E ltac:(unfold smpFirst; lia)) as EU. rewrite T1, T3 in EU. unfold smpFirst in EU. replace (116 + 2 * total - 116) with (2 * total) in EU by lia.
  rewrite Ef in *. set (b := fbytes (smpUpdate rate f0 (ws_track st))) in *.
  destruct (ow_unfold rest (2 * total) (smpTrailer rate) ltac:(lia) (smpTrailer_some rate)) as (pre & Lp & Eo & _).
  assert (L4 : zlen (le4 total) = 4) by (unfold le4; now rewrite sampleBytes_zlen).
  destruct (smp_read rate total b (overwrite rest (2 * total) (smpTrailer rate)) EU ltac:(change (2 ^ 31) with 2147483648; lia) Hr) as (f' & RH).
  { exists (zskipn (2 * total + zlen (smpTrailer rate)) rest). rewrite EU, Eo. rewrite !app_assoc, <- app_assoc.
    replace (116 + 2 * total) with (zlen ((smpPre ++ le4 total) ++ pre)) by (rewrite !zlen_app, L4, Lp; reflexivity). apply zskipn_exact. }
  exists st, f'. rewrite Ef. fold b. split; [exact R|]. split; [exact RH|]. apply RD. right. rewrite EU, !zlen_app, L4, smpPre_len. pose proof (zlen_nonneg (overwrite rest (2 * total) (smpTrailer rate))). lia.
Qed.
Print Assumptions C33_samplevision_roundtrip_partial.

Example C33_example :
  forall B : Build, exists st f',
    wrun (pcmW LittleEndian 2 1) (fun x => x) [0] true (smpUpdate 22050) (openWrite (pcmW LittleEndian 2 1) smpInit smpFirst 1024 tt) [Write [[1]; [-2]]; Sync; Write [[3]]; Sync] = Ok st /\
    zfirstn 6 (zskipn 116 (fbytes (ws_file st))) = [1;0; 254;255; 3;0] /\
    smpRead (mkFile (fbytes (ws_file st)) 0) = Ok (Some ((mkParsed (mkFmt 22050 TwosComp 16 1 LittleEndian CNone 1 2) 116 6 3, [(203, [32]); (210, [32])]), f')).
Proof. intros B. do 2 eexists. split; [vm_compute; reflexivity|]. split; vm_compute; reflexivity. Qed.

(** The writer accepts any number of channels: a stereo file reads back as mono, half its frames lost, and with a wrong rate. *)
Theorem C33_samplevision_channels_refuted :
  forall B : Build, exists st p f',
    wrun (pcmW LittleEndian 2 2) (fun x => x) [0; 0] true (smpUpdate 22050) (openWrite (pcmW LittleEndian 2 2) smpInit smpFirst 1024 tt) [Write [[1; 2]; [3; 4]]; Sync] = Ok st /\
    smpRead (mkFile (fbytes (ws_file st)) 0) = Ok (Some (p, f')) /\ f_chan (p_fmt (fst p)) = 1 /\ p_total (fst p) = 2 /\ f_rate (p_fmt (fst p)) <> 22050.
Proof.
  intros B. do 3 eexists. split; [vm_compute; reflexivity|]. split; [vm_compute; reflexivity|]. split; [reflexivity|]. split; [reflexivity|]. vm_compute. discriminate.
Qed.
Print Assumptions C33_samplevision_channels_refuted.
(** A field of blanks should be no text at all; every file written by the library reads back with a name and a comment of one blank. *)
Theorem C33_samplevision_blank_name_refuted : forall n, trimBlanks (repeat 32 (S n)) = [32].
Proof.
  intros n. cbn [repeat trimBlanks]. f_equal. assert (R : forall k, rev (repeat 32 k) = repeat 32 k).
  { induction k as [|k IH]; [reflexivity|]. cbn [repeat rev]. rewrite IH. clear. induction k as [|k IH]; [reflexivity|]. cbn [repeat app]. now rewrite IH. }
  rewrite R. clear R. assert (D : dropBlanks (repeat 32 n) = []) by (induction n; [reflexivity|exact IHn]). rewrite D. reflexivity.
Qed.
Print Assumptions C33_samplevision_blank_name_refuted.

(** ** C57: a file cut short. *)
Theorem C57_samplevision_short_refuted : smpRead (mkFile (smpMagic ++ smpVersion) 0) = UB /\ smpRead (mkFile smpPre 0) = UB /\ smpRead (mkFile smpInit 0) = UB.
Proof. split; [vm_compute; reflexivity|]. split; vm_compute; reflexivity. Qed.
Print Assumptions C57_samplevision_short_refuted.
