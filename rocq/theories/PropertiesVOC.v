(** * C32, C38, C57: VOC files *)
From Verif Require Import Prelude PreludeFacts ByteOrder G711 FileIO Reader ReaderSpec PropertiesReader.
From Verif Require Import Writer WriterSpec WriterProofs WriterHistory Codecs CodecsProofs PropertiesWriter PropertiesRoundTrip HeaderIO FileRoundTrip Chunks PropertiesTerminate VOC IMAProofs.

Lemma vocPre_len : zlen vocPre = 26. Proof. reflexivity. Qed.
Lemma vocSound_len fm d : zlen (vocSound fm d) = 16.
Proof. unfold vocSound, le4, le2. rewrite !zlen_app, !sampleBytes_zlen. reflexivity. Qed.

(** The layout of the file; [limit] bounds its length. *)
Definition vocFront (limit : Z) (b : list Z) : Prop := exists mid rest, zlen mid = 16 /\ b = vocPre ++ mid ++ rest /\ zlen b <= limit.

Lemma voc_updated fm f t mid rest : zlen mid = 16 -> fbytes f = vocPre ++ mid ++ rest -> w_first t = vocFirst -> 0 <= w_dsize t ->
  fbytes (vocUpdate fm f t) = vocPre ++ vocSound fm (w_dsize t) ++ overwrite rest (w_dsize t) [0].
Proof.
  intros Lm E Hf Hd. unfold vocUpdate, fwrite, fseek. cbn [fbytes fpos]. rewrite E. change 26 with (zlen vocPre). rewrite ow_mid by now rewrite vocSound_len.
  rewrite app_assoc. rewrite Hf. unfold vocFirst. assert (L : zlen (vocPre ++ vocSound fm (w_dsize t)) = 42) by (rewrite zlen_app, vocSound_len; reflexivity).
  rewrite ow_past by lia. rewrite L. replace (42 + w_dsize t - 42) with (w_dsize t) by lia. rewrite <- app_assoc. reflexivity.
Qed.

Lemma voc_front fm size bpf : 0 <= size -> frontOK (vocFront (vocFirst + size + 1)) (vocInit fm) vocFirst (vocFirst + size) bpf (vocUpdate fm).
Proof.
  intros Hs. unfold vocFirst. split.
  - intros b p d Hp Hd (mid & rest & Lm & E & Lb). exists mid, (overwrite rest (p - 42) d). split; [exact Lm|]. split.
    + rewrite E, app_assoc. assert (L : zlen (vocPre ++ mid) = 42) by (rewrite zlen_app, Lm; reflexivity). rewrite ow_past by lia. rewrite L, <- app_assoc. reflexivity.
    + destruct d as [|y d]; [exact Lb|]. rewrite ow_len by (try discriminate; lia). lia.
  - intros f t H1 H2 _ H3 (mid & rest & Lm & E & Lb). exists (vocSound fm (w_dsize t)), (overwrite rest (w_dsize t) [0]). split; [apply vocSound_len|].
    rewrite (voc_updated fm f t mid rest Lm E H1) by lia. split; [reflexivity|]. rewrite !zlen_app, vocSound_len, vocPre_len. rewrite ow_len by (try discriminate; lia).
    rewrite E, !zlen_app, Lm, vocPre_len in Lb. change (zlen [0]) with 1. lia.
  - exists (vocSound fm 0), []. split; [apply vocSound_len|]. split; [unfold vocInit; now rewrite app_nil_r|]. unfold vocInit. rewrite zlen_app, vocSound_len, vocPre_len. lia.
Qed.

Lemma voc_keeps fm limit bpf : keepsFor (vocUpdate fm) vocFirst limit bpf.
Proof.
  intros f t H1 H2 H3 H4 H5. unfold vocUpdate. cbv zeta. unfold vocFirst in *.
  assert (E1 : region (fbytes (fwrite (fseek f 26) (vocSound fm (w_dsize t)))) 42 (w_after t - 42) = region (fbytes f) 42 (w_after t - 42)).
  { unfold fwrite, fseek. cbn [fbytes fpos]. apply ow_region_after'; [lia| |lia]. rewrite vocSound_len. lia. }
  assert (L1 : zlen (fbytes f) <= zlen (fbytes (fwrite (fseek f 26) (vocSound fm (w_dsize t)))) /\ 42 <= zlen (fbytes (fwrite (fseek f 26) (vocSound fm (w_dsize t))))).
  { unfold fwrite, fseek. cbn [fbytes fpos]. pose proof (vocSound_len fm (w_dsize t)) as L. destruct (vocSound fm (w_dsize t)) as [|x l] eqn:E; [discriminate L|].
    rewrite ow_len by (try discriminate; lia). lia. }
  set (g := fwrite (fseek f 26) (vocSound fm (w_dsize t))) in *. unfold fwrite at 1, fseek at 1. cbn [fbytes fpos].
  rewrite ow_region_before. exact E1. lia. lia. cbn [fseek fpos]; lia. lia.
Qed.

(** *** Reading *)
Lemma voc_read_header host fm dsize b rest fuel : b = vocPre ++ vocSound fm dsize ++ rest -> 0 <= dsize -> dsize + 12 < 2 ^ 24 -> 42 + dsize <= zlen b <= 42 + dsize + 3 ->
  0 <= f_rate fm < 2 ^ 32 -> 0 < f_chan fm < 256 -> (2 <= fuel)%nat ->
  vocRead host fuel (mkFile b 0) = (let! s := vocNewTail host vocSt0 (dsize + 12) (f_rate fm) (f_chan fm) (vocFormat fm) in let! _ := hseek (42 + dsize) in vocLoop host (fuel - 1) (zlen b) (42 + dsize) s) (mkFile b 42).
Proof.
  intros Eb H0 Hd Hl Hr Hc Hfu. change (2 ^ 24) with 16777216 in *. change (2 ^ 32) with 4294967296 in *.
  assert (H : zskipn 20 b = le2 0x1a ++ le2 0x114 ++ le2 (0x1234 + (-1 - 0x114)) ++
     le4 ((12 + dsize) * 256 + 9) ++ le4 (f_rate fm) ++ sampleBytes LittleEndian 1 (vocBits fm) ++ sampleBytes LittleEndian 1 (f_chan fm) ++ le2 (vocFormat fm) ++ le4 0 ++ rest).
  { rewrite Eb. unfold vocPre, vocSound. rewrite <- !app_assoc. exact (zskipn_exact vocMagic _). }
  clear Eb. unfold le2, le4 in H. unfold vocRead. rewrite st_seek. cbn [fbytes]. do 3 hstep H. rewrite st_tell, st_length. unfold flength. cbn [fbytes fpos].
  change (20 + Z.of_nat 2 + Z.of_nat 2 + Z.of_nat 2) with 26 in *. destruct fuel as [|fuel]; [lia|]. cbn [vocLoop]. replace (26 <? zlen b) with true by lia. cbn [negb].
  hstep H. change (8 * Z.of_nat 4) with 32. change (2 ^ 32) with 4294967296. rewrite (Z.mod_small ((12 + dsize) * 256 + 9)) by lia. cbv iota.
  replace (((12 + dsize) * 256 + 9) mod 256) with 9 by lia. replace (((12 + dsize) * 256 + 9) / 256) with (dsize + 12) by lia.
  unfold vocBlock. change (9 =? 1) with false. change (9 =? 8) with false. change (9 =? 9) with true. cbv iota.
  unfold vocNew. change (vocFound vocSt0) with false. cbv iota. 
  assert (A : forall A C D (p : hP A) (q : A -> hP C) (k : C -> hP D) f, hbind (hbind p q) k f = hbind p (fun a => hbind (q a) k) f).
  { intros. unfold hbind. destruct (p f) as [[[a f']|]| | |]; reflexivity. }
  rewrite A. hstep H. rewrite A. hstep H. rewrite A. hstep H. rewrite A. hstep H. rewrite A. hstep H.
  change (8 * Z.of_nat 4) with 32. change (8 * Z.of_nat 1) with 8. change (8 * Z.of_nat 2) with 16. change (2 ^ 32) with 4294967296. change (2 ^ 8) with 256. change (2 ^ 16) with 65536.
  rewrite (Z.mod_small (f_rate fm)), (Z.mod_small (f_chan fm)) by lia.
  assert (Hv : 0 <= vocFormat fm < 65536) by (unfold vocFormat; destruct (f_comp fm); try lia; destruct (f_sf fm); lia). rewrite (Z.mod_small (vocFormat fm)) by lia.
  change (26 + Z.of_nat 4 + Z.of_nat 4 + Z.of_nat 1 + Z.of_nat 1 + Z.of_nat 2 + Z.of_nat 4) with 42. replace (26 + (4 + (dsize + 12))) with (42 + dsize) by lia.
  replace (S fuel - 1)%nat with fuel by lia. reflexivity.
Qed.
(** The byte after the data ends the walk over the blocks. *)
Lemma voc_ends host fuel len pos s b : (1 <= fuel)%nat -> 0 <= pos -> len = zlen b -> len <= pos + 3 -> exists f', vocLoop host fuel len pos s (mkFile b pos) = Ok (Some (s, f')).
Proof.
  intros Hf Hp -> Hl. destruct fuel as [|fuel]; [lia|]. cbn [vocLoop]. destruct (negb (pos <? zlen b)); [eexists; reflexivity|].
  unfold hbind, tryU, fread. cbn [fbytes fpos rbind]. rewrite zlen_firstn, zlen_skipn by lia.
  change (Z.of_nat 4) with 4. replace (Z.min 4 (Z.max 0 (zlen b - pos)) =? 4) with false by lia. eexists. reflexivity.
Qed.

(** The formats a VOC file can hold. *)
Inductive vocPCM : sampfmt -> nat -> Prop := VP_u8 : vocPCM Unsigned 1 | VP_s16 : vocPCM TwosComp 2.

Definition vocReopens {F W} (B : Build) (host : order) (bytes : list Z) (r : codec F) (back : F -> W) (fm : format) (total : Z) (frames : list W) : Prop :=
  (forall fuel, (2 <= fuel)%nat -> exists f', vocOpen host fuel (mkFile bytes 0) = Ok (Some (mkParsed fm 42 (f_bpp fm * total) total, f'))) /\ readsAs B r back bytes 42 total frames.

Lemma voc_tail_pcm host sf n rate ch total f : vocPCM sf n -> 0 < ch < 256 -> 0 <= total -> Z.of_nat n * ch * total + 12 < 2 ^ 24 ->
  let fm := mkFmt rate sf (8 * Z.of_nat n) ch LittleEndian CNone 1 (Z.of_nat n * ch) in
  vocNewTail host vocSt0 (Z.of_nat n * ch * total + 12) rate ch (vocFormat fm) f = Ok (Some (VocSt (Some fm) None (fpos f) (Z.of_nat n * ch * total) total, f)).
Proof.
  intros Hp Hc Ht Hs fm. change (2 ^ 24) with 16777216 in *. assert (Hn : (1 <= n <= 2)%nat) by (destruct Hp; lia).
  assert (Pb : 0 < Z.of_nat n * ch) by nia. assert (0 <= Z.of_nat n * ch * total) by nia.
  unfold vocNewTail. replace (ch =? 0) with false by lia. rewrite st_tell. cbv zeta.
  replace (Z.of_nat n * ch * total + 12 - 12) with (Z.of_nat n * ch * total) by lia. unfold u32. rewrite uN_small by (change (2 ^ 32) with 4294967296; lia).
  assert (EB : bppPCM (8 * Z.of_nat n) ch = Ok (Z.of_nat n * ch)).
  { rewrite bppPCM_ok; [|lia|lia|]; replace ((8 * Z.of_nat n + 7) / 8) with (Z.of_nat n) by lia; [reflexivity|]. change (2 ^ 31) with 2147483648. nia. }
  rewrite <- (computeTotal_exact (Z.of_nat n * ch) total fm eq_refl eq_refl Pb Ht) at 2 by (change (2 ^ 62) with 4611686018427387904; lia).
  change (vs_total vocSt0) with 0. generalize dependent (Z.of_nat n * ch * total). intros D _ _.
  unfold hbind, hlift, hret. destruct Hp; unfold fm, vocFormat in *; cbn [f_comp f_sf f_width f_bpp f_fpp] in *; cbn [Z.eqb Pos.eqb];
    [change (8 * Z.of_nat 1) with 8 in *|change (8 * Z.of_nat 2) with 16 in *]; rewrite EB; reflexivity.
Qed.
Lemma voc_tail_g711 host c rate ch total f : c = CUlaw \/ c = CAlaw -> 0 < ch < 256 -> 0 <= total -> ch * total + 12 < 2 ^ 24 ->
  let fm := mkFmt rate TwosComp 16 ch host c 1 ch in
  vocNewTail host vocSt0 (ch * total + 12) rate ch (vocFormat fm) f = Ok (Some (VocSt (Some fm) None (fpos f) (ch * total) total, f)).
Proof.
  intros Hp Hc Ht Hs fm. change (2 ^ 24) with 16777216 in *. assert (0 <= ch * total) by nia.
  unfold vocNewTail. replace (ch =? 0) with false by lia. rewrite st_tell. cbv zeta.
  replace (ch * total + 12 - 12) with (ch * total) by lia. unfold u32. rewrite uN_small by (change (2 ^ 32) with 4294967296; lia).
  rewrite <- (computeTotal_exact ch total fm eq_refl eq_refl ltac:(lia) Ht) at 2 by (change (2 ^ 62) with 4611686018427387904; lia).
  change (vs_total vocSt0) with 0. generalize dependent (ch * total). intros D _ _.
  unfold hbind, hlift, hret. destruct Hp as [-> | ->]; reflexivity.
Qed.

Lemma voc_conclude {F W} (B : Build) host (fm : format) (r : codec F) (back : F -> W) bpf total frames f0 (st_file : file) t :
  0 < bpf -> 0 <= total -> bpf * total + 12 < 2 ^ 24 -> 0 <= f_rate fm < 2 ^ 32 -> 0 < f_chan fm < 256 -> f_bpp fm = bpf ->
  (forall f, vocNewTail host vocSt0 (bpf * total + 12) (f_rate fm) (f_chan fm) (vocFormat fm) f = Ok (Some (VocSt (Some fm) None (fpos f) (bpf * total) total, f))) ->
  st_file = vocUpdate fm f0 t -> w_first t = vocFirst -> w_dsize t = bpf * total -> vocFront (vocFirst + bpf * total + 1) (fbytes f0) ->
  (vocFirst <= zlen (fbytes st_file) -> readsAs B r back (fbytes st_file) vocFirst total frames) ->
  vocReopens B host (fbytes st_file) r back fm total frames.
Proof.
  intros Pb Ht Hs Hr Hc Eb RT -> T0 T2 (mid & rest & Lm & E & Lb) RD. unfold vocFirst in *. change (2 ^ 24) with 16777216 in *.
  assert (Z0 : 0 <= bpf * total) by nia.
  pose proof (voc_updated fm f0 t mid rest Lm E T0 ltac:(lia)) as EU. rewrite T2 in EU. set (b := fbytes (vocUpdate fm f0 t)) in *. clearbody b.
  assert (Lz : 42 + bpf * total <= zlen b <= 42 + bpf * total + 3).
  { rewrite EU, !zlen_app, vocPre_len, vocSound_len, ow_len by (try discriminate; lia). rewrite E, !zlen_app, vocPre_len, Lm in Lb. change (zlen [0]) with 1. lia. }
  split; [|apply RD; lia]. intros fuel Hfu. unfold vocOpen.
  destruct (voc_ends host (fuel - 1) (zlen b) (42 + bpf * total) (VocSt (Some fm) None 42 (bpf * total) total) b ltac:(lia) ltac:(lia) eq_refl ltac:(lia)) as (f' & RE).
  exists f'. unfold hbind at 1. rewrite (voc_read_header host fm (bpf * total) b _ fuel EU Z0 ltac:(change (2 ^ 24) with 16777216; lia) Lz Hr Hc Hfu).
  unfold hbind at 1. rewrite RT. cbn [rbind fpos]. rewrite st_seek. cbn [fbytes]. rewrite RE. cbn [rbind]. rewrite Eb. reflexivity.
Qed.

(** *** C32: 8-bit unsigned and 16-bit signed PCM, up to 255 channels, at most 2^24 - 13 bytes of audio data *)
Theorem C32_voc_pcm_roundtrip_partial :
  forall (B : Build) host sf n ch rate, vocPCM sf n -> 0 < ch < 256 -> 0 <= rate < 2 ^ 32 ->
  forall (V W : Type) (conv : V -> list Z) (back : list Z -> W) junk cap (ops : list wop),
    let sgn := match sf with TwosComp => true | _ => false end in
    let bpf := Z.of_nat n * ch in
    let fm := mkFmt rate sf (8 * Z.of_nat n) ch LittleEndian CNone 1 bpf in
    zlen junk = ch -> spaced false (ops ++ [Sync]) ->
    Forall (fun v => frameOf ch (fits sgn n) (conv v)) (written ops) ->
    bpf * zlen (written ops) + 12 < 2 ^ 24 ->
    vocWritable fm = true /\
    exists st, wrun (pcmW LittleEndian n ch) conv junk true (vocUpdate fm) (openWrite (pcmW LittleEndian n ch) (vocInit fm) vocFirst cap tt) (ops ++ [Sync]) = Ok st /\
      vocReopens B host (fbytes (ws_file st)) (pcmR LittleEndian sgn n ch) back fm (zlen (written ops)) (map (fun v => back (conv v)) (written ops)).
Proof.
  intros B host sf n ch rate Hp Hc Hr V W conv back junk cap ops sgn bpf fm Hj Hsp Hok Hs. split; [destruct Hp; reflexivity|].
  assert (Hn : (1 <= n)%nat) by (destruct Hp; lia). pose proof (zlen_nonneg (written ops)) as Zt. set (total := zlen (written ops)) in *. assert (Pb : 0 < bpf) by (unfold bpf; nia).
  change (2 ^ 24) with 16777216 in Hs.
  destruct (pcm_file (W := W) B LittleEndian sgn n ch Hn ltac:(lia) conv back junk (vocUpdate fm) (vocInit fm) vocFirst cap ops Hj ltac:(unfold vocFirst; lia)
      (voc_keeps fm _ _) _ (voc_front fm (bpf * total) _ ltac:(nia)) Hsp Hok ltac:(unfold vocFirst; fold total; fold bpf; change (2 ^ 31) with 2147483648; lia))
      as (st & f0 & R & Ef & HF & T0 & T1 & T2 & T3 & Fit & RD).
  exists st. split; [exact R|]. fold total in T2, RD. fold bpf in T2.
  eapply (voc_conclude B host fm _ back bpf total _ f0 (ws_file st) (ws_track st)); auto; try (change (2 ^ 24) with 16777216; lia).
  intros f. apply (voc_tail_pcm host sf n rate ch total f Hp Hc Zt). fold bpf. change (2 ^ 24) with 16777216. lia.
Qed.
Print Assumptions C32_voc_pcm_roundtrip_partial.

Theorem C32_voc_g711_roundtrip_partial :
  forall (B : Build) host ch rate, 0 < ch < 256 -> 0 <= rate < 2 ^ 32 ->
  forall (V W : Type) (conv : V -> list Z) (back : list Z -> W) junk cap (ops : list wop),
    let fm c := mkFmt rate TwosComp 16 ch host c 1 ch in
    zlen junk = ch -> spaced false (ops ++ [Sync]) -> Forall (fun v => zlen (conv v) = ch) (written ops) ->
    ch * zlen (written ops) + 12 < 2 ^ 24 ->
    (exists st, wrun (ulawW ch) conv junk true (vocUpdate (fm CUlaw)) (openWrite (ulawW ch) (vocInit (fm CUlaw)) vocFirst cap tt) (ops ++ [Sync]) = Ok st /\
      vocReopens B host (fbytes (ws_file st)) (ulawR ch) back (fm CUlaw) (zlen (written ops)) (map (fun v => back (map (fun x => ulaw2linear (linear2ulaw x)) (conv v))) (written ops))) /\
    (exists st, wrun (alawW ch) conv junk true (vocUpdate (fm CAlaw)) (openWrite (alawW ch) (vocInit (fm CAlaw)) vocFirst cap tt) (ops ++ [Sync]) = Ok st /\
      vocReopens B host (fbytes (ws_file st)) (alawR ch) back (fm CAlaw) (zlen (written ops)) (map (fun v => back (map (fun x => alaw2linear (linear2alaw x)) (conv v))) (written ops))).
Proof.
  intros B host ch rate Hc Hr V W conv back junk cap ops fm Hj Hsp Hok Hs. pose proof (zlen_nonneg (written ops)) as Zt. set (total := zlen (written ops)) in *. change (2 ^ 24) with 16777216 in Hs.
  split.
  - destruct (ulaw_file (W := W) B ch ltac:(lia) conv back junk (vocUpdate (fm CUlaw)) (vocInit (fm CUlaw)) vocFirst cap ops Hj ltac:(unfold vocFirst; lia)
      (voc_keeps _ _ _) _ (voc_front _ (ch * total) _ ltac:(nia)) Hsp Hok) as (st & f0 & R & Ef & HF & T0 & T1 & T2 & T3 & Fit & RD).
    exists st. split; [exact R|]. fold total in T2, RD.
    eapply (voc_conclude B host (fm CUlaw) _ back ch total _ f0 (ws_file st) (ws_track st)); auto; try (change (2 ^ 24) with 16777216; lia); try lia.
    intros f. apply (voc_tail_g711 host CUlaw rate ch total f ltac:(auto) Hc Zt). change (2 ^ 24) with 16777216. lia.
  - destruct (alaw_file (W := W) B ch ltac:(lia) conv back junk (vocUpdate (fm CAlaw)) (vocInit (fm CAlaw)) vocFirst cap ops Hj ltac:(unfold vocFirst; lia)
      (voc_keeps _ _ _) _ (voc_front _ (ch * total) _ ltac:(nia)) Hsp Hok) as (st & f0 & R & Ef & HF & T0 & T1 & T2 & T3 & Fit & RD).
    exists st. split; [exact R|]. fold total in T2, RD.
    eapply (voc_conclude B host (fm CAlaw) _ back ch total _ f0 (ws_file st) (ws_track st)); auto; try (change (2 ^ 24) with 16777216; lia); try lia.
    intros f. apply (voc_tail_g711 host CAlaw rate ch total f ltac:(auto) Hc Zt). change (2 ^ 24) with 16777216. lia.
Qed.
Print Assumptions C32_voc_g711_roundtrip_partial.

Example C32_example :
  forall B : Build, exists st f', let fm := mkFmt 11025 TwosComp 16 2 LittleEndian CNone 1 4 in
    wrun (pcmW LittleEndian 2 2) (fun x => x) [0; 0] true (vocUpdate fm) (openWrite (pcmW LittleEndian 2 2) (vocInit fm) vocFirst 1024 tt) [Write [[1; 2]; [3; -4]]; Sync; Write [[5; 6]]; Sync] = Ok st /\
    zskipn 42 (fbytes (ws_file st)) = [1;0; 2;0; 3;0; 252;255; 5;0; 6;0; 0] /\
    vocOpen BigEndian 2 (mkFile (fbytes (ws_file st)) 0) = Ok (Some (mkParsed fm 42 12 3, f')).
Proof. intros B. do 2 eexists. cbv zeta. split; [vm_compute; reflexivity|]. split; vm_compute; reflexivity. Qed.

(** The block size is stored in 24 bits: of a file with 2^24 - 12 bytes of audio nothing can be read back. *)
Theorem C32_voc_large_file_refuted :
  forall ch rate k, vocSound (mkFmt rate TwosComp 16 ch LittleEndian CNone 1 (2 * ch)) (2 ^ 24 - 12 + k) = vocSound (mkFmt rate TwosComp 16 ch LittleEndian CNone 1 (2 * ch)) (k - 12).
Proof.
  intros ch rate k. unfold vocSound. f_equal. unfold le4, sampleBytes. apply le_bytes_mod. change (2 ^ (8 * Z.of_nat 4)) with 4294967296. change (2 ^ 24) with 16777216.
  replace ((12 + (16777216 - 12 + k)) * 256 + 9) with ((12 + (k - 12)) * 256 + 9 + 1 * 4294967296) by lia. apply Z_mod_plus_full.
Qed.
Print Assumptions C32_voc_large_file_refuted.
(** The number of channels is stored in 8 bits: a file of 256 channels, which completeSetup accepts, cannot be opened. *)
Theorem C32_voc_channels_refuted :
  forall host rest, let fm := mkFmt 8000 TwosComp 16 256 LittleEndian CNone 1 512 in vocRead host 2 (mkFile (vocInit fm ++ rest) 0) = Ok None.
Proof.
  intros host rest fm. set (b := vocInit fm ++ rest).
  assert (H : zskipn 20 b = le2 0x1a ++ le2 0x114 ++ le2 (0x1234 + (-1 - 0x114)) ++
     le4 ((12 + 0) * 256 + 9) ++ le4 8000 ++ sampleBytes LittleEndian 1 16 ++ sampleBytes LittleEndian 1 256 ++ le2 4 ++ le4 0 ++ rest) by reflexivity.
  assert (L : 42 <= zlen b) by (unfold b, vocInit; rewrite !zlen_app, vocSound_len, vocPre_len; pose proof (zlen_nonneg rest); lia). clearbody b.
  unfold le2, le4 in H. unfold vocRead. rewrite st_seek. cbn [fbytes]. do 3 hstep H. rewrite st_tell, st_length. unfold flength. cbn [fbytes fpos].
  change (20 + Z.of_nat 2 + Z.of_nat 2 + Z.of_nat 2) with 26 in *. cbn [vocLoop]. replace (26 <? zlen b) with true by lia. cbn [negb].
  hstep H. unfold hbind at 1. match goal with |- (do r <- ?x; _) = _ => assert (E : x = Ok None) end; [|rewrite E; reflexivity].
  change (vocNew host vocSt0 12 (mkFile b (26 + Z.of_nat 4)) = Ok None). unfold vocNew. change (vocFound vocSt0) with false. cbv iota. do 5 hstep H. reflexivity.
Qed.
Print Assumptions C32_voc_channels_refuted.

(** ** C38: every VOC file opens in finitely many steps *)
Lemma vocBlock_tame host s ty n : tame (vocBlock host s ty n).
Proof. unfold vocBlock, vocOld, vocExt, vocNew, vocNewTail. tame_with ltac:(first [apply tame_bppPCM]). Qed.
Lemma vocLoop_ends host len : forall fuel pos s f, bytes_ok (fbytes f) = true -> len - pos <= 4 * Z.of_nat fuel -> vocLoop host fuel len pos s f <> OutOfFuel.
Proof.
  induction fuel as [|fuel IH]; intros pos s f Hok Hl; cbn [vocLoop].
  - replace (pos <? len) with false by lia. discriminate.
  - destruct (negb (pos <? len)); [discriminate|]. unfold hbind at 1. unfold tryU, fread. cbn [rbind].
    set (d := zfirstn (Z.of_nat 4) _). destruct (zlen d =? Z.of_nat 4); [|discriminate].
    assert (Hv : 0 <= valueOf LittleEndian d).
    { unfold valueOf. apply le_val_range. unfold d, zfirstn, zskipn. apply bytes_ok_firstn, bytes_ok_skipn. exact Hok. }
    unfold hbind at 1. destruct (vocBlock_tame host s (valueOf LittleEndian d mod 256) (valueOf LittleEndian d / 256) (mkFile (fbytes f) (fpos f + zlen d))) as [T1 T2].
    destruct (vocBlock _ _ _ _ _) as [[[s' f']|]| | |]; cbn [rbind]; try discriminate; [|congruence]. specialize (T2 _ _ eq_refl). cbn [fbytes] in T2.
    rewrite st_seek. apply IH; [cbn [fbytes]; rewrite T2; exact Hok|]. assert (0 <= valueOf LittleEndian d / 256) by (apply Z.div_pos; lia). lia.
Qed.
Theorem C38_voc_terminates :
  forall host b, bytes_ok b = true -> forall fuel, zlen b <= 4 * Z.of_nat fuel -> vocOpen host fuel (mkFile b 0) <> OutOfFuel.
Proof.
  intros host b Hok fuel Hf. unfold vocOpen, vocRead. unfold hbind, hseek, fseek, tryU, fread, htell, hlength, flength. cbn [fbytes fpos rbind].
  match goal with |- context [vocLoop host fuel (zlen b) ?p vocSt0 ?f] => pose proof (vocLoop_ends host (zlen b) fuel p vocSt0 f Hok) as H; assert (P : 0 <= p) end.
  { repeat match goal with |- context [zlen ?x] => lazymatch goal with H : 0 <= zlen x |- _ => fail | _ => pose proof (zlen_nonneg x) end end. lia. }
  specialize (H ltac:(lia)). destruct (vocLoop _ _ _ _ _ _) as [[[s f']|]| | |]; cbn [rbind]; try discriminate; [|congruence]. unfold hlift. destruct (vs_fmt s); discriminate.
Qed.
Print Assumptions C38_voc_terminates.

(** ** C57 *)
(** A file without sound data opens, with a track format that was never initialised. *)
Theorem C57_voc_without_sound_refuted : forall host, vocOpen host 2 (mkFile (vocPre ++ [0]) 0) = UB.
Proof. intros host. vm_compute. reflexivity. Qed.
Print Assumptions C57_voc_without_sound_refuted.
(** A sound data block cut short. *)
Theorem C57_voc_short_refuted : forall host, vocOpen host 2 (mkFile (vocPre ++ le4 (256 * 12 + 9)) 0) = UB.
Proof. intros host. vm_compute. reflexivity. Qed.
Print Assumptions C57_voc_short_refuted.
