(** * C61: files of other programs are read as their format says *)
From Verif Require Import Prelude PreludeFacts ByteOrder FileIO Reader Writer Codecs IMAProofs HeaderIO FileRoundTrip Chunks Float FloatBits NeXT IRCAM VOC.
From Verif Require Import PropertiesVOC PropertiesCAF.

Lemma computeTotal_floor {R} (fm : formatOf R) size t0 : f_fpp fm = 1 -> 0 < f_bpp fm -> 0 <= size < 2 ^ 62 -> computeTotal t0 size fm = size / f_bpp fm.
Proof.
  intros H1 H2 H3. change (2 ^ 62) with 4611686018427387904 in H3. unfold computeTotal. rewrite H1. replace (f_bpp fm =? 0) with false by lia. cbn [orb Z.eqb].
  assert (0 <= size / f_bpp fm <= size). { split; [apply Z.div_pos; lia|]. apply Z.div_le_upper_bound; [lia|]. nia. }
  unfold s64, u64. rewrite (uN_small 64 size) by (change (2 ^ 64) with 18446744073709551616; lia). rewrite Z.mul_1_r.
  rewrite uN_small by (change (2 ^ 64) with 18446744073709551616; lia). apply sN_small; [lia|]. change (2 ^ (64 - 1)) with 9223372036854775808. lia.
Qed.

(** ** IRCAM: eight magic numbers, the machine's byte order for header and samples *)
Inductive ircamMachine : list Z -> order -> Prop :=
| IM_vax : ircamMachine [0x64; 0xa3; 1; 0] LittleEndian
| IM_vax_swapped : ircamMachine [0; 1; 0xa3; 0x64] BigEndian
| IM_sun : ircamMachine [0x64; 0xa3; 2; 0] BigEndian
| IM_sun_swapped : ircamMachine [0; 2; 0xa3; 0x64] LittleEndian
| IM_mips : ircamMachine [0x64; 0xa3; 3; 0] LittleEndian
| IM_mips_swapped : ircamMachine [0; 3; 0xa3; 0x64] BigEndian
| IM_next : ircamMachine [0x64; 0xa3; 4; 0] BigEndian
| IM_next_swapped : ircamMachine [0; 4; 0xa3; 0x64] LittleEndian.
(** Encoding code, sample format, bits, byte order of the samples ([o] the file's, [host] the machine's: for one-byte samples it has no meaning), compression,
    bytes per sample. *)
Inductive ircamEncoding (host o : order) : Z -> sampfmt -> Z -> order -> compression -> Z -> Prop :=
| IE_8 : ircamEncoding host o 1 TwosComp 8 host CNone 1
| IE_16 : ircamEncoding host o 2 TwosComp 16 o CNone 2
| IE_24 : ircamEncoding host o 3 TwosComp 24 o CNone 3
| IE_32 : ircamEncoding host o 0x40004 TwosComp 32 o CNone 4
| IE_float : ircamEncoding host o 4 Float 32 o CNone 4
| IE_double : ircamEncoding host o 8 Double 64 o CNone 8
| IE_alaw : ircamEncoding host o 0x10001 TwosComp 16 host CAlaw 1
| IE_ulaw : ircamEncoding host o 0x20001 TwosComp 16 host CUlaw 1.

Lemma ircam_tail_table host le mode sf w so c k rate ch f :
  ircamEncoding host (if le : bool then LittleEndian else BigEndian) mode sf w so c k -> ch = 1 \/ ch = 2 \/ ch = 4 ->
  let fm := mkFmt (toDouble (of32 rate)) sf w ch so c 1 (k * ch) in
  ircamTail host le rate ch mode f = Ok (Some (mkParsed fm 1024 (flength f - 1024) (computeTotal 0 (flength f - 1024) fm), f)).
Proof.
  intros He Hc. unfold ircamTail. generalize (toDouble (of32 rate)). clear rate. intros r. unfold hlength, hbind, hlift, hret. cbv zeta.
  destruct He; destruct Hc as [->|[->| ->]]; reflexivity.
Qed.

Theorem C61_ircam_machines :
  forall host magic o mode sf w so c k rateBits ch pad data,
    ircamMachine magic o -> ircamEncoding host o mode sf w so c k -> ch = 1 \/ ch = 2 \/ ch = 4 -> 0 <= rateBits < 2 ^ 32 ->
    zlen pad = 1008 -> zlen data < 2 ^ 62 ->
    exists f', ircamRead host (mkFile (magic ++ sampleBytes o 4 rateBits ++ sampleBytes o 4 ch ++ sampleBytes o 4 mode ++ pad ++ data) 0) =
      Ok (Some (mkParsed (mkFmt (toDouble (of32 rateBits)) sf w ch so c 1 (k * ch)) 1024 (zlen data) (zlen data / (k * ch)), f')).
Proof.
  intros host magic o mode sf w so c k rb ch pad data Hm He Hc Hr Lp Ld. change (2 ^ 32) with 4294967296 in *.
  set (b := magic ++ _). assert (H : zskipn 0 b = magic ++ sampleBytes o 4 rb ++ sampleBytes o 4 ch ++ sampleBytes o 4 mode ++ pad ++ data) by (now rewrite zskipn_0 by lia).
  assert (Lb : zlen b = 1024 + zlen data). { unfold b. rewrite !zlen_app, !sampleBytes_zlen, Lp. destruct Hm; change (Z.of_nat 4) with 4; cbn [zlen]; unfold zlen; cbn [length]; lia. }
  clearbody b. assert (Hmode : 0 <= mode < 4294967296) by (destruct He; lia). assert (Hch : 0 <= ch < 4294967296) by lia.
  assert (Hk : 0 < k * ch) by (destruct He; lia).
  unfold ircamRead. rewrite st_seek. cbn [fbytes].
  assert (Lm : zlen magic = 4) by (destruct Hm; reflexivity).
  assert (M : isMagic ircamMagics magic = true /\ (if isMagic ircamLE magic then LittleEndian else BigEndian) = o) by (destruct Hm; split; reflexivity).
  destruct M as [M1 M2]. replace (hread 4) with (hread (zlen magic)) by (now rewrite Lm). hstep H. rewrite Lm in *. change (negb (4 =? 4)) with false. rewrite M1. cbn [negb]. cbv zeta. rewrite M2.
  do 3 hstep H. change (8 * Z.of_nat 4) with 32. change (2 ^ 32) with 4294967296. rewrite !Z.mod_small by lia.
  rewrite <- M2 in He. rewrite (ircam_tail_table _ _ _ _ _ _ _ _ _ _ _ He Hc). unfold flength. cbn [fbytes]. rewrite Lb. replace (1024 + zlen data - 1024) with (zlen data) by lia.
  rewrite computeTotal_floor; [|reflexivity|exact Hk|pose proof (zlen_nonneg data); lia]. eexists. reflexivity.
Qed.
Print Assumptions C61_ircam_machines.
Example C61_ircam_example : exists f', ircamRead LittleEndian (mkFile ([0; 3; 0xa3; 0x64] ++ sampleBytes BigEndian 4 0x462c4400 ++ sampleBytes BigEndian 4 2 ++ sampleBytes BigEndian 4 2 ++ zrepeat 0 1008 ++ [1;2;3;4;5;6;7;8;9]) 0)
  = Ok (Some (mkParsed (mkFmt (toDouble (of32 0x462c4400)) TwosComp 16 2 BigEndian CNone 1 4) 1024 9 2, f')).
Proof. exact (C61_ircam_machines LittleEndian _ BigEndian _ _ _ _ _ _ 0x462c4400 2 (zrepeat 0 1008) [1;2;3;4;5;6;7;8;9] IM_mips_swapped (IE_16 _ _) ltac:(lia) ltac:(lia) eq_refl eq_refl). Qed.

(** ** NeXT: any offset, and sizes that are unknown or larger than the file *)
Inductive nextCode (host : order) : Z -> sampfmt -> Z -> order -> compression -> Z -> Prop :=
| NC_ulaw : nextCode host 1 TwosComp 16 host CUlaw 1
| NC_8 : nextCode host 2 TwosComp 8 BigEndian CNone 1
| NC_16 : nextCode host 3 TwosComp 16 BigEndian CNone 2
| NC_24 : nextCode host 4 TwosComp 24 BigEndian CNone 3
| NC_32 : nextCode host 5 TwosComp 32 BigEndian CNone 4
| NC_float : nextCode host 6 Float 32 BigEndian CNone 4
| NC_double : nextCode host 7 Double 64 BigEndian CNone 8
| NC_alaw : nextCode host 27 TwosComp 16 host CAlaw 1.

Lemma bppPCM_bytes k ch w : w = 8 * k -> 0 < k -> 0 < ch -> k * ch < 2 ^ 31 -> bppPCM w ch = Ok (k * ch).
Proof.
  intros -> Hk Hc Hb. change (2 ^ 31) with 2147483648 in Hb. unfold bppPCM, ck32. replace (Z.quot (8 * k + 7) 8) with k by (rewrite Z.quot_div_nonneg by lia; lia).
  assert (0 < k * ch) by nia. rewrite (proj2 (inS_spec 32 _)) by (change (2 ^ (32 - 1)) with 2147483648; lia). cbn [rbind].
  unfold u64. rewrite uN_small by (change (2 ^ 64) with 18446744073709551616; lia). reflexivity.
Qed.

(** [info] is whatever lies between the header and the data; [stated] is the size in the header. *)
Theorem C61_next_sizes :
  forall (B : Build) host code sf w so c k rate ch info data stated,
    nextCode host code sf w so c k -> 0 <= rate < 2 ^ 32 -> 0 < ch -> k * ch < 2 ^ 31 ->
    24 + zlen info + zlen data < 2 ^ 32 -> 0 <= stated < 2 ^ 32 ->
    let size := if (stated =? 2 ^ 32 - 1) || (zlen data <? stated) then zlen data else stated in
    exists f', nextRead host (mkFile ([46; 115; 110; 100] ++ sampleBytes BigEndian 4 (24 + zlen info) ++ sampleBytes BigEndian 4 stated ++ sampleBytes BigEndian 4 code ++
        sampleBytes BigEndian 4 rate ++ sampleBytes BigEndian 4 ch ++ info ++ data) 0) =
      Ok (Some (mkParsed (mkFmt rate sf w ch so c 1 (k * ch)) (24 + zlen info) size (size / (k * ch)), f')).
Proof.
  intros B host code sf w so c k rate ch info data stated Hcode Hr Hc Hk Hl Hs size. change (2 ^ 32) with 4294967296 in *. pose proof (zlen_nonneg info) as Zi. pose proof (zlen_nonneg data) as Zd.
  set (b := [46; 115; 110; 100] ++ _).
  assert (H : zskipn 0 b = snd_magic ++ sampleBytes BigEndian 4 (24 + zlen info) ++ sampleBytes BigEndian 4 stated ++ sampleBytes BigEndian 4 code ++
        sampleBytes BigEndian 4 rate ++ sampleBytes BigEndian 4 ch ++ info ++ data) by (now rewrite zskipn_0 by lia).
  assert (Lb : zlen b = 24 + zlen info + zlen data) by (unfold b; rewrite !zlen_app, !sampleBytes_zlen; change (Z.of_nat 4) with 4; change (zlen [46;115;110;100]) with 4; lia).
  clearbody b. assert (Hcd : 0 <= code < 4294967296) by (destruct Hcode; lia). assert (Hk0 : 0 < k) by (destruct Hcode; lia). 
  assert (Hch : ch < 2147483648) by (change (2 ^ 31) with 2147483648 in Hk; nia).
  unfold nextRead. rewrite st_seek. cbn [fbytes]. change (hread 4) with (hread (zlen snd_magic)). hstep H.
  rewrite st_assert by (destruct (list_eq_dec Z.eq_dec snd_magic snd_magic); [reflexivity|congruence]).
  change (0 + zlen snd_magic) with 4 in *. do 5 hstep H. change (8 * Z.of_nat 4) with 32. change (2 ^ 32) with 4294967296.
  rewrite !Z.mod_small by lia. replace (ch =? 0) with false by lia. rewrite st_length. unfold flength. cbn [fbytes]. rewrite Lb. cbv zeta.
  replace (24 + zlen info + zlen data - (24 + zlen info)) with (zlen data) by lia.
  replace (u32 (zlen data)) with (zlen data) by (symmetry; apply uN_small; change (2 ^ 32) with 4294967296; lia).
  change (4294967296 - 1) with 4294967295 in size. fold size.
  assert (Hsz : 0 <= size < 2 ^ 62). { change (2 ^ 62) with 4611686018427387904. unfold size. destruct ((stated =? 4294967295) || (zlen data <? stated)); lia. }
  replace (s32 ch) with ch by (symmetry; apply sN_small; [lia|change (2 ^ (32 - 1)) with 2147483648; lia]).
  clearbody size. assert (Hb : 0 < k * ch) by nia.
  assert (T : forall fm : format, f_fpp fm = 1 -> f_bpp fm = k * ch -> computeTotal 0 size fm = size / (k * ch)).
  { intros fm E1 E2. rewrite computeTotal_floor; [now rewrite E2|exact E1|lia|exact Hsz]. }
  destruct Hcode; cbn [Z.eqb Pos.eqb]; unfold hbind, hlift, hret; try match goal with |- context [bppPCM ?w ch] => let k := eval vm_compute in (w / 8) in rewrite (bppPCM_bytes k ch w eq_refl) by lia end; cbn [rbind];
    try (replace (u64 ch) with (1 * ch) by (unfold u64; rewrite uN_small by (change (2 ^ 64) with 18446744073709551616; lia); lia));
    rewrite T by reflexivity; eexists; reflexivity.
Qed.
Print Assumptions C61_next_sizes.
Example C61_next_example : exists f', nextRead (B := true) LittleEndian (mkFile ([46; 115; 110; 100] ++ sampleBytes BigEndian 4 28 ++ sampleBytes BigEndian 4 0xffffffff ++ sampleBytes BigEndian 4 27 ++
        sampleBytes BigEndian 4 8000 ++ sampleBytes BigEndian 4 1 ++ [0;0;0;0] ++ [0x2a;0x55;3]) 0) =
   Ok (Some (mkParsed (mkFmt 8000 TwosComp 16 1 LittleEndian CAlaw 1 1) 28 3 3, f')).
Proof. exact (C61_next_sizes true LittleEndian _ _ _ _ _ _ 8000 1 [0;0;0;0] [0x2a;0x55;3] 0xffffffff (NC_alaw _) ltac:(lia) ltac:(lia) ltac:(lia) ltac:(vm_compute; reflexivity) ltac:(lia)). Qed.

(** ** VOC: the old sound block, alone or after an extended block *)
(** Nothing but zero bytes (the end mark) after the sound. *)
Definition vocMarked (blocks : list Z) : list Z := vocPre ++ blocks ++ [0].
Definition vocHeader (type size : Z) : list Z := sampleBytes LittleEndian 4 (type + 256 * size).

Lemma voc_start host fuel b blocks : b = vocMarked blocks -> (1 <= fuel)%nat ->
  vocRead host fuel (mkFile b 0) = vocLoop host fuel (zlen b) 26 vocSt0 (mkFile b 26) /\ zskipn 26 b = blocks ++ [0] /\ zlen b = 27 + zlen blocks.
Proof.
  intros -> Hf. set (b := vocMarked blocks). assert (H : zskipn 20 b = le2 0x1a ++ le2 0x114 ++ le2 (0x1234 + (-1 - 0x114)) ++ blocks ++ [0]).
  { unfold b, vocMarked, vocPre. rewrite <- !app_assoc. exact (zskipn_exact vocMagic _). }
  assert (Lb : zlen b = 27 + zlen blocks) by (unfold b, vocMarked; rewrite !zlen_app; change (zlen vocPre) with 26; change (zlen [0]) with 1; lia).
  clearbody b. unfold le2 in H. unfold vocRead. rewrite st_seek. cbn [fbytes]. do 3 hstep H. rewrite st_tell, st_length. unfold flength. cbn [fbytes fpos].
  change (20 + Z.of_nat 2 + Z.of_nat 2 + Z.of_nat 2) with 26 in *. auto.
Qed.

Lemma voc_block host fuel b p type size s rest : zskipn p b = vocHeader type size ++ rest -> 0 <= p -> 0 <= type < 256 -> 0 <= size < 2 ^ 24 ->
  vocLoop host (S fuel) (zlen b) p s (mkFile b p) =
    (let! s := vocBlock host s type size in let! _ := hseek (p + (4 + size)) in vocLoop host fuel (zlen b) (p + (4 + size)) s) (mkFile b (p + 4)) /\ zskipn (p + 4) b = rest.
Proof.
  intros H Hp Ht Hs. change (2 ^ 24) with 16777216 in *. assert (Hlt : p < zlen b).
  { assert (zlen (zskipn p b) = zlen (vocHeader type size ++ rest)) as L by now rewrite H. rewrite zlen_skipn, zlen_app in L by lia. unfold vocHeader in L. rewrite sampleBytes_zlen in L.
    pose proof (zlen_nonneg rest). change (Z.of_nat 4) with 4 in L. lia. }
  cbn [vocLoop]. replace (p <? zlen b) with true by lia. cbn [negb]. unfold vocHeader in H. hstep H. change (8 * Z.of_nat 4) with 32. change (2 ^ 32) with 4294967296.
  change (Z.of_nat 4) with 4 in *. rewrite (Z.mod_small (type + 256 * size)) by lia. replace ((type + 256 * size) mod 256) with type by lia. replace ((type + 256 * size) / 256) with size by lia. auto.
Qed.

Lemma voc_old_block host fuel b p d data s ch rate : zskipn p b = vocHeader 1 (2 + zlen data) ++ [d; 0] ++ data ++ [0] -> 0 <= p -> 0 <= d < 256 ->
  2 + zlen data < 2 ^ 24 -> vs_fmt s = None -> (1 <= fuel)%nat ->
  match vs_ext s with None => ch = 1 /\ rate = 1000000 / (256 - d) | Some e => e = (ch, rate) /\ 0 < ch <= 2 end ->
  exists f', vocLoop host (S fuel) (zlen b) p s (mkFile b p) =
    Ok (Some (VocSt (Some (mkFmt rate Unsigned 8 ch LittleEndian CNone 1 ch)) (vs_ext s) (p + 6) (zlen data) (zlen data / ch), f')).
Proof.
  intros H Hp Hd Hs Hn Hf He. pose proof (zlen_nonneg data) as Zd. change (2 ^ 24) with 16777216 in *.
  assert (Lb : zlen b = p + 7 + zlen data).
  { assert (zlen (zskipn p b) = zlen (vocHeader 1 (2 + zlen data) ++ [d; 0] ++ data ++ [0])) as L by now rewrite H. rewrite zlen_skipn, !zlen_app in L by lia. unfold vocHeader in L.
    rewrite sampleBytes_zlen in L. change (Z.of_nat 4) with 4 in L. change (zlen [d; 0]) with 2 in L. change (zlen [0]) with 1 in L. lia. }
  destruct (voc_block host fuel b p 1 (2 + zlen data) s _ H Hp ltac:(lia) ltac:(change (2 ^ 24) with 16777216; lia)) as [-> H1]. clear H.
  unfold vocBlock. change (1 =? 1) with true. cbv iota. unfold vocOld, vocFound. rewrite Hn. cbv iota.
  assert (H : zskipn (p + 4) b = sampleBytes LittleEndian 1 d ++ sampleBytes LittleEndian 1 0 ++ data ++ [0]).
  { rewrite H1. unfold sampleBytes. cbn [le_bytes app rev]. rewrite (Z.mod_small d) by lia. reflexivity. } clear H1.
  rewrite hbind_assoc. hstep H. rewrite hbind_assoc. hstep H. change (8 * Z.of_nat 1) with 8. change (2 ^ 8) with 256. rewrite (Z.mod_small d) by lia. change (0 mod 256) with 0.
  assert (E : (match vs_ext s with Some e => e | None => (1, Z.quot 1000000 (256 - d)) end) = (ch, rate)).
  { destruct (vs_ext s); [exact (proj1 He)|]. destruct He as [-> ->]. rewrite Z.quot_div_nonneg by lia. reflexivity. }
  assert (Hch : 0 < ch <= 2) by (destruct (vs_ext s); [exact (proj2 He)|lia]).
  rewrite E. clear E. change (negb (0 =? 0)) with false. cbv iota. rewrite hbind_assoc. unfold hlift at 1. unfold hbind at 1.
  rewrite (bppPCM_bytes 1 ch 8 eq_refl) by lia. cbn [rbind]. rewrite Z.mul_1_l. rewrite hbind_assoc, st_tell, hbind_assoc, st_length. cbv zeta. cbn [fpos]. unfold flength. cbn [fbytes].
  change (Z.of_nat 1) with 1. rewrite Lb. replace (p + 7 + zlen data - 1 - (p + 4 + 1 + 1)) with (zlen data) by lia. replace (p + 4 + 1 + 1) with (p + 6) by lia.
  rewrite computeTotal_floor; [|reflexivity|cbn [f_bpp]; lia|change (2 ^ 62) with 4611686018427387904; lia]. cbn [f_bpp].
  unfold hbind at 1. unfold hret. cbn [rbind]. rewrite st_seek. cbn [fbytes]. rewrite <- Lb. 
  apply voc_ends; lia.
Qed.

Theorem C61_voc_old_sound :
  forall host fuel d data, 0 <= d < 256 -> 2 + zlen data < 2 ^ 24 -> (2 <= fuel)%nat ->
  exists f', vocOpen host fuel (mkFile (vocMarked (vocHeader 1 (2 + zlen data) ++ [d; 0] ++ data)) 0) =
    Ok (Some (mkParsed (mkFmt (1000000 / (256 - d)) Unsigned 8 1 LittleEndian CNone 1 1) 32 (zlen data) (zlen data), f')).
Proof.
  intros host fuel d data Hd Hs Hf. unfold vocOpen. set (b := vocMarked _).
  destruct (voc_start host fuel b (vocHeader 1 (2 + zlen data) ++ [d; 0] ++ data) eq_refl ltac:(lia)) as (E & H & _). unfold hbind at 1. rewrite E. clear E.
  destruct fuel as [|fuel]; [lia|]. rewrite <- !app_assoc in H.
  destruct (voc_old_block host fuel b 26 d data vocSt0 1 (1000000 / (256 - d)) H ltac:(lia) Hd Hs eq_refl ltac:(lia) (conj eq_refl eq_refl)) as (f' & ->).
  cbn [rbind]. unfold hlift. cbn [vs_fmt vs_first vs_dsize vs_total rbind]. rewrite Z.div_1_r. eexists. reflexivity.
Qed.
Print Assumptions C61_voc_old_sound.

(** After an extended block its rate and channels replace those of the sound block. *)
Theorem C61_voc_extended :
  forall host fuel div pack stereo d data, 0 <= div < 65536 -> 0 <= pack < 256 -> 0 <= stereo < 256 -> 0 <= d < 256 -> 2 + zlen data < 2 ^ 24 -> (3 <= fuel)%nat ->
  let ch := if stereo =? 0 then 1 else 2 in
  exists f', vocOpen host fuel (mkFile (vocMarked (vocHeader 8 4 ++ [div mod 256; div / 256; pack; stereo] ++ vocHeader 1 (2 + zlen data) ++ [d; 0] ++ data)) 0) =
    Ok (Some (mkParsed (mkFmt ((256000000 / ch) / (65536 - div)) Unsigned 8 ch LittleEndian CNone 1 ch) 40 (zlen data) (zlen data / ch), f')).
Proof.
  intros host fuel div pack stereo d data Hdiv Hpk Hst Hd Hs Hf ch. unfold vocOpen. set (b := vocMarked _).
  destruct (voc_start host fuel b (vocHeader 8 4 ++ [div mod 256; div / 256; pack; stereo] ++ vocHeader 1 (2 + zlen data) ++ [d; 0] ++ data) eq_refl ltac:(lia)) as (E & H & _).
  unfold hbind at 1. rewrite E. clear E. destruct fuel as [|fuel]; [lia|]. rewrite <- !app_assoc in H. clearbody b.
  destruct (voc_block host fuel b 26 8 4 vocSt0 _ H ltac:(lia) ltac:(lia) ltac:(change (2 ^ 24) with 16777216; lia)) as [-> H1]. clear H.
  unfold vocBlock. change (8 =? 1) with false. change (8 =? 8) with true. cbv iota. unfold vocExt. change (vocFound vocSt0) with false. cbv iota.
  assert (H : zskipn (26 + 4) b = sampleBytes LittleEndian 2 div ++ sampleBytes LittleEndian 1 pack ++ sampleBytes LittleEndian 1 stereo ++ vocHeader 1 (2 + zlen data) ++ [d; 0] ++ data ++ [0]).
  { rewrite H1. unfold sampleBytes. cbn [le_bytes app rev]. rewrite (Z.mod_small pack), (Z.mod_small stereo), (Z.mod_small (div / 256)) by lia. reflexivity. } clear H1.
  rewrite hbind_assoc. hstep H. rewrite hbind_assoc. hstep H. rewrite hbind_assoc. hstep H.
  change (8 * Z.of_nat 1) with 8. change (8 * Z.of_nat 2) with 16. change (2 ^ 8) with 256. change (2 ^ 16) with 65536. rewrite (Z.mod_small div), (Z.mod_small stereo) by lia.
  fold ch. assert (Hch : 0 < ch <= 2) by (unfold ch; destruct (stereo =? 0); lia).
  unfold hret at 1. unfold hbind at 1. cbn [rbind]. rewrite st_seek. cbn [fbytes]. change (26 + 4 + Z.of_nat 2 + Z.of_nat 1 + Z.of_nat 1) with 34 in *. change (26 + (4 + 4)) with 34.
  destruct fuel as [|fuel]; [lia|].
  destruct (voc_old_block host fuel b 34 d data (VocSt (vs_fmt vocSt0) (Some (ch, 256000000 / ch / (65536 - div))) (vs_first vocSt0) (vs_dsize vocSt0) (vs_total vocSt0)) ch (256000000 / ch / (65536 - div)) H
    ltac:(lia) Hd Hs eq_refl ltac:(lia) (conj eq_refl Hch)) as (f' & ->).
  cbn [rbind]. unfold hlift. cbn [vs_fmt vs_first vs_dsize vs_total rbind]. eexists. reflexivity.
Qed.
Print Assumptions C61_voc_extended.
Example C61_voc_example : exists f', vocOpen LittleEndian 3 (mkFile (vocMarked (vocHeader 8 4 ++ [0x38; 0xf5; 0; 1] ++ vocHeader 1 6 ++ [165; 0] ++ [128;129;130;131])) 0) =
  Ok (Some (mkParsed (mkFmt 46376 Unsigned 8 2 LittleEndian CNone 1 2) 40 4 2, f')).
Proof. exact (C61_voc_extended LittleEndian 3 0xf538 0 1 165 [128;129;130;131] ltac:(lia) ltac:(lia) ltac:(lia) ltac:(lia) eq_refl ltac:(lia)). Qed.
