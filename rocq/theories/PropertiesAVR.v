(** * C29: AVR files, written and read back *)
From Verif Require Import Prelude PreludeFacts ByteOrder FileIO Reader ReaderSpec PropertiesReader.
From Verif Require Import Writer WriterSpec WriterProofs WriterHistory Codecs CodecsProofs PropertiesWriter PropertiesRoundTrip HeaderIO FileRoundTrip AVR.

Lemma avrPre_len name f : zlen name = 8 -> zlen (avrPre name f) = 26.
Proof. intros H. unfold avrPre. rewrite !zlen_app, !sampleBytes_zlen, H. reflexivity. Qed.
Lemma avrSizes_len t : zlen (avrSizes t) = 12.
Proof. unfold avrSizes. rewrite !zlen_app, !sampleBytes_zlen. reflexivity. Qed.
Lemma avrPost_len : zlen avrPost = 90. Proof. reflexivity. Qed.

(** The layout of the front of the file; only the size fields ever change. *)
Definition avrFront (name : list Z) (f : format) (b : list Z) : Prop :=
  exists mid rest, zlen mid = 12 /\ b = avrPre name f ++ mid ++ avrPost ++ rest.

Lemma avr_front name f limit bpf : zlen name = 8 -> frontOK (avrFront name f) (avrInit name f) avrFirst limit bpf avrUpdate.
Proof.
  intros Hn. pose proof (avrPre_len name f Hn) as Lp. split.
  - intros b p d Hp _ (mid & rest & Lm & ->). exists mid, (overwrite rest (p - avrFirst) d). split; [exact Lm|].
    replace (avrPre name f ++ mid ++ avrPost ++ rest) with ((avrPre name f ++ mid ++ avrPost) ++ rest) by (rewrite <- !app_assoc; reflexivity).
    assert (L : zlen (avrPre name f ++ mid ++ avrPost) = avrFirst) by (rewrite !zlen_app, Lp, Lm, avrPost_len; reflexivity).
    rewrite ow_past, L by lia. rewrite <- !app_assoc. reflexivity.
  - intros fl t _ _ _ _ (mid & rest & Lm & E). exists (avrSizes (w_totalf t)), rest. split; [apply avrSizes_len|].
    unfold avrUpdate, fwrite, fseek. cbn [fbytes fpos]. rewrite E, <- Lp. apply ow_mid. rewrite avrSizes_len. exact Lm.
  - exists (avrSizes 0), []. split; [apply avrSizes_len|]. unfold avrInit. now rewrite app_nil_r.
Qed.

Lemma avr_keeps : updKeeps avrUpdate avrFirst.
Proof.
  intros f t Hf. unfold avrUpdate, fwrite, fseek. cbn [fbytes fpos]. unfold avrFirst in *.
  destruct (Z.lt_ge_cases (w_after t - 128) 0) as [Hn|Hn]; [unfold region; rewrite !zfirstn_0 by lia; reflexivity|].
  apply ow_region_after'; [lia| |exact Hn]. rewrite avrSizes_len. lia.
Qed.

(** Sample formats and widths an AVR file can hold. *)
Inductive avrPCM : sampfmt -> nat -> Prop :=
| AP_u8 : avrPCM Unsigned 1 | AP_u16 : avrPCM Unsigned 2 | AP_s8 : avrPCM TwosComp 1 | AP_s16 : avrPCM TwosComp 2.

Lemma avr_tail fm sf n total f : avrPCM sf n -> f_sf fm = sf -> f_width fm = 8 * Z.of_nat n -> 0 <= f_rate fm -> 0 <= total < 4294967296 ->
  let ch := if f_chan fm =? 1 then 1 else 2 in
  avrTail ((if f_chan fm =? 1 then 0 else 0xffff) mod 2 ^ (8 * Z.of_nat 2)) (f_width fm mod 2 ^ (8 * Z.of_nat 2))
    ((match f_sf fm with Unsigned => 0 | _ => 0xffff end) mod 2 ^ (8 * Z.of_nat 2)) (Z.lor (u32 (f_rate fm)) 0xff000000 mod 2 ^ (8 * Z.of_nat 4))
    (total mod 2 ^ (8 * Z.of_nat 4)) f
  = Ok (Some (mkParsed (mkFmt (f_rate fm mod 2 ^ 24) sf (8 * Z.of_nat n) ch BigEndian CNone 1 (Z.of_nat n * ch)) (fpos f) (Z.of_nat n * ch * total) total, f)).
Proof.
  intros Hs -> -> Hr Ht ch.
  assert (ER : Z.land (Z.lor (u32 (f_rate fm)) 4278190080 mod 2 ^ (8 * Z.of_nat 4)) 16777215 = f_rate fm mod 2 ^ 24).
  { change (8 * Z.of_nat 4) with 32. unfold u32, uN. rewrite <- !(Z.land_ones _ 32) by lia. rewrite <- Z.land_assoc.
    change (Z.land (Z.ones 32) 16777215) with 16777215. rewrite Z.land_lor_distr_l. change (Z.land 4278190080 16777215) with 0. rewrite Z.lor_0_r.
    rewrite <- Z.land_assoc. change (Z.land (Z.ones 32) 16777215) with (Z.ones 24). apply Z.land_ones. lia. }
  assert (ES : total mod 2 ^ (8 * Z.of_nat 4) = total) by (apply Z.mod_small; exact Ht).
  assert (E64 : forall k, 0 <= k <= 4 -> s64 (u64 (total * k)) = k * total).
  { intros k Hk. unfold u64, s64. rewrite uN_small by (change (2 ^ 64) with 18446744073709551616; nia).
    rewrite sN_small by (try (change (2 ^ (64 - 1)) with 9223372036854775808); nia). lia. }
  unfold avrTail, hfail, hlift, htell, hret, hbind. rewrite ER, ES. unfold ch. clear ER ES ch.
  generalize (f_rate fm mod 2 ^ 24). intros R.
  destruct Hs; destruct (f_chan fm =? 1);
    match goal with |- context [s64 (u64 (total * ?k))] =>
      pose proof (E64 k ltac:(vm_compute; split; congruence)) as E; generalize dependent (s64 (u64 (total * k))); intros D E;
      let v := eval vm_compute in k in change k with v in E end;
    match goal with |- context [?a * total] => replace (a * total) with D by (rewrite E; reflexivity) end;
    clear; vm_compute; reflexivity.
Qed.

Lemma avr_read_header name fm sf n total b rest : zlen name = 8 ->
  b = avrPre name fm ++ avrSizes total ++ avrPost ++ rest -> avrPCM sf n -> 0 <= total < 2 ^ 32 -> 0 <= f_rate fm ->
  f_sf fm = sf -> f_width fm = 8 * Z.of_nat n ->
  let ch := if f_chan fm =? 1 then 1 else 2 in
  exists f', avrRead (mkFile b 0) = Ok (Some (mkParsed (mkFmt (f_rate fm mod 2 ^ 24) sf (8 * Z.of_nat n) ch BigEndian CNone 1 (Z.of_nat n * ch)) avrFirst (Z.of_nat n * ch * total) total, f')).
Proof.
  intros Hn Eb Hs Ht Hr Esf Ew ch. change (2 ^ 32) with 4294967296 in *.
  assert (H : zskipn 0 b = avr_magic ++ name ++
    sampleBytes BigEndian 2 (if f_chan fm =? 1 then 0 else 0xffff) ++ sampleBytes BigEndian 2 (f_width fm) ++
    sampleBytes BigEndian 2 (match f_sf fm with Unsigned => 0 | _ => 0xffff end) ++ sampleBytes BigEndian 2 0 ++ sampleBytes BigEndian 2 0xffff ++
    sampleBytes BigEndian 4 (Z.lor (u32 (f_rate fm)) 0xff000000) ++
    sampleBytes BigEndian 4 total ++ sampleBytes BigEndian 4 0 ++ sampleBytes BigEndian 4 total ++ zrepeat 0 26 ++ zrepeat 0 64 ++ rest).
  { rewrite zskipn_0 by lia. rewrite Eb. unfold avrPre, avrSizes, avrPost. rewrite <- !app_assoc. reflexivity. }
  unfold avrRead. rewrite st_seek. cbn [fbytes]. change (hread 4) with (hread (zlen avr_magic)). hstep H.
  change (zlen avr_magic =? 4) with true. destruct (list_eq_dec Z.eq_dec avr_magic avr_magic); [|congruence]. cbn [negb].
  change (0 + zlen avr_magic) with 4 in *. replace (hread 8) with (hread (zlen name)) by now rewrite Hn. hstep H. rewrite Hn in *.
  do 9 hstep H. change (hread 26) with (hread (zlen (zrepeat 0 26))). hstep H. change (zlen (zrepeat 0 26)) with 26 in *. change (hread 64) with (hread (zlen (zrepeat 0 64))). hstep H.
  clear H. eexists. erewrite avr_tail; [reflexivity| exact Hs | exact Esf | exact Ew | exact Hr | exact Ht].
Qed.

(** PCM, one or two channels, fewer than 2 GiB; the sample rate is kept modulo 2^24. *)
Theorem C29_avr_roundtrip_partial :
  forall (B : Build) sf n ch rate name, avrPCM sf n -> ch = 1 \/ ch = 2 -> 0 <= rate < 2 ^ 24 -> zlen name = 8 ->
  forall (V W : Type) (conv : V -> list Z) (back : list Z -> W) junk cap (ops : list wop),
    let sgn := match sf with TwosComp => true | _ => false end in
    let bpf := Z.of_nat n * ch in
    let fm := mkFmt rate sf (8 * Z.of_nat n) ch BigEndian CNone 1 bpf in
    zlen junk = ch -> spaced false (ops ++ [Sync]) ->
    Forall (fun v => frameOf ch (fits sgn n) (conv v)) (written ops) ->
    128 + bpf * zlen (written ops) < 2 ^ 31 ->
    exists st, wrun (pcmW BigEndian n ch) conv junk true avrUpdate (openWrite (pcmW BigEndian n ch) (avrInit name fm) avrFirst cap tt) (ops ++ [Sync]) = Ok st /\
      reopens B avrRead (fbytes (ws_file st)) (pcmR BigEndian sgn n ch) back fm 128 (zlen (written ops)) (map (fun v => back (conv v)) (written ops)).
Proof.
  intros B sf n ch rate name Hsf Hc Hr Hn V W conv back junk cap ops sgn bpf fm Hj Hsp Hok Hs.
  assert (Hn1 : (1 <= n <= 2)%nat) by (destruct Hsf; lia). change (2 ^ 31) with 2147483648 in Hs.
  destruct (pcm_file (W := W) B BigEndian sgn n ch ltac:(lia) ltac:(lia) conv back junk avrUpdate (avrInit name fm) avrFirst cap ops Hj ltac:(unfold avrFirst; lia)
      (updKeeps_for _ _ _ _ avr_keeps) _ (avr_front name fm _ _ Hn) Hsp Hok ltac:(unfold avrFirst; exact Hs)) as (st & f0 & R & Ef & (mid & rest & Lm & E0) & T0 & T1 & T2 & T3 & Fit & RD).
  exists st. split; [exact R|]. set (total := zlen (written ops)) in *. pose proof (zlen_nonneg (written ops) : 0 <= total) as Zt.
  assert (Eb : fbytes (ws_file st) = avrPre name fm ++ avrSizes total ++ avrPost ++ rest).
  { rewrite Ef. unfold avrUpdate, fwrite, fseek. cbn [fbytes fpos]. rewrite E0, <- (avrPre_len name fm Hn), T1. apply ow_mid. rewrite avrSizes_len. exact Lm. }
  assert (L128 : avrFirst <= zlen (fbytes (ws_file st))).
  { rewrite Eb, !zlen_app, (avrPre_len name fm Hn), avrSizes_len, avrPost_len. pose proof (zlen_nonneg rest). unfold avrFirst. lia. }
  specialize (RD (or_intror L128)).
  destruct (avr_read_header name fm sf n total _ rest Hn Eb Hsf) as (f' & RH); auto.
  { change (2 ^ 32) with 4294967296. unfold bpf in Hs. nia. } { cbn [fm f_rate]. lia. }
  cbn [fm f_rate f_chan] in RH. rewrite Z.mod_small in RH by exact Hr.
  assert (Ec : (if ch =? 1 then 1 else 2) = ch) by (destruct Hc; subst; reflexivity). rewrite Ec in RH.
  eexists _, f'. split; [exact RH|exact RD].
Qed.
Print Assumptions C29_avr_roundtrip_partial.

Example C29_example :
  avrPCM TwosComp 2 /\ spaced false ([Write [[1; 2]; [3; -4]]; Sync; Write [[-32768; 32767]]] ++ [Sync]) /\
  Forall (fun v => frameOf 2 (fits true 2) v) (written [Write [[1; 2]; [3; -4]]; Sync; Write [[-32768; 32767]]]) /\
  (forall B : Build, exists st f', wrun (pcmW BigEndian 2 2) (fun x => x) [0; 0] true avrUpdate
      (openWrite (pcmW BigEndian 2 2) (avrInit [97;46;97;118;114;0;0;0] (mkFmt 44100 TwosComp 16 2 BigEndian CNone 1 4)) avrFirst 1024 tt)
      [Write [[1; 2]; [3; -4]]; Sync; Write [[-32768; 32767]]; Sync] = Ok st /\
    zskipn 128 (fbytes (ws_file st)) = [0;1;0;2; 0;3;255;252; 128;0;127;255] /\
    avrRead (mkFile (fbytes (ws_file st)) 0) = Ok (Some (mkParsed (mkFmt 44100 TwosComp 16 2 BigEndian CNone 1 4) 128 12 3, f'))).
Proof.
  split; [constructor|]. split; [cbn; auto|]. split; [unfold fits; repeat constructor; vm_compute; congruence|].
  intros B. do 2 eexists. split; [vm_compute; reflexivity|]. split; vm_compute; reflexivity.
Qed.

(** The writer accepts any number of channels and records everything but mono as stereo: a file of 4-channel
    frames reads back as the same number of 2-channel frames, i.e. as other audio. *)
Theorem C29_avr_channels_refuted :
  forall B : Build, exists st f',
    let fm := mkFmt 8000 TwosComp 16 4 BigEndian CNone 1 8 in
    wrun (pcmW BigEndian 2 4) (fun x : list Z => x) [0;0;0;0] true avrUpdate (openWrite (pcmW BigEndian 2 4) (avrInit (zrepeat 0 8) fm) avrFirst 1024 tt) [Write [[1;2;3;4]; [5;6;7;8]]; Sync] = Ok st /\
    avrRead (mkFile (fbytes (ws_file st)) 0) = Ok (Some (mkParsed (mkFmt 8000 TwosComp 16 2 BigEndian CNone 1 4) 128 8 2, f')).
Proof. intros B. do 2 eexists. cbv zeta. split; [vm_compute; reflexivity|]. vm_compute; reflexivity. Qed.
Print Assumptions C29_avr_channels_refuted.

(** Sample rates of 2^24 Hz and more lose their high byte. *)
Theorem C29_avr_rate_refuted :
  forall (B : Build) name rest, zlen name = 8 -> exists f',
    avrRead (mkFile (avrInit name (mkFmt (2 ^ 24 + 1) TwosComp 16 1 BigEndian CNone 1 2) ++ rest) 0) =
    Ok (Some (mkParsed (mkFmt 1 TwosComp 16 1 BigEndian CNone 1 2) 128 0 0, f')).
Proof.
  intros B name rest Hn. set (fm := mkFmt _ _ _ _ _ _ _ _).
  destruct (avr_read_header name fm TwosComp 2 0 (avrInit name fm ++ rest) rest Hn) as (f' & E); try reflexivity.
  - unfold avrInit. rewrite <- !app_assoc. reflexivity.
  - constructor.
  - lia.
  - cbn. lia.
  - exists f'. exact E.
Qed.
Print Assumptions C29_avr_rate_refuted.
