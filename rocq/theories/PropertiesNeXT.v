(** * C28: NeXT/Sun .au files, written and read back *)
From Verif Require Import Prelude PreludeFacts ByteOrder G711 FileIO Reader ReaderSpec PropertiesReader.
From Verif Require Import Writer WriterSpec WriterProofs WriterHistory Codecs CodecsProofs PropertiesWriter PropertiesRoundTrip HeaderIO FileRoundTrip NeXT.

(** The uncompressed formats of the file format: sample format and bytes per sample. *)
Inductive nextPCM : sampfmt -> nat -> Prop :=
| NP_int n : (1 <= n <= 4)%nat -> nextPCM TwosComp n
| NP_float : nextPCM Float 4
| NP_double : nextPCM Double 8.

Lemma next_keeps fm : updKeeps (nextUpdate fm) nextFirst.
Proof.
  intros f t Hf. unfold nextUpdate, fwrite, fseek. cbn [fbytes fpos]. unfold region.
  destruct (Z.lt_ge_cases (w_after t - nextFirst) 0) as [Hn|Hn]; [rewrite !zfirstn_0 by lia; reflexivity|].
  apply ow_region_after'; [lia| |exact Hn]. unfold nextHeader. rewrite !zlen_app, !sampleBytes_zlen. unfold snd_magic, zlen, nextFirst. cbn. lia.
Qed.

Lemma next_read_header {B : Build} host fm size b rest :
  b = nextHeader fm nextFirst size ++ rest -> nextFirst + size <= zlen b -> 0 <= size < 2 ^ 32 -> size <> 2 ^ 32 - 1 ->
  0 <= f_rate fm < 2 ^ 32 -> 0 < f_chan fm < 2 ^ 31 ->
  match f_comp fm with
  | CNone => f_order fm = BigEndian /\ f_fpp fm = 1 /\ f_bpp fm = f_width fm / 8 * f_chan fm /\ f_bpp fm < 2 ^ 31 /\
      ((f_sf fm = TwosComp /\ In (f_width fm) [8; 16; 24; 32]) \/ (f_sf fm = Float /\ f_width fm = 32) \/ (f_sf fm = Double /\ f_width fm = 64))
  | CUlaw | CAlaw => f_order fm = host /\ f_fpp fm = 1 /\ f_bpp fm = f_chan fm /\ f_sf fm = TwosComp /\ f_width fm = 16
  | _ => False
  end ->
  exists f', nextRead host (mkFile b 0) = Ok (Some (mkParsed fm nextFirst size (computeTotal 0 size fm), f')).
Proof.
  intros Eb Hlen Hs Hs1 Hr Hc Hf. change (2 ^ 32) with 4294967296 in *. change (2 ^ 31) with 2147483648 in *.
  assert (H : zskipn 0 b = snd_magic ++ sampleBytes BigEndian 4 nextFirst ++ sampleBytes BigEndian 4 size ++ sampleBytes BigEndian 4 (nextEncoding fm) ++
     sampleBytes BigEndian 4 (f_rate fm) ++ sampleBytes BigEndian 4 (f_chan fm) ++ rest).
  { rewrite zskipn_0 by lia. rewrite Eb. unfold nextHeader. rewrite <- !app_assoc. reflexivity. }
  unfold nextRead. rewrite st_seek. cbn [fbytes]. change (hread 4) with (hread (zlen snd_magic)). hstep H.
  rewrite st_assert by (destruct (list_eq_dec Z.eq_dec snd_magic snd_magic); [reflexivity|congruence]).
  change (0 + zlen snd_magic) with 4 in *. do 5 hstep H. change (8 * Z.of_nat 4) with 32. change (2 ^ 32) with 4294967296.
  assert (He : 0 <= nextEncoding fm < 4294967296).
  { unfold nextEncoding. destruct (f_comp fm); try lia. destruct (f_sf fm); try lia. repeat destruct (_ =? _); lia. }
  rewrite !Z.mod_small by (unfold nextFirst; lia). replace (f_chan fm =? 0) with false by lia.
  rewrite st_length. unfold flength. cbn [fbytes].
  replace (size =? 4294967295) with false by lia. replace (zlen b - nextFirst <? size) with false by lia. cbn [orb].
  replace (s32 (f_chan fm)) with (f_chan fm) by (symmetry; apply sN_small; [lia|change (2 ^ (32 - 1)) with 2147483648; lia]).
  destruct fm as [rate sf width ch o co fpp bpp]. cbn [f_rate f_sf f_width f_chan f_order f_comp f_fpp f_bpp] in *. unfold nextEncoding. cbn [f_comp f_sf f_width].
  destruct co; try contradiction.
  - destruct Hf as (-> & -> & -> & Hb & Hf).
    assert (Q : In width [8; 16; 24; 32; 64] -> hlift (bppPCM width ch) (mkFile b (4 + Z.of_nat 4 + Z.of_nat 4 + Z.of_nat 4 + Z.of_nat 4 + Z.of_nat 4)) = Ok (Some (width / 8 * ch, mkFile b (4 + Z.of_nat 4 + Z.of_nat 4 + Z.of_nat 4 + Z.of_nat 4 + Z.of_nat 4)))).
    { intros Hw. unfold hlift, bppPCM, ck32. assert (Ew : Z.quot (width + 7) 8 = width / 8).
      { cbn in Hw. repeat (destruct Hw as [<-|Hw]; [reflexivity|]). destruct Hw. }
      rewrite Ew. assert (0 < width / 8) by (cbn in Hw; repeat (destruct Hw as [<-|Hw]; [reflexivity|]); destruct Hw).
      assert (0 < width / 8 * ch) by nia. rewrite (proj2 (inS_spec 32 _)) by (change (2 ^ (32 - 1)) with 2147483648; lia). cbn [rbind].
      unfold u64. rewrite uN_small by (change (2 ^ 64) with 18446744073709551616; lia). reflexivity. }
    destruct Hf as [[-> Hw]|[[-> ->]|[-> ->]]].
    + assert (Hw' : In width [8; 16; 24; 32; 64]) by (cbn in Hw |- *; tauto). specialize (Q Hw').
      cbn in Hw. repeat (destruct Hw as [<-|Hw]; [cbn [Z.eqb Pos.eqb orb]; unfold hbind; rewrite Q; cbn [rbind]; unfold hret; eexists; reflexivity|]). destruct Hw.
    + cbn [Z.eqb Pos.eqb]. unfold hbind. rewrite (Q ltac:(cbn; tauto)). cbn [rbind]. eexists; reflexivity.
    + cbn [Z.eqb Pos.eqb]. unfold hbind. rewrite (Q ltac:(cbn; tauto)). cbn [rbind]. eexists; reflexivity.
  - destruct Hf as (-> & -> & -> & -> & ->). cbn [Z.eqb Pos.eqb]. unfold hret, u64. rewrite uN_small by (change (2 ^ 64) with 18446744073709551616; lia). eexists; reflexivity.
  - destruct Hf as (-> & -> & -> & -> & ->). cbn [Z.eqb Pos.eqb]. unfold hret, u64. rewrite uN_small by (change (2 ^ 64) with 18446744073709551616; lia). eexists; reflexivity.
Qed.

(** PCM (8 to 32 bits, float and double samples as bit patterns). *)
Theorem C28_next_pcm_roundtrip_partial :
  forall (B : Build) host sf n ch rate, nextPCM sf n -> 0 < ch -> 0 <= rate < 2 ^ 32 ->
  forall (V W : Type) (conv : V -> list Z) (back : list Z -> W) junk cap (ops : list wop),
    let sgn := match sf with TwosComp => true | _ => false end in
    let bpf := Z.of_nat n * ch in
    let fm := mkFmt rate sf (8 * Z.of_nat n) ch BigEndian CNone 1 bpf in
    zlen junk = ch -> spaced false (ops ++ [Sync]) ->
    Forall (fun v => frameOf ch (fits sgn n) (conv v)) (written ops) ->
    28 + bpf * zlen (written ops) < 2 ^ 31 -> written ops <> [] ->
    exists st, wrun (pcmW BigEndian n ch) conv junk true (nextUpdate fm) (openWrite (pcmW BigEndian n ch) (nextInit fm) nextFirst cap tt) (ops ++ [Sync]) = Ok st /\
      reopens B (nextRead host) (fbytes (ws_file st)) (pcmR BigEndian sgn n ch) back fm 28 (zlen (written ops)) (map (fun v => back (conv v)) (written ops)).
Proof.
  intros B host sf n ch rate Hsf Hc Hr V W conv back junk cap ops sgn bpf fm Hj Hsp Hok Hs Hne.
  assert (Hn : (1 <= n <= 8)%nat) by (destruct Hsf; lia).
  assert (Hw : 0 < zlen (written ops)) by (destruct (written ops); [congruence|rewrite zlen_cons; pose proof (zlen_nonneg l); lia]).
  change (2 ^ 31) with 2147483648 in Hs.
  destruct (pcm_file (W := W) B BigEndian sgn n ch ltac:(lia) Hc conv back junk (nextUpdate fm) (nextInit fm) nextFirst cap ops Hj ltac:(unfold nextFirst; lia)
      (updKeeps_for _ _ _ _ (next_keeps fm)) _ (frontOK_True _ _ _ _ _) Hsp Hok ltac:(unfold nextFirst; exact Hs)) as (st & f0 & R & Ef & _ & T0 & T1 & T2 & T3 & Fit & RD).
  exists st. split; [exact R|]. specialize (Fit Hne). specialize (RD (or_introl Hne)). fold bpf in T2, T3, Fit, RD. set (total := zlen (written ops)) in *.
  assert (Pb : 0 < bpf) by (unfold bpf; nia).
  destruct (ow_head (fbytes f0) (nextHeader fm (w_first (ws_track st)) (w_dsize (ws_track st)))) as (rest & Eo).
  assert (Eb : fbytes (ws_file st) = nextHeader fm nextFirst (bpf * total) ++ rest).
  { rewrite Ef at 1. unfold nextUpdate, fwrite, fseek. cbn [fbytes fpos]. rewrite Eo, T0, T2. reflexivity. }
  destruct (next_read_header host fm (bpf * total) (fbytes (ws_file st)) rest Eb) as (f' & RH).
  - exact Fit.
  - change (2 ^ 32) with 4294967296. nia.
  - change (2 ^ 32) with 4294967296. nia.
  - exact Hr.
  - cbn [fm f_chan]. change (2 ^ 31) with 2147483648. unfold bpf in *. nia.
  - cbn [fm f_comp f_order f_fpp f_bpp f_width f_chan f_sf]. split; [reflexivity|]. split; [reflexivity|].
    split; [replace (8 * Z.of_nat n / 8) with (Z.of_nat n) by lia; reflexivity|]. split; [change (2 ^ 31) with 2147483648; unfold bpf in *; nia|].
    destruct Hsf as [n Hn'| |]; [left|right; left; auto|right; right; auto]. split; [reflexivity|].
    destruct n as [|[|[|[|[|n]]]]]; try lia; cbn; auto.
  - rewrite computeTotal_exact in RH; [|reflexivity|reflexivity|exact Pb|lia|change (2 ^ 62) with 4611686018427387904; nia].
    exists (bpf * total), f'. split; [exact RH|exact RD].
Qed.
Print Assumptions C28_next_pcm_roundtrip_partial.

(** G.711, up to 4 GiB of data. *)
Theorem C28_next_g711_roundtrip_partial :
  forall (B : Build) host ch rate, 0 < ch -> 0 <= rate < 2 ^ 32 ->
  forall (V W : Type) (conv : V -> list Z) (back : list Z -> W) junk cap (ops : list wop),
    let fm c := mkFmt rate TwosComp 16 ch host c 1 ch in
    zlen junk = ch -> spaced false (ops ++ [Sync]) -> Forall (fun v => zlen (conv v) = ch) (written ops) ->
    ch * zlen (written ops) < 2 ^ 32 - 1 -> ch < 2 ^ 31 -> written ops <> [] ->
    (exists st, wrun (ulawW ch) conv junk true (nextUpdate (fm CUlaw)) (openWrite (ulawW ch) (nextInit (fm CUlaw)) nextFirst cap tt) (ops ++ [Sync]) = Ok st /\
      reopens B (nextRead host) (fbytes (ws_file st)) (ulawR ch) back (fm CUlaw) 28 (zlen (written ops))
        (map (fun v => back (map (fun x => ulaw2linear (linear2ulaw x)) (conv v))) (written ops))) /\
    (exists st, wrun (alawW ch) conv junk true (nextUpdate (fm CAlaw)) (openWrite (alawW ch) (nextInit (fm CAlaw)) nextFirst cap tt) (ops ++ [Sync]) = Ok st /\
      reopens B (nextRead host) (fbytes (ws_file st)) (alawR ch) back (fm CAlaw) 28 (zlen (written ops))
        (map (fun v => back (map (fun x => alaw2linear (linear2alaw x)) (conv v))) (written ops))).
Proof.
  intros B host ch rate Hc Hr V W conv back junk cap ops fm Hj Hsp Hok Hs Hch Hne.
  assert (Hw : 0 < zlen (written ops)) by (destruct (written ops); [congruence|rewrite zlen_cons; pose proof (zlen_nonneg l); lia]).
  change (2 ^ 32) with 4294967296 in *.
  split.
  - destruct (ulaw_file (W := W) B ch Hc conv back junk (nextUpdate (fm CUlaw)) (nextInit (fm CUlaw)) nextFirst cap ops Hj ltac:(unfold nextFirst; lia)
      (updKeeps_for _ _ _ _ (next_keeps (fm CUlaw))) _ (frontOK_True _ _ _ _ _) Hsp Hok) as (st & f0 & R & Ef & _ & T0 & T1 & T2 & T3 & Fit & RD).
    exists st. split; [exact R|]. specialize (Fit Hne). specialize (RD (or_introl Hne)). set (total := zlen (written ops)) in *.
    destruct (ow_head (fbytes f0) (nextHeader (fm CUlaw) (w_first (ws_track st)) (w_dsize (ws_track st)))) as (rest & Eo).
    assert (Eb : fbytes (ws_file st) = nextHeader (fm CUlaw) nextFirst (ch * total) ++ rest).
    { rewrite Ef at 1. unfold nextUpdate, fwrite, fseek. cbn [fbytes fpos]. rewrite Eo, T0, T2. reflexivity. }
    destruct (next_read_header host (fm CUlaw) (ch * total) (fbytes (ws_file st)) rest Eb) as (f' & RH); auto; try (change (2 ^ 32) with 4294967296; nia).
    all: try (cbn; repeat split; auto; lia).
    rewrite computeTotal_exact in RH; [|reflexivity|reflexivity|exact Hc|lia|change (2 ^ 62) with 4611686018427387904; nia].
    exists (ch * total), f'. split; [exact RH|exact RD].
  - destruct (alaw_file (W := W) B ch Hc conv back junk (nextUpdate (fm CAlaw)) (nextInit (fm CAlaw)) nextFirst cap ops Hj ltac:(unfold nextFirst; lia)
      (updKeeps_for _ _ _ _ (next_keeps (fm CAlaw))) _ (frontOK_True _ _ _ _ _) Hsp Hok) as (st & f0 & R & Ef & _ & T0 & T1 & T2 & T3 & Fit & RD).
    exists st. split; [exact R|]. specialize (Fit Hne). specialize (RD (or_introl Hne)). set (total := zlen (written ops)) in *.
    destruct (ow_head (fbytes f0) (nextHeader (fm CAlaw) (w_first (ws_track st)) (w_dsize (ws_track st)))) as (rest & Eo).
    assert (Eb : fbytes (ws_file st) = nextHeader (fm CAlaw) nextFirst (ch * total) ++ rest).
    { rewrite Ef at 1. unfold nextUpdate, fwrite, fseek. cbn [fbytes fpos]. rewrite Eo, T0, T2. reflexivity. }
    destruct (next_read_header host (fm CAlaw) (ch * total) (fbytes (ws_file st)) rest Eb) as (f' & RH); auto; try (change (2 ^ 32) with 4294967296; nia).
    all: try (cbn; repeat split; auto; lia).
    rewrite computeTotal_exact in RH; [|reflexivity|reflexivity|exact Hc|lia|change (2 ^ 62) with 4611686018427387904; nia].
    exists (ch * total), f'. split; [exact RH|exact RD].
Qed.
Print Assumptions C28_next_g711_roundtrip_partial.

Example C28_example :
  nextPCM TwosComp 2 /\ spaced false ([Write [[1; 2]; [3; -4]]; Sync; Write [[-32768; 32767]]] ++ [Sync]) /\
  Forall (fun v => frameOf 2 (fits true 2) v) (written [Write [[1; 2]; [3; -4]]; Sync; Write [[-32768; 32767]]]) /\
  (forall B : Build, exists st f', wrun (pcmW BigEndian 2 2) (fun x => x) [0; 0] true (nextUpdate (mkFmt 44100 TwosComp 16 2 BigEndian CNone 1 4))
      (openWrite (pcmW BigEndian 2 2) (nextInit (mkFmt 44100 TwosComp 16 2 BigEndian CNone 1 4)) nextFirst 1024 tt)
      [Write [[1; 2]; [3; -4]]; Sync; Write [[-32768; 32767]]; Sync] = Ok st /\
    fbytes (ws_file st) = [46;115;110;100; 0;0;0;28; 0;0;0;12; 0;0;0;3; 0;0;172;68; 0;0;0;2; 0;0;0;0; 0;1;0;2; 0;3;255;252; 128;0;127;255] /\
    nextRead LittleEndian (mkFile (fbytes (ws_file st)) 0) = Ok (Some (mkParsed (mkFmt 44100 TwosComp 16 2 BigEndian CNone 1 4) 28 12 3, f'))).
Proof.
  split; [constructor; lia|]. split; [cbn; auto|]. split; [unfold fits; repeat constructor; vm_compute; congruence|].
  intros B. do 2 eexists. split; [vm_compute; reflexivity|]. split; vm_compute; reflexivity.
Qed.

(** A file into which nothing was written: the data offset is 28 but the file has 24 bytes, and the number
    of bytes available is taken modulo 2^32. *)
Theorem C28_next_empty_file_refuted :
  forall B : Build, exists st f',
    let fm := mkFmt 8000 TwosComp 16 1 BigEndian CNone 1 2 in
    wrun (V := list Z) (pcmW BigEndian 2 1) (fun x => x) [0] true (nextUpdate fm) (openWrite (pcmW BigEndian 2 1) (nextInit fm) nextFirst 1024 tt) [Sync] = Ok st /\
    zlen (fbytes (ws_file st)) = 24 /\
    nextRead LittleEndian (mkFile (fbytes (ws_file st)) 0) = Ok (Some (mkParsed fm 28 4294967292 2147483646, f')).
Proof. intros B. do 2 eexists. cbv zeta. split; [vm_compute; reflexivity|]. split; vm_compute; reflexivity. Qed.
Print Assumptions C28_next_empty_file_refuted.

(** Files of 4 GiB and more: the length is stored modulo 2^32 and most of the frames are lost. *)
Theorem C28_next_large_file_refuted :
  forall (B : Build) host ch rate, 0 < ch < 2 ^ 31 -> 0 <= rate < 2 ^ 32 ->
  forall k b rest, let fm := mkFmt rate TwosComp 16 ch host CUlaw 1 ch in
    0 <= k < 2 ^ 32 - 1 -> b = nextHeader fm 28 (2 ^ 32 + k) ++ rest -> 28 + 2 ^ 32 + k <= zlen b ->
    exists f', nextRead host (mkFile b 0) = Ok (Some (mkParsed fm 28 k (computeTotal 0 k fm), f')).
Proof.
  intros B host ch rate Hc Hr k b rest fm Hk Eb Hb. change (2 ^ 32) with 4294967296 in *.
  destruct (next_read_header host fm k b rest) as (f' & E); try (change (2 ^ 32) with 4294967296); auto; try (unfold nextFirst; lia); try (cbn; auto; lia).
  - assert (Q : sampleBytes BigEndian 4 (4294967296 + k) = sampleBytes BigEndian 4 k); [|rewrite Eb; unfold nextHeader; rewrite Q; reflexivity].
    unfold sampleBytes, be_bytes. f_equal. apply le_bytes_mod.
    change (2 ^ (8 * Z.of_nat 4)) with 4294967296. replace (4294967296 + k) with (k + 1 * 4294967296) by lia. apply Z_mod_plus_full.
  - exists f'. exact E.
Qed.
Print Assumptions C28_next_large_file_refuted.
