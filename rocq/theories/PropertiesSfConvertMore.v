(** * C73: sfconvert's output as an IFF/8SVX, IRCAM, SampleVision or NIST file, opened again *)
From Coq Require Import Floats.SpecFloat.
From Verif Require Import Prelude PreludeFacts FileIO Rebuffer Reader ReaderSpec ReaderProofs Writer WriterSpec WriterProofs WriterHistory PropertiesWriter ByteOrder Convert Float FloatValid Arrange ArrangeProofs Rates Memory MemoryProofs Virtual VirtualWrite PropertiesVirtual PropertiesVirtualWrite SfConvert PropertiesSfConvert.
From Verif Require Import Codecs CodecsProofs PropertiesBytes PropertiesBuffers HeaderIO FileRoundTrip PropertiesRoundTrip PropertiesBytesFile PropertiesSfConvertFile PropertiesSfConvertFiles.
From Verif Require IFF IRCAM SampleVision NIST PropertiesIFF PropertiesIRCAM PropertiesSampleVision PropertiesNIST.
From Coq Require Import Lia.

(** SampleVision: mono, signed 16-bit little-endian. *)
Theorem C73_to_samplevision_file_partial :
  forall (B : Build) wrapv host inF v t z bytes first total junk cap , 
    let fm := mkFmt z TwosComp 16 1 LittleEndian CNone 1 2 in
    source host inF (trackFormat fm t) v t z bytes first total junk ->
  forall (W : Type) (back : list Z -> W), 116 + 2 * total < 2 ^ 31 ->
    exists out,
      sfconvert wrapv host (pcmIn (byteOrder inF) t 1) (liftW (pcmW LittleEndian 2 1)) junk (SampleVision.smpUpdate z) cap inF
        (vopen host (pcmIn (byteOrder inF) t 1) inF (dOfZ z) bytes first total) (yopen (liftW (pcmW LittleEndian 2 1)) cap (trackFormat fm t) v (dOfZ z) SampleVision.smpInit SampleVision.smpFirst tt) = Ok (Some out) /\
      FileRoundTrip.reopens B (fun f => do r <- SampleVision.smpRead f; Ok (option_map (fun r => (fst (fst r), snd r)) r)) (fbytes out) (pcmR LittleEndian true 2 1) back fm 116 total (map back (inputFrames (byteOrder inF) t 1 total bytes first)).
Proof.
  intros B wrapv host inF v t z bytes first total junk cap  fm S W back L.
  pose proof (sr_rate _ _ _ _ _ _ _ _ _ _ S) as RR. change (2 ^ 22) with 4194304 in RR.
  destruct (header_of fm host inF t (sr_samples _ _ _ _ _ _ _ _ _ _ S) (sr_int _ _ _ _ _ _ _ _ _ _ S)) as (E0 & E1 & E2). cbn [f_sf f_width f_chan fm] in E0, E1, E2.
  assert (EN : 2%nat = packedSize t) by (change (Z.quot (16 + 7) 8) with 2 in E2; lia).
  destruct (converted B wrapv host inF (trackFormat fm t) v t z bytes first total junk (SampleVision.smpUpdate z) cap SampleVision.smpInit SampleVision.smpFirst LittleEndian S ltac:(vm_compute; congruence)) as (st & C1 & C2 & C3 & C4 & C5 & C6 & C7 & C8 & C9).
  rewrite <- EN in *. rewrite <- E0 in *. 
  assert (SP : exists st', wrun (pcmW LittleEndian 2 1) (fun x => x) (map val junk) true (SampleVision.smpUpdate z) (openWrite (pcmW LittleEndian 2 1) SampleVision.smpInit SampleVision.smpFirst cap tt) ([Write (inputFrames (byteOrder inF) t 1 total bytes first)] ++ [Sync]) = Ok st' /\
    FileRoundTrip.reopens B (fun f => do r <- SampleVision.smpRead f; Ok (option_map (fun r => (fst (fst r), snd r)) r)) (fbytes (ws_file st')) (pcmR LittleEndian true 2 1) back fm 116 total (map back (inputFrames (byteOrder inF) t 1 total bytes first))).
  { destruct (PropertiesSampleVision.C33_samplevision_roundtrip_partial B z ltac:(change (2 ^ 32) with 4294967296; lia) (list Z) W (fun x => x) back (map val junk) cap [Write (inputFrames (byteOrder inF) t 1 total bytes first)]) as (st' & f' & R1 & R2 & R3).
    + exact C6.
    + exact C7.
    + rewrite C3, <- E1. exact C5.
    + rewrite C3, C4. exact L.
    + exists st'. split; [exact R1|]. rewrite C3, C4 in R2, R3. exists (2 * total), f'. split; [rewrite R2; reflexivity|exact R3]. }
  destruct SP as (st' & R1 & R2). pose proof (ok_same _ _ _ (eq_trans (eq_sym R1) C2)) as ->. exists (ws_file st). split; [exact C1|exact R2].
Qed.
Print Assumptions C73_to_samplevision_file_partial.

(** IFF/8SVX: mono, signed 8-bit, below 65536 Hz; with any miscellaneous chunks. *)
Theorem C73_to_iff_file_partial :
  forall (B : Build) wrapv host inF v t z bytes first total junk cap ms0 (mss : wtrack -> list (Z * list Z)), z < 2 ^ 16 -> (forall t, PropertiesIFF.iffTypes (mss t) /\ PropertiesIFF.sameSizes ms0 (mss t)) ->
    let fm := mkFmt z TwosComp 8 1 BigEndian CNone 1 1 in
    source host inF (trackFormat fm t) v t z bytes first total junk ->
  forall (W : Type) (back : list Z -> W), IFF.iffFirst z ms0 + total < 2 ^ 31 ->
    exists out tr,
      sfconvert wrapv host (pcmIn (byteOrder inF) t 1) (liftW (pcmW BigEndian 1 1)) junk (fun f t => IFF.iffUpdate z (mss t) f t) cap inF
        (vopen host (pcmIn (byteOrder inF) t 1) inF (dOfZ z) bytes first total) (yopen (liftW (pcmW BigEndian 1 1)) cap (trackFormat fm t) v (dOfZ z) (IFF.iffInit z ms0) (IFF.iffFirst z ms0) tt) = Ok (Some out) /\
      PropertiesIFF.iffReopens B (fbytes out) (pcmR BigEndian true 1 1) back z (mss tr) (IFF.iffFirst z ms0) total (map back (inputFrames (byteOrder inF) t 1 total bytes first)).
Proof.
  intros B wrapv host inF v t z bytes first total junk cap ms0 mss Hz Ms fm S W back L.
  pose proof (sr_rate _ _ _ _ _ _ _ _ _ _ S) as RR. change (2 ^ 22) with 4194304 in RR.
  destruct (header_of fm host inF t (sr_samples _ _ _ _ _ _ _ _ _ _ S) (sr_int _ _ _ _ _ _ _ _ _ _ S)) as (E0 & E1 & E2). cbn [f_sf f_width f_chan fm] in E0, E1, E2.
  assert (EN : 1%nat = packedSize t) by (change (Z.quot (8 + 7) 8) with 1 in E2; lia).
  destruct (converted B wrapv host inF (trackFormat fm t) v t z bytes first total junk (fun f t => IFF.iffUpdate z (mss t) f t) cap (IFF.iffInit z ms0) (IFF.iffFirst z ms0) BigEndian S ltac:(pose proof (zlen_nonneg (IFF.iffBody z ms0 0)); unfold IFF.iffFirst; lia)) as (st & C1 & C2 & C3 & C4 & C5 & C6 & C7 & C8 & C9).
  rewrite <- EN in *. rewrite <- E0 in *. 
  assert (SP : exists st', wrun (pcmW BigEndian 1 1) (fun x => x) (map val junk) true (fun f t => IFF.iffUpdate z (mss t) f t) (openWrite (pcmW BigEndian 1 1) (IFF.iffInit z ms0) (IFF.iffFirst z ms0) cap tt) ([Write (inputFrames (byteOrder inF) t 1 total bytes first)] ++ [Sync]) = Ok st' /\
    PropertiesIFF.iffReopens B (fbytes (ws_file st')) (pcmR BigEndian true 1 1) back z (mss (ws_track st')) (IFF.iffFirst z ms0) total (map back (inputFrames (byteOrder inF) t 1 total bytes first))).
  { destruct (PropertiesIFF.C30_iff_roundtrip_partial B z ltac:(lia) ms0 mss Ms (list Z) W (fun x => x) back (map val junk) cap [Write (inputFrames (byteOrder inF) t 1 total bytes first)]) as (st' & R1 & R2).
    + exact C6.
    + exact C7.
    + rewrite C3, <- E1. exact C5.
    + rewrite C3, C4. exact L.
    + exists st'. split; [exact R1|]. rewrite C3, C4 in R2. exact R2. }
  destruct SP as (st' & R1 & R2). pose proof (ok_same _ _ _ (eq_trans (eq_sym R1) C2)) as ->. exists (ws_file st), (ws_track st). split; [exact C1|exact R2].
Qed.
Print Assumptions C73_to_iff_file_partial.

(** NIST SPHERE: signed, 9 to 16 bits, in either byte order. *)
Theorem C73_to_nist_file_partial :
  forall (B : Build) wrapv host inF v t z bytes first total junk cap o w, 9 <= w <= 16 -> let ch := channelCount inF in
    let fm := mkFmt z TwosComp w ch o CNone 1 (2 * ch) in
    source host inF (trackFormat fm t) v t z bytes first total junk ->
  forall (W : Type) (back : list Z -> W), 1024 + 2 * ch * total < 2 ^ 31 ->
    exists out,
      sfconvert wrapv host (pcmIn (byteOrder inF) t ch) (liftW (pcmW o 2 ch)) junk (NIST.nistUpdate fm) cap inF
        (vopen host (pcmIn (byteOrder inF) t ch) inF (dOfZ z) bytes first total) (yopen (liftW (pcmW o 2 ch)) cap (trackFormat fm t) v (dOfZ z) (NIST.nistInit fm) NIST.nistFirst tt) = Ok (Some out) /\
      FileRoundTrip.reopens B (NIST.nistRead host) (fbytes out) (pcmR o true 2 ch) back fm 1024 total (map back (inputFrames (byteOrder inF) t ch total bytes first)).
Proof.
  intros B wrapv host inF v t z bytes first total junk cap o w Hw ch fm S W back L.
  pose proof (sr_rate _ _ _ _ _ _ _ _ _ _ S) as RR. change (2 ^ 22) with 4194304 in RR.
  destruct (header_of fm host inF t (sr_samples _ _ _ _ _ _ _ _ _ _ S) (sr_int _ _ _ _ _ _ _ _ _ _ S)) as (E0 & E1 & E2). cbn [f_sf f_width f_chan fm] in E0, E1, E2.
  assert (EN : 2%nat = packedSize t) by (rewrite Z.quot_div_nonneg in E2 by lia; lia).
  destruct (converted B wrapv host inF (trackFormat fm t) v t z bytes first total junk (NIST.nistUpdate fm) cap (NIST.nistInit fm) NIST.nistFirst o S ltac:(vm_compute; congruence)) as (st & C1 & C2 & C3 & C4 & C5 & C6 & C7 & C8 & C9).
  rewrite <- EN in *. fold ch in C1, C2, C3, C4, C5, C6, C7, C8. 
  assert (SP : exists st', wrun (pcmW o 2 ch) (fun x => x) (map val junk) true (NIST.nistUpdate fm) (openWrite (pcmW o 2 ch) (NIST.nistInit fm) NIST.nistFirst cap tt) ([Write (inputFrames (byteOrder inF) t ch total bytes first)] ++ [Sync]) = Ok st' /\
    FileRoundTrip.reopens B (NIST.nistRead host) (fbytes (ws_file st')) (pcmR o true 2 ch) back fm 1024 total (map back (inputFrames (byteOrder inF) t ch total bytes first))).
  { destruct (PropertiesNIST.C34_nist_pcm_roundtrip_partial B host o w ch z Hw ltac:(lia) ltac:(pose proof (sr_chan _ _ _ _ _ _ _ _ _ _ S) as SC; fold ch in SC; change (2 ^ 31) with 2147483648; lia) ltac:(change (2 ^ 31) with 2147483648; lia) (list Z) W (fun x => x) back (map val junk) cap [Write (inputFrames (byteOrder inF) t ch total bytes first)]) as (_ & st' & R1 & _ & R2).
    + exact C6.
    + exact C7.
    + rewrite C3, <- E1. exact C5.
    + rewrite C3, C4. exact L.
    + exists st'. split; [exact R1|]. rewrite C3, C4 in R2. exact R2. }
  destruct SP as (st' & R1 & R2). pose proof (ok_same _ _ _ (eq_trans (eq_sym R1) C2)) as ->. exists (ws_file st). split; [exact C1|exact R2].
Qed.
Print Assumptions C73_to_nist_file_partial.

(** IRCAM: signed, 1, 2 or 4 channels, in the host's byte order; [r] is the rate in single precision. *)
Theorem C73_to_ircam_file_partial :
  forall (B : Build) wrapv host inF v t z bytes first total junk cap sf n r hdr, PropertiesIRCAM.ircamPCM sf n -> PropertiesIRCAM.ircamChannels (channelCount inF) -> validF r = true -> toDouble r = dOfZ z -> let ch := channelCount inF in
    let fm := mkFmt (dOfZ z) sf (8 * Z.of_nat n) ch host CNone 1 (Z.of_nat n * ch) in
    source host inF (trackFormat fm t) v t z bytes first total junk ->
  forall (W : Type) (back : list Z -> W), IRCAM.ircamInit host fm = Some hdr -> 1024 + Z.of_nat n * ch * total < 2 ^ 31 ->
    exists out,
      sfconvert wrapv host (pcmIn (byteOrder inF) t ch) (liftW (pcmW host n ch)) junk IRCAM.ircamUpdate cap inF
        (vopen host (pcmIn (byteOrder inF) t ch) inF (dOfZ z) bytes first total) (yopen (liftW (pcmW host n ch)) cap (trackFormat fm t) v (dOfZ z) hdr IRCAM.ircamFirst tt) = Ok (Some out) /\
      FileRoundTrip.reopens B (IRCAM.ircamRead host) (fbytes out) (pcmR host (signedTy t) n ch) back fm 1024 total (map back (inputFrames (byteOrder inF) t ch total bytes first)).
Proof.
  intros B wrapv host inF v t z bytes first total junk cap sf n r hdr P Cc V TD ch fm S W back HI L.
  pose proof (sr_rate _ _ _ _ _ _ _ _ _ _ S) as RR. change (2 ^ 22) with 4194304 in RR.
  destruct (header_of fm host inF t (sr_samples _ _ _ _ _ _ _ _ _ _ S) (sr_int _ _ _ _ _ _ _ _ _ _ S)) as (E0 & E1 & E2). cbn [f_sf f_width f_chan fm] in E0, E1, E2.
  assert (EN : n%nat = packedSize t) by (destruct P; try lia; rewrite Z.quot_div_nonneg in E2 by lia; lia).
  destruct (converted B wrapv host inF (trackFormat fm t) v t z bytes first total junk IRCAM.ircamUpdate cap hdr IRCAM.ircamFirst host S ltac:(vm_compute; congruence)) as (st & C1 & C2 & C3 & C4 & C5 & C6 & C7 & C8 & C9).
  rewrite <- EN in *. fold ch in C1, C2, C3, C4, C5, C6, C7, C8. 
  assert (SP : exists st', wrun (pcmW host n ch) (fun x => x) (map val junk) true IRCAM.ircamUpdate (openWrite (pcmW host n ch) hdr IRCAM.ircamFirst cap tt) ([Write (inputFrames (byteOrder inF) t ch total bytes first)] ++ [Sync]) = Ok st' /\
    FileRoundTrip.reopens B (IRCAM.ircamRead host) (fbytes (ws_file st')) (pcmR host (signedTy t) n ch) back fm 1024 total (map back (inputFrames (byteOrder inF) t ch total bytes first))).
  { destruct (PropertiesIRCAM.C31_ircam_pcm_roundtrip_partial B host sf n ch r P Cc V (list Z) W (fun x => x) back (map val junk) cap [Write (inputFrames (byteOrder inF) t ch total bytes first)]) as (hdr' & st' & I1 & R1 & R2).
    + exact C6.
    + exact C7.
    + rewrite C3, <- E1. exact C5.
    + rewrite C3, C4. exact L.
    + rewrite TD in I1, R2. assert (hdr' = hdr) as -> by (fold fm in I1; congruence). exists st'. split; [exact R1|]. rewrite C3, C4, <- E1 in R2. exact R2. }
  destruct SP as (st' & R1 & R2). pose proof (ok_same _ _ _ (eq_trans (eq_sym R1) C2)) as ->. exists (ws_file st). split; [exact C1|exact R2].
Qed.
Print Assumptions C73_to_ircam_file_partial.

(** ** Examples *)
(** Mono PCM of 16 bits for SampleVision and NIST, of 8 bits for IFF; IRCAM's rate 44100 Hz is a single-precision number. *)
Definition monoOf (w : Z) (c : intcode) : Arrange.format := {| sampleFormat := TWOSCOMP; sampleWidth := w; channelCount := 1; byteOrder := LittleEndian; compressed := false; pcm := signedMapping c |}.
Definition exSamples : list Z := [1; 0; 3; 0; 255; 255; 7; 0].
Example C73_more_example :
  source LittleEndian (monoOf 16 kInt16) (trackFormat (mkFmt 44100 TwosComp 16 1 LittleEndian CNone 1 2) (TI kInt16)) (monoOf 16 kInt16) (TI kInt16) 44100 exSamples 0 4 [SI kInt16 0] /\
  source LittleEndian (monoOf 8 kInt8) (trackFormat (mkFmt 44100 TwosComp 8 1 BigEndian CNone 1 1) (TI kInt8)) (monoOf 8 kInt8) (TI kInt8) 44100 exSamples 0 8 [SI kInt8 0] /\
  inputFrames LittleEndian (TI kInt16) 1 4 exSamples 0 = [[1]; [3]; [-1]; [7]] /\
  (exists r, validF r = true /\ toDouble r = dOfZ 44100 /\ exists hdr, IRCAM.ircamInit LittleEndian (mkFmt (dOfZ 44100) TwosComp 16 1 LittleEndian CNone 1 2) = Some hdr).
Proof.
  split; [constructor; try (vm_compute; intuition congruence); constructor; try reflexivity; constructor; try reflexivity; try (cbn; lia); discriminate|].
  split; [constructor; try (vm_compute; intuition congruence); constructor; try reflexivity; constructor; try reflexivity; try (cbn; lia); discriminate|].
  split; [vm_compute; reflexivity|]. exists (S754_finite false (44100 * 2 ^ 8) (-8)). split; [vm_compute; reflexivity|]. split; [vm_compute; reflexivity|]. eexists. vm_compute. reflexivity.
Qed.
