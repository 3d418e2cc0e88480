(** * C73: sfconvert's output as a file of each format, opened again *)
From Coq Require Import Floats.SpecFloat.
From Verif Require Import Prelude PreludeFacts FileIO Rebuffer Reader ReaderSpec ReaderProofs Writer WriterSpec WriterProofs WriterHistory PropertiesWriter ByteOrder Convert Float FloatValid Arrange ArrangeProofs Rates Memory MemoryProofs Virtual VirtualWrite PropertiesVirtual PropertiesVirtualWrite SfConvert PropertiesSfConvert.
From Verif Require Import Codecs CodecsProofs PropertiesBytes PropertiesBuffers HeaderIO FileRoundTrip PropertiesRoundTrip PropertiesBytesFile PropertiesSfConvertFile.
From Verif Require NeXT AVR IFF IRCAM VOC SampleVision CAF NIST WAVE AIFF PropertiesNeXT PropertiesAVR PropertiesIFF PropertiesIRCAM PropertiesVOC PropertiesSampleVision PropertiesCAF PropertiesNIST PropertiesWAVE PropertiesAIFF.
From Coq Require Import Lia.

(** ** What is converted *)
(** The input: PCM of signed or unsigned integers of 1 to 4 bytes in either byte order ([samePCM], through [sameSamples]: also the
    output's sample format; unsigned 32-bit samples are excluded), of a whole number of Hz. *)
Definition integers (t : ty) : Prop := match t with TI _ | TU _ => True | _ => False end.
Record source (host : order) (inF outF v : Arrange.format) (t : ty) (z : Z) (bytes : list Z) (first total : Z) (junk : frame) : Prop := {
  sr_samples : sameSamples host inF outF t; sr_int : integers t; sr_order : byteOrder v = host; sr_plain : compressed v = false;
  sr_chan : 8 * channelCount inF < 32768; sr_bytes : bytes_ok bytes = true; sr_first : 0 <= first; sr_total : 0 <= total < 2 ^ 31;
  sr_there : first + Z.of_nat (packedSize t) * channelCount inF * total <= zlen bytes; sr_rate : 0 < z < 2 ^ 22; sr_junk : zlen junk = channelCount inF }.
(** The input's frames as numbers. *)
Definition inputFrames (o : order) (t : ty) (ch total : Z) (bytes : list Z) (first : Z) : list (list Z) := map (map val) (pcmFrames o t ch total bytes first).

Lemma inputFrames_fit o t ch total bytes first : integers t -> bytes_ok bytes = true -> 0 < ch -> 0 <= first -> first + Z.of_nat (packedSize t) * ch * total <= zlen bytes -> 0 <= total ->
  Forall (frameOf ch (fits (signedTy t) (packedSize t))) (inputFrames o t ch total bytes first).
Proof.
  intros It. destruct t as [c|c| |]; try contradiction; [apply pcmFrames_fit|].
  intros Hb Hc Hf Hl Ht. unfold inputFrames, pcmFrames. rewrite !map_map, Forall_map. set (k := packedSize (TU c)) in *. assert (K : (1 <= k <= 4)%nat) by (destruct c; cbn; lia).
  assert (Hs : bytes_ok (zskipn first bytes) = true) by (rewrite <- (zfirstn_skipn first bytes) in Hb; unfold bytes_ok in *; rewrite forallb_app in Hb; apply andb_prop in Hb; apply Hb).
  eapply Forall_impl; [|apply chunk_bytes; exact Hs]. intros b Bb. split; [unfold zlen; rewrite !map_length, groups_number; lia|]. rewrite !Forall_map.
  pose proof (group_lens k (Z.to_nat ch) b) as L. pose proof (group_bytes k (Z.to_nat ch) b Bb) as G. rewrite Forall_forall in *. intros g Hg. specialize (L g Hg). specialize (G g Hg). cbn [dec val signedTy fits].
  pose proof (load_range o g G) as R. assert (Zg : 0 <= zlen g <= Z.of_nat k) by (unfold zlen; lia). unfold fits.
  assert (2 ^ (8 * zlen g) <= 2 ^ (8 * Z.of_nat k)) by (apply Z.pow_le_mono_r; lia). lia.
Qed.

(** The conversion is the library's writing of the input's frames in one call. *)
Lemma converted (B : Build) wrapv host inF outF v t z bytes first total junk upd cap hdr ofirst o :
  source host inF outF v t z bytes first total junk -> 0 <= ofirst ->
  let n := packedSize t in let ch := channelCount inF in let frames := inputFrames (byteOrder inF) t ch total bytes first in
  exists st,
    sfconvert wrapv host (pcmIn (byteOrder inF) t ch) (liftW (pcmW o n ch)) junk upd cap inF
      (vopen host (pcmIn (byteOrder inF) t ch) inF (dOfZ z) bytes first total) (yopen (liftW (pcmW o n ch)) cap outF v (dOfZ z) hdr ofirst tt) = Ok (Some (ws_file st)) /\
    wrun (pcmW o n ch) (fun x => x) (map val junk) true upd (openWrite (pcmW o n ch) hdr ofirst cap tt) ([Write frames] ++ [Sync]) = Ok st /\
    written [Write frames] = frames /\ zlen frames = total /\ Forall (frameOf ch (fits (signedTy t) n)) frames /\ zlen (map val junk) = ch /\ spaced false ([Write frames] ++ [Sync]) /\
    1 <= ch /\ (1 <= n <= 4)%nat.
Proof.
  intros [S It Ov Cv Lch Hb Hf Ht Hl Hz Hj] Ho n ch frames. change (2 ^ 31) with 2147483648 in Ht. change (2 ^ 22) with 4194304 in Hz.
  pose proof (p_chan _ _ _ _ (q_in _ _ _ _ S)) as Hc. fold ch in Hc. assert (Hn : (1 <= n <= 4)%nat) by (unfold n; destruct t as [[]|[]| |]; try contradiction; cbn; lia).
  assert (HW : wholeRate (dOfZ z) total). { exists z. split; [reflexivity|]. split; [lia|]. change (2 ^ 53) with 9007199254740992. assert (total * z <= 2147483648 * z) by (apply Z.mul_le_mono_nonneg_r; lia). lia. }
  assert (HR : usualRate (dOfZ z)) by (destruct (dOfZ_normal z) as (m & e & -> & M & E & _); [change (2 ^ 48) with 281474976710656; lia|]; split; [exact M|lia]).
  destruct (C73_same_format_is_lossless B wrapv host inF outF v t (dOfZ z) bytes first total junk upd cap hdr ofirst o n) as (st & S1 & W1); auto; try lia.
  exists st. split; [exact S1|]. split; [exact W1|]. fold ch in W1. split; [unfold written; cbn [map concat]; apply app_nil_r|].
  split; [unfold frames, inputFrames, pcmFrames; rewrite !zlen_map; unfold zlen; rewrite chunksOf_length; lia|].
  split; [apply inputFrames_fit; auto; lia|]. split; [now rewrite zlen_map|]. split; [cbn; auto|]. lia.
Qed.

Lemma ok_same A (a b : A) : Ok a = Ok b -> a = b. Proof. congruence. Qed.
Lemma same_track host inF outF t : sameSamples host inF outF t -> samePCM host outF (g_user (initial host outF)) t.
Proof. intros S. exact (q_out _ _ _ _ S). Qed.
Lemma header_of {R} (fm : formatOf R) host inF t : sameSamples host inF (trackFormat fm t) t -> integers t ->
  f_chan fm = channelCount inF /\ signedTy t = (match f_sf fm with TwosComp => true | _ => false end) /\
  Z.of_nat (packedSize t) = (match f_sf fm with Float => 4 | Double => 8 | _ => Z.quot (f_width fm + 7) 8 end).
Proof.
  intros S I. destruct (track_facts fm host _ t (q_out _ _ _ _ S)) as (E1 & E2 & E3). split; [exact (q_chan _ _ _ _ S)|auto].
Qed.

(** ** The theorems.  In each: [fm] is the header of the output, whose sample format and channels are the input's; sfconvert succeeds, and
    its output opens with that header and gives the input's frames to every sequence of reads and seeks. *)

(** WAVE: 8-bit unsigned, 16, 24 and 32-bit signed. *)
Theorem C73_to_wave_partial :
  forall (B : Build) wrapv host inF v t z bytes first total junk cap fm sgn n, PropertiesWAVE.wavePCM fm sgn n ->
    source host inF (trackFormat fm t) v t z bytes first total junk ->
  forall x0 (xs : wtrack -> WAVE.wextra), PropertiesWAVE.validExtra x0 -> (forall t, PropertiesWAVE.validExtra (xs t) /\ PropertiesWAVE.sameLayout x0 (xs t)) ->
  exists fb, WAVE.fmtBytes fm = Ok fb /\
  forall (W : Type) (back : list Z -> W), let ch := channelCount inF in let ofirst := WAVE.waveFirst fb fm x0 in ofirst + Z.of_nat n * ch * total < 2 ^ 31 ->
    exists out x,
      sfconvert wrapv host (pcmIn (byteOrder inF) t ch) (liftW (pcmW LittleEndian n ch)) junk (fun f t => WAVE.waveUpdate fb fm x0 (xs t) f t) cap inF
        (vopen host (pcmIn (byteOrder inF) t ch) inF (dOfZ z) bytes first total) (yopen (liftW (pcmW LittleEndian n ch)) cap (trackFormat fm t) v (dOfZ z) (WAVE.waveInit fb fm x0) ofirst tt) = Ok (Some out) /\
      PropertiesWAVE.waveReopens B host (fbytes out) (pcmR LittleEndian sgn n ch) back fm x ofirst (Z.of_nat n * ch * total) total (map back (inputFrames (byteOrder inF) t ch total bytes first)).
Proof.
  intros B wrapv host inF v t z bytes first total junk cap fm sgn n P S x0 xs X1 X2.
  destruct (PropertiesWAVE.C35_wave_pcm_roundtrip_partial B host fm sgn n P x0 xs X1 X2) as (fb & FB & H). exists fb. split; [exact FB|].
  intros W back ch ofirst L. destruct (header_of fm host inF t (sr_samples _ _ _ _ _ _ _ _ _ _ S) (sr_int _ _ _ _ _ _ _ _ _ _ S)) as (E0 & E1 & E2).
  assert (EN : n = packedSize t /\ sgn = signedTy t).
  { rewrite E1; destruct P as [c rate m -> -> W1 W2 H1|c rate -> -> -> H1|c rate -> -> -> H1]; cbn [f_sf f_width] in *; [|split; [lia|reflexivity]|split; [lia|reflexivity]].
    unfold m in *. destruct (Z.of_nat n =? 1); cbn [negb]; (split; [|reflexivity]); rewrite Z.quot_div_nonneg in E2 by lia; lia. }
  destruct EN as [EN ES]. assert (Ho : 0 <= ofirst) by (unfold ofirst, WAVE.waveFirst; pose proof (zlen_nonneg (WAVE.waveBody fb fm x0 0 0)); lia).
  destruct (converted B wrapv host inF (trackFormat fm t) v t z bytes first total junk (fun f t => WAVE.waveUpdate fb fm x0 (xs t) f t) cap (WAVE.waveInit fb fm x0) ofirst LittleEndian S Ho) as (st & C1 & C2 & C3 & C4 & C5 & C6 & C7 & C8 & C9).
  rewrite <- EN in *. fold ch in C1, C2, C3, C4, C5, C6, C7.
  destruct (H (list Z) W (fun x => x) back (map val junk) cap [Write (inputFrames (byteOrder inF) t ch total bytes first)]) as (st' & R1 & R2).
  - rewrite E0. exact C6.
  - exact C7.
  - rewrite C3, E0, ES. exact C5.
  - rewrite C3, C4, E0. exact L.
  - rewrite E0 in R1. pose proof (ok_same _ _ _ (eq_trans (eq_sym R1) C2)) as ->. exists (ws_file st), (xs (ws_track st)). split; [exact C1|]. rewrite C3, C4, E0 in R2. exact R2.
Qed.
Print Assumptions C73_to_wave_partial.



(** AIFF and AIFF-C: signed, big-endian. *)
Theorem C73_to_aiff_partial :
  forall (B : Build) wrapv host inF v t z bytes first total junk cap aifc fm sgn n, PropertiesAIFF.aiffPCM host (dOfZ z) aifc fm sgn n ->
    source host inF (trackFormat fm t) v t z bytes first total junk ->
  forall x0 (xs : wtrack -> AIFF.aextra), PropertiesAIFF.validExtra x0 -> (forall t, PropertiesAIFF.validExtra (xs t) /\ PropertiesAIFF.sameLayout x0 (xs t)) ->
  forall (W : Type) (back : list Z -> W), let ch := channelCount inF in let ofirst := AIFF.aiffFirst aifc fm x0 in ofirst + Z.of_nat n * ch * total < 2 ^ 31 ->
    exists out x,
      sfconvert wrapv host (pcmIn (byteOrder inF) t ch) (liftW (pcmW BigEndian n ch)) junk (fun f t => AIFF.aiffUpdate aifc fm (xs t) f t) cap inF
        (vopen host (pcmIn (byteOrder inF) t ch) inF (dOfZ z) bytes first total) (yopen (liftW (pcmW BigEndian n ch)) cap (trackFormat fm t) v (dOfZ z) (AIFF.aiffInit aifc fm x0) ofirst tt) = Ok (Some out) /\
      PropertiesAIFF.aiffReopens B aifc host (fbytes out) (pcmR BigEndian sgn n ch) back fm x ofirst (Z.of_nat n * ch * total) total (map back (inputFrames (byteOrder inF) t ch total bytes first)).
Proof.
  intros B wrapv host inF v t z bytes first total junk cap aifc fm sgn n P S x0 xs X1 X2 W back ch ofirst L.
  destruct (dOfZ_normal z) as (mm & ee & Ez & _); [pose proof (sr_rate _ _ _ _ _ _ _ _ _ _ S) as R; change (2 ^ 22) with 4194304 in R; change (2 ^ 48) with 281474976710656; lia|].
  pose proof (dOfZ_valid z) as V. rewrite Ez in P, V.
  destruct (header_of fm host inF t (sr_samples _ _ _ _ _ _ _ _ _ _ S) (sr_int _ _ _ _ _ _ _ _ _ _ S)) as (E0 & E1 & E2).
  assert (EN : n = packedSize t /\ sgn = signedTy t) by (rewrite E1; destruct P as [w c -> -> W1 W2 H1|c _ -> -> -> H1|c _ -> -> -> H1]; cbn [f_sf f_width] in *; (split; [|reflexivity]); try lia; rewrite Z.quot_div_nonneg in E2 by lia; lia).
  destruct EN as [EN ES]. assert (Ho : 0 <= ofirst) by (unfold ofirst, AIFF.aiffFirst; pose proof (zlen_nonneg (AIFF.aiffBody aifc fm x0 0 0)); lia).
  destruct (converted B wrapv host inF (trackFormat fm t) v t z bytes first total junk (fun f t => AIFF.aiffUpdate aifc fm (xs t) f t) cap (AIFF.aiffInit aifc fm x0) ofirst BigEndian S Ho) as (st & C1 & C2 & C3 & C4 & C5 & C6 & C7 & C8 & C9).
  rewrite <- EN in *. fold ch in C1, C2, C3, C4, C5, C6, C7.
  destruct (PropertiesAIFF.C36_aiff_pcm_roundtrip_partial B host aifc false mm ee fm sgn n V P x0 xs X1 X2 (list Z) W (fun x => x) back (map val junk) cap [Write (inputFrames (byteOrder inF) t ch total bytes first)]) as (st' & R1 & R2).
  - rewrite E0. exact C6.
  - exact C7.
  - rewrite C3, E0, ES. exact C5.
  - rewrite C3, C4, E0. exact L.
  - rewrite E0 in R1. pose proof (ok_same _ _ _ (eq_trans (eq_sym R1) C2)) as ->. exists (ws_file st), (xs (ws_track st)). split; [exact C1|]. rewrite C3, C4, E0 in R2. exact R2.
Qed.
Print Assumptions C73_to_aiff_partial.

(** CAF: signed, in either byte order. *)
Theorem C73_to_caf_partial :
  forall (B : Build) wrapv host inF v t z bytes first total junk cap o fm sgn n, PropertiesCAF.cafPCM (dOfZ z) o fm sgn n ->
    source host inF (trackFormat fm t) v t z bytes first total junk ->
  forall (W : Type) (back : list Z -> W), let ch := channelCount inF in 68 + Z.of_nat n * ch * total < 2 ^ 31 ->
    exists out,
      sfconvert wrapv host (pcmIn (byteOrder inF) t ch) (liftW (pcmW o n ch)) junk CAF.cafUpdate cap inF
        (vopen host (pcmIn (byteOrder inF) t ch) inF (dOfZ z) bytes first total) (yopen (liftW (pcmW o n ch)) cap (trackFormat fm t) v (dOfZ z) (CAF.cafInit fm) CAF.cafFirst tt) = Ok (Some out) /\
      PropertiesCAF.cafReopens B host (fbytes out) (pcmR o sgn n ch) back fm total (map back (inputFrames (byteOrder inF) t ch total bytes first)).
Proof.
  intros B wrapv host inF v t z bytes first total junk cap o fm sgn n P S W back ch L.
  destruct (header_of fm host inF t (sr_samples _ _ _ _ _ _ _ _ _ _ S) (sr_int _ _ _ _ _ _ _ _ _ _ S)) as (E0 & E1 & E2).
  assert (EN : n = packedSize t /\ sgn = signedTy t) by (rewrite E1; destruct P as [w c -> -> W1 W2 H1 H2|c -> -> -> H1 H2|c -> -> -> H1 H2]; cbn [f_sf f_width] in *; (split; [|reflexivity]); try lia; rewrite Z.quot_div_nonneg in E2 by lia; lia).
  destruct EN as [EN ES].
  destruct (converted B wrapv host inF (trackFormat fm t) v t z bytes first total junk CAF.cafUpdate cap (CAF.cafInit fm) CAF.cafFirst o S ltac:(vm_compute; congruence)) as (st & C1 & C2 & C3 & C4 & C5 & C6 & C7 & C8 & C9).
  rewrite <- EN in *. fold ch in C1, C2, C3, C4, C5, C6, C7.
  destruct (PropertiesCAF.C37_caf_pcm_roundtrip_partial B host (dOfZ z) o fm sgn n P (dOfZ_valid z) (list Z) W (fun x => x) back (map val junk) cap [Write (inputFrames (byteOrder inF) t ch total bytes first)]) as (st' & R1 & R2).
  - rewrite E0. exact C6.
  - exact C7.
  - rewrite C3, E0, ES. exact C5.
  - rewrite C3, C4, E0. exact L.
  - rewrite E0 in R1. pose proof (ok_same _ _ _ (eq_trans (eq_sym R1) C2)) as ->. exists (ws_file st). split; [exact C1|]. rewrite C3, C4, E0 in R2. exact R2.
Qed.
Print Assumptions C73_to_caf_partial.

(** NeXT: signed, big-endian. *)
Theorem C73_to_next_file_partial :
  forall (B : Build) wrapv host inF v t z bytes first total junk cap sf n, PropertiesNeXT.nextPCM sf n -> let ch := channelCount inF in
    let fm := mkFmt z sf (8 * Z.of_nat n) ch BigEndian CNone 1 (Z.of_nat n * ch) in
    source host inF (trackFormat fm t) v t z bytes first total junk ->
  forall (W : Type) (back : list Z -> W), 0 < total -> 28 + Z.of_nat n * ch * total < 2 ^ 31 -> 
    exists out,
      sfconvert wrapv host (pcmIn (byteOrder inF) t ch) (liftW (pcmW BigEndian n ch)) junk (NeXT.nextUpdate fm) cap inF
        (vopen host (pcmIn (byteOrder inF) t ch) inF (dOfZ z) bytes first total) (yopen (liftW (pcmW BigEndian n ch)) cap (trackFormat fm t) v (dOfZ z) (NeXT.nextInit fm) NeXT.nextFirst tt) = Ok (Some out) /\
      FileRoundTrip.reopens B (NeXT.nextRead host) (fbytes out) (pcmR BigEndian (signedTy t) n ch) back fm 28 total (map back (inputFrames (byteOrder inF) t ch total bytes first)).
Proof.
  intros B wrapv host inF v t z bytes first total junk cap sf n P ch fm S W back T L.
  pose proof (sr_rate _ _ _ _ _ _ _ _ _ _ S) as RR. change (2 ^ 22) with 4194304 in RR.
  destruct (header_of fm host inF t (sr_samples _ _ _ _ _ _ _ _ _ _ S) (sr_int _ _ _ _ _ _ _ _ _ _ S)) as (E0 & E1 & E2). cbn [f_sf f_width f_chan fm] in E0, E1, E2.
  assert (EN : n = packedSize t) by (destruct P; try lia; rewrite Z.quot_div_nonneg in E2 by lia; lia).
  destruct (converted B wrapv host inF (trackFormat fm t) v t z bytes first total junk (NeXT.nextUpdate fm) cap (NeXT.nextInit fm) NeXT.nextFirst BigEndian S ltac:(vm_compute; congruence)) as (st & C1 & C2 & C3 & C4 & C5 & C6 & C7 & C8 & C9).
  rewrite <- EN in *. fold ch in C1, C2, C3, C4, C5, C6, C7, C8. change (2 ^ 24) with 16777216 in *. change (2 ^ 32) with 4294967296 in *.
  assert (SP : exists st', wrun (pcmW BigEndian n ch) (fun x => x) (map val junk) true (NeXT.nextUpdate fm) (openWrite (pcmW BigEndian n ch) (NeXT.nextInit fm) NeXT.nextFirst cap tt) ([Write (inputFrames (byteOrder inF) t ch total bytes first)] ++ [Sync]) = Ok st' /\
    FileRoundTrip.reopens B (NeXT.nextRead host) (fbytes (ws_file st')) (pcmR BigEndian (signedTy t) n ch) back fm 28 total (map back (inputFrames (byteOrder inF) t ch total bytes first))).
  { destruct (PropertiesNeXT.C28_next_pcm_roundtrip_partial B host sf n ch z P ltac:(lia) ltac:(lia) (list Z) W (fun x => x) back (map val junk) cap [Write (inputFrames (byteOrder inF) t ch total bytes first)]) as (st' & R1 & R2).
    + exact C6.
    + exact C7.
    + rewrite C3, <- E1. exact C5.
    + rewrite C3, C4. exact L.
    + rewrite C3. intros E. rewrite E in C4. change (zlen (@nil (list Z))) with 0 in C4. lia.
    + exists st'. split; [exact R1|]. rewrite C3, C4, <- E1 in R2. exact R2. }
  destruct SP as (st' & R1 & R2). pose proof (ok_same _ _ _ (eq_trans (eq_sym R1) C2)) as ->. exists (ws_file st). split; [exact C1|exact R2].
Qed.
Print Assumptions C73_to_next_file_partial.

(** AVR: mono and stereo, 8 and 16 bits, signed and unsigned. *)
Theorem C73_to_avr_file_partial :
  forall (B : Build) wrapv host inF v t z bytes first total junk cap sf n name, PropertiesAVR.avrPCM sf n -> channelCount inF = 1 \/ channelCount inF = 2 -> zlen name = 8 -> let ch := channelCount inF in
    let fm := mkFmt z sf (8 * Z.of_nat n) ch BigEndian CNone 1 (Z.of_nat n * ch) in
    source host inF (trackFormat fm t) v t z bytes first total junk ->
  forall (W : Type) (back : list Z -> W), 128 + Z.of_nat n * ch * total < 2 ^ 31 -> 
    exists out,
      sfconvert wrapv host (pcmIn (byteOrder inF) t ch) (liftW (pcmW BigEndian n ch)) junk AVR.avrUpdate cap inF
        (vopen host (pcmIn (byteOrder inF) t ch) inF (dOfZ z) bytes first total) (yopen (liftW (pcmW BigEndian n ch)) cap (trackFormat fm t) v (dOfZ z) (AVR.avrInit name fm) AVR.avrFirst tt) = Ok (Some out) /\
      FileRoundTrip.reopens B AVR.avrRead (fbytes out) (pcmR BigEndian (signedTy t) n ch) back fm 128 total (map back (inputFrames (byteOrder inF) t ch total bytes first)).
Proof.
  intros B wrapv host inF v t z bytes first total junk cap sf n name P Cc Nm ch fm S W back L.
  pose proof (sr_rate _ _ _ _ _ _ _ _ _ _ S) as RR. change (2 ^ 22) with 4194304 in RR.
  destruct (header_of fm host inF t (sr_samples _ _ _ _ _ _ _ _ _ _ S) (sr_int _ _ _ _ _ _ _ _ _ _ S)) as (E0 & E1 & E2). cbn [f_sf f_width f_chan fm] in E0, E1, E2.
  assert (EN : n = packedSize t) by (destruct P; try lia; rewrite Z.quot_div_nonneg in E2 by lia; lia).
  destruct (converted B wrapv host inF (trackFormat fm t) v t z bytes first total junk AVR.avrUpdate cap (AVR.avrInit name fm) AVR.avrFirst BigEndian S ltac:(vm_compute; congruence)) as (st & C1 & C2 & C3 & C4 & C5 & C6 & C7 & C8 & C9).
  rewrite <- EN in *. fold ch in C1, C2, C3, C4, C5, C6, C7, C8. change (2 ^ 24) with 16777216 in *. change (2 ^ 32) with 4294967296 in *.
  assert (SP : exists st', wrun (pcmW BigEndian n ch) (fun x => x) (map val junk) true AVR.avrUpdate (openWrite (pcmW BigEndian n ch) (AVR.avrInit name fm) AVR.avrFirst cap tt) ([Write (inputFrames (byteOrder inF) t ch total bytes first)] ++ [Sync]) = Ok st' /\
    FileRoundTrip.reopens B AVR.avrRead (fbytes (ws_file st')) (pcmR BigEndian (signedTy t) n ch) back fm 128 total (map back (inputFrames (byteOrder inF) t ch total bytes first))).
  { destruct (PropertiesAVR.C29_avr_roundtrip_partial B sf n ch z name P Cc ltac:(lia) Nm (list Z) W (fun x => x) back (map val junk) cap [Write (inputFrames (byteOrder inF) t ch total bytes first)]) as (st' & R1 & R2).
    + exact C6.
    + exact C7.
    + rewrite C3, <- E1. exact C5.
    + rewrite C3, C4. exact L.
    + exists st'. split; [exact R1|]. rewrite C3, C4, <- E1 in R2. exact R2. }
  destruct SP as (st' & R1 & R2). pose proof (ok_same _ _ _ (eq_trans (eq_sym R1) C2)) as ->. exists (ws_file st). split; [exact C1|exact R2].
Qed.
Print Assumptions C73_to_avr_file_partial.

(** VOC: unsigned 8-bit, signed 16-bit. *)
Theorem C73_to_voc_file_partial :
  forall (B : Build) wrapv host inF v t z bytes first total junk cap sf n, PropertiesVOC.vocPCM sf n -> channelCount inF < 256 -> let ch := channelCount inF in
    let fm := mkFmt z sf (8 * Z.of_nat n) ch LittleEndian CNone 1 (Z.of_nat n * ch) in
    source host inF (trackFormat fm t) v t z bytes first total junk ->
  forall (W : Type) (back : list Z -> W), Z.of_nat n * ch * total + 12 < 2 ^ 24 -> 
    exists out,
      sfconvert wrapv host (pcmIn (byteOrder inF) t ch) (liftW (pcmW LittleEndian n ch)) junk (VOC.vocUpdate fm) cap inF
        (vopen host (pcmIn (byteOrder inF) t ch) inF (dOfZ z) bytes first total) (yopen (liftW (pcmW LittleEndian n ch)) cap (trackFormat fm t) v (dOfZ z) (VOC.vocInit fm) VOC.vocFirst tt) = Ok (Some out) /\
      PropertiesVOC.vocReopens B host (fbytes out) (pcmR LittleEndian (signedTy t) n ch) back fm total (map back (inputFrames (byteOrder inF) t ch total bytes first)).
Proof.
  intros B wrapv host inF v t z bytes first total junk cap sf n P Cc ch fm S W back L.
  pose proof (sr_rate _ _ _ _ _ _ _ _ _ _ S) as RR. change (2 ^ 22) with 4194304 in RR.
  destruct (header_of fm host inF t (sr_samples _ _ _ _ _ _ _ _ _ _ S) (sr_int _ _ _ _ _ _ _ _ _ _ S)) as (E0 & E1 & E2). cbn [f_sf f_width f_chan fm] in E0, E1, E2.
  assert (EN : n = packedSize t) by (destruct P; try lia; rewrite Z.quot_div_nonneg in E2 by lia; lia).
  destruct (converted B wrapv host inF (trackFormat fm t) v t z bytes first total junk (VOC.vocUpdate fm) cap (VOC.vocInit fm) VOC.vocFirst LittleEndian S ltac:(vm_compute; congruence)) as (st & C1 & C2 & C3 & C4 & C5 & C6 & C7 & C8 & C9).
  rewrite <- EN in *. fold ch in C1, C2, C3, C4, C5, C6, C7, C8. change (2 ^ 24) with 16777216 in *. change (2 ^ 32) with 4294967296 in *.
  assert (SP : exists st', wrun (pcmW LittleEndian n ch) (fun x => x) (map val junk) true (VOC.vocUpdate fm) (openWrite (pcmW LittleEndian n ch) (VOC.vocInit fm) VOC.vocFirst cap tt) ([Write (inputFrames (byteOrder inF) t ch total bytes first)] ++ [Sync]) = Ok st' /\
    PropertiesVOC.vocReopens B host (fbytes (ws_file st')) (pcmR LittleEndian (signedTy t) n ch) back fm total (map back (inputFrames (byteOrder inF) t ch total bytes first))).
  { destruct (PropertiesVOC.C32_voc_pcm_roundtrip_partial B host sf n ch z P ltac:(lia) ltac:(lia) (list Z) W (fun x => x) back (map val junk) cap [Write (inputFrames (byteOrder inF) t ch total bytes first)]) as (_ & st' & R1 & R2).
    + exact C6.
    + exact C7.
    + rewrite C3, <- E1. exact C5.
    + rewrite C3, C4. exact L.
    + exists st'. split; [exact R1|]. rewrite C3, C4, <- E1 in R2. exact R2. }
  destruct SP as (st' & R1 & R2). pose proof (ok_same _ _ _ (eq_trans (eq_sym R1) C2)) as ->. exists (ws_file st). split; [exact C1|exact R2].
Qed.
Print Assumptions C73_to_voc_file_partial.

(** ** Examples *)
(** Four stereo frames of 16-bit little-endian PCM at 44.1 kHz, to the samples of a WAVE file: the conditions of [C73_to_wave_partial]
    hold of it, and of the same converted to AIFF samples. *)
Definition exWave : HeaderIO.format := mkFmt 44100 TwosComp 16 2 LittleEndian CNone 1 4.
Definition exNext : HeaderIO.format := mkFmt 44100 TwosComp 16 2 BigEndian CNone 1 4.
Lemma ex_source fm : fm = exWave \/ fm = exNext -> source LittleEndian exStereo (trackFormat fm (TI kInt16)) exStereo (TI kInt16) 44100 exBytes 0 4 [SI kInt16 0; SI kInt16 0].
Proof.
  intros H. constructor; try (vm_compute; intuition congruence). destruct H as [-> | ->]; constructor; try reflexivity; constructor; try reflexivity; try (cbn; lia); discriminate.
Qed.
Example C73_to_wave_example :
  PropertiesWAVE.wavePCM exWave true 2 /\ source LittleEndian exStereo (trackFormat exWave (TI kInt16)) exStereo (TI kInt16) 44100 exBytes 0 4 [SI kInt16 0; SI kInt16 0] /\
  (let x := WAVE.WExtra [] [] in PropertiesWAVE.validExtra x /\ PropertiesWAVE.sameLayout x x /\ exists fb, WAVE.fmtBytes exWave = Ok fb /\ WAVE.waveFirst fb exWave x + Z.of_nat 2 * channelCount exStereo * 4 < 2 ^ 31) /\
  inputFrames LittleEndian (TI kInt16) 2 4 exBytes 0 = [[1; 3]; [5; 7]; [9; 11]; [13; 15]].
Proof.
  split; [eapply (PropertiesWAVE.WP_int _ _ _ 2 44100); try reflexivity; cbn; lia|]. split; [apply ex_source; auto|]. split; [|reflexivity].
  cbv zeta. split; [repeat split; constructor|]. split; [split; reflexivity|]. eexists. split; [reflexivity|vm_compute; reflexivity].
Qed.
Example C73_to_next_file_example :
  PropertiesNeXT.nextPCM TwosComp 2 /\ source LittleEndian exStereo (trackFormat exNext (TI kInt16)) exStereo (TI kInt16) 44100 exBytes 0 4 [SI kInt16 0; SI kInt16 0] /\ 28 + Z.of_nat 2 * channelCount exStereo * 4 < 2 ^ 31.
Proof. split; [constructor; lia|]. split; [apply ex_source; auto|vm_compute; reflexivity]. Qed.
