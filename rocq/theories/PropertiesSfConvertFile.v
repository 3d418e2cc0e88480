(** * C73, to the end: a file converted by sfconvert, opened again *)
From Coq Require Import Floats.SpecFloat.
From Verif Require Import Prelude PreludeFacts FileIO Rebuffer Reader ReaderSpec ReaderProofs Writer WriterSpec WriterProofs WriterHistory PropertiesWriter ByteOrder Convert Float Arrange ArrangeProofs Rates Memory MemoryProofs Virtual VirtualWrite PropertiesVirtual PropertiesVirtualWrite SfConvert PropertiesSfConvert.
From Verif Require Import Codecs CodecsProofs PropertiesBytes PropertiesBuffers FileRoundTrip PropertiesRoundTrip.
From Verif Require HeaderIO NeXT PropertiesNeXT.
From Coq Require Import Lia.

(** The frames of a PCM file: the sample of channel [j] of frame [i] is the number in its bytes. *)
Definition pcmFrames (o : order) (t : ty) (ch total : Z) (bytes : list Z) (first : Z) : list frame :=
  map (fun b => map (dec o t) (groups (packedSize t) (Z.to_nat ch) b)) (chunksOf (Z.to_nat total) (Z.of_nat (packedSize t) * ch) (zskipn first bytes)).

Lemma pcmFrames_fit o c ch total bytes first : bytes_ok bytes = true -> 0 < ch -> 0 <= first -> first + Z.of_nat (packedSize (TI c)) * ch * total <= zlen bytes -> 0 <= total ->
  Forall (frameOf ch (fits true (packedSize (TI c)))) (map (map val) (pcmFrames o (TI c) ch total bytes first)).
Proof.
  intros Hb Hc Hf Hl Ht. unfold pcmFrames. rewrite !map_map, Forall_map. set (k := packedSize (TI c)) in *. assert (K : (1 <= k <= 4)%nat) by (destruct c; cbn; lia).
  assert (Hs : bytes_ok (zskipn first bytes) = true) by (rewrite <- (zfirstn_skipn first bytes) in Hb; unfold bytes_ok in *; rewrite forallb_app in Hb; apply andb_prop in Hb; apply Hb).
  eapply Forall_impl; [|apply chunk_bytes; exact Hs]. intros b Bb. split; [unfold zlen; rewrite !map_length, groups_number; lia|]. rewrite !Forall_map.
  pose proof (group_lens k (Z.to_nat ch) b) as L. pose proof (group_bytes k (Z.to_nat ch) b Bb) as G. rewrite Forall_forall in *. intros g Hg. specialize (L g Hg). specialize (G g Hg). cbn [dec val fits].
  pose proof (load_range o g G) as R. assert (Zg : 0 <= zlen g <= Z.of_nat k) by (unfold zlen; lia). destruct (Z.eq_dec (zlen g) 0) as [E0|E0].
  - rewrite E0 in *. change (8 * 0) with 0 in *. change (2 ^ 0) with 1 in R. replace (load o g) with 0 by lia. change (sN 0 0) with 0. unfold fits. assert (0 < 2 ^ (8 * Z.of_nat k - 1)) by (apply Z.pow_pos_nonneg; lia). lia.
  - pose proof (sN_range (8 * zlen g) (load o g) ltac:(lia)) as S. unfold fits. assert (2 ^ (8 * zlen g - 1) <= 2 ^ (8 * Z.of_nat k - 1)) by (apply Z.pow_le_mono_r; lia). lia.
Qed.

(** Signed PCM of 1, 2, 3 or 4 bytes, of either byte order, converted to a NeXT file with the same sample format, on either
    machine: sfconvert succeeds; its output opens as a NeXT file with the input's channels and rate, and every sequence of
    reads and seeks gives the input's frames. *)
Theorem C73_to_next_partial :
  forall (B : Build) wrapv host inF outF v c z bytes first total junk cap (W : Type) (back : list Z -> W),
    let t := TI c in let n := packedSize t in let ch := channelCount inF in
    let fm := HeaderIO.mkFmt z HeaderIO.TwosComp (8 * Z.of_nat n) ch BigEndian HeaderIO.CNone 1 (Z.of_nat n * ch) in
    sameSamples host inF outF t -> byteOrder v = host -> compressed v = false -> 8 * ch < 32768 ->
    bytes_ok bytes = true -> 0 <= first -> 0 < total -> first + Z.of_nat n * ch * total <= zlen bytes -> 28 + Z.of_nat n * ch * total < 2 ^ 31 -> 
    0 < z < 2 ^ 22 -> zlen junk = ch ->
    exists out,
      sfconvert wrapv host (pcmIn (byteOrder inF) t ch) (liftW (pcmW BigEndian n ch)) junk (NeXT.nextUpdate fm) cap inF
        (vopen host (pcmIn (byteOrder inF) t ch) inF (dOfZ z) bytes first total) (yopen (liftW (pcmW BigEndian n ch)) cap outF v (dOfZ z) (NeXT.nextInit fm) NeXT.nextFirst tt) = Ok (Some out) /\
      reopens B (NeXT.nextRead host) (fbytes out) (pcmR BigEndian true n ch) back fm 28 total (map (fun fr => back (map val fr)) (pcmFrames (byteOrder inF) t ch total bytes first)).
Proof.
  intros B wrapv host inF outF v c z bytes first total junk cap W back t n ch fm S Ov Cv Lch Hb Hf Ht Hl Hs Hz Hj.
  pose proof (p_chan _ _ _ _ (q_in _ _ _ _ S)) as Hc. fold ch in Hc. assert (Hn : (1 <= n <= 4)%nat) by (unfold n, t; destruct c; cbn; lia). assert (P : 1 * total <= Z.of_nat n * ch * total) by (apply Z.mul_le_mono_nonneg_r; nia).
  change (2 ^ 31) with 2147483648 in Hs. change (2 ^ 22) with 4194304 in Hz.
  assert (HW : wholeRate (dOfZ z) total). { exists z. split; [reflexivity|]. split; [lia|]. change (2 ^ 53) with 9007199254740992. assert (total * z <= 2147483648 * z) by (apply Z.mul_le_mono_nonneg_r; lia). lia. }
  assert (HR : usualRate (dOfZ z)) by (destruct (dOfZ_normal z) as (m & e & -> & M & E & _); [change (2 ^ 48) with 281474976710656; lia|]; split; [exact M|lia]).
  destruct (C73_same_format_is_lossless B wrapv host inF outF v t (dOfZ z) bytes first total junk (NeXT.nextUpdate fm) cap (NeXT.nextInit fm) NeXT.nextFirst BigEndian n) as (st & S1 & W1); auto; try lia.
  - unfold NeXT.nextFirst. lia.
  - fold ch in W1. change (map _ (chunksOf _ _ _)) with (pcmFrames (byteOrder inF) t ch total bytes first) in W1. set (frames := pcmFrames (byteOrder inF) t ch total bytes first) in *.
    assert (Lf : zlen (map (map val) frames) = total) by (unfold frames, pcmFrames; rewrite !zlen_map; unfold zlen; rewrite chunksOf_length; lia).
    pose proof (pcmFrames_fit (byteOrder inF) c ch total bytes first Hb ltac:(lia) Hf Hl ltac:(lia)) as FF. fold t in FF. fold n in FF. fold frames in FF. clearbody frames.
    assert (Ew : written [Write (map (map val) frames)] = map (map val) frames) by (unfold written; cbn [map concat]; apply app_nil_r).
    destruct (PropertiesNeXT.C28_next_pcm_roundtrip_partial B host HeaderIO.TwosComp n ch z ltac:(constructor; exact Hn) ltac:(lia) ltac:(lia) (list Z) W (fun x => x) back (map val junk) cap [Write (map (map val) frames)]) as (st' & W2 & R); auto.
    + now rewrite zlen_map.
    + cbn. auto.
    + rewrite Ew. exact FF.
    + rewrite Ew, Lf. exact Hs.
    + rewrite Ew. intros E0. rewrite E0 in Lf. change (zlen (@nil (list Z))) with 0 in Lf. lia.
    + cbn [app] in W2.
      exists (ws_file st). split; [exact S1|]. fold fm in W2. assert (st' = st) as -> by (unfold ch in *; congruence).
      rewrite Ew, Lf, map_map in R. exact R.
Qed.
Print Assumptions C73_to_next_partial.

Example C73_to_next_example :
  sameSamples LittleEndian exStereo exBig (TI kInt16) /\ bytes_ok exBytes = true /\ 0 + 2 * 2 * 4 <= zlen exBytes /\ map (map val) (pcmFrames LittleEndian (TI kInt16) 2 4 exBytes 0) = [[1; 3]; [5; 7]; [9; 11]; [13; 15]].
Proof. split; [apply C73_example_same|]. repeat split; vm_compute; congruence. Qed.
