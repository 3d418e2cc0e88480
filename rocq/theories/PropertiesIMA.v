(** * Properties of IMA ADPCM (C12-C16) *)
From Verif Require Import Prelude PreludeFacts IMA IMASpec IMAProofs.

(** ** C12 *)
Theorem C12_decoder_state_stays_legal :
  forall codes st, legal st -> Forall (fun c => 0 <= c < 16) codes ->
    exists l st', decodeCodes st codes = Ok (l, st') /\ legal st' /\ length l = length codes /\
      Forall (fun x => -32768 <= x <= 32767) l.
Proof. exact decodeCodes_ok. Qed.
Print Assumptions C12_decoder_state_stays_legal.

Theorem C12_encoder_state_stays_legal :
  forall samples st, legal st -> legal (fold_left estep samples st) /\
    forall x, exists code, encodeSample (fold_left estep samples st) x =
                           Ok (code, estep (fold_left estep samples st) x) /\ 0 <= code < 16.
Proof.
  intros samples st H. assert (L : legal (fold_left estep samples st)) by now apply finCol_legal.
  split; auto. intros x. destruct (estep_spec _ x L) as (code & E & Hc & _). eauto.
Qed.
Print Assumptions C12_encoder_state_stays_legal.

Example C12_example : legal initState /\ fold_left estep [1000; -1000; 32767; -32768] initState = mkState (-92) 32.
Proof. split; [unfold legal; cbn; lia | vm_compute; reflexivity]. Qed.

(** ** C13 *)

(** One sample: the decoder, given the code, moves to the encoder's new state. *)
Theorem C13_sample_lockstep :
  forall st x, legal st ->
    exists code st', encodeSample st x = Ok (code, st') /\ decodeSample st code = Ok (previousValue st', st').
Proof. intros st x H. destruct (lockstep st x H) as (c & st' & E & _ & _ & D). eauto. Qed.
Print Assumptions C13_sample_lockstep.

(** QuickTime (AIFF-C, CAF) blocks of any even size and any channel count: decoding gives the encoder's
    reconstruction of exactly the frames that were encoded, and the encoder's final states. *)
Theorem C13_block_lockstep_QT :
  forall m sts frames, Forall legal sts -> frames_of (length sts) frames -> length frames = (2 * m)%nat ->
    exists bytes, encodeBlockQT (2 * Z.of_nat m) sts frames = Ok (bytes, finalStates (map roundQT sts) frames) /\
      decodeBlockQT (2 * Z.of_nat m) (length sts) bytes =
        Ok (reconFrames (map roundQT sts) frames, finalStates (map roundQT sts) frames).
Proof.
  intros m sts frames Hs Hf Hl. destruct (blockQT_lockstep m sts frames [] Hs Hf Hl) as (b & E & D & _).
  rewrite app_nil_r in D. eauto.
Qed.
Print Assumptions C13_block_lockstep_QT.

(** A stream of any number of QuickTime blocks: no drift between the block decoder, which restarts from
    each header, and the encoder, which carries its state along. *)
Theorem C13_stream_lockstep_QT :
  forall m n sts frames, Forall legal sts -> frames_of (length sts) frames -> length frames = (n * (2 * m))%nat ->
    exists bytes sts', encodeBlocks (encodeBlockQT (2 * Z.of_nat m)) (2 * m) n sts frames = Ok (bytes, sts') /\
      decodeBlocks (fun b => rmap fst (decodeBlockQT (2 * Z.of_nat m) (length sts) b))
        ((m + 2) * length sts) n bytes = Ok (reconStreamQT (2 * m) n sts frames).
Proof.
  intros m n sts frames Hs Hf Hl. destruct (streamQT_lockstep m n sts frames [] Hs Hf Hl) as (b & s & E & _ & D & _).
  rewrite app_nil_r in D. eauto.
Qed.
Print Assumptions C13_stream_lockstep_QT.

(** WAVE blocks of 8n+1 frames: the decoder outputs the block's start values, then the encoder's
    reconstruction of the first 8n frames, and ends in the encoder's final states. *)
Theorem C13_block_lockstep_WAVE :
  forall n sts frames, Forall legal sts -> frames_of (length sts) frames -> (8 * n <= length frames)%nat ->
    exists bytes, encodeBlockWAVE (8 * Z.of_nat n + 1) sts frames =
        Ok (bytes, finalStates sts (firstn (8 * n) frames)) /\
      decodeBlockWAVE (8 * Z.of_nat n + 1) (length sts) bytes =
        Ok (map previousValue sts :: reconFrames sts (firstn (8 * n) frames),
            finalStates sts (firstn (8 * n) frames)).
Proof.
  intros n sts frames Hs Hf Hl. destruct (blockWAVE_lockstep n sts frames [] Hs Hf Hl) as (b & E & D & _).
  rewrite app_nil_r in D. eauto.
Qed.
Print Assumptions C13_block_lockstep_WAVE.

(** The reconstruction is close to the sample whenever the step is large enough to reach it. *)
Theorem C13_reconstruction_error :
  forall st x step, legal st -> -32768 <= x <= 32767 -> aget stepTable (index st) = Ok step ->
    Z.abs (x - previousValue st) < 2 * step ->
    Z.abs (x - previousValue (estep st x)) <= step / 8 + 2.
Proof. exact encode_error. Qed.
Print Assumptions C13_reconstruction_error.

Example C13_example :
  Forall legal [initState; initState] /\ frames_of 2 [[100; -100]; [200; -200]] /\
  reconFrames (map roundQT [initState; initState]) [[100; -100]; [200; -200]] = [[11; -11]; [41; -41]] /\
  aget stepTable 30 = Ok 130 /\ estep (mkState 0 30) 200 = mkState 211 36.
Proof. repeat split; repeat constructor; unfold legal; cbn; try lia. Qed.

(** ** C14 *)
Theorem C14_wave_block_size :
  forall sts frames, Forall legal sts -> frames_of (length sts) frames -> zlen frames = imaWAVE_fpp ->
    exists bytes sts', encodeBlockWAVE imaWAVE_fpp sts frames = Ok (bytes, sts') /\
      zlen bytes = imaWAVE_bpp (length sts) /\ bytes_ok bytes = true /\
      exists decoded sts'', decodeBlockWAVE imaWAVE_fpp (length sts) bytes = Ok (decoded, sts'') /\
        zlen decoded = imaWAVE_fpp.
Proof.
  intros sts frames Hs Hf Hl. unfold zlen, imaWAVE_fpp in Hl.
  destruct (blockWAVE_lockstep 63 sts frames [] Hs Hf ltac:(lia)) as (b & E & D & L & B).
  rewrite app_nil_r in D. exists b; eexists. split; [exact E|]. split.
  { unfold zlen, imaWAVE_bpp. rewrite L. lia. }
  split; [exact B|]. eexists _, _. split; [exact D|].
  unfold zlen, imaWAVE_fpp. cbn [length]. rewrite reconFrames_length, firstn_length. lia.
Qed.
Print Assumptions C14_wave_block_size.

Theorem C14_qt_block_size :
  forall sts frames, Forall legal sts -> frames_of (length sts) frames -> zlen frames = imaQT_fpp ->
    exists bytes sts', encodeBlockQT imaQT_fpp sts frames = Ok (bytes, sts') /\
      zlen bytes = imaQT_bpp (length sts) /\ bytes_ok bytes = true /\
      exists decoded sts'', decodeBlockQT imaQT_fpp (length sts) bytes = Ok (decoded, sts'') /\
        zlen decoded = imaQT_fpp.
Proof.
  intros sts frames Hs Hf Hl. unfold zlen, imaQT_fpp in Hl.
  destruct (blockQT_lockstep 32 sts frames [] Hs Hf ltac:(lia)) as (b & E & D & L & B).
  rewrite app_nil_r in D. exists b; eexists. split; [exact E|]. split.
  { unfold zlen, imaQT_bpp. rewrite L. lia. }
  split; [exact B|]. eexists _, _. split; [exact D|].
  unfold zlen, imaQT_fpp. rewrite reconFrames_length. lia.
Qed.
Print Assumptions C14_qt_block_size.

Example C14_example : Forall legal [initState] /\ frames_of 1 (repeat [5] 505) /\ zlen (repeat [5] 505) = imaWAVE_fpp.
Proof. repeat split; repeat constructor; unfold legal; cbn; lia. Qed.

(** ** C15.  False: the step index is taken from the block header unchecked. *)
Definition C15_statement : Prop :=
  forall encoded, bytes_ok encoded = true -> zlen encoded = imaWAVE_bpp 1 ->
    exists out, decodeBlockWAVE imaWAVE_fpp 1 encoded = Ok out.

Theorem C15_wave_decode_refuted : ~ C15_statement.
Proof.
  intros H. specialize (H ([0; 0; 89; 0] ++ repeat 0 252)).
  destruct H as [out Ho]; [reflexivity|reflexivity|]. vm_compute in Ho. discriminate.
Qed.
Print Assumptions C15_wave_decode_refuted.

Theorem C15_qt_decode_refuted :
  exists encoded, bytes_ok encoded = true /\ zlen encoded = imaQT_bpp 1 /\ decodeBlockQT imaQT_fpp 1 encoded = UB.
Proof. exists ([0; 127] ++ repeat 0 32). repeat split; vm_compute; reflexivity. Qed.
Print Assumptions C15_qt_decode_refuted.

(** With block headers whose step index is at most 88 (the third byte of each 4-byte WAVE header, the low
    7 bits of the second byte of a QuickTime header) every block of the declared size decodes safely. *)
Theorem C15_wave_decode_safe_partial :
  forall n ch encoded, bytes_ok encoded = true -> (4 * ch * (n + 1) <= length encoded)%nat ->
    (forall c, (c < ch)%nat -> nth (4 * c + 2) encoded 0 <= 88) ->
    exists frames sts, decodeBlockWAVE (8 * Z.of_nat n + 1) ch encoded = Ok (frames, sts) /\
      length frames = (8 * n + 1)%nat /\ Forall (fun f => length f = ch) frames.
Proof. exact decodeBlockWAVE_safe. Qed.
Print Assumptions C15_wave_decode_safe_partial.

Theorem C15_qt_decode_safe_partial :
  forall m ch encoded, bytes_ok encoded = true -> ((m + 2) * ch <= length encoded)%nat ->
    (forall c, (c < ch)%nat -> Z.land (nth ((m + 2) * c + 1) encoded 0) 127 <= 88) ->
    exists frames sts, decodeBlockQT (2 * Z.of_nat m) ch encoded = Ok (frames, sts) /\
      length frames = (2 * m)%nat /\ Forall (fun f => length f = ch) frames.
Proof. exact decodeBlockQT_safe. Qed.
Print Assumptions C15_qt_decode_safe_partial.

Example C15_example : nth (4 * 0 + 2) ([255; 127; 88; 0] ++ repeat 255 4) 0 <= 88 /\
  (4 * 1 * (1 + 1) <= length ([255; 127; 88; 0] ++ repeat 255 4))%nat.
Proof. cbn; lia. Qed.

(** ** C16.  False of the code: a WAVE block stores the encoder's previous values as its first frame and then
    the frames shifted by one, and the last frame of each block is not stored at all. *)
Definition C16_statement : Prop :=
  forall sts frames bytes sts', Forall legal sts -> frames_of (length sts) frames -> zlen frames = imaWAVE_fpp ->
    encodeBlockWAVE imaWAVE_fpp sts frames = Ok (bytes, sts') ->
    exists sts'', decodeBlockWAVE imaWAVE_fpp (length sts) bytes = Ok (reconFrames sts frames, sts'').

Theorem C16_wave_position_refuted : ~ C16_statement.
Proof.
  intros H. pose (frames := repeat [1000] 505).
  assert (Hf : frames_of 1 frames) by (unfold frames; repeat constructor).
  assert (Hs : Forall legal [initState]) by (repeat constructor; cbn; lia).
  destruct (blockWAVE_lockstep 63 [initState] frames [] Hs Hf ltac:(cbn; lia)) as (b & E & D & _).
  destruct (H _ _ _ _ Hs Hf ltac:(reflexivity) E) as (sts'' & D').
  rewrite app_nil_r in D. change (8 * Z.of_nat 63 + 1) with imaWAVE_fpp in D.
  rewrite D' in D. apply (f_equal (fun r => match r with Ok (f :: _, _) => f | _ => [] end)) in D.
  vm_compute in D. discriminate.
Qed.
Print Assumptions C16_wave_position_refuted.

(** Every block is delayed by one frame: frame 0 is the value left by the previous block, frame i+1 is the
    encoder's reconstruction of input frame i. *)
Theorem C16_wave_frames_are_delayed_by_one :
  forall sts frames bytes sts', Forall legal sts -> frames_of (length sts) frames -> zlen frames = imaWAVE_fpp ->
    encodeBlockWAVE imaWAVE_fpp sts frames = Ok (bytes, sts') ->
    exists sts'', decodeBlockWAVE imaWAVE_fpp (length sts) bytes =
      Ok (map previousValue sts :: reconFrames sts (removelast frames), sts'').
Proof.
  intros sts frames bytes sts' Hs Hf Hl E. unfold zlen, imaWAVE_fpp in Hl.
  destruct (blockWAVE_lockstep 63 sts frames [] Hs Hf ltac:(lia)) as (b & E' & D & _).
  change (8 * Z.of_nat 63 + 1) with imaWAVE_fpp in *. rewrite E in E'. inversion E'; subst.
  rewrite app_nil_r in D. rewrite D. rewrite removelast_firstn_len.
  replace (pred (length frames)) with (8 * 63)%nat by lia. eauto.
Qed.
Print Assumptions C16_wave_frames_are_delayed_by_one.

(** The last frame of each block is lost: it influences neither the bytes nor the state. *)
Theorem C16_wave_last_frame_is_lost :
  forall sts frames f g, Forall legal sts -> frames_of (length sts) (frames ++ [f]) ->
    length g = length sts -> zlen (frames ++ [f]) = imaWAVE_fpp ->
    encodeBlockWAVE imaWAVE_fpp sts (frames ++ [f]) = encodeBlockWAVE imaWAVE_fpp sts (frames ++ [g]).
Proof.
  intros sts frames f g Hs Hf Hg Hl. unfold zlen, imaWAVE_fpp in Hl. rewrite app_length in Hl. cbn [length] in Hl.
  unfold encodeBlockWAVE. change (groupsWAVE imaWAVE_fpp) with 63%nat.
  rewrite !(encodeGroups_prefix 63 sts frames) by lia. reflexivity.
Qed.
Print Assumptions C16_wave_last_frame_is_lost.

Example C16_example : Forall legal [initState] /\ frames_of 1 (repeat [7] 504 ++ [[1]]) /\ zlen (repeat [7] 504 ++ [[1]]) = imaWAVE_fpp.
Proof. repeat split; repeat constructor; cbn; lia. Qed.
