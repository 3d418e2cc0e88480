(** * C64, C65, C66: Apple Lossless *)
From Verif Require Import Prelude PreludeFacts MetadataProofs PacketTable PropertiesPacketTable ALACBits ALACGolomb ALACGolombProofs ALACPredict ALACCodec ALACCodecProofs ALACElements ALACPacket ALACSize ALACTotal ALACSearch ALACStream ALACTerm.

(** ** Specification

    A depth is 16, 20, 24 or 32 bits ([depthOk]).  A packet is a list of interleaved samples, at most [fr] frames of them, each in range
    ([packetOk]).  Samples of 20 bits come in the upper bits of 24 ([container]) and [kept] is what 20 bits hold; at the other depths it is the
    sample.  The encoder starts with fresh memory ([freshChan]) and carries it from packet to packet.  The configuration in the file is that of
    the encoder ([cookie]). *)

(** ** C64: what is written is what is read *)
Theorem C64_alac_lossless :
  forall (B : Build) fr depth channels packets b ps,
    depthOk depth -> 1024 <= fr < 2 ^ 24 -> 1 <= channels <= 8 -> bytes_ok b = true -> Forall (packetOk fr depth channels) packets ->
    encodeStream (W := Wrapping) fr depth channels (fun _ => freshChan) b packets = Ok (Some ps) ->
    forall q out after, bytes_ok q = true -> bufferSize fr depth channels <= zlen q -> fr * channels <= zlen out ->
    decodeStream (W := Wrapping) (cookie fr depth) fr depth channels (map zlen ps) (concat ps ++ after) q out = Ok (Some (map (map (kept depth)) packets)).
Proof.
  intros B fr depth channels packets b ps Hd Hf Hch Hb Fp H q out after Hq Lq Lo.
  apply stream_decodes; [lia| |exact Hq|exact Lq|exact Lo]. exact (stream_written fr depth channels Hd Hf Hch packets _ b ps (fun _ => freshChan_ok) Hb Fp H).
Qed.
Print Assumptions C64_alac_lossless.

(** At 16, 24 and 32 bits every sample comes back. *)
Theorem C64_alac_bit_exact :
  forall (B : Build) fr depth channels packets b ps,
    depth = 16 \/ depth = 24 \/ depth = 32 -> 1024 <= fr < 2 ^ 24 -> 1 <= channels <= 8 -> bytes_ok b = true -> Forall (packetOk fr depth channels) packets ->
    encodeStream (W := Wrapping) fr depth channels (fun _ => freshChan) b packets = Ok (Some ps) ->
    forall q out after, bytes_ok q = true -> bufferSize fr depth channels <= zlen q -> fr * channels <= zlen out ->
    decodeStream (W := Wrapping) (cookie fr depth) fr depth channels (map zlen ps) (concat ps ++ after) q out = Ok (Some packets).
Proof.
  intros B fr depth channels packets b ps Hd Hf Hch Hb Fp H q out after Hq Lq Lo.
  rewrite (C64_alac_lossless B fr depth channels packets b ps ltac:(unfold depthOk; lia) Hf Hch Hb Fp H q out after Hq Lq Lo). do 2 f_equal.
  rewrite <- (map_id packets) at 2. apply map_ext. intros xs. rewrite <- (map_id xs) at 2. apply map_ext. intros x. unfold kept. replace (depth =? 20) with false by lia. reflexivity.
Qed.
Print Assumptions C64_alac_bit_exact.

(** The same from the middle of the file.  All packets but the last hold [fr] frames; the table has the lengths of the packets.  After seeking to any
    frame there is (C58), reading on gives the samples from that frame. *)
Theorem C64_alac_from_any_frame :
  forall (B : Build) fr depth channels full last b ps t next,
    depthOk depth -> 1024 <= fr < 2 ^ 24 -> 1 <= channels <= 8 -> bytes_ok b = true -> Forall (packetOk fr depth channels) (full ++ [last]) -> Forall (fun xs => zlen xs = fr * channels) full ->
    encodeStream (W := Wrapping) fr depth channels (fun _ => freshChan) b (full ++ [last]) = Ok (Some ps) -> pt_sizes t = map zlen ps -> sum (pt_sizes t) < 2 ^ 63 -> zlen ps < 2 ^ 31 ->
    0 <= next -> next * channels < zlen (concat (full ++ [last])) ->
    exists pos frame skip, alacSeek t 0 fr next = Ok (pos, frame, skip) /\
    forall q out after, bytes_ok q = true -> bufferSize fr depth channels <= zlen q -> fr * channels <= zlen out ->
    exists l, decodeStream (W := Wrapping) (cookie fr depth) fr depth channels (zskipn (frame / fr) (pt_sizes t)) (zskipn pos (concat ps ++ after)) q out = Ok (Some l) /\
      zskipn (skip * channels) (concat l) = zskipn (next * channels) (map (kept depth) (concat (full ++ [last]))).
Proof.
  intros B fr depth channels full last b ps t next Hd Hf Hch Hb Fp Ff H Ht Hsum Hps Hn Hnext.
  pose proof (stream_written fr depth channels Hd Hf Hch _ _ b ps (fun _ => freshChan_ok) Hb Fp H) as F2. pose proof (Forall2_len _ _ _ F2) as L2. rewrite app_length in L2. cbn [length] in L2.
  assert (LC : zlen (concat full) = zlen full * (fr * channels)).
  { clear - Ff. induction Ff as [|x l Hx Ff IH]; [reflexivity|]. cbn [concat]. rewrite zlen_app, zlen_cons, IH, Hx. lia. }
  assert (LL : exists m, 0 <= m <= fr /\ zlen last = m * channels).
  { apply Forall_app in Fp. destruct Fp as [_ Fp]. inversion Fp as [|x l [_ E] _]; subst. exact E. }
  destruct LL as (m & Hm & Lm). rewrite concat_app, zlen_app, LC in Hnext. cbn [concat] in Hnext. rewrite app_nil_r, Lm in Hnext.
  assert (NB : next < zlen full * fr + m).
  { apply (Z.mul_lt_mono_pos_r channels); [lia|]. replace ((zlen full * fr + m) * channels) with (zlen full * (fr * channels) + m * channels) by ring. exact Hnext. }
  assert (Q : next / fr < zlen full + 1) by (apply Z.div_lt_upper_bound; [lia|]; replace (fr * (zlen full + 1)) with (zlen full * fr + fr) by ring; lia).
  assert (Q0 : 0 <= next / fr) by (apply Z.div_pos; lia).
  assert (ZL : zlen full + 1 = zlen ps) by (unfold zlen; lia).
  assert (SN : Forall (fun x => 0 <= x) (pt_sizes t)) by (rewrite Ht; apply Forall_map; apply Forall_forall; intros; apply zlen_nonneg).
  eexists _, _, _. split.
  { apply C58_alac_seek_partial; [exact SN|exact Hsum|lia| | |].
    - assert (zlen full * fr + m < 2 ^ 63) by (change (2 ^ 63) with 9223372036854775808; change (2 ^ 24) with 16777216 in *; change (2 ^ 31) with 2147483648 in *; nia). lia.
    - rewrite Ht. unfold zlen in *. rewrite map_length. lia.
    - lia. }
  intros q out after Hq Lq Lo. set (k := Z.to_nat (next / fr)).
  exists (map (map (kept depth)) (skipn k (full ++ [last]))).
  assert (D1 : next / fr * fr / fr = next / fr) by (apply Z.div_mul; lia). rewrite D1. rewrite Z.add_0_l.
  assert (E1 : zskipn (next / fr) (pt_sizes t) = map zlen (skipn k ps)) by (rewrite Ht; unfold zskipn; fold k; apply skipn_map).
  assert (E2 : sum (zfirstn (next / fr) (pt_sizes t)) = sum (map zlen (firstn k ps))) by (rewrite Ht; unfold zfirstn; fold k; rewrite firstn_map; reflexivity).
  rewrite E1, E2, stream_skip. split; [apply stream_decodes; [lia|apply Forall2_skipn; exact F2|exact Hq|exact Lq|exact Lo]|].
  rewrite <- concat_map. replace (next * channels) with (next / fr * (fr * channels) + next mod fr * channels) by (pose proof (Z.div_mod next fr ltac:(lia)); nia).
  pose proof (Z.mod_pos_bound next fr ltac:(lia)) as MB. rewrite <- zskipn_zskipn by nia. f_equal.
  assert (G : forall j l r, Forall (fun xs : list Z => zlen xs = fr * channels) l -> (j <= length l)%nat -> zskipn (Z.of_nat j * (fr * channels)) (map (kept depth) (concat (l ++ r))) = map (kept depth) (concat (skipn j (l ++ r)))).
  { clear - Hf Hch. induction j as [|j IH]; intros l r Fl Hl; [reflexivity|]. destruct l as [|x l]; [cbn [length] in Hl; lia|]. inversion Fl as [|y l' Hx Fl']; subst y l'. cbn [app skipn concat]. rewrite map_app.
    replace (Z.of_nat (S j) * (fr * channels)) with (zlen (map (kept depth) x) + Z.of_nat j * (fr * channels)) by (unfold zlen in *; rewrite map_length, Hx; nia).
    rewrite <- zskipn_zskipn by (try apply zlen_nonneg; nia). rewrite zskipn_exact. apply IH; [exact Fl'|cbn [length] in Hl; lia]. }
  symmetry. rewrite <- (Z2Nat.id (next / fr)) by exact Q0. fold k. rewrite (G k full [last] Ff); [reflexivity|]. unfold k, zlen in *. lia.
Qed.
Print Assumptions C64_alac_from_any_frame.

(** ** C66: the encoder works inside its buffer *)

(** For every depth, number of channels and sequence of packets, in the buffer of the library ([chunkBuffer]): the encoder neither writes outside it nor
    reports an error, no assertion fails in either build, and a packet is so short that the three bytes the decoder may look at behind it are in the buffer too.
    Missing: two channels at 16, 24 or 32 bits.  There the encoder writes a compressed packet before it finds that it is longer than
    the uncompressed one; it may take 26 (34, 42) bits for a sample where the buffer has 24 (32, 40). *)
Theorem C66_encoder_inside_buffer_partial :
  forall (B : Build) fr depth channels packets b,
    depthOk depth -> 1024 <= fr < 2 ^ 24 -> 1 <= channels <= 8 -> channels <> 2 \/ depth = 20 -> bytes_ok b = true -> zlen b = chunkBuffer fr depth channels ->
    Forall (packetOk fr depth channels) packets ->
    exists ps, encodeStream (W := Wrapping) fr depth channels (fun _ => freshChan) b packets = Ok (Some ps) /\ length ps = length packets /\
      Forall (fun p => 0 < zlen p /\ zlen p + 3 <= bufferSize fr depth channels) ps.
Proof.
  intros B fr depth channels packets b Hd Hf Hch Hx Hb Lb Fp.
  destruct (stream_encodes fr depth channels Hd Hf Hch packets (fun _ => freshChan) b (fun _ => freshChan_ok) Hb Fp) as (ps & E & F2); [unfold workable; lia|].
  exists ps. split; [exact E|]. split; [symmetry; exact (Forall2_len _ _ _ F2)|]. clear - F2. induction F2 as [|xs p l r (_ & A & C & _) F2 IH]; constructor; [auto|exact IH].
Qed.
Print Assumptions C66_encoder_inside_buffer_partial.

(** Six bytes for each sample would be enough in every case. *)
Theorem C66_six_bytes_are_enough :
  forall (B : Build) fr depth channels packets b,
    depthOk depth -> 1024 <= fr < 2 ^ 24 -> 1 <= channels <= 8 -> bytes_ok b = true -> fr * channels * 6 <= zlen b ->
    Forall (packetOk fr depth channels) packets ->
    exists ps, encodeStream (W := Wrapping) fr depth channels (fun _ => freshChan) b packets = Ok (Some ps) /\ length ps = length packets /\
      Forall (fun p => 0 < zlen p /\ zlen p + 3 <= bufferSize fr depth channels) ps.
Proof.
  intros B fr depth channels packets b Hd Hf Hch Hb Lb Fp.
  assert (W : workable fr depth channels (zlen b)).
  { unfold workable, chunkBuffer. split; [|lia]. destruct Hd as [->|[->|[->| ->]]]; cbn [Z.eqb Pos.eqb].
    - change ((10 + 16) / 8) with 3. nia. 
    - change ((10 + 20) / 8) with 3. nia. 
    - change ((10 + 24) / 8) with 4. nia. 
    - change ((10 + 32) / 8) with 5. nia. }
  destruct (stream_encodes fr depth channels Hd Hf Hch packets (fun _ => freshChan) b (fun _ => freshChan_ok) Hb Fp W) as (ps & E & F2).
  exists ps. split; [exact E|]. split; [symmetry; exact (Forall2_len _ _ _ F2)|]. clear - F2. induction F2 as [|xs p l r (_ & A & C & _) F2 IH]; constructor; [auto|exact IH].
Qed.
Print Assumptions C66_six_bytes_are_enough.

(** A short 24-bit file of three channels: the hypotheses of C64 and C66 are met and there is something to decode. *)
Example C64_C66_example : forall B : Build,
  let packets := [[1; -2; 3; 8388607; -8388608; 0]; [5; 6; 7]] in
  exists ps, encodeStream (W := Wrapping) 4096 24 3 (fun _ => freshChan) (zrepeat 0 (chunkBuffer 4096 24 3)) packets = Ok (Some ps) /\ length ps = 2%nat /\
    forall q out, bytes_ok q = true -> zlen q = bufferSize 4096 24 3 -> zlen out = 4096 * 3 ->
    decodeStream (W := Wrapping) (cookie 4096 24) 4096 24 3 (map zlen ps) (concat ps ++ []) q out = Ok (Some packets).
Proof.
  intros B packets. assert (Hp : Forall (packetOk 4096 24 3) packets).
  { unfold packets. repeat constructor; unfold inRange, container; cbn [Z.eqb Pos.eqb]; change (2 ^ (24 - 1)) with 8388608; try lia; [exists 2|exists 1]; split; try lia; reflexivity. }
  assert (Hd : depthOk 24) by (unfold depthOk; lia). assert (Hf : 1024 <= 4096 < 2 ^ 24) by (change (2 ^ 24) with 16777216; lia). assert (Hb : bytes_ok (zrepeat 0 (chunkBuffer 4096 24 3)) = true) by apply zrepeat_bytes.
  assert (Hl : zlen (zrepeat 0 (chunkBuffer 4096 24 3)) = chunkBuffer 4096 24 3) by (apply zlen_repeat; unfold chunkBuffer; lia).
  destruct (C66_encoder_inside_buffer_partial B 4096 24 3 packets _ Hd Hf ltac:(lia) ltac:(left; lia) Hb Hl Hp) as (ps & E & L & _). exists ps. split; [exact E|]. split; [exact L|].
  intros q out Hq Lq Lo. apply (C64_alac_bit_exact B 4096 24 3 packets (zrepeat 0 (chunkBuffer 4096 24 3)) ps); auto; lia.
Qed.

(** ** C65: decoding what a file holds *)

(** Whatever the packet, the configuration and the buffers: decoding ends, after at most as many turns of its main loop as the packet has bits. *)
Theorem C65_decoding_ends :
  forall (W : Arith) g packet size n channels out, 0 <= n -> 0 <= size -> decode g packet size n channels out <> OutOfFuel.
Proof. intros W g packet size n channels out Hn Hs. exact (decode_ends g packet size n channels out Hn Hs). Qed.
Print Assumptions C65_decoding_ends.

(** A packet of seven bytes that says it holds 4097 uncompressed samples makes the decoder write past its array of 4096, although the
    configuration is the library's own and whatever the output buffer. *)
Theorem C65_packet_overruns_arrays_refuted :
  forall (W : Arith) out behind, decode (cookie 4096 16) ([0; 0; 18; 0; 0; 32; 2] ++ 0 :: 0 :: 0 :: behind) 7 4096 1 out = UB.
Proof. intros W out behind. reflexivity. Qed.
Print Assumptions C65_packet_overruns_arrays_refuted.

(** A packet that says all bits of a 16-bit sample are stored apart has samples of no bits, which shifts by the width of a word. *)
Theorem C65_samples_of_no_bits_refuted :
  forall (W : Arith) out behind, decode (cookie 4096 16) ([0; 0; 26; 0; 0; 0; 2] ++ 0 :: 0 :: 0 :: behind) 7 4096 1 out = UB.
Proof. intros W out behind. reflexivity. Qed.
Print Assumptions C65_samples_of_no_bits_refuted.
