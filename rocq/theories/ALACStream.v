(** * Streams of ALAC packets: the module of the library that calls the codec

    /repo/libaudiofile/modules/ALAC.cpp:228-322. *)
From Verif Require Import Prelude PreludeFacts MetadataProofs ALACBits ALACGolomb ALACGolombProofs ALACPredict ALACCodec ALACCodecProofs ALACElements ALACPacket ALACSize ALACTotal ALACSearch PropertiesPacketTable.

(** ALAC.cpp:273-277 *)
Definition bufferSize (fr depth channels : Z) : Z := fr * channels * ((10 + depth) / 8) + 1.

(** ALAC.cpp:279-322, runPush for one packet after another: a packet is a list of interleaved samples; [b] is the buffer the packets are
    put into, which keeps what was in it.  [None]: the encoder reported an error, nothing more is written.  The result is the packets as they are
    written to the file; their lengths go to the packet table (ALAC.cpp:316).  Simplification: write errors are not modelled here. *)
Fixpoint encodeStream {B : Build} {W : Arith} (fr depth channels : Z) (st : Z -> chan) (b : list Z) (packets : list (list Z)) : res (option (list (list Z))) :=
  match packets with
  | [] => Ok (Some [])
  | xs :: rest =>
      do r <- encodePacket fr depth channels st b xs (zlen xs / channels);
      match fst r with
      | None => Ok None
      | Some (b', size) =>
          do _ <- rassert (size <=? bufferSize fr depth channels);
          do more <- encodeStream fr depth channels (snd r) b' rest;
          Ok (match more with Some l => Some (zfirstn size b' :: l) | None => None end)
      end
  end.

(** ALAC.cpp:228-256, runPull for one packet after another: [sizes] is the packet table, [data] the bytes of the file from the first packet on,
    [b] the buffer a packet is read into and [out] the one it is decoded to.  [None]: the file ended within a packet.  The result is the
    frames handed on.  runPull ignores the status Decode reports (and so does this). *)
Fixpoint decodeStream {B : Build} {W : Arith} (g : config) (fr depth channels : Z) (sizes : list Z) (data b out : list Z) : res (option (list (list Z))) :=
  match sizes with
  | [] => Ok (Some [])
  | size :: rest =>
      do _ <- rassert (size <=? bufferSize fr depth channels);
      if zlen b <? size then UB else
      if zlen data <? size then Ok None else
      let b' := zfirstn size data ++ zskipn size b in
      do d <- decode g b' size fr channels out;
      do more <- decodeStream g fr depth channels rest (zskipn size data) b' (r_out d);
      Ok (match more with Some l => Some (zfirstn (r_frames d * channels) (r_out d) :: l) | None => None end)
  end.

(** ** Room *)
Lemma library_size fr depth channels n size : depthOk depth -> 1024 <= fr < 2 ^ 24 -> 0 <= n <= fr -> 1 <= channels <= 8 -> 8 * size <= channels * (n * depth + 55) + 10 ->
  size + 3 <= bufferSize fr depth channels.
Proof.
  intros Hd Hf Hn Hch Hs. unfold bufferSize. destruct Hd as [->|[->|[->| ->]]].
  - change ((10 + 16) / 8) with 3. nia.
  - change ((10 + 20) / 8) with 3. nia.
  - change ((10 + 24) / 8) with 4. nia.
  - change ((10 + 32) / 8) with 5. nia.
Qed.
Lemma bufferSize_chunk fr depth channels : bufferSize fr depth channels <= chunkBuffer fr depth channels.
Proof. unfold bufferSize, chunkBuffer. lia. Qed.
(** Six bytes for each sample are enough for everything the encoder tries. *)
Lemma large_room fr depth channels n c : depthOk depth -> 1024 <= fr < 2 ^ 24 -> 0 <= n <= fr -> 1 <= channels <= 8 -> 0 <= c < channels ->
  roomAt depth channels n c <= 8 * (fr * channels * 6).
Proof.
  intros Hd Hf Hn Hch Hc. unfold roomAt. assert (X : (elementTag channels c =? ID_SCE) = true \/ (elementTag channels c =? ID_SCE) = false /\ c + 2 <= channels).
  { destruct (tag_plan channels c Hch Hc) as [T|[T T2]]; rewrite T; [left; reflexivity|right]. split; [reflexivity|exact T2]. }
  destruct X as [->|(-> & X2)].
  - destruct Hd as [->|[->|[->| ->]]]; unfold monoRoom, shiftOf; cbn [Z.eqb Z.leb Z.compare Pos.eqb Pos.compare Pos.compare_cont]; nia.
  - destruct Hd as [->|[->|[->| ->]]]; unfold stereoRoom, monoBits, shiftOf; cbn [Z.eqb Z.leb Z.compare Pos.eqb Pos.compare Pos.compare_cont]; nia.
Qed.

(** A buffer in which the encoder can work: that of the library unless the file is stereo with 16, 24 or 32 bits; then six bytes for each sample. *)
Definition workable (fr depth channels room : Z) : Prop :=
  chunkBuffer fr depth channels <= room /\ (channels = 2 -> depth <> 20 -> fr * channels * 6 <= room).
Lemma workable_room fr depth channels room n c : depthOk depth -> 1024 <= fr < 2 ^ 24 -> 0 <= n <= fr -> 1 <= channels <= 8 -> workable fr depth channels room -> 0 <= c < channels ->
  roomAt depth channels n c <= 8 * room.
Proof.
  intros Hd Hf Hn Hch [H1 H2] Hc. destruct (Z.eq_dec channels 2) as [E|N]; [destruct (Z.eq_dec depth 20) as [E2|N2]|].
  - destruct (library_room fr depth channels n Hd Hf Hn Hch (or_intror E2)) as [R _]. specialize (R c Hc). lia.
  - pose proof (large_room fr depth channels n c Hd Hf Hn Hch Hc). specialize (H2 E N2). lia.
  - destruct (library_room fr depth channels n Hd Hf Hn Hch (or_introl N)) as [R _]. specialize (R c Hc). lia.
Qed.

(** One packet: at most [fr] whole frames of samples that fit. *)
Definition packetOk (fr depth channels : Z) (xs : list Z) : Prop :=
  Forall (inRange (container depth)) xs /\ exists n, 0 <= n <= fr /\ zlen xs = n * channels.

Lemma encodePacket_ok fr depth channels st b xs n : depthOk depth -> 1024 <= fr < 2 ^ 24 -> 1 <= channels <= 8 -> (forall i, chanOk (st i)) -> bytes_ok b = true ->
  Forall (inRange (container depth)) xs -> 0 <= n <= fr -> zlen xs = n * channels -> workable fr depth channels (zlen b) ->
  exists b' size st', encodePacket (W := Wrapping) fr depth channels st b xs n = Ok (Some (b', size), st') /\ (forall i, chanOk (st' i)) /\ bytes_ok b' = true /\ zlen b' = zlen b /\ 0 < size /\
    size + 3 <= bufferSize fr depth channels /\
    forall q out, bytes_ok q = true -> zfirstn size q = zfirstn size b' -> size + 3 <= zlen q -> n * channels <= zlen out ->
    decode (W := Wrapping) (cookie fr depth) q size fr channels out = Ok (Decoded false n (map (kept depth) xs ++ zskipn (n * channels) out)).
Proof.
  intros Hd Hf Hch Hst Hb Fx Hn Lx Hw. unfold encodePacket.
  destruct (searchAll_ok fr depth channels xs n Hd ltac:(lia) Hn Hch Fx Lx (Z.to_nat channels) st 0 Hst ltac:(lia) ltac:(lia)) as (pick & st' & -> & HP & HS). cbn [rbind fst snd].
  assert (SZ : channels * (n * depth + 55) + 10 <= 8 * zlen b).
  { destruct Hw as [Hw _]. pose proof (bufferSize_chunk fr depth channels). pose proof (library_size fr depth channels n ((channels * (n * depth + 55) + 10) / 8) Hd Hf Hn Hch ltac:(lia)). lia. }
  destruct (encode_total fr depth channels pick b xs n Hd ltac:(lia) Hn Hch HP Fx Hb Lx) as (b' & size & E); [intros c Hc; apply (workable_room fr depth channels (zlen b) n c Hd Hf Hn Hch Hw Hc)|exact SZ|].
  rewrite E. cbn [rbind]. exists b', size, st'. split; [reflexivity|]. split; [exact HS|].
  apply (encode_decodes fr depth channels pick b xs n b' size Hd ltac:(lia) Hn Hch HP Fx Hb Lx) in E. destruct E as (B1 & L1 & S1 & S2 & D).
  split; [exact B1|]. split; [exact L1|]. split; [lia|]. split; [|exact D]. exact (library_size fr depth channels n size Hd Hf Hn Hch S2).
Qed.

(** The packet [p] decodes to the samples [xs] (with what the depth keeps of them), from any buffer that starts with it. *)
Definition decodesTo (fr depth channels : Z) (xs p : list Z) : Prop :=
  bytes_ok p = true /\ 0 < zlen p /\ zlen p + 3 <= bufferSize fr depth channels /\
  exists n, 0 <= n <= fr /\ zlen xs = n * channels /\
  forall q out, bytes_ok q = true -> zfirstn (zlen p) q = p -> zlen p + 3 <= zlen q -> n * channels <= zlen out ->
    decode (W := Wrapping) (cookie fr depth) q (zlen p) fr channels out = Ok (Decoded false n (map (kept depth) xs ++ zskipn (n * channels) out)).

Lemma stream_encodes {B : Build} fr depth channels : depthOk depth -> 1024 <= fr < 2 ^ 24 -> 1 <= channels <= 8 ->
  forall packets st b, (forall i, chanOk (st i)) -> bytes_ok b = true -> Forall (packetOk fr depth channels) packets -> workable fr depth channels (zlen b) ->
  exists ps, encodeStream (W := Wrapping) fr depth channels st b packets = Ok (Some ps) /\ Forall2 (decodesTo fr depth channels) packets ps.
Proof.
  intros Hd Hf Hch. induction packets as [|xs rest IH]; intros st b Hst Hb Fp Hw; cbn [encodeStream].
  - exists []. split; [reflexivity|constructor].
  - inversion Fp as [|x l [Fx (n & Hn & Lx)] Fr]; subst x l. assert (En : zlen xs / channels = n) by (rewrite Lx; apply Z.div_mul; lia). rewrite En.
    destruct (encodePacket_ok fr depth channels st b xs n Hd Hf Hch Hst Hb Fx Hn Lx Hw) as (b' & size & st' & -> & HS & B1 & L1 & S1 & S2 & D). cbn [rbind fst snd].
    replace (size <=? bufferSize fr depth channels) with true by lia. assert (RA : forall C : Build, rassert true = Ok tt) by (intros [|]; reflexivity). rewrite RA. cbn [rbind].
    destruct (IH st' b' HS B1 Fr ltac:(rewrite L1; exact Hw)) as (ps & -> & F2). cbn [rbind]. eexists. split; [reflexivity|]. constructor; [|exact F2].
    assert (CB : bufferSize fr depth channels <= zlen b) by (destruct Hw as [Hw _]; pose proof (bufferSize_chunk fr depth channels); lia).
    assert (LF : zlen (zfirstn size b') = size) by (rewrite zlen_firstn by lia; lia).
    unfold decodesTo. rewrite LF. split; [apply bytes_ok_spec; apply bytes_ok_spec in B1; apply Forall_firstn; exact B1|]. split; [exact S1|]. split; [exact S2|].
    exists n. split; [exact Hn|]. split; [exact Lx|exact D].
Qed.

Lemma stream_decodes {B : Build} fr depth channels : 1 <= channels -> forall packets ps, Forall2 (decodesTo fr depth channels) packets ps ->
  forall q out after, bytes_ok q = true -> bufferSize fr depth channels <= zlen q -> fr * channels <= zlen out ->
  decodeStream (W := Wrapping) (cookie fr depth) fr depth channels (map zlen ps) (concat ps ++ after) q out = Ok (Some (map (map (kept depth)) packets)).
Proof.
  intros Hch. induction 1 as [|xs p packets ps (Bp & P0 & P3 & n & Hn & Lx & D) F2 IH]; intros q out after Hq Lq Lo; cbn [map decodeStream concat]; [reflexivity|].
  replace (zlen p <=? bufferSize fr depth channels) with true by lia. assert (RA : forall C : Build, rassert true = Ok tt) by (intros [|]; reflexivity). rewrite RA. cbn [rbind].
  replace (zlen q <? zlen p) with false by lia. rewrite <- app_assoc. set (more := concat ps ++ after) in *.
  replace (zlen (p ++ more) <? zlen p) with false by (rewrite zlen_app; pose proof (zlen_nonneg more); lia).
  rewrite zfirstn_exact, zskipn_exact. set (q' := p ++ zskipn (zlen p) q).
  assert (Lq' : zlen q' = zlen q) by (unfold q'; rewrite zlen_app, zlen_skipn by lia; lia).
  assert (Bq' : bytes_ok q' = true) by (unfold q'; apply bytes_ok_spec; apply Forall_app; split; [apply bytes_ok_spec; exact Bp|apply Forall_skipn; apply bytes_ok_spec; exact Hq]).
  rewrite (D q' out Bq'); [|unfold q'; apply zfirstn_exact|lia|nia]. cbn [rbind r_frames r_out].
  assert (LM : zlen (map (kept depth) xs) = n * channels) by (unfold zlen in *; rewrite map_length; exact Lx).
  unfold more. rewrite (IH q' _ after Bq'); [|lia|].
  - cbn [rbind map]. rewrite <- LM at 1. rewrite zfirstn_exact. reflexivity.
  - rewrite zlen_app, LM, zlen_skipn by nia. nia.
Qed.

(** Reading from any packet on: the packet starts at the sum of the lengths before it. *)
Lemma sum_lens (ps : list (list Z)) : 0 <= sum (map zlen ps).
Proof. induction ps as [|p ps IH]; cbn [map sum]; [lia|]. pose proof (zlen_nonneg p). lia. Qed.
Lemma stream_skip (k : nat) : forall (ps : list (list Z)) (after : list Z), zskipn (sum (map zlen (firstn k ps))) (concat ps ++ after) = concat (skipn k ps) ++ after.
Proof.
  induction k as [|k IH]; intros [|p ps] after; try reflexivity. cbn [firstn map sum concat skipn].
  rewrite <- app_assoc. rewrite <- zskipn_zskipn; [rewrite zskipn_exact; apply IH|apply sum_lens|apply zlen_nonneg].
Qed.
Lemma Forall2_len {A C} (R : A -> C -> Prop) l r : Forall2 R l r -> length l = length r.
Proof. induction 1; cbn [length]; lia. Qed.
Lemma Forall2_skipn {A C} (R : A -> C -> Prop) k : forall l r, Forall2 R l r -> Forall2 R (skipn k l) (skipn k r).
Proof. induction k as [|k IH]; intros l r H; [exact H|]. inversion H; subst; cbn [skipn]; [constructor|apply IH; assumption]. Qed.

(** Whatever the encoder has written decodes, in whatever buffer it worked. *)
Lemma stream_written {B : Build} fr depth channels : depthOk depth -> 1024 <= fr < 2 ^ 24 -> 1 <= channels <= 8 ->
  forall packets st b ps, (forall i, chanOk (st i)) -> bytes_ok b = true -> Forall (packetOk fr depth channels) packets ->
  encodeStream (W := Wrapping) fr depth channels st b packets = Ok (Some ps) -> Forall2 (decodesTo fr depth channels) packets ps.
Proof.
  intros Hd Hf Hch. induction packets as [|xs rest IH]; intros st b ps Hst Hb Fp H; cbn [encodeStream] in H.
  - assert (ps = []) by congruence. subst ps. constructor.
  - inversion Fp as [|x l [Fx (n & Hn & Lx)] Fr]; subst x l. assert (En : zlen xs / channels = n) by (rewrite Lx; apply Z.div_mul; lia). rewrite En in H.
    unfold encodePacket in H. destruct (searchAll_ok fr depth channels xs n Hd ltac:(lia) Hn Hch Fx Lx (Z.to_nat channels) st 0 Hst ltac:(lia) ltac:(lia)) as (pick & st' & E & HP & HS). rewrite E in H. cbn [rbind fst snd] in H.
    apply rbind_Ok in H. destruct H as (r & H1 & H). apply rbind_Ok in H1. destruct H1 as (r1 & H1 & Er). assert (E2 : r = (r1, st')) by congruence. subst r. cbn [fst snd] in H. destruct r1 as [[b' size]|]; [|discriminate].
    apply (encode_decodes fr depth channels pick b xs n b' size Hd ltac:(lia) Hn Hch HP Fx Hb Lx) in H1. destruct H1 as (B1 & L1 & S1 & S2 & D). pose proof (library_size fr depth channels n size Hd Hf Hn Hch S2) as S3.
    apply rbind_Ok in H. destruct H as (u & _ & H). apply rbind_Ok in H. destruct H as ([more|] & H2 & H); [|discriminate]. assert (E3 : ps = zfirstn size b' :: more) by congruence. subst ps.
    constructor; [|exact (IH st' b' more HS B1 Fr H2)].
    assert (LF : zlen (zfirstn size b') = size) by (rewrite zlen_firstn by lia; lia).
    unfold decodesTo. rewrite LF. split; [apply bytes_ok_spec; apply bytes_ok_spec in B1; apply Forall_firstn; exact B1|]. split; [lia|]. split; [exact S3|].
    exists n. split; [exact Hn|]. split; [exact Lx|exact D].
Qed.
