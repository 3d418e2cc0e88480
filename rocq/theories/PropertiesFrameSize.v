(** * C79: the frame sizes reported are the sizes of the frames *)
From Coq Require Import Lia Floats.SpecFloat.
From Verif Require Import Prelude PreludeFacts FileIO Rebuffer Reader ReaderSpec Writer Codecs HeaderIO Raw ByteOrder Convert ConvertProofs Float FloatFacts FloatConv Arrange ArrangeProofs Rates Memory MemoryProofs Virtual VirtualWrite API FrameSize PropertiesBuffers PropertiesAPI.
From Verif Require PropertiesRaw IMA.

(** ** Specification *)
(** The bytes a sample takes: 4 and 8 for floating point, otherwise the whole bytes its bits need; in memory ([stretch]) 24-bit samples
    take 4. *)
Definition sampleBytesOf (stretch : bool) (sf w : Z) : Z :=
  if sf =? 403 then 4 else if sf =? 404 then 8 else
  let bytes := (w + 7) / 8 in if stretch && (bytes =? 3) then 4 else bytes.
(** The answer is the whole number [n]: it is the float nearest to [n] and what it converts to is [n]. *)
Definition answersBytes (x : res spec_float) (n : Z) : Prop := exists r, x = Ok r /\ r = fOfZ n /\ toInt 32 r = Ok n.

(** ** Lemmas *)
Lemma one_float : squishFactor CNone = S754_finite false 8388608 (0 - 23). Proof. vm_compute. reflexivity. Qed.
Lemma two_float c : c = CUlaw \/ c = CAlaw -> squishFactor c = S754_finite false 8388608 (1 - 23). Proof. intros [-> | ->]; vm_compute; reflexivity. Qed.
Lemma whole n : 0 < n < 2 ^ 24 -> toInt 32 (fOfZ n) = Ok n.
Proof.
  intros H. destruct (PropertiesRaw.fOfZ_parts n H) as (m & e & F1 & F2 & F3 & F4 & F5). unfold toInt. rewrite (truncZ_val 24 128 (fOfZ n) n 0 ltac:(lia) F5).
  change (2 ^ 0) with 1. rewrite Z.quot_1_r. unfold ck32. replace (inS 32 n) with true; [reflexivity|]. symmetry. apply inS_spec. change (2 ^ (32 - 1)) with 2147483648. change (2 ^ 24) with 16777216 in H. lia.
Qed.
Lemma plain_size f stretch n : bytesPerSample stretch f * channelCount f = n -> 0 < n < 2 ^ 24 -> answersBytes (frameSize CNone stretch f) n.
Proof.
  intros E H. exists (fOfZ n). split; [|split; [reflexivity|exact (whole n H)]]. unfold frameSize. rewrite E. unfold ck32. change (2 ^ 24) with 16777216 in H.
  assert (I0 : inS 32 n = true) by (apply inS_spec; change (2 ^ (32 - 1)) with 2147483648; lia). rewrite I0. cbn [rbind].
  destruct (PropertiesRaw.fOfZ_parts n) as (m & e & F1 & F2 & F3 & F4 & F5); [change (2 ^ 24) with 16777216; lia|]. rewrite one_float, F1. rewrite PropertiesRaw.fdiv_pow2 by (auto; lia). now rewrite Z.sub_0_r.
Qed.
Lemma bps_spec stretch f : 0 <= sampleWidth f -> compressed f = false -> bytesPerSample stretch f = sampleBytesOf stretch (sampfmtNumber (sampleFormat f)) (sampleWidth f).
Proof.
  intros W C. unfold bytesPerSample, sampleBytesOf, sampfmtNumber. rewrite C. rewrite Z.quot_div_nonneg by lia.
  destruct (sampleFormat f); cbn [Z.eqb Pos.eqb negb andb]; rewrite ?(andb_comm stretch); reflexivity.
Qed.

Section Runs.
Context {B : Build}.
Context {E : Type}.
Variables (wrapv : bool) (host : order) (rc : codec frame) (wc : wcodec frame E) (junk : frame) (seekok : bool) (upd : file -> wtrack -> file) (cap : Z).
Notation astep := (astep wrapv host rc wc junk seekok upd cap).
Notation arun := (arun wrapv host rc wc junk seekok upd cap).
(** the virtual format stays uncompressed and its width non-negative *)
Definition good (f : format) : Prop := compressed f = false /\ 0 <= sampleWidth f.
Lemma good_set u s w g : setSampleFormat u s w = Some g -> good u -> good g.
Proof.
  intros H [G1 G2]. assert (X : compressed g = compressed u /\ 0 <= sampleWidth g); [|destruct X as [X1 X2]; split; [congruence|exact X2]]. revert H. unfold setSampleFormat.
  assert (K : forall (P : Prop) (o1 o2 : pcmInfo) w', 0 <= w' -> forall m, Some {| sampleFormat := s; sampleWidth := w'; channelCount := channelCount u; byteOrder := byteOrder u; compressed := compressed u; pcm := m |} = Some g -> compressed g = compressed u /\ 0 <= sampleWidth g).
  { intros _ _ _ w' Hw m H. match type of H with Some ?x = _ => assert (g = x) as -> by congruence end. split; [reflexivity|exact Hw]. }
  assert (K' : forall w', 0 <= w' -> forall m, Some {| sampleFormat := s; sampleWidth := w'; channelCount := channelCount u; byteOrder := byteOrder u; compressed := compressed u; pcm := m |} = Some g -> compressed g = compressed u /\ 0 <= sampleWidth g) by (intros; eapply (K True floatMapping floatMapping); eauto). clear K.
  destruct s; cbv zeta; try (apply K'; lia); (destruct ((w <? 1) || (32 <? w)) eqn:Ew; [discriminate|]); (destruct (Z.quot (w + 7) 8) as [|[[]|[]|]|]); apply K'; lia.
Qed.
Lemma step_good h valid track c a h' : astep h valid track c = Ok (a, h') -> good (userFormat h) -> good (userFormat h').
Proof.
  intros H G.
  destruct (acceptable (readable h) (valid, track, c)) eqn:Ea.
  2: { rewrite (refused_step wrapv host rc wc junk seekok upd cap h valid track c Ea) in H. assert (h' = h) as -> by congruence. exact G. }
  unfold acceptable in Ea. apply andb_true_iff in Ea. destruct Ea as [-> Ea]. cbn [negb] in H.
  assert (R : forall v x, ofRead (E := E) x = Ok (a, h') -> good (v_user v) -> (forall z u, x = Ok (z, u) -> sameV v u) -> good (userFormat h')).
  { intros u x K Gu S. apply rbind_Ok in K. destruct K as ([z u'] & -> & K). assert (h' = OpenedToRead u') as -> by congruence.
    destruct (S _ _ eq_refl) as (_ & S2 & _). cbn [userFormat]. rewrite S2. exact Gu. }
  assert (W : forall v x, ofWrite (E := E) x = Ok (a, h') -> good (y_user v) -> (forall z u, x = Ok (z, u) -> sameY v u) -> good (userFormat h')).
  { intros u x K Gu S. apply rbind_Ok in K. destruct K as ([z u'] & -> & K). assert (h' = OpenedToWrite u') as -> by congruence.
    destruct (S _ _ eq_refl) as (_ & S2 & _). cbn [userFormat]. rewrite S2. exact Gu. }
  assert (T : forall t r k, t =? 1001 = true -> onTrack true t h r k = Ok (a, h') -> k = Ok (a, h')).
  { intros t' r k Ht K. unfold onTrack, AF_DEFAULT_TRACK in K. rewrite Ht in K. exact K. }
  assert (N : forall (x : answer) y, Ok (x, y) = Ok (a, h') -> h' = y) by (intros; congruence).
  destruct c; cbn [API.astep negb] in H; try (apply (T _ _ _ Ea) in H; rewrite (N _ _ H); exact G).
  - destruct h as [u|y]; cbn [readable] in Ea; [|discriminate Ea]. apply (T _ _ _ Ea) in H. apply (R _ _ H G). intros z u' K. exact (vRead_same _ _ _ _ _ _ _ _ K).
  - destruct h as [u|y]; cbn [readable] in Ea; [discriminate Ea|]. apply (T _ _ _ Ea) in H. apply (W _ _ H G). intros z u' K. exact (yWrite_same _ _ _ _ _ _ _ _ _ _ K).
  - destruct h as [u|y]; cbn [readable] in Ea; [|discriminate Ea]. apply (T _ _ _ Ea) in H. apply (R _ _ H G). intros z u' K. exact (vSeek_same _ _ _ _ _ _ _ K).
  - destruct h as [u|y]; cbn [readable] in Ea; [|discriminate Ea]. apply (T _ _ _ Ea) in H. apply (R _ _ H G). intros z u' K. exact (vSeek_same _ _ _ _ _ _ _ K).
  - destruct h as [u|y]; [rewrite (N _ _ H); exact G|]. apply (W _ _ H G). intros z u' K. exact (ySync_same _ _ _ _ _ _ _ _ _ _ K).
  - apply (T _ _ _ Ea) in H. destruct h as [u|y]; [apply (R _ _ H G); intros z u' K; exact (vFrameCount_same _ _ _ _ _ _ K)|apply (W _ _ H G); intros z u' K; exact (yFrameCount_same _ _ _ _ _ _ K)].
  - apply andb_true_iff in Ea. destruct Ea as [Ht Ea]. apply (T _ _ _ Ht) in H. unfold orderOf in H.
    destruct (Z.eqb_spec o 501) as [->|]; [|destruct (Z.eqb_spec o 502) as [->|]; [|discriminate Ea]]; destruct h as [u|y]; rewrite (N _ _ H); exact G.
  - apply andb_true_iff in Ea. destruct Ea as [Ht Ea]. apply (T _ _ _ Ht) in H.
    destruct (set_format (userFormat h) sf w Ea) as (s & g & E1 & E2 & _). rewrite E1 in H. pose proof (good_set _ _ _ _ E2 G) as Gg.
    destruct h as [u|y]; cbn [both vstep ycall userFormat] in *; rewrite E2 in H; rewrite (N _ _ H); exact Gg.
  - apply (T _ _ _ Ea) in H. destruct h as [u|y]; rewrite (N _ _ H); exact G.
  - apply andb_true_iff in Ea. destruct Ea as [Ht Ea]. apply (T _ _ _ Ht) in H. apply negb_true_iff in Ea. change (dOfZ 0) with (S754_zero false) in Ea.
    destruct h as [u|y]; cbn [both vstep ycall] in H; rewrite Ea in H; rewrite (N _ _ H); exact G.
  - apply (T _ _ _ Ea) in H. destruct h as [u|y]; rewrite (N _ _ H); exact G.
  - apply (T _ _ _ Ea) in H. destruct h as [u|y]; rewrite (N _ _ H); exact G.
  - apply (T _ _ _ Ea) in H. apply rbind_Ok in H. destruct H as ([z h2] & K & H). assert (h2 = h') as -> by congruence. clear H.
    destruct h as [u|y]; cbn [both vstep ycall] in K; (destruct m as [m|]; [match type of K with context [if ?b then _ else _] => destruct b; [|discriminate K] end|]); unfold ofRead, ofWrite in K; cbn [rbind] in K;
      match type of K with Ok (_, ?x) = _ => assert (h' = x) as -> by congruence end; exact G.
Qed.
Lemma run_good hist : forall h outs h', arun h hist = Ok (outs, h') -> good (userFormat h) -> good (userFormat h').
Proof.
  induction hist as [|[[v t] c] hist IH]; intros h outs h' H G; cbn [API.arun] in H.
  - assert (h' = h) as -> by congruence. exact G.
  - apply rbind_Ok in H. destruct H as ([a h1] & Hs & H). apply rbind_Ok in H. destruct H as ([as' h2] & Hr & H). assert (h2 = h') as -> by congruence.
    exact (IH _ _ _ Hr (step_good _ _ _ _ _ _ Hs G)).
Qed.
End Runs.

(** ** The theorems *)

(** After any history of calls, afGetVirtualFrameSize reports the size of a frame in the virtual format that the other functions report:
    the bytes of a sample times the channels.  Frames of 16 MB and more are excluded. *)
Theorem C79_virtual_frame_size :
  forall (B : Build) E wrapv host rc (wc : wcodec frame E) junk seekok upd cap h hist outs h' p stretch c,
    (exists f rate bytes first total, 0 <= sampleWidth f /\ h = OpenedToRead (vopen host rc f rate bytes first total)) \/
    (exists f v rate hdr first e, 0 <= sampleWidth v /\ compressed v = false /\ h = OpenedToWrite (yopen wc cap f v rate hdr first e)) ->
    arun wrapv host rc wc junk seekok upd cap h hist = Ok (outs, h') ->
    reports wrapv host rc wc junk seekok upd cap h' p ->
    let n := sampleBytesOf stretch (p_vsf p) (p_vwidth p) * p_vchannels p in
    0 < n < 2 ^ 24 -> answersBytes (afGetFrameSize c h' true 1001 true stretch) n.
Proof.
  intros B E wrapv host rc wc junk seekok upd cap h hist outs h' p stretch c Ho H Hp n Hn.
  assert (G : good (userFormat h')).
  { apply (run_good _ _ _ _ _ _ _ _ _ _ _ _ H). destruct Ho as [(f & rate & bytes & first & total & W & ->)|(f & v & rate & hdr & first & e & W & C & ->)]; split; first [reflexivity|exact W|exact C]. }
  apply reports_unique in Hp. subst p. subst n. destruct G as [G1 G2]. unfold afGetFrameSize, AF_DEFAULT_TRACK. cbn [negb Z.eqb Pos.eqb].
  apply plain_size; [|exact Hn]. cbn [choose]. rewrite (bps_spec stretch _ G2 G1). reflexivity.
Qed.
Print Assumptions C79_virtual_frame_size.

Lemma user_size v tv : fmtTy v = Some tv -> compressed v = false -> 1 <= channelCount v < 2 ^ 18 ->
  bytesPerSample true v = userBytes tv /\ 0 < userBytes tv * channelCount v < 2 ^ 24.
Proof.
  intros F C H. split.
  - unfold fmtTy, getFormatCode in F. unfold bytesPerSample in *. rewrite C in *. destruct (sampleFormat v) eqn:Es; try (inversion F; reflexivity);
      cbn [negb andb] in *; rewrite ?andb_false_r in F; set (q := Z.quot (sampleWidth v + 7) 8) in *; clearbody q;
      unfold isUnsigned in F; rewrite Es in F;
      (destruct (Z.eqb_spec q 3) as [->|]; [cbn in F; inversion F; reflexivity|]);
      cbn [andb]; destruct q as [|[[[]|[]|]|[[]|[]|]|]|]; try discriminate F; try (inversion F; reflexivity); try lia.
  - change (2 ^ 18) with 262144 in H. change (2 ^ 24) with 16777216. destruct tv as [[]|[]| |]; cbn [userBytes]; lia.
Qed.

(** The application allocates as many times the reported size as it reads frames: afReadFrames fills that buffer from the first byte to
    the last and stores nothing after it. *)
Theorem C79_read_fills_the_buffer :
  forall wrapv host f v matrix ms tf tv packet own pulls samples outs,
    setting wrapv host true f v matrix ms tf tv -> (is24 tv = true -> byteOrder v = host) ->
    Forall (fun p => let '(n, data, bufs) := p in
       0 <= n <= 1024 /\ bytes_ok data = true /\ zlen data = n * (fileBytes tf * channelCount f) /\
       length bufs = length ms /\ Forall (fun b => zlen b = readCapacity ms (fileDescribe host f) packet own) bufs) pulls ->
    rmapM (runChain ms) (framesIn (byteOrder (fileDescribe host f)) tf (fileBytes tf) (channelCount f) (total pulls) (delivered pulls)) = Ok outs ->
    exists size, answersBytes (frameSize CNone true v) size /\
      forall rest, zlen samples = total pulls * size ->
        exists d, readMem host ms (fileDescribe host f) v pulls 0 (samples ++ rest) = Ok (d ++ rest) /\ zlen d = zlen samples /\
                  framesIn (byteOrder v) tv (userBytes tv) (channelCount v) (total pulls) d = outs.
Proof.
  intros wrapv host f v matrix ms tf tv packet own pulls samples outs S O P R.
  destruct (user_size v tv (s_user _ _ _ _ _ _ _ _ _ S) (s_uncompressed _ _ _ _ _ _ _ _ _ S) (proj2 (s_channels _ _ _ _ _ _ _ _ _ S))) as [U1 U2].
  exists (userBytes tv * channelCount v). split; [apply plain_size; [now rewrite U1|exact U2]|]. intros rest Z.
  destruct (C68_read_layout wrapv host f v matrix ms tf tv packet own pulls (samples ++ rest) outs S O P) as (d & D1 & D2 & D3).
  { rewrite zlen_app. pose proof (zlen_nonneg rest). lia. }
  { exact R. }
  exists d. rewrite D1. assert (L : zlen d = zlen samples) by lia. split; [|split; [exact L|exact D3]]. rewrite L, zskipn_exact by reflexivity. reflexivity.
Qed.
Print Assumptions C79_read_fills_the_buffer.

(** ... and afWriteFrames reads nothing beyond such a buffer (beyond it would be undefined). *)
Theorem C79_write_needs_no_more :
  forall wrapv host f v matrix ms tf tv n user bufs lastb outs packet own,
    setting wrapv host false f v matrix ms tf tv -> (is24 tv = true -> byteOrder v = host) ->
    0 <= n <= 1024 -> bytes_ok user = true ->
    length bufs = pred (length ms) -> Forall (fun b => zlen b = writeCapacity ms v packet own) (lastb :: bufs) ->
    rmapM (runChain ms) (framesIn (byteOrder v) tv (userBytes tv) (channelCount v) n user) = Ok outs ->
    exists size, answersBytes (frameSize CNone true v) size /\
      (zlen user = n * size -> exists d, pushMem host ms v n user bufs lastb (n * (fileBytes tf * channelCount f)) = Ok d /\
         framesIn (byteOrder (fileDescribe host f)) tf (fileBytes tf) (channelCount f) n d = map (map low24) outs).
Proof.
  intros wrapv host f v matrix ms tf tv n user bufs lastb outs packet own S O N Bk L P R.
  pose proof (user_frame v tv (s_user _ _ _ _ _ _ _ _ _ S) (s_uncompressed _ _ _ _ _ _ _ _ _ S) (proj2 (s_channels _ _ _ _ _ _ _ _ _ S))) as F.
  destruct (user_size v tv (s_user _ _ _ _ _ _ _ _ _ S) (s_uncompressed _ _ _ _ _ _ _ _ _ S) (proj2 (s_channels _ _ _ _ _ _ _ _ _ S))) as [U1 U2].
  exists (userBytes tv * channelCount v). split; [apply plain_size; [now rewrite U1|exact U2]|]. intros Z.
  destruct (C68_write_layout wrapv host f v matrix ms tf tv n user bufs lastb outs packet own S O N Bk ltac:(rewrite F; lia) L P R) as (d & D1 & _ & D3). exists d. auto.
Qed.
Print Assumptions C79_write_needs_no_more.

(** afGetFrameSize, not stretched, reports the bytes a frame has in the file, for PCM ... *)
Theorem C79_file_frame_size :
  forall f tf, fmtTy f = Some tf -> compressed f = false -> 1 <= channelCount f < 2 ^ 18 ->
    answersBytes (frameSize CNone false f) (fileBytes tf * channelCount f).
Proof.
  intros f tf F C H. apply plain_size.
  - unfold fmtTy, getFormatCode in F. unfold bytesPerSample in *. rewrite C in *. destruct (sampleFormat f) eqn:Es; try (inversion F; reflexivity);
      cbn [negb andb] in *; rewrite ?andb_false_r in *; set (q := Z.quot (sampleWidth f + 7) 8) in *; clearbody q;
      unfold isUnsigned in F; rewrite Es in F; destruct q as [|[[[]|[]|]|[[]|[]|]|]|]; try discriminate F; inversion F; reflexivity.
  - change (2 ^ 18) with 262144 in H. change (2 ^ 24) with 16777216. destruct tf as [[]|[]| |]; cbn [fileBytes]; lia.
Qed.
Print Assumptions C79_file_frame_size.

(** ... and for mu-law and A-law: a byte for each channel. *)
Theorem C79_g711_frame_size :
  forall f c stretch, c = CUlaw \/ c = CAlaw -> sampleFormat f = TWOSCOMP -> sampleWidth f = 16 -> 1 <= channelCount f < 2 ^ 23 ->
    exists r, frameSize c stretch f = Ok r /\ toInt 32 r = Ok (channelCount f).
Proof.
  intros f c stretch Hc Hs Hw H.
  set (fm := HeaderIO.mkFmt 0 TwosComp 16 (channelCount f) BigEndian c 0 0).
  assert (G : PropertiesRaw.rawG711 fm) by (split; [exact Hc|split; reflexivity]).
  pose proof (PropertiesRaw.g711_size fm G ltac:(cbn; lia)) as K. cbn [HeaderIO.f_chan fm] in K. unfold rawFrameSize in K.
  assert (S2 : bytesPerSample stretch f = 2) by (unfold bytesPerSample; rewrite Hs, Hw; replace (Z.quot (16 + 7) 8 =? 3) with false by reflexivity; rewrite andb_false_r; reflexivity).
  unfold frameSize. rewrite S2. change (sampleSize fm) with 2 in K. cbn [HeaderIO.f_chan HeaderIO.f_comp fm] in K.
  apply rbind_Ok in K. destruct K as (n & K1 & K2). rewrite K1. cbn [rbind]. eexists. split; [reflexivity|exact K2].
Qed.
Print Assumptions C79_g711_frame_size.

(** A call for another track or another handle reports -1. *)
Theorem C79_unknown_track :
  forall E c (h : handle (E := E)) valid track virtual stretch, valid = false \/ track <> 1001 ->
    exists r, afGetFrameSize c h valid track virtual stretch = Ok r /\ toInt 32 r = Ok (-1).
Proof.
  intros E c h valid track virtual stretch H. exists (fOfZ (-1)). split; [|vm_compute; reflexivity]. unfold afGetFrameSize, AF_DEFAULT_TRACK.
  destruct H as [-> |H]; [reflexivity|]. destruct valid; [|reflexivity]. destruct (Z.eqb_spec track 1001); [contradiction|reflexivity].
Qed.
Print Assumptions C79_unknown_track.

(** ** Where it does not hold *)
Definition exMany (n : Z) : format := {| sampleFormat := DOUBLE; sampleWidth := 64; channelCount := n; byteOrder := LittleEndian; compressed := false; pcm := floatMapping |}.
Definition exManyBytes (n : Z) : format := {| sampleFormat := TWOSCOMP; sampleWidth := 8; channelCount := n; byteOrder := LittleEndian; compressed := false; pcm := floatMapping |}.
(** The size is a float: from 2^24 bytes on it can be too small by one or more, and the product of an absurd number of channels
    (afSetVirtualChannels accepts any) overflows. *)
Theorem C79_large_frame_refuted :
  answersBytes (frameSize CNone true (exManyBytes (2 ^ 24 + 1))) (2 ^ 24) /\ frameSize CNone true (exMany (2 ^ 28)) = UB.
Proof. split; [exists (fOfZ (2 ^ 24)); split; [vm_compute; reflexivity|split; [reflexivity|vm_compute; reflexivity]]|vm_compute; reflexivity]. Qed.
Print Assumptions C79_large_frame_refuted.
(** For ADPCM the size leaves out the headers of the packets: of the 505 mono frames in a packet of 256 bytes each is said to take half
    a byte, which makes 252 bytes. *)
Definition exAdpcm : format := {| sampleFormat := TWOSCOMP; sampleWidth := 16; channelCount := 1; byteOrder := LittleEndian; compressed := true; pcm := signedMapping kInt16 |}.
Theorem C79_adpcm_frame_size_refuted :
  exists r, frameSize CIMA false exAdpcm = Ok r /\ toInt 32 (SFmul 24 128 (fOfZ 505) r) = Ok 252 /\
    IMA.imaWAVE_bpp 1 = 256 /\ IMA.imaWAVE_fpp = 505.
Proof.
  assert (H : frameSize CIMA false exAdpcm = Ok (SFdiv 24 128 (fOfZ 2) (squishFactor CIMA))) by (vm_compute; reflexivity).
  exists (SFdiv 24 128 (fOfZ 2) (squishFactor CIMA)). split; [exact H|]. split; [vm_compute; reflexivity|]. split; reflexivity.
Qed.
Print Assumptions C79_adpcm_frame_size_refuted.

(** ** Concrete cases *)
(** A 24-bit stereo file: 6 bytes a frame in the file, 8 in memory; read as float mono, 4. *)
Example C79_sizes : answersBytes (frameSize CNone false PropertiesBuffers.exF24) 6 /\ answersBytes (frameSize CNone true PropertiesBuffers.exF24) 8 /\
  answersBytes (frameSize CNone true PropertiesBuffers.exV) 4.
Proof.
  split; [|split]; [exists (fOfZ 6)|exists (fOfZ 8)|exists (fOfZ 4)]; (split; [vm_compute; reflexivity|split; [reflexivity|vm_compute; reflexivity]]).
Qed.
Example C79_setting_satisfiable : setting true LittleEndian true PropertiesBuffers.exF PropertiesBuffers.exV None PropertiesBuffers.exMs (TI kInt16) TF /\
  fmtTy PropertiesBuffers.exF24 = Some (TI kInt24).
Proof. split; [exact PropertiesBuffers.C67_setting_read_satisfiable|vm_compute; reflexivity]. Qed.
